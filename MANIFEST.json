{
 "claims": [
  {
   "property": "C01",
   "status": "proved",
   "theorems": [
    "C01_rle8_roundtrip"
   ],
   "note": ""
  },
  {
   "property": "C02",
   "status": "proved",
   "theorems": [
    "C02_rle8_accepts_exactly"
   ],
   "note": ""
  },
  {
   "property": "C03",
   "status": "proved",
   "theorems": [
    "C03_rle8_shortest"
   ],
   "note": "for inputs shorter than 2^63 bytes (a longer run is split by the grouper)"
  },
  {
   "property": "C04",
   "status": "proved",
   "theorems": [
    "C04_compress_input_failure",
    "C04_decompress_input_failure"
   ],
   "note": ""
  },
  {
   "property": "C05",
   "status": "proved",
   "theorems": [
    "C05_compress_output_failure",
    "C05_decompress_output_failure",
    "C05_recursive_output_failure"
   ],
   "note": ""
  },
  {
   "property": "C06",
   "status": "proved",
   "theorems": [
    "C06_grouper_maximal_runs",
    "C06_grouper_error"
   ],
   "note": ""
  },
  {
   "property": "C07",
   "status": "partial",
   "theorems": [
    "C07_recursive_roundtrip_refuted",
    "C07_decompress_compresses_again",
    "C07_recursive_roundtrip_exact",
    "C07_recursive_roundtrip_partial"
   ],
   "note": "REFUTED: DecompressRLERecursive is a copy of the compressor; the round trip holds exactly for the inputs in which every run is a single byte or three bytes of value 1"
  },
  {
   "property": "C08",
   "status": "proved",
   "theorems": [
    "C08_recursive_equals_rle8_on_short_runs",
    "C08_recursive_injective",
    "C08_recursive_succeeds"
   ],
   "note": ""
  },
  {
   "property": "C09",
   "status": "proved",
   "theorems": [
    "C09_image_roundtrip",
    "C09_gzip_error_reported",
    "C09_not_gzip",
    "C09_to_bytes_reports",
    "C09_to_bytes_gzip_error_reported",
    "C09_compress_success_is_complete"
   ],
   "note": "gzip is a quantified codec; its inversion law is a premise"
  },
  {
   "property": "C10",
   "status": "proved",
   "theorems": [
    "C10_identity_survives_with_message",
    "C10_text",
    "C10_new_error"
   ],
   "note": ""
  },
  {
   "property": "C11",
   "status": "partial",
   "theorems": [
    "C11_wrap_keeps_receiver",
    "C11_wrap_keeps_argument_partial",
    "C11_wrap_keeps_argument_refuted",
    "C11_wrap_exact",
    "C11_cast",
    "C11_wrap_chain",
    "C11_classes"
   ],
   "note": "REFUTED in one corner: wrapping a bare *multierror.Error flattens it, so its own identity is lost; everything else is proved"
  },
  {
   "property": "C12",
   "status": "proved",
   "theorems": [
    "C12_os_flags_translate"
   ],
   "note": "the invalid access mode 3 is translated to read-only, as the theorem says"
  },
  {
   "property": "C13",
   "status": "proved",
   "theorems": [
    "C13_access_bits",
    "C13_read_or_write",
    "C13_custom_mount_flags",
    "C13_mount_flag_bits"
   ],
   "note": ""
  },
  {
   "property": "C14",
   "status": "proved",
   "theorems": [
    "C14_one_kind",
    "C14_permission_bits_irrelevant",
    "C14_mkdir_mode_is_directory"
   ],
   "note": ""
  },
  {
   "property": "C15",
   "status": "proved",
   "theorems": [
    "C15_cache_is_an_array",
    "C15_errors_not_spurious"
   ],
   "note": ""
  },
  {
   "property": "C16",
   "status": "proved",
   "theorems": [
    "C16_flush_durable"
   ],
   "note": ""
  },
  {
   "property": "C17",
   "status": "proved",
   "theorems": [
    "C17_out_of_range"
   ],
   "note": ""
  },
  {
   "property": "C18",
   "status": "proved",
   "theorems": [
    "C18_failed_flush_retry"
   ],
   "note": "the retry clause is for caches with at least one block (C25)"
  },
  {
   "property": "C19",
   "status": "proved",
   "theorems": [
    "C19_crash"
   ],
   "note": "storage writes blocks atomically and zero-fills growth"
  },
  {
   "property": "C20",
   "status": "proved",
   "theorems": [
    "C20_minimal_io"
   ],
   "note": ""
  },
  {
   "property": "C21",
   "status": "proved",
   "theorems": [
    "C21_resize",
    "C21_no_callback"
   ],
   "note": ""
  },
  {
   "property": "C22",
   "status": "partial",
   "theorems": [
    "C22_mark_any_count_refuted",
    "C22_get_slice_any_count_refuted",
    "C22_exact",
    "C22_bounds_any_count_partial"
   ],
   "note": "REFUTED: count*bytesPerBlock wraps around; true while (count+1)*bytesPerBlock and start+count fit in 64 bits; C22_exact decides every 64-bit start and count for block sizes up to 2^59"
  },
  {
   "property": "C23",
   "status": "partial",
   "theorems": [
    "C23_read_count_exact",
    "C23_read_count_refuted",
    "C23_read_count_partial"
   ],
   "note": "REFUTED: the count is rounded up to whole blocks; equals the buffer length iff that is a multiple of the block size"
  },
  {
   "property": "C24",
   "status": "partial",
   "theorems": [
    "C24_mark_keeps_contents_refuted",
    "C24_mark_exact",
    "C24_mark_keeps_contents_partial"
   ],
   "note": "REFUTED for blocks that were never loaded (they become zeros); true after GetSlice of the range, and for every block fetched, written or created before (C24_mark_exact)"
  },
  {
   "property": "C25",
   "status": "partial",
   "theorems": [
    "C25_empty_cache_refuted",
    "C25_empty_cache_partial"
   ],
   "note": "REFUTED: every empty cache returns ErrArgumentOutOfRange; true for non-empty caches"
  },
  {
   "property": "C26",
   "status": "proved",
   "theorems": [
    "C26_wrap_slice",
    "C26_wrap_slice_divides"
   ],
   "note": ""
  },
  {
   "property": "C27",
   "status": "partial",
   "theorems": [
    "C27_grow_then_flush_refuted",
    "C27_grow_then_flush_partial",
    "C27_exact"
   ],
   "note": "REFUTED for every growth beyond the size at creation; C27_exact: after every history, Flush writes the array out exactly when it is not empty and not larger than at creation, and otherwise fails"
  },
  {
   "property": "C28",
   "status": "proved",
   "theorems": [
    "C28_read_at_exact"
   ],
   "note": ""
  },
  {
   "property": "C29",
   "status": "partial",
   "theorems": [
    "C29_short_read_repeats_refuted",
    "C29_read_advances_partial"
   ],
   "note": "REFUTED: a read cut short by end of file does not move the position by the bytes delivered; true otherwise"
  },
  {
   "property": "C30",
   "status": "partial",
   "theorems": [
    "C30_writer_errors_ignored_refuted",
    "C30_write_to_delivers_partial"
   ],
   "note": "REFUTED: errors of the destination writer are dropped; true for a destination that never fails"
  },
  {
   "property": "C31",
   "status": "proved",
   "theorems": [
    "C31_seek_exact"
   ],
   "note": ""
  },
  {
   "property": "C32",
   "status": "proved",
   "theorems": [
    "C32_not_writable_refuses",
    "C32_not_writable_history",
    "C32_not_readable_reveals_nothing"
   ],
   "note": ""
  },
  {
   "property": "C33",
   "status": "partial",
   "theorems": [
    "C33_growing_write_fails_refuted",
    "C33_write_succeeds_iff_partial",
    "C33_read_back_partial"
   ],
   "note": "REFUTED: a write that has to add blocks fails; writes within the existing blocks read back"
  },
  {
   "property": "C34",
   "status": "partial",
   "theorems": [
    "C34_sync_loses_writes_refuted",
    "C34_new_file_durable_partial"
   ],
   "note": "REFUTED: writes never mark blocks as modified, so no write into existing blocks ever reaches storage; blocks that the stream itself added are durable"
  },
  {
   "property": "C35",
   "status": "partial",
   "theorems": [
    "C35_write_into_slack_refuted",
    "C35_write_size_partial"
   ],
   "note": "REFUTED for writes past the end inside the last block"
  },
  {
   "property": "C36",
   "status": "partial",
   "theorems": [
    "C36_append_overwrites_refuted",
    "C36_append_size_refuted",
    "C36_append_keeps_contents_partial"
   ],
   "note": "REFUTED: appends that end inside the allocated blocks do not extend the stream and overwrite each other; over every history without Truncate existing contents are kept"
  },
  {
   "property": "C37",
   "status": "partial",
   "theorems": [
    "C37_truncate_reveals_old_bytes_refuted",
    "C37_truncate_partial"
   ],
   "note": "REFUTED: growing back within the last block reveals old bytes"
  },
  {
   "property": "C38",
   "status": "proved",
   "theorems": [
    "C38_failed_truncate"
   ],
   "note": ""
  },
  {
   "property": "C39",
   "status": "partial",
   "theorems": [
    "C39_negative_offset_panics_refuted",
    "C39_no_panic_partial",
    "C39_negative_exact",
    "C39_nonnegative"
   ],
   "note": "REFUTED for negative offsets; C39_negative_exact gives the exact conditions for ReadAt and WriteAt at every negative offset, and C39_nonnegative shows that at non-negative offsets no call panics, except possibly a write whose end lies within one block of 2^63"
  },
  {
   "property": "C40",
   "status": "partial",
   "theorems": [
    "C40_write_error_swallowed_refuted",
    "C40_read_from_partial"
   ],
   "note": "REFUTED: a failing write at the end of the source is dropped"
  },
  {
   "property": "C41",
   "status": "partial",
   "theorems": [
    "C41_close_empty_fails_refuted",
    "C41_close_partial"
   ],
   "note": "REFUTED for empty files"
  },
  {
   "property": "C42",
   "status": "proved",
   "theorems": [
    "C42_new_validates"
   ],
   "note": ""
  },
  {
   "property": "C43",
   "status": "proved",
   "theorems": [
    "C43_normalize_canonical",
    "C43_working_directory",
    "C43_absolute"
   ],
   "note": ""
  },
  {
   "property": "C44",
   "status": "partial",
   "theorems": [
    "C44_dot_is_root_refuted",
    "C44_relative_partial"
   ],
   "note": "REFUTED for relative paths that lead back to where they start ('.', 'a/..'): they are taken to be the root; true for all other relative paths"
  },
  {
   "property": "C45",
   "status": "partial",
   "theorems": [
    "C45_nothing_succeeds_refuted",
    "C45_stat_partial",
    "C45_truncate_partial",
    "C45_mkdir_partial"
   ],
   "note": "REFUTED: the handle wrapper never stores the handle, so no path operation can succeed; the partial theorems are about the driver with the wrapper repaired, for entries of the root"
  },
  {
   "property": "C46",
   "status": "partial",
   "theorems": [
    "C46_nested_never_returns_refuted",
    "C46_shallow_returns_partial",
    "C46_fuel_irrelevant"
   ],
   "note": "REFUTED: paths of two or more components recurse for ever; partial: entries of the root return"
  },
  {
   "property": "C47",
   "status": "partial",
   "theorems": [
    "C47_cycle_undetected_refuted",
    "C47_chain_partial"
   ],
   "note": "REFUTED for cycles that do not contain the first link; all other chains are resolved correctly (wrapper repaired, links in the root)"
  },
  {
   "property": "C48",
   "status": "partial",
   "theorems": [
    "C48_remove_refuted",
    "C48_as_is_partial",
    "C48_write_open_partial",
    "C48_looking_partial"
   ],
   "note": "REFUTED: Remove (and O_RDONLY|O_CREATE) change a read-only mount once the wrapper is repaired"
  },
  {
   "property": "C49",
   "status": "partial",
   "theorems": [
    "C49_create_existing_refuted",
    "C49_leaves_alone_partial"
   ],
   "note": "REFUTED: Create of an existing file succeeds; partial: it leaves the file alone"
  },
  {
   "property": "C50",
   "status": "proved",
   "theorems": [
    "C50_pages",
    "C50_names",
    "C50_same_sequence"
   ],
   "note": ""
  },
  {
   "property": "C51",
   "status": "proved",
   "theorems": [
    "C51_same_file"
   ],
   "note": ""
  },
  {
   "property": "C52",
   "status": "partial",
   "theorems": [
    "C52_truncate_blocks_refuted",
    "C52_truncate_bytes_partial"
   ],
   "note": "REFUTED: the object is resized to the number of blocks as if it were bytes; true for a block size of 1"
  },
  {
   "property": "C53",
   "status": "partial",
   "theorems": [
    "C53_top_remains_refuted",
    "C53_descendants_partial"
   ],
   "note": "REFUTED: the directory itself is never unlinked; partial: its descendants, and nothing else, are gone"
  },
  {
   "property": "C54",
   "status": "partial",
   "theorems": [
    "C54_never_a_link_refuted",
    "C54_non_link_partial",
    "C54_any_path_partial",
    "C54_link_followed"
   ],
   "note": "REFUTED: Lstat never describes a link but the object it leads to; for every path that names something else Lstat describes that object, and it returns the errors met on the way"
  },
  {
   "property": "C55",
   "status": "partial",
   "theorems": [
    "C55_lchown_leaks_refuted",
    "C55_lstat_closes_twice_refuted",
    "C55_balanced_partial"
   ],
   "note": "REFUTED: Lchown leaks, Lstat closes twice; partial: the other operations balance on file systems without links"
  },
  {
   "property": "C56",
   "status": "proved",
   "theorems": [
    "C56_read_file_exact",
    "C56_errors",
    "C56_memory",
    "C56_read_file_exact_partial",
    "C56_healthy_partial"
   ],
   "note": "every implementation whose blocks read honestly, every path, all three versions of the handle wrapper; the _partial theorems add that for entries of the root ReadFile does return (as the code is, no path operation returns, C45, C46)"
  },
  {
   "property": "C57",
   "status": "partial",
   "theorems": [
    "C57_write_file_refuted",
    "C57_one_byte_partial"
   ],
   "note": "REFUTED: data of a multiple of the block size is refused, other data is cut to ceil(len/blocksize) bytes; true for one byte"
  },
  {
   "property": "C58",
   "status": "proved",
   "theorems": [
    "C58_accepted",
    "C58_layout",
    "C58_figures",
    "C58_refused"
   ],
   "note": ""
  },
  {
   "property": "C59",
   "status": "proved",
   "theorems": [
    "C59_format_iff",
    "C59_refused_untouched",
    "C59_image",
    "C59_statistics"
   ],
   "note": "on a device that works; also what FSStat reports afterwards"
  },
  {
   "property": "C60",
   "status": "partial",
   "theorems": [
    "C60_directory_left_free_refuted",
    "C60_entries",
    "C60_two_reserved_partial"
   ],
   "note": "REFUTED: the marked entries are those of clusters 18, 19 (35, 36 on the larger disks); the clusters holding the directory track are marked free; true: exactly two clusters are marked"
  },
  {
   "property": "C61",
   "status": "partial",
   "theorems": [
    "C61_fresh_driver_refuted",
    "C61_well_formed_partial",
    "C61_after_format_partial",
    "C61_other_sizes_refused"
   ],
   "note": "REFUTED: a fresh driver cannot mount any image (its block count is 0); partial: a driver that formatted an image can"
  },
  {
   "property": "C62",
   "status": "proved",
   "theorems": [
    "C62_flush",
    "C62_reachable"
   ],
   "note": "for drivers that know the image; every mounted driver of a history on a working device does"
  },
  {
   "property": "C63",
   "status": "proved",
   "theorems": [
    "C63_crash",
    "C63_outside_untouched"
   ],
   "note": "the write of the FATs stops after any number of bytes"
  },
  {
   "property": "C64",
   "status": "proved",
   "theorems": [
    "C64_differing_reported",
    "C64_mount"
   ],
   "note": ""
  },
  {
   "property": "C65",
   "status": "partial",
   "theorems": [
    "C65_write_elsewhere_refuted",
    "C65_first_cluster_partial",
    "C65_refused"
   ],
   "note": "REFUTED: cluster c is written to the place of cluster 2c-1 or refused; true for cluster 1"
  },
  {
   "property": "C66",
   "status": "partial",
   "theorems": [
    "C66_write_blocks",
    "C66_succeeds_iff",
    "C66_last_block_refuted",
    "C66_read_back_partial"
   ],
   "note": "writing as claimed; REFUTED: a range that reaches the last block cannot be read back; all others can"
  },
  {
   "property": "C67",
   "status": "partial",
   "theorems": [
    "C67_beyond_disk_refuted",
    "C67_remount_duplicates_refuted",
    "C67_first_mount_partial",
    "C67_list"
   ],
   "note": "REFUTED: entries of the FAT without a cluster are listed (even as cluster 0), and a second mount lists everything twice; partial: on the first mount, right for the clusters of the disk; the list after every mount is given exactly (C67_list)"
  },
  {
   "property": "C68",
   "status": "partial",
   "theorems": [
    "C68_stored",
    "C68_empty_name",
    "C68_any_entry_shown",
    "C68_display_partial",
    "C68_trailing_period_refuted",
    "C68_blank_name_refuted",
    "C68_restore_partial"
   ],
   "note": "REFUTED: 'a.' is shown as 'A..', a blank name is shown as the empty name; the rest is true; ASCII names"
  },
  {
   "property": "C69",
   "status": "partial",
   "theorems": [
    "C69_stat",
    "C69_text",
    "C69_not_found",
    "C69_nothing_found_refuted"
   ],
   "note": "as claimed for whatever is in the map of entries; REFUTED end to end: nothing ever fills that map"
  },
  {
   "property": "C70",
   "status": "partial",
   "theorems": [
    "C70_last_block_refuted",
    "C70_wrapped_refuted",
    "C70_huge_count_refuted",
    "C70_last_cluster_refuted",
    "C70_ranges_partial",
    "C70_clusters_partial",
    "C70_other_clusters_partial"
   ],
   "note": "REFUTED: the last block, the last cluster (640 and 1898 blocks) and ranges whose end wraps around (exactly which of these read other blocks, fail or panic is proved); the others are as claimed"
  },
  {
   "property": "C71",
   "status": "partial",
   "theorems": [
    "C71_always_panics_refuted",
    "C71_short_partial",
    "C71_exported_partial",
    "C71_disk_partial"
   ],
   "note": "REFUTED: every stream of at least 36 bytes panics (reflection on unexported fields); with them exported exactly a zero sector or cluster size panics, and every header laid out as the specification says is read back field by field"
  },
  {
   "property": "C72",
   "status": "proved",
   "theorems": [
    "C72_consistent",
    "C72_rejects",
    "C72_accepts"
   ],
   "note": "about the header computation, for every raw header"
  },
  {
   "property": "C73",
   "status": "partial",
   "theorems": [
    "C73_layout_partial",
    "C73_data_area_refuted",
    "C73_clusters_refuted",
    "C73_width_refuted",
    "C73_root_refuted",
    "C73_values",
    "C73_right_exactly"
   ],
   "note": "REFUTED: the data area ignores the FATs, the cluster count adds instead of subtracting them, the root size overflows at 16 bits; the exact values computed for every accepted header are proved, and which of them are right"
  },
  {
   "property": "C74",
   "status": "partial",
   "theorems": [
    "C74_always_panics_refuted",
    "C74_date_partial",
    "C74_timestamp_partial",
    "C74_fraction_refuted",
    "C74_total_partial",
    "C74_no_date_refuted"
   ],
   "note": "REFUTED: time.Date with a nil location always panics; with UTC, dates and times to the second are right, fractions never"
  },
  {
   "property": "C75",
   "status": "partial",
   "theorems": [
    "C75_always_panics_refuted",
    "C75_names_partial",
    "C75_attribute_refuted",
    "C75_shifted_refuted"
   ],
   "note": "REFUTED: Uint32 of three bytes always panics; with that repaired the attribute byte is ignored and all later fields are one byte off"
  },
  {
   "property": "C76",
   "status": "partial",
   "theorems": [
    "C76_listing_partial",
    "C76_end_marker_refuted",
    "C76_nth_partial",
    "C76_corrupt_partial",
    "C76_bad_start",
    "C76_listing",
    "C76_nth"
   ],
   "note": "REFUTED where IsValidCluster rejects end markers; otherwise as claimed"
  },
  {
   "property": "C77",
   "status": "partial",
   "theorems": [
    "C77_loop_refuted",
    "C77_terminates_partial"
   ],
   "note": "REFUTED: a loop in the table never returns; in all other cases it returns within one step per cluster"
  },
  {
   "property": "C78",
   "status": "partial",
   "theorems": [
    "C78_indices_refuted",
    "C78_wrong_clusters_refuted",
    "C78_entry_first_partial",
    "C78_directory_partial",
    "C78_never_the_file_refuted",
    "C78_deletes_nothing_refuted"
   ],
   "note": "REFUTED: the positions n-1..0 are freed instead of the clusters, and the entry deleted is always the empty one; entry before clusters holds"
  },
  {
   "property": "C79",
   "status": "partial",
   "theorems": [
    "C79_nothing_found_refuted",
    "C79_root_error_refuted",
    "C79_missing_refuted",
    "C79_file_refuted",
    "C79_slash_refuted",
    "C79_found_partial",
    "C79_directory_partial",
    "C79_directory_error_partial"
   ],
   "note": "REFUTED: nothing is ever found, missing names and device errors are successes, files are errors, paths are split at colons; with decoding repaired, directories of the root are found"
  },
  {
   "property": "C80",
   "status": "partial",
   "theorems": [
    "C80_registers_partial",
    "C80_too_early",
    "C80_accepted",
    "C80_deleted_refuted",
    "C80_deleted_for_ever_refuted",
    "C80_deleted_has_no_creation_partial"
   ],
   "note": "REFUTED: SetDeletedAt always returns ErrNotFound and never stores the time; the other registers behave for every sequence of setters"
  },
  {
   "property": "C81",
   "status": "partial",
   "theorems": [
    "C81_never_a_directory_refuted",
    "C81_type_partial",
    "C81_permissions_partial",
    "C81_readonly_refuted"
   ],
   "note": "REFUTED: IsDir is false for every decoded entry, and a read-only entry is shown writable by its owner; the stat mode has the right type bits and hides group and other write permission exactly when read-only"
  },
  {
   "property": "C82",
   "status": "partial",
   "theorems": [
    "C82_chmod_partial",
    "C82_set_mode",
    "C82_chtimes_refuted",
    "C82_chtimes_partial",
    "C82_never_the_file_refuted"
   ],
   "note": "REFUTED: Chtimes drops times before 1980 silently; as is, only the empty entry is ever updated; Chmod changes only the write bits"
  },
  {
   "property": "C83",
   "status": "proved",
   "theorems": [
    "C83_mode_to_v6_and_back",
    "C83_other_types_rejected",
    "C83_v6_to_mode_and_back",
    "C83_v6_types"
   ],
   "note": "every mode and every flag word"
  },
  {
   "property": "C84",
   "status": "partial",
   "theorems": [
    "C84_size_and_blocks",
    "C84_size_refuted"
   ],
   "note": "REFUTED: the three size bytes are read lowest first, but the sixth edition (fs(5)) stores the highest byte first, so the size is right iff the three bytes are equal; size, block count and the other fields are proved as the code reads them"
  },
  {
   "property": "C85",
   "status": "proved",
   "theorems": [
    "C85_size",
    "C85_predefined"
   ],
   "note": "every geometry below 2^63 bits; the table is transcribed from the CSV"
  },
  {
   "property": "C86",
   "status": "proved",
   "theorems": [
    "C86_start_up",
    "C86_lookup",
    "C86_table"
   ],
   "note": "after CSV decoding (for that see C156)"
  },
  {
   "property": "C87",
   "status": "partial",
   "theorems": [
    "C87_reads_other_cluster_refuted",
    "C87_second_cluster_partial",
    "C87_index_refused",
    "C87_exactly"
   ],
   "note": "REFUTED: writes go to cluster 2c-1, reads come from cluster c+1; they meet only for cluster 2"
  },
  {
   "property": "C88",
   "status": "partial",
   "theorems": [
    "C88_stale_fat_refuted",
    "C88_never_mounted_partial"
   ],
   "note": "REFUTED: the FAT of an earlier mount is written over a newly formatted image; true for drivers never mounted"
  },
  {
   "property": "C89",
   "status": "partial",
   "theorems": [
    "C89_huge_read_refuted",
    "C89_exactly",
    "C89_no_panic_partial"
   ],
   "note": "REFUTED: a read of 2^56 or more blocks whose end wraps around to a block of the disk panics; the operations that panic are given exactly (C89_exactly)"
  },
  {
   "property": "C90",
   "status": "partial",
   "theorems": [
    "C90_chmod_partial",
    "C90_chown_partial",
    "C90_chtimes_partial",
    "C90_never_supported_refuted"
   ],
   "note": "REFUTED: the wrapper around handles hides the optional methods, so the answer is always ErrNotImplemented; with handles passed through, as claimed for entries of the root (deeper paths never return, C46)"
  },
  {
   "property": "C91",
   "status": "partial",
   "theorems": [
    "C91_existing_partial",
    "C91_lookup_error_ignored_refuted"
   ],
   "note": "REFUTED: a lookup that fails for any reason counts as missing; true where the lookup succeeds (entries of the root, handle wrapper repaired)"
  },
  {
   "property": "C92",
   "status": "proved",
   "theorems": [
    "C92_readlink_exact",
    "C92_unsupported",
    "C92_every_path",
    "C92_readlink_partial"
   ],
   "note": "every implementation and every path on which Readlink returns; C92_readlink_partial adds that it does return for entries of the root (deeper paths never return, C46; as the code is none does, C45)"
  },
  {
   "property": "C93",
   "status": "partial",
   "theorems": [
    "C93_remove_partial",
    "C93_remove_link_refuted"
   ],
   "note": "REFUTED: removing a link deletes the file it leads to; as claimed for files and directories in the root (handles passed through)"
  },
  {
   "property": "C94",
   "status": "partial",
   "theorems": [
    "C94_existing_refuted",
    "C94_nested_refuted",
    "C94_single_partial",
    "C94_makes_directory_partial"
   ],
   "note": "REFUTED: an existing directory is created again and the error returned, two or more components never return; single missing components are created"
  },
  {
   "property": "C95",
   "status": "partial",
   "theorems": [
    "C95_panics_refuted",
    "C95_clusters_partial"
   ],
   "note": "REFUTED: Sys() returns a FileStat, the assertion to Dirent panics for every pair"
  },
  {
   "property": "C96",
   "status": "partial",
   "theorems": [
    "C96_never_contents_refuted",
    "C96_contents_partial",
    "C96_truncated_refuted",
    "C96_spare_refuted",
    "C96_directory_partial"
   ],
   "note": "REFUTED: ReadFile never returns a byte; after the lookup, one-sector clusters are read correctly, larger ones truncated, spare clusters panic"
  },
  {
   "property": "C97",
   "status": "partial",
   "theorems": [
    "C97_sector_partial",
    "C97_location_refuted",
    "C97_locations_refuted",
    "C97_distinct_partial"
   ],
   "note": "REFUTED: wrong sector and only one sector, except by coincidence; the exact sector read is proved"
  },
  {
   "property": "C98",
   "status": "partial",
   "theorems": [
    "C98_always_panics_refuted",
    "C98_decode_partial",
    "C98_free_partial",
    "C98_blank_refuted"
   ],
   "note": "REFUTED: always panics (C74); with UTC the decoding is right for every entry whose name is not blank"
  },
  {
   "property": "C99",
   "status": "partial",
   "theorems": [
    "C99_always_panics_refuted",
    "C99_entries_partial",
    "C99_blank_refuted",
    "C99_several_sectors_refuted"
   ],
   "note": "REFUTED: always panics (C75); repaired, the slots up to the first free one are returned, blank names and multi-sector clusters without a free slot in the first sector panic"
  },
  {
   "property": "C100",
   "status": "partial",
   "theorems": [
    "C100_never_lists_refuted",
    "C100_lists_partial",
    "C100_full_refuted",
    "C100_not_a_directory",
    "C100_decoded_refuted"
   ],
   "note": "REFUTED: never returns a listing; repaired, lists directories of the root, except those that fill their last cluster"
  },
  {
   "property": "C101",
   "status": "partial",
   "theorems": [
    "C101_char_devices_refuted",
    "C101_other_types_partial"
   ],
   "note": "REFUTED: such modes are rejected and V6 character devices never get them"
  },
  {
   "property": "C102",
   "status": "proved",
   "theorems": [
    "C102_fsstat_size"
   ],
   "note": ""
  },
  {
   "property": "C103",
   "status": "partial",
   "theorems": [
    "C103_overflow_refuted",
    "C103_size_right_iff_fits"
   ],
   "note": "REFUTED: from 2^63 bits on the size is wrong (negative or zero); right if and only if the bits fit"
  },
  {
   "property": "C104",
   "status": "partial",
   "theorems": [
    "C104_getwd_canonical",
    "C104_chdir_partial",
    "C104_chdir_link_partial",
    "C104_relative_refuted"
   ],
   "note": "REFUTED: with a working directory other than the root no operation on a plain name returns; the canonical form of Getwd is proved for all histories, Chdir for entries of the root and links to them (modulo C45)"
  },
  {
   "property": "C105",
   "status": "proved",
   "theorems": [
    "C105_only_its_calls",
    "C105_looking_changes_nothing"
   ],
   "note": "every operation, implementation, state; the permitted calls are listed in Spec_Driver2.may"
  },
  {
   "property": "C106",
   "status": "partial",
   "theorems": [
    "C106_at_most_one",
    "C106_only_missing",
    "C106_leaves_directory_refuted"
   ],
   "note": "REFUTED: with permissions that contain the directory bit a directory is created and left behind although the call fails; the rest is proved for every implementation"
  },
  {
   "property": "C107",
   "status": "partial",
   "theorems": [
    "C107_close_keeps_handle_refuted",
    "C107_open_close_leaks_refuted"
   ],
   "note": "REFUTED: File.Close never releases the object handle"
  },
  {
   "property": "C108",
   "status": "partial",
   "theorems": [
    "C108_flush_error_dropped_refuted",
    "C108_reported_partial"
   ],
   "note": "REFUTED: the error of the deferred Close, which does the writing, is dropped; otherwise nil is returned exactly when OpenFile and Write returned nil, and else the first of their errors"
  },
  {
   "property": "C109",
   "status": "partial",
   "theorems": [
    "C109_read_dir_panics_refuted",
    "C109_file_read_dir"
   ],
   "note": "REFUTED for Driver.ReadDir: panics; File.ReadDir is right for every implementation"
  },
  {
   "property": "C110",
   "status": "proved",
   "theorems": [
    "C110_unsupported_times_undefined"
   ],
   "note": ""
  },
  {
   "property": "C111",
   "status": "partial",
   "theorems": [
    "C111_create_existing_refuted",
    "C111_get_missing_refuted",
    "C111_link_directory_refuted",
    "C111_chmod_type_bits_refuted",
    "C111_open_asks_first_partial"
   ],
   "note": "REFUTED: all four; OpenFile does ask before creating"
  },
  {
   "property": "C112",
   "status": "partial",
   "theorems": [
    "C112_not_implemented_partial",
    "C112_missing_methods_refuted"
   ],
   "note": "REFUTED: SameAs and Close panic, exactly these"
  },
  {
   "property": "C113",
   "status": "partial",
   "theorems": [
    "C113_stat_frozen_refuted",
    "C113_stat_at_open_partial",
    "C113_info",
    "C113_name"
   ],
   "note": "REFUTED: Stat keeps reporting the attributes at the time of opening"
  },
  {
   "property": "C114",
   "status": "partial",
   "theorems": [
    "C114_stream_stays_inside",
    "C114_cache_stays_inside",
    "C114_object_bounds_refuted"
   ],
   "note": "proved for streams and caches over any storage: behaviour outside the existing blocks cannot matter.  REFUTED for the object under a File, which is resized to a number of blocks taken as bytes and then written outside"
  },
  {
   "property": "C115",
   "status": "partial",
   "theorems": [
    "C115_min_blocks",
    "C115_check_bounds",
    "C115_check_bounds_exactly",
    "C115_check_bounds_refuted",
    "C115_size",
    "C115_size_contract"
   ],
   "note": "exact characterisations; REFUTED where size plus block size exceeds 2^64 (GetMinBlocksForSize too small, CheckBounds accepts) and for Size from 2^63 bytes on; right for everything that fits into memory"
  },
  {
   "property": "C116",
   "status": "partial",
   "theorems": [
    "C116_zip",
    "C116_unzip",
    "C116_roundtrip",
    "C116_exit_codes",
    "C116_zip_ends",
    "C116_same_file_refuted",
    "C116_close_error_refuted",
    "C116_failure_destroys_output_refuted"
   ],
   "note": "REFUTED: when both paths lead to one file it is destroyed with exit code 0; the error of closing the output is dropped; a failing run empties an existing output.  Proved otherwise, for every codec that inverts itself, host and failure of reading or writing"
  },
  {
   "property": "C117",
   "status": "partial",
   "theorems": [
    "C117_format_refuted"
   ],
   "note": "REFUTED: format does nothing and succeeds"
  },
  {
   "property": "C118",
   "status": "partial",
   "theorems": [
    "C118_load",
    "C118_load_compressed",
    "C118_size_refuted"
   ],
   "note": "exact characterisation; REFUTED only where sectorSize * totalSectors wraps around"
  },
  {
   "property": "C119",
   "status": "proved",
   "theorems": [
    "C119_no_alarm",
    "C119_alarm"
   ],
   "note": "every geometry with total * size < 2^63, every history"
  },
  {
   "property": "C120",
   "status": "partial",
   "theorems": [
    "C120_wrap_stream_partial",
    "C120_short_read_refuted",
    "C120_eof_write_refuted",
    "C120_healthy_file"
   ],
   "note": "REFUTED: short reads, which io.Reader allows, are taken for whole blocks and lead to loss of data; write errors equal to io.EOF are dropped.  Proved for every stream that reads in full or fails, whatever else fails"
  },
  {
   "property": "C121",
   "status": "proved",
   "theorems": [
    "C121_fixed"
   ],
   "note": "every stream within the contracts, also short reads and failures; every history in which no call panics (see C22 for the calls that do)"
  },
  {
   "property": "C122",
   "status": "partial",
   "theorems": [
    "C122_inferred_partial",
    "C122_seek_error_refuted"
   ],
   "note": "REFUTED: errors of Seek are dropped: an empty cache or a panic; right when the size can be determined"
  },
  {
   "property": "C123",
   "status": "partial",
   "theorems": [
    "C123_stale_refuted",
    "C123_lost_update_refuted",
    "C123_files_refuted",
    "C123_disjoint_partial",
    "C123_handoff_partial",
    "C123_no_panic_partial"
   ],
   "note": "REFUTED: a cache never looks at a block again, so it returns what it read first whatever the others flush, and flushing whole blocks undoes the others' changes to the same block.  Proved: for every interleaving in which each block that is changed is used by one cache only, and for caches used one after the other with a flush between; no interleaving panics"
  },
  {
   "property": "C124",
   "status": "partial",
   "theorems": [
    "C124_windows_partial",
    "C124_resize_detaches_refuted",
    "C124_unmarked_refuted",
    "C124_append_refuted",
    "C124_append_exactly"
   ],
   "note": "REFUTED: a successful Resize replaces the array, so slices taken before are disconnected for good, and changes made through them (even marked and flushed) are lost; unmarked changes never reach the storage; append to a slice overwrites the blocks that follow.  Proved: for every history, each slice is a window on its array, the current array is the cache's contents, and a successful flush stores every block that was not changed since it was last marked"
  },
  {
   "property": "C125",
   "status": "partial",
   "theorems": [
    "C125_sizes_partial",
    "C125_run_partial",
    "C125_recursive_better_partial",
    "C125_recursive_input_partial",
    "C125_ratio_partial",
    "C125_decompress_bound_partial",
    "C125_documented_partial",
    "C125_documented_twice_partial",
    "C125_documented_refuted"
   ],
   "note": "REFUTED in one figure: RLE8 makes 1533 bytes, not 1530, of 128 KiB.  Everything else is proved for every input: size formulas over the unique maximal runs, recursive RLE strictly smaller for every run over 258 bytes (one byte larger for 257), ratio bounds both ways, output bound for every stream, the other documented figures"
  },
  {
   "property": "C126",
   "status": "proved",
   "theorems": [
    "C126_no_use_after_close",
    "C126_only_obtained_handles",
    "C126_handles_distinct",
    "C126_file_handles_stay_open"
   ],
   "note": "By a weakest-precondition invariant over every operation; Stat, Name and SameFile calls are not in the log (they have no effect in the model); closing twice and leaking are C55"
  },
  {
   "property": "C127",
   "status": "partial",
   "theorems": [
    "C127_equivalence",
    "C127_same_is_stored_alike",
    "C127_entries_partial",
    "C127_entries_exact",
    "C127_period_in_stem_refuted",
    "C127_stored_alike_is_same_partial",
    "C127_stored_alike_not_same_refuted",
    "C127_final_period_refuted"
   ],
   "note": "REFUTED: entries whose stem has a period collide with the entry split there, and names with trailing blanks or a final period are stored alike but are different files; equivalence, same => stored alike, and both converses on all other names are proved; C127_entries_exact says exactly which entries are the same file"
  },
  {
   "property": "C128",
   "status": "proved",
   "theorems": [
    "C128_wrap_keeps_receiver",
    "C128_wrap_exact",
    "C128_wrap_chain"
   ],
   "note": "the part of C11 without the corner case of multierror identities"
  },
  {
   "property": "C129",
   "status": "proved",
   "theorems": [
    "C129_bounds"
   ],
   "note": "C22 for requests whose byte counts do not wrap around"
  },
  {
   "property": "C130",
   "status": "proved",
   "theorems": [
    "C130_read_advances"
   ],
   "note": "C29 without its claim about reads cut short by the end of file"
  },
  {
   "property": "C131",
   "status": "proved",
   "theorems": [
    "C131_read_back"
   ],
   "note": "C33 for writes that succeed"
  },
  {
   "property": "C132",
   "status": "proved",
   "theorems": [
    "C132_append_keeps_contents"
   ],
   "note": "the part of C36 that holds"
  },
  {
   "property": "C133",
   "status": "proved",
   "theorems": [
    "C133_truncate"
   ],
   "note": "C37 without the zeros inside the last block"
  },
  {
   "property": "C134",
   "status": "proved",
   "theorems": [
    "C134_no_panic"
   ],
   "note": "C39 without negative offsets of ReadAt and WriteAt"
  },
  {
   "property": "C135",
   "status": "proved",
   "theorems": [
    "C135_write_to_delivers"
   ],
   "note": "C30 without the errors of the destination"
  },
  {
   "property": "C136",
   "status": "proved",
   "theorems": [
    "C136_close"
   ],
   "note": "C41 without empty streams"
  },
  {
   "property": "C137",
   "status": "proved",
   "theorems": [
    "C137_write_blocks",
    "C137_succeeds_iff"
   ],
   "note": "C66 without reading back"
  },
  {
   "property": "C138",
   "status": "proved",
   "theorems": [
    "C138_stored",
    "C138_any_entry_shown",
    "C138_restore"
   ],
   "note": "the part of C68 that holds"
  },
  {
   "property": "C139",
   "status": "proved",
   "theorems": [
    "C139_no_panic"
   ],
   "note": "C89 without huge block ranges that wrap around"
  },
  {
   "property": "C140",
   "status": "proved",
   "theorems": [
    "C140_terminates"
   ],
   "note": "the exact form of C77"
  },
  {
   "property": "C141",
   "status": "proved",
   "theorems": [
    "C141_registers",
    "C141_too_early",
    "C141_accepted",
    "C141_nothing_else",
    "C141_deleted"
   ],
   "note": "C80 without deletion"
  },
  {
   "property": "C142",
   "status": "proved",
   "theorems": [
    "C142_getwd_canonical"
   ],
   "note": "the part of C104 that holds"
  },
  {
   "property": "C143",
   "status": "proved",
   "theorems": [
    "C143_at_most_one",
    "C143_only_missing"
   ],
   "note": "the part of C106 that holds"
  },
  {
   "property": "C144",
   "status": "proved",
   "theorems": [
    "C144_stream_stays_inside",
    "C144_cache_stays_inside"
   ],
   "note": "C114 without files"
  },
  {
   "property": "C145",
   "status": "proved",
   "theorems": [
    "C145_min_blocks",
    "C145_check_bounds",
    "C145_size"
   ],
   "note": "C115 without wrap-around"
  },
  {
   "property": "C146",
   "status": "proved",
   "theorems": [
    "C146_zip",
    "C146_unzip",
    "C146_roundtrip",
    "C146_exit_codes"
   ],
   "note": "C116 for distinct files"
  },
  {
   "property": "C147",
   "status": "proved",
   "theorems": [
    "C147_load_exact",
    "C147_load_compressed"
   ],
   "note": "C118 without wrap-around"
  },
  {
   "property": "C148",
   "status": "proved",
   "theorems": [
    "C148_wrap_stream"
   ],
   "note": "C120 for streams that read in full"
  },
  {
   "property": "C149",
   "status": "proved",
   "theorems": [
    "C149_disjoint",
    "C149_handoff",
    "C149_no_panic"
   ],
   "note": "C123 for disjoint changes"
  },
  {
   "property": "C150",
   "status": "proved",
   "theorems": [
    "C150_windows"
   ],
   "note": "C124 without slices kept over a Resize"
  },
  {
   "property": "C151",
   "status": "proved",
   "theorems": [
    "C151_sizes",
    "C151_ratio",
    "C151_recursive_input",
    "C151_decompress_bound"
   ],
   "note": "C125 without the documented figure that is wrong"
  },
  {
   "property": "C152",
   "status": "proved",
   "theorems": [
    "C152_equivalence",
    "C152_same_is_stored_alike"
   ],
   "note": "the part of C127 that holds"
  },
  {
   "property": "C153",
   "status": "proved",
   "theorems": [
    "C153_compress",
    "C153_recursive",
    "C153_decompress",
    "C153_same_input",
    "C153_deterministic",
    "C153_roundtrip",
    "C153_pieces",
    "C153_unread"
   ],
   "note": "the bufio.Reader of Go's standard library (NewReader, fill, ReadByte, UnreadByte) is modelled"
  },
  {
   "property": "C154",
   "status": "proved",
   "theorems": [
    "C154_create",
    "C154_open"
   ],
   "note": "for names in the root directory of the in-memory file system: deeper paths are not resolved by the code (C46)"
  },
  {
   "property": "C155",
   "status": "proved",
   "theorems": [
    "C155_compress",
    "C155_open_failure",
    "C155_decompress",
    "C155_to_bytes",
    "C155_roundtrip"
   ],
   "note": "DEFLATE stays abstract: what gzip.Writer hands down call by call and what gzip.Reader delivers are quantified, their inversion is a premise (gunzips) of the round trip only"
  },
  {
   "property": "C156",
   "status": "proved",
   "theorems": [
    "C156_start_up",
    "C156_lookup",
    "C156_malformed",
    "C156_table"
   ],
   "note": "encoding/csv, csvutil and strconv are modelled from their sources; every text is covered"
  },
  {
   "property": "C157",
   "status": "proved",
   "theorems": [
    "C157_not_writable",
    "C157_not_readable",
    "C157_only_reads",
    "C157_read",
    "C157_position",
    "C157_open"
   ],
   "note": "what a file opened for writing does with the written bytes is C33, C34, C52"
  },
  {
   "property": "C158",
   "status": "partial",
   "theorems": [
    "C158_array_partial",
    "C158_stored_refuted"
   ],
   "note": "REFUTED for the second half: the written bytes stay in the cache, Sync and Close make no call at all and report success; the first half is proved for calls that write before the last byte of the last block (growing writes: C33, C123) and with the write rule of the code (write_fits: a write that ends too far from the start of the file is refused)"
  },
  {
   "property": "C159",
   "status": "partial",
   "theorems": [
    "C159_chmod_partial",
    "C159_never_supported_refuted",
    "C159_chdir"
   ],
   "note": "REFUTED for Chmod and Chown: the wrapper around the handles hides the optional methods, so both always fail with ErrNotSupported; with handles passed through they are as claimed; Chdir is as claimed"
  },
  {
   "property": "C160",
   "status": "proved",
   "theorems": [
    "C160_listing"
   ],
   "note": "ReadDir panics for objects without ListDir (C109), which includes every object with the wrapper as it is; the theorem is about calls that return"
  },
  {
   "property": "C161",
   "status": "partial",
   "theorems": [
    "C161_difference",
    "C161_reference_refuted",
    "C161_formatted_partial",
    "C161_reference_marks"
   ],
   "note": "REFUTED: the result always differs from the reference image, in exactly twelve bytes: FormatImage reserves the FAT entries numbered like the directory track instead of those of its clusters; everything else is equal. The reference minifloppy reserves exactly the clusters of the directory track; the reference floppy those of the track behind it"
  },
  {
   "property": "C162",
   "status": "partial",
   "theorems": [
    "C162_always_empty_refuted",
    "C162_missing_refuted",
    "C162_root_error_refuted",
    "C162_file_refuted",
    "C162_decoded_refuted",
    "C162_entry_partial",
    "C162_directory_partial"
   ],
   "note": "REFUTED: the answer is always the empty one or an error: missing names and unreadable directories give an empty answer without an error, files give ErrNotADirectory, and no decoded entry is recognised as a directory (C81). True: any other answer would be the entry of that name"
  },
  {
   "property": "C163",
   "status": "proved",
   "theorems": [
    "C163_reads",
    "C163_updates",
    "C163_remove",
    "C163_parent"
   ],
   "note": "the entry Remove deletes is nevertheless never that of a file (C78)"
  },
  {
   "property": "C164",
   "status": "partial",
   "theorems": [
    "C164_reads_partial",
    "C164_changes_partial",
    "C164_any_volume",
    "C164_root_refuted"
   ],
   "note": "REFUTED for one call: a failure to list the root directory is taken for an empty entry. Every other failing call ends the operation with its own error, proved for every volume and failure"
  },
  {
   "property": "C165",
   "status": "partial",
   "theorems": [
    "C165_cache",
    "C165_stream",
    "C165_new",
    "C165_success",
    "C165_write_to",
    "C165_read_from_partial",
    "C165_read_from_refuted",
    "C165_recorded"
   ],
   "note": "REFUTED for the last write of ReadFrom, whose error gives way to the reader's end or error. Everything else is proved for every storage and failure; the cache reports a failed block with a message around the storage's error, so that even an io.EOF from the storage does not pass for the end of the stream"
  },
  {
   "property": "C166",
   "status": "partial",
   "theorems": [
    "C166_reported",
    "C166_success",
    "C166_create_partial",
    "C166_link_partial",
    "C166_write_file_partial",
    "C166_files",
    "C166_noted",
    "C166_link_refuted",
    "C166_write_file_refuted"
   ],
   "note": "REFUTED for two calls: Link takes any failure to look up the new name for its absence, and WriteFile drops the failure of the final flush. Proved for every other operation, implementation and failure, also with the wrapper repaired (modes of Props_Driver)"
  },
  {
   "property": "C167",
   "status": "proved",
   "theorems": [
    "C167_next_run",
    "C167_no_run",
    "C167_all_runs",
    "C167_from_reader"
   ],
   "note": "the model of GetNextRun over an arbitrary ByteScanner (Scanner.v); bufio.Reader is shown to be one"
  },
  {
   "property": "C168",
   "status": "partial",
   "theorems": [
    "C168_unread_refuted",
    "C168_deaf_refuted",
    "C168_reads_partial",
    "C168_reported_partial"
   ],
   "note": "REFUTED: the error of UnreadByte is dropped (rle_grouper.go:75), and with it the byte. Exactly: GetNextRun does the same whatever UnreadByte says, every ReadByte failure is reported, and with an UnreadByte that works nothing is hidden"
  },
  {
   "property": "C169",
   "status": "partial",
   "theorems": [
    "C169_short",
    "C169_panics_refuted",
    "C169_cut_partial",
    "C169_forty_partial"
   ],
   "note": "REFUTED: once 36 bytes have been read binary.Read panics on the unexported fields (C71). Proved for shorter inputs, and for all inputs with the fields exported"
  },
  {
   "property": "C170",
   "status": "partial",
   "theorems": [
    "C170_open_exactly",
    "C170_sane_opens_partial",
    "C170_impossible_panics_refuted",
    "C170_wraparound_refuted"
   ],
   "note": "REFUTED: a negative NumBlocks, or a product that is negative as an int64, makes blockcache.New panic, and products wrap around. C170_open_exactly says for all sizes which of panic, error and success it is; handles with consistent sizes always open"
  },
  {
   "property": "C171",
   "status": "partial",
   "theorems": [
    "C171_accepted",
    "C171_stored",
    "C171_nine_bytes_exactly",
    "C171_nine_bytes_refuted",
    "C171_shown",
    "C171_round_trip_refuted",
    "C171_entries",
    "C171_stat",
    "C171_ascii"
   ],
   "note": "REFUTED: the limits are in bytes but fmt pads characters, so the stored form has nine bytes exactly when all capitals are ASCII and more otherwise, and a name with an extension comes back with blanks before the extension. Stored form, its length and the name shown are given exactly for every UTF-8 name; acceptance and showing for any bytes. C171_ascii: for ASCII this is the model of C68, C69, C127"
  },
  {
   "property": "C172",
   "status": "proved",
   "theorems": [
    "C172_same_exactly",
    "C172_utf8",
    "C172_equivalence"
   ],
   "note": "for every enumeration of the classes as package unicode documents SimpleFold"
  },
  {
   "property": "C173",
   "status": "partial",
   "theorems": [
    "C173_same_is_stored_alike_partial",
    "C173_not_stored_alike_refuted"
   ],
   "note": "REFUTED: characters of one class can have different capitals (k and the Kelvin sign); true for names whose characters have the same capitals and as many bytes (in particular ASCII, C152)"
  },
  {
   "property": "C174",
   "status": "proved",
   "theorems": [
    "C174_delivers",
    "C174_compress",
    "C174_image_roundtrip",
    "C174_read_all"
   ],
   "note": "sizes up to 2^63 - 4096 (2^63 minus the largest buffer for io.ReadAll); gzip is quantified over as in C155"
  },
  {
   "property": "C175",
   "status": "partial",
   "theorems": [
    "C175_delivers_exactly",
    "C175_eof_refuted",
    "C175_reported_partial",
    "C175_read_all",
    "C175_not_readable"
   ],
   "note": "REFUTED: the codecs ask errors.Is(err, io.EOF), and the cache wraps the storage's error with %w, so storage that fails with io.EOF (or an error that wraps it) ends the input: the first part is compressed and success is returned; exact for every storage; all other errors are reported, and io.ReadAll reports all"
  },
  {
   "property": "C176",
   "status": "partial",
   "theorems": [
    "C176_copy_partial",
    "C176_read_from_partial",
    "C176_not_writable_refuted",
    "C176_read_from_not_writable",
    "C176_half_refuted",
    "C176_short_refuted"
   ],
   "note": "REFUTED: WriteTo ignores what the writer returns, so io.Copy into a stream that is not open for writing copies nothing and reports success (C176_not_writable_refuted), and copying an image of N blocks over another one of N blocks copies only its first N/2 blocks, again with success (C176_half_refuted, with the exact result); ReadFrom drops the error of the last, short write (C176_short_refuted). True when everything lands in the first half of the destination's blocks (the two _partial theorems)"
  },
  {
   "property": "C177",
   "status": "proved",
   "theorems": [
    "C177_full",
    "C177_short",
    "C177_records",
    "C177_records_end",
    "C177_reported",
    "C177_boot"
   ],
   "note": "io.ReadFull is modelled from Go's source; C177_boot says, as C71 and C169, that the header makes the code panic (settable = false)"
  },
  {
   "property": "C178",
   "status": "proved",
   "theorems": [
    "C178_read",
    "C178_delivers",
    "C178_codecs",
    "C178_boot",
    "C178_failing_read",
    "C178_failing_delivers",
    "C178_no_silent_cut"
   ],
   "note": "io.SectionReader is modelled from Go's source; C178_boot says, as C71 and C169, that a complete header makes the code panic (settable = false)"
  },
  {
   "property": "C179",
   "status": "partial",
   "theorems": [
    "C179_restore_partial",
    "C179_whole_disk_refuted",
    "C179_not_writable",
    "C179_save_partial"
   ],
   "note": "REFUTED: an image that fills a stream to its last block can never be restored onto it (nor a compressed image saved there), on any storage and with any block size: the last Write is refused with ErrArgumentOutOfRange, as C33.  The error is reported.  Proved: no error means that the whole image is in place, bytes elsewhere never change, every failure is reported, and images that end in the first half of the blocks are restored"
  },
  {
   "property": "C180",
   "status": "partial",
   "theorems": [
    "C180_write_blocks_partial",
    "C180_flush_partial",
    "C180_file_cluster_refuted",
    "C180_mount_partial",
    "C180_format_refuted",
    "C180_read_refuted",
    "C180_write_cluster_refuted",
    "C180_mount_refuted"
   ],
   "note": "REFUTED: no error of reading is one of the library's, nor is that of FormatImage for a size no disk has, that of WriteAbsoluteCluster for a bad number or length, or that of Mount with a new driver on a good image; true for WriteDiskBlocks, for mounted drivers, for sizes that are not a number of blocks, and for images of another size or with different FATs. The theorems say for each refusal which it is"
  },
  {
   "property": "C181",
   "status": "partial",
   "theorems": [
    "C181_exact",
    "C181_std_refuted",
    "C181_kept_partial"
   ],
   "note": "REFUTED: the library's own errors are never connected with an error of the standard library (ErrNotFound is not fs.ErrNotExist). What it wraps stays recognisable; C181_exact decides every error made with errors.go. Errors from elsewhere are compared by address and have no Is method"
  }
 ]
}