import json
C=[]
def c(prop,status,thms,note=""): C.append({"property":prop,"status":status,"theorems":thms.split(),"note":note})
c("C01","proved","C01_rle8_roundtrip")
c("C02","proved","C02_rle8_accepts_exactly")
c("C03","proved","C03_rle8_shortest","for inputs shorter than 2^63 bytes (a longer run is split by the grouper)")
c("C04","proved","C04_compress_input_failure C04_decompress_input_failure")
c("C05","proved","C05_compress_output_failure C05_decompress_output_failure C05_recursive_output_failure")
c("C06","proved","C06_grouper_maximal_runs C06_grouper_error")
c("C07","partial","C07_recursive_roundtrip_refuted C07_decompress_compresses_again C07_recursive_roundtrip_exact C07_recursive_roundtrip_partial","REFUTED: DecompressRLERecursive is a copy of the compressor; the round trip holds exactly for the inputs in which every run is a single byte or three bytes of value 1")
c("C08","proved","C08_recursive_equals_rle8_on_short_runs C08_recursive_injective C08_recursive_succeeds")
c("C09","proved","C09_image_roundtrip C09_gzip_error_reported C09_not_gzip C09_to_bytes_reports C09_to_bytes_gzip_error_reported C09_compress_success_is_complete","gzip is a quantified codec; its inversion law is a premise")
c("C10","proved","C10_identity_survives_with_message C10_text C10_new_error")
c("C11","partial","C11_wrap_keeps_receiver C11_wrap_keeps_argument_partial C11_wrap_keeps_argument_refuted C11_wrap_exact C11_cast C11_wrap_chain C11_classes","REFUTED in one corner: wrapping a bare *multierror.Error flattens it, so its own identity is lost; everything else is proved")
c("C12","proved","C12_os_flags_translate","the invalid access mode 3 is translated to read-only, as the theorem says")
c("C13","proved","C13_access_bits C13_read_or_write C13_custom_mount_flags C13_mount_flag_bits")
c("C14","proved","C14_one_kind C14_permission_bits_irrelevant C14_mkdir_mode_is_directory")
c("C15","proved","C15_cache_is_an_array C15_errors_not_spurious")
c("C16","proved","C16_flush_durable")
c("C17","proved","C17_out_of_range")
c("C18","proved","C18_failed_flush_retry","the retry clause is for caches with at least one block (C25)")
c("C19","proved","C19_crash","storage writes blocks atomically and zero-fills growth")
c("C20","proved","C20_minimal_io")
c("C21","proved","C21_resize C21_no_callback")
c("C22","partial","C22_mark_any_count_refuted C22_get_slice_any_count_refuted C22_exact C22_bounds_any_count_partial","REFUTED: count*bytesPerBlock wraps around; true while (count+1)*bytesPerBlock and start+count fit in 64 bits; C22_exact decides every 64-bit start and count for block sizes up to 2^59")
c("C23","partial","C23_read_count_exact C23_read_count_refuted C23_read_count_partial","REFUTED: the count is rounded up to whole blocks; equals the buffer length iff that is a multiple of the block size")
c("C24","partial","C24_mark_keeps_contents_refuted C24_mark_exact C24_mark_keeps_contents_partial","REFUTED for blocks that were never loaded (they become zeros); true after GetSlice of the range, and for every block fetched, written or created before (C24_mark_exact)")
c("C25","partial","C25_empty_cache_refuted C25_empty_cache_partial","REFUTED: every empty cache returns ErrArgumentOutOfRange; true for non-empty caches")
c("C26","proved","C26_wrap_slice C26_wrap_slice_divides")
c("C27","partial","C27_grow_then_flush_refuted C27_grow_then_flush_partial C27_exact","REFUTED for every growth beyond the size at creation; C27_exact: after every history, Flush writes the array out exactly when it is not empty and not larger than at creation, and otherwise fails")
c("C28","proved","C28_read_at_exact")
c("C29","partial","C29_short_read_repeats_refuted C29_read_advances_partial","REFUTED: a read cut short by end of file does not move the position by the bytes delivered; true otherwise")
c("C30","partial","C30_writer_errors_ignored_refuted C30_write_to_delivers_partial","REFUTED: errors of the destination writer are dropped; true for a destination that never fails")
c("C31","proved","C31_seek_exact")
c("C32","proved","C32_not_writable_refuses C32_not_writable_history C32_not_readable_reveals_nothing")
c("C33","partial","C33_growing_write_fails_refuted C33_write_succeeds_iff_partial C33_read_back_partial","REFUTED: a write that has to add blocks fails; writes within the existing blocks read back")
c("C34","partial","C34_sync_loses_writes_refuted C34_new_file_durable_partial","REFUTED: writes never mark blocks as modified, so no write into existing blocks ever reaches storage; blocks that the stream itself added are durable")
c("C35","partial","C35_write_into_slack_refuted C35_write_size_partial","REFUTED for writes past the end inside the last block")
c("C36","partial","C36_append_overwrites_refuted C36_append_size_refuted C36_append_keeps_contents_partial","REFUTED: appends that end inside the allocated blocks do not extend the stream and overwrite each other; over every history without Truncate existing contents are kept")
c("C37","partial","C37_truncate_reveals_old_bytes_refuted C37_truncate_partial","REFUTED: growing back within the last block reveals old bytes")
c("C38","proved","C38_failed_truncate")
c("C39","partial","C39_negative_offset_panics_refuted C39_no_panic_partial C39_negative_exact C39_nonnegative","REFUTED for negative offsets; C39_negative_exact gives the exact conditions for ReadAt and WriteAt at every negative offset, and C39_nonnegative shows that at non-negative offsets no call panics, except possibly a write whose end lies within one block of 2^63")
c("C40","partial","C40_write_error_swallowed_refuted C40_read_from_partial","REFUTED: a failing write at the end of the source is dropped")
c("C41","partial","C41_close_empty_fails_refuted C41_close_partial","REFUTED for empty files")
c("C42","proved","C42_new_validates")
c("C43","proved","C43_normalize_canonical C43_working_directory C43_absolute")
c("C44","partial","C44_dot_is_root_refuted C44_relative_partial","REFUTED for relative paths that lead back to where they start ('.', 'a/..'): they are taken to be the root; true for all other relative paths")
c("C45","partial","C45_nothing_succeeds_refuted C45_stat_partial C45_truncate_partial C45_mkdir_partial","REFUTED: the handle wrapper never stores the handle, so no path operation can succeed; the partial theorems are about the driver with the wrapper repaired, for entries of the root")
c("C46","partial","C46_nested_never_returns_refuted C46_shallow_returns_partial C46_fuel_irrelevant","REFUTED: paths of two or more components recurse for ever; partial: entries of the root return")
c("C47","partial","C47_cycle_undetected_refuted C47_chain_partial","REFUTED for cycles that do not contain the first link; all other chains are resolved correctly (wrapper repaired, links in the root)")
c("C48","partial","C48_remove_refuted C48_as_is_partial C48_write_open_partial C48_looking_partial","REFUTED: Remove (and O_RDONLY|O_CREATE) change a read-only mount once the wrapper is repaired")
c("C49","partial","C49_create_existing_refuted C49_leaves_alone_partial","REFUTED: Create of an existing file succeeds; partial: it leaves the file alone")
c("C50","proved","C50_pages C50_names C50_same_sequence")
c("C51","proved","C51_same_file")
c("C52","partial","C52_truncate_blocks_refuted C52_truncate_bytes_partial","REFUTED: the object is resized to the number of blocks as if it were bytes; true for a block size of 1")
c("C53","partial","C53_top_remains_refuted C53_descendants_partial","REFUTED: the directory itself is never unlinked; partial: its descendants, and nothing else, are gone")
c("C54","partial","C54_never_a_link_refuted C54_non_link_partial C54_any_path_partial C54_link_followed","REFUTED: Lstat never describes a link but the object it leads to; for every path that names something else Lstat describes that object, and it returns the errors met on the way")
c("C55","partial","C55_lchown_leaks_refuted C55_lstat_closes_twice_refuted C55_balanced_partial","REFUTED: Lchown leaks, Lstat closes twice; partial: the other operations balance on file systems without links")
c("C56","proved","C56_read_file_exact C56_errors C56_memory C56_read_file_exact_partial C56_healthy_partial","every implementation whose blocks read honestly, every path, all three versions of the handle wrapper; the _partial theorems add that for entries of the root ReadFile does return (as the code is, no path operation returns, C45, C46)")
c("C57","partial","C57_write_file_refuted C57_one_byte_partial","REFUTED: data of a multiple of the block size is refused, other data is cut to ceil(len/blocksize) bytes; true for one byte")
c("C58","proved","C58_accepted C58_layout C58_figures C58_refused","")
c("C59","proved","C59_format_iff C59_refused_untouched C59_image C59_statistics","on a device that works; also what FSStat reports afterwards")
c("C60","partial","C60_directory_left_free_refuted C60_entries C60_two_reserved_partial","REFUTED: the marked entries are those of clusters 18, 19 (35, 36 on the larger disks); the clusters holding the directory track are marked free; true: exactly two clusters are marked")
c("C61","partial","C61_fresh_driver_refuted C61_well_formed_partial C61_after_format_partial C61_other_sizes_refused","REFUTED: a fresh driver cannot mount any image (its block count is 0); partial: a driver that formatted an image can")
c("C62","proved","C62_flush C62_reachable","for drivers that know the image; every mounted driver of a history on a working device does")
c("C63","proved","C63_crash C63_outside_untouched","the write of the FATs stops after any number of bytes")
c("C64","proved","C64_differing_reported C64_mount","")
c("C65","partial","C65_write_elsewhere_refuted C65_first_cluster_partial C65_refused","REFUTED: cluster c is written to the place of cluster 2c-1 or refused; true for cluster 1")
c("C66","partial","C66_write_blocks C66_succeeds_iff C66_last_block_refuted C66_read_back_partial","writing as claimed; REFUTED: a range that reaches the last block cannot be read back; all others can")
c("C67","partial","C67_beyond_disk_refuted C67_remount_duplicates_refuted C67_first_mount_partial C67_list","REFUTED: entries of the FAT without a cluster are listed (even as cluster 0), and a second mount lists everything twice; partial: on the first mount, right for the clusters of the disk; the list after every mount is given exactly (C67_list)")
c("C68","partial","C68_stored C68_empty_name C68_any_entry_shown C68_display_partial C68_trailing_period_refuted C68_blank_name_refuted C68_restore_partial","REFUTED: 'a.' is shown as 'A..', a blank name is shown as the empty name; the rest is true; ASCII names")
c("C69","partial","C69_stat C69_text C69_not_found C69_nothing_found_refuted","as claimed for whatever is in the map of entries; REFUTED end to end: nothing ever fills that map")
c("C70","partial","C70_last_block_refuted C70_wrapped_refuted C70_huge_count_refuted C70_last_cluster_refuted C70_ranges_partial C70_clusters_partial C70_other_clusters_partial","REFUTED: the last block, the last cluster (640 and 1898 blocks) and ranges whose end wraps around (exactly which of these read other blocks, fail or panic is proved); the others are as claimed")
c("C87","partial","C87_reads_other_cluster_refuted C87_second_cluster_partial C87_index_refused C87_exactly","REFUTED: writes go to cluster 2c-1, reads come from cluster c+1; they meet only for cluster 2")
c("C88","partial","C88_stale_fat_refuted C88_never_mounted_partial","REFUTED: the FAT of an earlier mount is written over a newly formatted image; true for drivers never mounted")
c("C89","partial","C89_huge_read_refuted C89_exactly C89_no_panic_partial","REFUTED: a read of 2^56 or more blocks whose end wraps around to a block of the disk panics; the operations that panic are given exactly (C89_exactly)")
c("C90","partial","C90_chmod_partial C90_chown_partial C90_chtimes_partial C90_never_supported_refuted","REFUTED: the wrapper around handles hides the optional methods, so the answer is always ErrNotImplemented; with handles passed through, as claimed for entries of the root (deeper paths never return, C46)")
c("C91","partial","C91_existing_partial C91_lookup_error_ignored_refuted","REFUTED: a lookup that fails for any reason counts as missing; true where the lookup succeeds (entries of the root, handle wrapper repaired)")
c("C92","proved","C92_readlink_exact C92_unsupported C92_every_path C92_readlink_partial","every implementation and every path on which Readlink returns; C92_readlink_partial adds that it does return for entries of the root (deeper paths never return, C46; as the code is none does, C45)")
c("C93","partial","C93_remove_partial C93_remove_link_refuted","REFUTED: removing a link deletes the file it leads to; as claimed for files and directories in the root (handles passed through)")
c("C94","partial","C94_existing_refuted C94_nested_refuted C94_single_partial C94_makes_directory_partial","REFUTED: an existing directory is created again and the error returned, two or more components never return; single missing components are created")
c("C71","partial","C71_always_panics_refuted C71_short_partial C71_exported_partial C71_disk_partial","REFUTED: every stream of at least 36 bytes panics (reflection on unexported fields); with them exported exactly a zero sector or cluster size panics, and every header laid out as the specification says is read back field by field")
c("C72","proved","C72_consistent C72_rejects C72_accepts","about the header computation, for every raw header")
c("C73","partial","C73_layout_partial C73_data_area_refuted C73_clusters_refuted C73_width_refuted C73_root_refuted C73_values C73_right_exactly","REFUTED: the data area ignores the FATs, the cluster count adds instead of subtracting them, the root size overflows at 16 bits; the exact values computed for every accepted header are proved, and which of them are right")
c("C74","partial","C74_always_panics_refuted C74_date_partial C74_timestamp_partial C74_fraction_refuted C74_total_partial C74_no_date_refuted","REFUTED: time.Date with a nil location always panics; with UTC, dates and times to the second are right, fractions never")
c("C75","partial","C75_always_panics_refuted C75_names_partial C75_attribute_refuted C75_shifted_refuted","REFUTED: Uint32 of three bytes always panics; with that repaired the attribute byte is ignored and all later fields are one byte off")
c("C76","partial","C76_listing_partial C76_end_marker_refuted C76_nth_partial C76_corrupt_partial C76_bad_start C76_listing C76_nth","REFUTED where IsValidCluster rejects end markers; otherwise as claimed")
c("C77","partial","C77_loop_refuted C77_terminates_partial","REFUTED: a loop in the table never returns; in all other cases it returns within one step per cluster")
c("C78","partial","C78_indices_refuted C78_wrong_clusters_refuted C78_entry_first_partial C78_directory_partial C78_never_the_file_refuted C78_deletes_nothing_refuted","REFUTED: the positions n-1..0 are freed instead of the clusters, and the entry deleted is always the empty one; entry before clusters holds")
c("C79","partial","C79_nothing_found_refuted C79_root_error_refuted C79_missing_refuted C79_file_refuted C79_slash_refuted C79_found_partial C79_directory_partial C79_directory_error_partial","REFUTED: nothing is ever found, missing names and device errors are successes, files are errors, paths are split at colons; with decoding repaired, directories of the root are found")
c("C80","partial","C80_registers_partial C80_too_early C80_accepted C80_deleted_refuted C80_deleted_for_ever_refuted C80_deleted_has_no_creation_partial","REFUTED: SetDeletedAt always returns ErrNotFound and never stores the time; the other registers behave for every sequence of setters")
c("C81","partial","C81_never_a_directory_refuted C81_type_partial C81_permissions_partial C81_readonly_refuted","REFUTED: IsDir is false for every decoded entry, and a read-only entry is shown writable by its owner; the stat mode has the right type bits and hides group and other write permission exactly when read-only")
c("C82","partial","C82_chmod_partial C82_set_mode C82_chtimes_refuted C82_chtimes_partial C82_never_the_file_refuted","REFUTED: Chtimes drops times before 1980 silently; as is, only the empty entry is ever updated; Chmod changes only the write bits")
c("C95","partial","C95_panics_refuted C95_clusters_partial","REFUTED: Sys() returns a FileStat, the assertion to Dirent panics for every pair")
c("C96","partial","C96_never_contents_refuted C96_contents_partial C96_truncated_refuted C96_spare_refuted C96_directory_partial","REFUTED: ReadFile never returns a byte; after the lookup, one-sector clusters are read correctly, larger ones truncated, spare clusters panic")
c("C97","partial","C97_sector_partial C97_location_refuted C97_locations_refuted C97_distinct_partial","REFUTED: wrong sector and only one sector, except by coincidence; the exact sector read is proved")
c("C98","partial","C98_always_panics_refuted C98_decode_partial C98_free_partial C98_blank_refuted","REFUTED: always panics (C74); with UTC the decoding is right for every entry whose name is not blank")
c("C99","partial","C99_always_panics_refuted C99_entries_partial C99_blank_refuted C99_several_sectors_refuted","REFUTED: always panics (C75); repaired, the slots up to the first free one are returned, blank names and multi-sector clusters without a free slot in the first sector panic")
c("C100","partial","C100_never_lists_refuted C100_lists_partial C100_full_refuted C100_not_a_directory C100_decoded_refuted","REFUTED: never returns a listing; repaired, lists directories of the root, except those that fill their last cluster")
c("C83","proved","C83_mode_to_v6_and_back C83_other_types_rejected C83_v6_to_mode_and_back C83_v6_types","every mode and every flag word")
c("C84","partial","C84_size_and_blocks C84_size_refuted","REFUTED: the three size bytes are read lowest first, but the sixth edition (fs(5)) stores the highest byte first, so the size is right iff the three bytes are equal; size, block count and the other fields are proved as the code reads them")
c("C85","proved","C85_size C85_predefined","every geometry below 2^63 bits; the table is transcribed from the CSV")
c("C86","proved","C86_start_up C86_lookup C86_table","after CSV decoding (for that see C156)")
c("C101","partial","C101_char_devices_refuted C101_other_types_partial","REFUTED: such modes are rejected and V6 character devices never get them")
c("C102","proved","C102_fsstat_size","")
c("C103","partial","C103_overflow_refuted C103_size_right_iff_fits","REFUTED: from 2^63 bits on the size is wrong (negative or zero); right if and only if the bits fit")
c("C104","partial","C104_getwd_canonical C104_chdir_partial C104_chdir_link_partial C104_relative_refuted","REFUTED: with a working directory other than the root no operation on a plain name returns; the canonical form of Getwd is proved for all histories, Chdir for entries of the root and links to them (modulo C45)")
c("C105","proved","C105_only_its_calls C105_looking_changes_nothing","every operation, implementation, state; the permitted calls are listed in Spec_Driver2.may")
c("C106","partial","C106_at_most_one C106_only_missing C106_leaves_directory_refuted","REFUTED: with permissions that contain the directory bit a directory is created and left behind although the call fails; the rest is proved for every implementation")
c("C107","partial","C107_close_keeps_handle_refuted C107_open_close_leaks_refuted","REFUTED: File.Close never releases the object handle")
c("C108","partial","C108_flush_error_dropped_refuted C108_reported_partial","REFUTED: the error of the deferred Close, which does the writing, is dropped; otherwise nil is returned exactly when OpenFile and Write returned nil, and else the first of their errors")
c("C109","partial","C109_read_dir_panics_refuted C109_file_read_dir","REFUTED for Driver.ReadDir: panics; File.ReadDir is right for every implementation")
c("C110","proved","C110_unsupported_times_undefined","")
c("C111","partial","C111_create_existing_refuted C111_get_missing_refuted C111_link_directory_refuted C111_chmod_type_bits_refuted C111_open_asks_first_partial","REFUTED: all four; OpenFile does ask before creating")
c("C112","partial","C112_not_implemented_partial C112_missing_methods_refuted","REFUTED: SameAs and Close panic, exactly these")
c("C113","partial","C113_stat_frozen_refuted C113_stat_at_open_partial C113_info C113_name","REFUTED: Stat keeps reporting the attributes at the time of opening")
c("C114","partial","C114_stream_stays_inside C114_cache_stays_inside C114_object_bounds_refuted","proved for streams and caches over any storage: behaviour outside the existing blocks cannot matter.  REFUTED for the object under a File, which is resized to a number of blocks taken as bytes and then written outside")
c("C115","partial","C115_min_blocks C115_check_bounds C115_check_bounds_exactly C115_check_bounds_refuted C115_size C115_size_contract","exact characterisations; REFUTED where size plus block size exceeds 2^64 (GetMinBlocksForSize too small, CheckBounds accepts) and for Size from 2^63 bytes on; right for everything that fits into memory")
c("C116","partial","C116_zip C116_unzip C116_roundtrip C116_exit_codes C116_zip_ends C116_same_file_refuted C116_close_error_refuted C116_failure_destroys_output_refuted","REFUTED: when both paths lead to one file it is destroyed with exit code 0; the error of closing the output is dropped; a failing run empties an existing output.  Proved otherwise, for every codec that inverts itself, host and failure of reading or writing")
c("C117","partial","C117_format_refuted","REFUTED: format does nothing and succeeds")
c("C118","partial","C118_load C118_load_compressed C118_size_refuted","exact characterisation; REFUTED only where sectorSize * totalSectors wraps around")
c("C119","proved","C119_no_alarm C119_alarm","every geometry with total * size < 2^63, every history")
c("C120","partial","C120_wrap_stream_partial C120_short_read_refuted C120_eof_write_refuted C120_healthy_file","REFUTED: short reads, which io.Reader allows, are taken for whole blocks and lead to loss of data; write errors equal to io.EOF are dropped.  Proved for every stream that reads in full or fails, whatever else fails")
c("C121","proved","C121_fixed","every stream within the contracts, also short reads and failures; every history in which no call panics (see C22 for the calls that do)")
c("C122","partial","C122_inferred_partial C122_seek_error_refuted","REFUTED: errors of Seek are dropped: an empty cache or a panic; right when the size can be determined")
c("C123","partial","C123_stale_refuted C123_lost_update_refuted C123_files_refuted C123_disjoint_partial C123_handoff_partial C123_no_panic_partial","REFUTED: a cache never looks at a block again, so it returns what it read first whatever the others flush, and flushing whole blocks undoes the others' changes to the same block.  Proved: for every interleaving in which each block that is changed is used by one cache only, and for caches used one after the other with a flush between; no interleaving panics")
c("C124","partial","C124_windows_partial C124_resize_detaches_refuted C124_unmarked_refuted C124_append_refuted C124_append_exactly","REFUTED: a successful Resize replaces the array, so slices taken before are disconnected for good, and changes made through them (even marked and flushed) are lost; unmarked changes never reach the storage; append to a slice overwrites the blocks that follow.  Proved: for every history, each slice is a window on its array, the current array is the cache's contents, and a successful flush stores every block that was not changed since it was last marked")
c("C125","partial","C125_sizes_partial C125_run_partial C125_recursive_better_partial C125_recursive_input_partial C125_ratio_partial C125_decompress_bound_partial C125_documented_partial C125_documented_twice_partial C125_documented_refuted","REFUTED in one figure: RLE8 makes 1533 bytes, not 1530, of 128 KiB.  Everything else is proved for every input: size formulas over the unique maximal runs, recursive RLE strictly smaller for every run over 258 bytes (one byte larger for 257), ratio bounds both ways, output bound for every stream, the other documented figures")
c("C126","proved","C126_no_use_after_close C126_only_obtained_handles C126_handles_distinct C126_file_handles_stay_open","By a weakest-precondition invariant over every operation; Stat, Name and SameFile calls are not in the log (they have no effect in the model); closing twice and leaking are C55")
c("C127","partial","C127_equivalence C127_same_is_stored_alike C127_entries_partial C127_entries_exact C127_period_in_stem_refuted C127_stored_alike_is_same_partial C127_stored_alike_not_same_refuted C127_final_period_refuted","REFUTED: entries whose stem has a period collide with the entry split there, and names with trailing blanks or a final period are stored alike but are different files; equivalence, same => stored alike, and both converses on all other names are proved; C127_entries_exact says exactly which entries are the same file")
c("C128","proved","C128_wrap_keeps_receiver C128_wrap_exact C128_wrap_chain",'the part of C11 without the corner case of multierror identities')
c("C129","proved","C129_bounds",'C22 for requests whose byte counts do not wrap around')
c("C130","proved","C130_read_advances",'C29 without its claim about reads cut short by the end of file')
c("C131","proved","C131_read_back",'C33 for writes that succeed')
c("C132","proved","C132_append_keeps_contents",'the part of C36 that holds')
c("C133","proved","C133_truncate",'C37 without the zeros inside the last block')
c("C134","proved","C134_no_panic",'C39 without negative offsets of ReadAt and WriteAt')
c("C135","proved","C135_write_to_delivers",'C30 without the errors of the destination')
c("C136","proved","C136_close",'C41 without empty streams')
c("C137","proved","C137_write_blocks C137_succeeds_iff",'C66 without reading back')
c("C138","proved","C138_stored C138_any_entry_shown C138_restore",'the part of C68 that holds')
c("C139","proved","C139_no_panic",'C89 without huge block ranges that wrap around')
c("C140","proved","C140_terminates",'the exact form of C77')
c("C141","proved","C141_registers C141_too_early C141_accepted C141_nothing_else C141_deleted",'C80 without deletion')
c("C142","proved","C142_getwd_canonical",'the part of C104 that holds')
c("C143","proved","C143_at_most_one C143_only_missing",'the part of C106 that holds')
c("C144","proved","C144_stream_stays_inside C144_cache_stays_inside",'C114 without files')
c("C145","proved","C145_min_blocks C145_check_bounds C145_size",'C115 without wrap-around')
c("C146","proved","C146_zip C146_unzip C146_roundtrip C146_exit_codes",'C116 for distinct files')
c("C147","proved","C147_load_exact C147_load_compressed",'C118 without wrap-around')
c("C148","proved","C148_wrap_stream",'C120 for streams that read in full')
c("C149","proved","C149_disjoint C149_handoff C149_no_panic",'C123 for disjoint changes')
c("C150","proved","C150_windows",'C124 without slices kept over a Resize')
c("C151","proved","C151_sizes C151_ratio C151_recursive_input C151_decompress_bound",'C125 without the documented figure that is wrong')
c("C152","proved","C152_equivalence C152_same_is_stored_alike",'the part of C127 that holds')
c("C153","proved","C153_compress C153_recursive C153_decompress C153_same_input C153_deterministic C153_roundtrip C153_pieces C153_unread","the bufio.Reader of Go's standard library (NewReader, fill, ReadByte, UnreadByte) is modelled")
c("C154","proved","C154_create C154_open","for names in the root directory of the in-memory file system: deeper paths are not resolved by the code (C46)")
c("C155","proved","C155_compress C155_open_failure C155_decompress C155_to_bytes C155_roundtrip","DEFLATE stays abstract: what gzip.Writer hands down call by call and what gzip.Reader delivers are quantified, their inversion is a premise (gunzips) of the round trip only")
c("C156","proved","C156_start_up C156_lookup C156_malformed C156_table","encoding/csv, csvutil and strconv are modelled from their sources; every text is covered")
c("C157","proved","C157_not_writable C157_not_readable C157_only_reads C157_read C157_position C157_open","what a file opened for writing does with the written bytes is C33, C34, C52")
c("C158","partial","C158_array_partial C158_stored_refuted","REFUTED for the second half: the written bytes stay in the cache, Sync and Close make no call at all and report success; the first half is proved for calls that write before the last byte of the last block (growing writes: C33, C123) and with the write rule of the code (write_fits: a write that ends too far from the start of the file is refused)")
c("C159","partial","C159_chmod_partial C159_never_supported_refuted C159_chdir","REFUTED for Chmod and Chown: the wrapper around the handles hides the optional methods, so both always fail with ErrNotSupported; with handles passed through they are as claimed; Chdir is as claimed")
c("C160","proved","C160_listing","ReadDir panics for objects without ListDir (C109), which includes every object with the wrapper as it is; the theorem is about calls that return")
c("C161","partial","C161_difference C161_reference_refuted C161_formatted_partial C161_reference_marks","REFUTED: the result always differs from the reference image, in exactly twelve bytes: FormatImage reserves the FAT entries numbered like the directory track instead of those of its clusters; everything else is equal. The reference minifloppy reserves exactly the clusters of the directory track; the reference floppy those of the track behind it")
c("C162","partial","C162_always_empty_refuted C162_missing_refuted C162_root_error_refuted C162_file_refuted C162_decoded_refuted C162_entry_partial C162_directory_partial","REFUTED: the answer is always the empty one or an error: missing names and unreadable directories give an empty answer without an error, files give ErrNotADirectory, and no decoded entry is recognised as a directory (C81). True: any other answer would be the entry of that name")
c("C163","proved","C163_reads C163_updates C163_remove C163_parent","the entry Remove deletes is nevertheless never that of a file (C78)")
c("C164","partial","C164_reads_partial C164_changes_partial C164_any_volume C164_root_refuted","REFUTED for one call: a failure to list the root directory is taken for an empty entry. Every other failing call ends the operation with its own error, proved for every volume and failure")
c("C165","partial","C165_cache C165_stream C165_new C165_success C165_write_to C165_read_from_partial C165_read_from_refuted C165_recorded","REFUTED for the last write of ReadFrom, whose error gives way to the reader's end or error. Everything else is proved for every storage and failure; the cache reports a failed block with a message around the storage's error, so that even an io.EOF from the storage does not pass for the end of the stream")
c("C166","partial","C166_reported C166_success C166_create_partial C166_link_partial C166_write_file_partial C166_files C166_noted C166_link_refuted C166_write_file_refuted","REFUTED for two calls: Link takes any failure to look up the new name for its absence, and WriteFile drops the failure of the final flush. Proved for every other operation, implementation and failure, also with the wrapper repaired (modes of Props_Driver)")
c("C167","proved","C167_next_run C167_no_run C167_all_runs C167_from_reader","the model of GetNextRun over an arbitrary ByteScanner (Scanner.v); bufio.Reader is shown to be one")
c("C168","partial","C168_unread_refuted C168_deaf_refuted C168_reads_partial C168_reported_partial","REFUTED: the error of UnreadByte is dropped (rle_grouper.go:75), and with it the byte. Exactly: GetNextRun does the same whatever UnreadByte says, every ReadByte failure is reported, and with an UnreadByte that works nothing is hidden")
c("C169","partial","C169_short C169_panics_refuted C169_cut_partial C169_forty_partial","REFUTED: once 36 bytes have been read binary.Read panics on the unexported fields (C71). Proved for shorter inputs, and for all inputs with the fields exported")
c("C170","partial","C170_open_exactly C170_sane_opens_partial C170_impossible_panics_refuted C170_wraparound_refuted","REFUTED: a negative NumBlocks, or a product that is negative as an int64, makes blockcache.New panic, and products wrap around. C170_open_exactly says for all sizes which of panic, error and success it is; handles with consistent sizes always open")
c("C171","partial","C171_accepted C171_stored C171_nine_bytes_exactly C171_nine_bytes_refuted C171_shown C171_round_trip_refuted C171_entries C171_stat C171_ascii","REFUTED: the limits are in bytes but fmt pads characters, so the stored form has nine bytes exactly when all capitals are ASCII and more otherwise, and a name with an extension comes back with blanks before the extension. Stored form, its length and the name shown are given exactly for every UTF-8 name; acceptance and showing for any bytes. C171_ascii: for ASCII this is the model of C68, C69, C127")
c("C172","proved","C172_same_exactly C172_utf8 C172_equivalence","for every enumeration of the classes as package unicode documents SimpleFold")
c("C173","partial","C173_same_is_stored_alike_partial C173_not_stored_alike_refuted","REFUTED: characters of one class can have different capitals (k and the Kelvin sign); true for names whose characters have the same capitals and as many bytes (in particular ASCII, C152)")
c("C174","proved","C174_delivers C174_compress C174_image_roundtrip C174_read_all","sizes up to 2^63 - 4096 (2^63 minus the largest buffer for io.ReadAll); gzip is quantified over as in C155")
c("C175","partial","C175_delivers_exactly C175_eof_refuted C175_reported_partial C175_read_all C175_not_readable","REFUTED: the codecs ask errors.Is(err, io.EOF), and the cache wraps the storage's error with %w, so storage that fails with io.EOF (or an error that wraps it) ends the input: the first part is compressed and success is returned; exact for every storage; all other errors are reported, and io.ReadAll reports all")
c("C176","partial","C176_copy_partial C176_read_from_partial C176_not_writable_refuted C176_read_from_not_writable C176_half_refuted C176_short_refuted","REFUTED: WriteTo ignores what the writer returns, so io.Copy into a stream that is not open for writing copies nothing and reports success (C176_not_writable_refuted), and copying an image of N blocks over another one of N blocks copies only its first N/2 blocks, again with success (C176_half_refuted, with the exact result); ReadFrom drops the error of the last, short write (C176_short_refuted). True when everything lands in the first half of the destination's blocks (the two _partial theorems)")
c("C177","proved","C177_full C177_short C177_records C177_records_end C177_reported C177_boot","io.ReadFull is modelled from Go's source; C177_boot says, as C71 and C169, that the header makes the code panic (settable = false)")
c("C178","proved","C178_read C178_delivers C178_codecs C178_boot C178_failing_read C178_failing_delivers C178_no_silent_cut","io.SectionReader is modelled from Go's source; C178_boot says, as C71 and C169, that a complete header makes the code panic (settable = false)")
c("C179","partial","C179_restore_partial C179_whole_disk_refuted C179_not_writable C179_save_partial","REFUTED: an image that fills a stream to its last block can never be restored onto it (nor a compressed image saved there), on any storage and with any block size: the last Write is refused with ErrArgumentOutOfRange, as C33.  The error is reported.  Proved: no error means that the whole image is in place, bytes elsewhere never change, every failure is reported, and images that end in the first half of the blocks are restored")
c("C180","partial","C180_write_blocks_partial C180_flush_partial C180_file_cluster_refuted C180_mount_partial C180_format_refuted C180_read_refuted C180_write_cluster_refuted C180_mount_refuted","REFUTED: no error of reading is one of the library's, nor is that of FormatImage for a size no disk has, that of WriteAbsoluteCluster for a bad number or length, or that of Mount with a new driver on a good image; true for WriteDiskBlocks, for mounted drivers, for sizes that are not a number of blocks, and for images of another size or with different FATs. The theorems say for each refusal which it is")
c("C181","partial","C181_exact C181_std_refuted C181_kept_partial","REFUTED: the library's own errors are never connected with an error of the standard library (ErrNotFound is not fs.ErrNotExist). What it wraps stays recognisable; C181_exact decides every error made with errors.go. Errors from elsewhere are compared by address and have no Is method")
#NEXT
C.sort(key=lambda c:int(c["property"][1:]))
json.dump({"claims":C},open('/verif/MANIFEST.json','w'),indent=1)
