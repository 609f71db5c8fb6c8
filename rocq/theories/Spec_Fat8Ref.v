(** * Spec_Fat8Ref: the reference images shipped with the FAT8 driver,
    file_systems/fat8/testdata/empty-floppy.img and empty-minifloppy.img.

    The images are described by their runs of equal bytes; tools/check_reference.py compares the descriptions with
    the files, byte for byte. *)
From Verif Require Import GoBase.

(* [sectors] sectors of 128 bytes, all zero except for: the directory entries from sector [dir] on, all 0xff; the
   information sector [info], all zero; and behind it three FATs of [spf] sectors, 0xff but for two entries 0xfe, the
   first of them entry [mark] *)
Definition one_fat (spf mark : Z) : list Z := zrepeat 255 mark ++ [254; 254] ++ zrepeat 255 (128 * spf - mark - 2).
Definition blank_image (sectors dir info spf mark : Z) : list Z :=
  zrepeat 0 (128 * dir) ++ zrepeat 255 (128 * (info - dir)) ++ zrepeat 0 128 ++
  one_fat spf mark ++ one_fat spf mark ++ one_fat spf mark ++ zrepeat 0 (128 * (sectors - info - 1 - 3 * spf)).
Definition empty_floppy_img : list Z := blank_image 2002 884 903 2 70.
Definition empty_minifloppy_img : list Z := blank_image 640 272 284 1 34.
(* the tests format an image of so many sectors and expect this file (formattingdriver_test.go:103-109) *)
Inductive reference : Z -> list Z -> Prop :=
| ref_floppy : reference 2002 empty_floppy_img
| ref_minifloppy : reference 640 empty_minifloppy_img.
