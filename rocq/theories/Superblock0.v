(** Model of the fields of [SuperblockVersion0] (src/md/superblock/version_0/superblock.rs 13-47) that are decoded but that no
    accessor uses; the others are in Superblock.v. *)

From Coq Require Import Strings.String.
From Verif Require Import Base Superblock.

Record sb0_rest : Type := Sb0Rest {
  s0_patch : N; s0_gvalid_words : N; s0_ctime : N; s0_md_minor : N; s0_not_persistent : N; s0_utime : N; s0_state : N;
  s0_active : N; s0_working : N; s0_failed : N; s0_spare : N; s0_checksum : N; s0_checkpoint_events : N;
  s0_recovery_checkpoint : N; s0_root_pv : N; s0_root_block : N
}.

(** {little,big}_endian/superblock.rs 49-97, [From<View<S>>]. *)
Definition v0_rest (e : endian) (st : bytes) : sb0_rest :=
  let f n := fval e v0_layout n st in
  {| s0_patch := f "patch_version"%string; s0_gvalid_words := f "gvalid_words"%string; s0_ctime := f "ctime"%string;
     s0_md_minor := f "md_minor"%string; s0_not_persistent := f "not_persistent"%string; s0_utime := f "utime"%string;
     s0_state := f "state"%string; s0_active := f "active_device_count"%string; s0_working := f "working_device_count"%string;
     s0_failed := f "failed_device_count"%string; s0_spare := f "spare_device_count"%string;
     s0_checksum := f "superblock_checksum"%string; s0_checkpoint_events := f "checkpoint_event_count"%string;
     s0_recovery_checkpoint := f "recovery_checkpoint"%string; s0_root_pv := f "root_pv"%string;
     s0_root_block := f "root_block"%string |}.
