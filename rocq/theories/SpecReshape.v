(** Specification of md's formats while an array is being reshaped (drivers/md/raid5.c, drivers/md/md.c of Linux).

    In the superblock of such an array, the number of devices is the new one: [raid_disks] is changed when the reshape
    starts (raid5_start_reshape), [delta_disks] is a signed 32-bit number, and the old number is [raid_disks - delta_disks]
    (setup_conf, previous_raid_disks).  Level, layout and chunk size are the old ones; the new ones stand beside the
    position that the reshape has reached. *)

From Verif Require Import Base Raid Superblock Device Array SpecArray SpecStale.

Definition delta_of (rs : reshape_status) : Z :=
  if rs_delta_devices rs <? 2 ^ 31 then Z.of_N (rs_delta_devices rs) else (Z.of_N (rs_delta_devices rs) - 2 ^ 32)%Z.
Definition old_count (sb : superblock) (rs : reshape_status) : Z := (Z.of_N (sb_device_count sb) - delta_of rs)%Z.

(** Sector [s] of the array is already in the new format (raid5_get_active_stripe and make_request: [previous]). *)
Definition moved (backwards : bool) (rs : reshape_status) (s : N) : Prop :=
  if backwards then rs_position rs <= s else s < rs_position rs.
(** An array that gets more devices is reshaped from its beginning, one that gets fewer from its end; otherwise it is either. *)
Definition direction_ok (backwards : bool) (rs : reshape_status) : Prop :=
  ((0 < delta_of rs)%Z -> backwards = false) /\ ((delta_of rs < 0)%Z -> backwards = true).

(** [f] is the format in which md keeps sector [s]. *)
Definition md_keeps (backwards : bool) (sb : superblock) (rs : reshape_status) (s : N) (f : md_format) : Prop :=
  moved backwards rs s /\ f = MdFormat (rs_algorithm rs) (sb_device_count sb) (sb_sectors_per_device sb) (rs_chunk_size rs) \/
  ~ moved backwards rs s /\ Z.of_N (mf_device_count f) = old_count sb rs /\
  f = MdFormat (sb_algorithm sb) (mf_device_count f) (sb_sectors_per_device sb) (sb_chunk_size sb).

(** Two superblocks state the same formats, old and new. *)
Definition same_statement (sb sb' : superblock) : Prop :=
  sb_algorithm sb = sb_algorithm sb' /\ sb_sectors_per_device sb = sb_sectors_per_device sb' /\ sb_chunk_size sb = sb_chunk_size sb' /\
  sb_device_count sb = sb_device_count sb' /\ same_target (sb_reshape sb) (sb_reshape sb').
