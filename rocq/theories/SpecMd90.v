(** Specification: the checksum and the descriptors of a superblock of version 0.90 as md writes and reads them (Linux,
    drivers/md/md.c, [calc_sb_csum], [super_90_sync] and [super_90_validate]; include/uapi/linux/raid/md_p.h). *)

From Verif Require Import Base Superblock Device SpecMd.

(** ** The checksum *)

(** The sum of [n] words from word [i] on. *)
Fixpoint words_sum (e : endian) (st : bytes) (i : N) (n : nat) : N :=
  match n with O => 0 | S n => uint e st (4 * i) 4 + words_sum e st (i + 1) n end.

(** All 1024 words are added, the checksum (word 38) as 0, and the carry is added to the low 32 bits. *)
Definition csum90 (e : endian) (st : bytes) : N :=
  let s := words_sum e st 0 38 + words_sum e st 39 985 in (s mod 2 ^ 32 + s / 2 ^ 32) mod 2 ^ 32.
Definition csum90_ok (e : endian) (st : bytes) : Prop := uint e st 152 4 = csum90 e st.

(** ** What is used *)

(** The bytes of a superblock of version 0.90 that hold the magic number, the version, the identifier of the array, level,
    size, the numbers of devices, the event count, the reshape, layout, chunk size, the position ("raid_disk") in each of the
    27 descriptors, and the number in the descriptor of this device.  Not among them: the time stamps, the state, the other
    numbers of devices, the checksum (152), the checkpoint of a resync (164 to 175), and the state of each device in its
    descriptor. *)
Definition looked_at_90 (p : N) : Prop :=
  p < 12 \/ 20 <= p < 24 \/ 28 <= p < 44 \/ 52 <= p < 64 \/ 156 <= p < 164 \/ 176 <= p < 200 \/ 256 <= p < 264 \/
  (exists i, i < 27 /\ 512 + 128 * i + 12 <= p < 512 + 128 * i + 16) \/ 3968 <= p < 3972.

(** ** Descriptors *)

(** Words 3 and 4 of descriptor [i]: the position and the state (bit 0: faulty, 1: active, 2: in sync, 3: removed). *)
Definition d90_raid_disk (e : endian) (st : bytes) (i : N) : N := uint e st (512 + 128 * i + 12) 4.
Definition d90_state (e : endian) (st : bytes) (i : N) : N := uint e st (512 + 128 * i + 16) 4.
(** The number of the device itself, the number of devices, and the number of devices of a complete array. *)
Definition this_number (e : endian) (st : bytes) : N := uint e st 3968 4.
Definition nr_disks (e : endian) (st : bytes) : N := uint e st 36 4.
Definition raid_disks (e : endian) (st : bytes) : N := uint e st 40 4.

Definition in_sync (e : endian) (st : bytes) (i : N) : bool := negb (has_bit (d90_state e st i) 0) && has_bit (d90_state e st i) 2.

(** The place of the device in the array: that of its descriptor, if it is not faulty and in sync. *)
Definition md_place (e : endian) (st : bytes) : option N :=
  let n := this_number e st in if in_sync e st n then Some (d90_raid_disk e st n) else None.

(** How md fills in the descriptors: those of devices in sync, and of places that are vacant (state 9: faulty and removed), at
    their places; those of the [others] (spares, faulty devices, devices that are being rebuilt) behind them.  All have
    their own number for a position.  [nr_disks] is the number of devices that there are; vacant places are not counted. *)
Definition as_md_writes (e : endian) (st : bytes) : Prop :=
  exists others,
  raid_disks e st + others <= 27 /\ this_number e st < raid_disks e st + others /\
  (forall i, i < raid_disks e st + others -> d90_raid_disk e st i = i) /\
  (forall i, i < 27 -> in_sync e st i = true -> i < raid_disks e st) /\
  (forall i, i < raid_disks e st -> in_sync e st i = false -> d90_state e st i = 9) /\
  (this_number e st < raid_disks e st -> in_sync e st (this_number e st) = true) /\
  nr_disks e st = len (filter (in_sync e st) (map N.of_nat (seq 0 27))) + others.
(** No place is vacant. *)
Definition complete_90 (e : endian) (st : bytes) : Prop := forall i, i < raid_disks e st -> in_sync e st i = true.

(** The member [d] has the superblock [st]. *)
Definition has_sb90 {D} (d : md_device D) (e : endian) (st : bytes) : Prop :=
  len st = 4096 /\ v0_present e st /\ exists sb, v0_decode st = Ok sb /\ md_superblock d = DsSuperblock sb.
