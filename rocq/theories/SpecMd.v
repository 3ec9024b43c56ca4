(** Specification of the md on-disk superblock formats, independent of the model's layouts.

    Offsets are those of [struct mdp_superblock_1] and [struct mdp_superblock_s] in the Linux header
    include/uapi/linux/raid/md_p.h, written as absolute numbers. *)

From Verif Require Import Base Raid Superblock.

(** ** Numbers at absolute positions *)

Definition byte_val (st : bytes) (o : N) : N :=
  match nth_error st (N.to_nat o) with Some b => bval b | None => 0 end.

(** Little-endian: the byte at [o] is the least significant one. *)
Fixpoint uint_le (st : bytes) (o : N) (w : nat) : N :=
  match w with
  | O => 0
  | S w => byte_val st o + 256 * uint_le st (o + 1) w
  end.

(** Big-endian: the byte at [o + w - 1] is the least significant one. *)
Fixpoint uint_be (st : bytes) (o : N) (w : nat) : N :=
  match w with
  | O => 0
  | S w => 256 * uint_be st o w + byte_val st (o + N.of_nat w)
  end.

Definition uint (e : endian) : bytes -> N -> nat -> N := match e with Little => uint_le | Big => uint_be end.

Definition has_bit (flags bit : N) : bool := N.testbit flags bit.

(** ** Logical contents of a version 1 superblock *)

Record v1_contents : Type := V1 {
  c1_features : N; c1_uuid : bytes; c1_name : bytes; c1_level : N; c1_layout : N; c1_size : N; c1_chunk : N;
  c1_disks : N; c1_new_level : N; c1_position : N; c1_delta : N; c1_new_layout : N; c1_new_chunk : N;
  c1_new_offset : N; c1_data_offset : N; c1_dev_number : N; c1_events : N; c1_roles : list N
}.

Definition fits (w v : N) : Prop := v < 256 ^ w.

(** The values fit their fields, and the role table fits behind byte 256 of a 4096-byte superblock. *)
Definition v1_ok (c : v1_contents) : Prop :=
  fits 4 (c1_features c) /\ len (c1_uuid c) = 16 /\ len (c1_name c) = 32 /\ fits 4 (c1_level c) /\
  fits 4 (c1_layout c) /\ fits 8 (c1_size c) /\ fits 4 (c1_chunk c) /\ fits 4 (c1_disks c) /\
  fits 4 (c1_new_level c) /\ fits 8 (c1_position c) /\ fits 4 (c1_delta c) /\ fits 4 (c1_new_layout c) /\
  fits 4 (c1_new_chunk c) /\ fits 4 (c1_new_offset c) /\ fits 8 (c1_data_offset c) /\
  fits 4 (c1_dev_number c) /\ fits 8 (c1_events c) /\
  Forall (fits 2) (c1_roles c) /\ len (c1_roles c) <= 1920.

(** Which bytes a superblock with these contents has where; the other bytes are arbitrary. *)
Definition v1_bytes (c : v1_contents) : list (N * bytes) :=
  [(0, [xfc; x4e; x2b; xa9]); (4, [x01; x00; x00; x00]); (8, to_le 4 (c1_features c)); (16, c1_uuid c);
   (32, c1_name c); (72, to_le 4 (c1_level c)); (76, to_le 4 (c1_layout c)); (80, to_le 8 (c1_size c));
   (88, to_le 4 (c1_chunk c)); (92, to_le 4 (c1_disks c)); (100, to_le 4 (c1_new_level c));
   (104, to_le 8 (c1_position c)); (112, to_le 4 (c1_delta c)); (116, to_le 4 (c1_new_layout c));
   (120, to_le 4 (c1_new_chunk c)); (124, to_le 4 (c1_new_offset c)); (128, to_le 8 (c1_data_offset c));
   (160, to_le 4 (c1_dev_number c)); (200, to_le 8 (c1_events c)); (220, to_le 4 (len (c1_roles c)));
   (256, flat_map (to_le 2) (c1_roles c))].

(** [st] has the bytes [b] at position [o]. *)
Definition holds (st : bytes) (ob : N * bytes) : Prop :=
  let '(o, b) := ob in o + len b <= len st /\ forall i, i < len b -> nth_N st (o + i) = nth_N b i.

(** Overwrite bytes of an image. *)
Definition poke (st : bytes) (ob : N * bytes) : bytes :=
  let '(o, b) := ob in firstn (N.to_nat o) st ++ b ++ skipn (N.to_nat (o + len b)) st.

(** What the contents mean. *)
Definition v1_meaning (c : v1_contents) (minor : N) : superblock := {|
  sb_major := 1;
  sb_minor := minor;
  sb_uuid := UuidLong (c1_uuid c);
  sb_name := Some (c1_name c);
  sb_algorithm := from_level_and_layout (c1_level c) (c1_layout c);
  sb_sectors_per_device := c1_size c;
  sb_chunk_size := c1_chunk c;
  sb_device_count := c1_disks c;
  sb_reshape :=
    if has_bit (c1_features c) 2
    then Some (Reshape (from_level_and_layout (c1_new_level c) (c1_new_layout c)) (c1_position c) (c1_delta c)
                       (c1_new_chunk c) (c1_new_offset c))
    else None;
  sb_data_offset := c1_data_offset c;
  sb_role_index := c1_dev_number c;
  sb_event_count := c1_events c;
  sb_roles := c1_roles c
|}.

(** ** Logical contents of a version 0.90 superblock *)

Record v0_contents : Type := V0 {
  c0_minor : N; c0_uuid0 : N; c0_uuid1 : N; c0_uuid2 : N; c0_uuid3 : N; c0_level : N; c0_size : N;
  c0_nr_disks : N; c0_raid_disks : N; c0_events : N; c0_position : N; c0_new_level : N; c0_delta : N;
  c0_new_layout : N; c0_new_chunk : N; c0_layout : N; c0_chunk : N;
  c0_roles : list N;          (* the role ("raid_disk") words of the 27 descriptors *)
  c0_this_number : N          (* the number word of the descriptor of this disk *)
}.

Definition v0_ok (c : v0_contents) : Prop :=
  Forall (fits 4) [c0_minor c; c0_uuid0 c; c0_uuid1 c; c0_uuid2 c; c0_uuid3 c; c0_level c; c0_size c; c0_nr_disks c;
                   c0_raid_disks c; c0_new_level c; c0_delta c; c0_new_layout c; c0_new_chunk c; c0_layout c;
                   c0_chunk c; c0_this_number c] /\
  fits 8 (c0_events c) /\ fits 8 (c0_position c) /\ Forall (fits 4) (c0_roles c) /\ len (c0_roles c) = 27.

Definition enc (e : endian) (w : nat) (v : N) : bytes := match e with Little => to_le w v | Big => to_be w v end.

Definition word (n : N) : N := 4 * n.

(** By word number, as the header numbers them; descriptor [i] starts at word 128 + 32 i and its role is its word 3;
    the descriptor of this disk starts at word 992. *)
Definition v0_bytes (e : endian) (c : v0_contents) : list (N * bytes) :=
  [(word 0, enc e 4 0xa92b4efc); (word 1, enc e 4 0); (word 2, enc e 4 (c0_minor c));
   (word 5, enc e 4 (c0_uuid0 c)); (word 7, enc e 4 (c0_level c)); (word 8, enc e 4 (c0_size c));
   (word 9, enc e 4 (c0_nr_disks c)); (word 10, enc e 4 (c0_raid_disks c));
   (word 13, enc e 4 (c0_uuid1 c)); (word 14, enc e 4 (c0_uuid2 c)); (word 15, enc e 4 (c0_uuid3 c));
   (word 39, enc e 8 (c0_events c)); (word 44, enc e 8 (c0_position c)); (word 46, enc e 4 (c0_new_level c));
   (word 47, enc e 4 (c0_delta c)); (word 48, enc e 4 (c0_new_layout c)); (word 49, enc e 4 (c0_new_chunk c));
   (word 64, enc e 4 (c0_layout c)); (word 65, enc e 4 (c0_chunk c)); (word 992, enc e 4 (c0_this_number c))]
  ++ map (fun i => (word (128 + 32 * N.of_nat i + 3), enc e 4 (nth i (c0_roles c) 0))) (seq 0 27).

Definition v0_meaning (c : v0_contents) : superblock := {|
  sb_major := 0;
  sb_minor := c0_minor c;
  sb_uuid :=
    if c0_minor c <? 90 then UuidShort (to_le 4 (c0_uuid0 c))
    else UuidLong (to_le 4 (c0_uuid0 c) ++ to_le 4 (c0_uuid1 c) ++ to_le 4 (c0_uuid2 c) ++ to_le 4 (c0_uuid3 c));
  sb_name := None;
  sb_algorithm := from_level_and_layout (c0_level c) (c0_layout c);
  sb_sectors_per_device := c0_size c;
  sb_chunk_size := c0_chunk c;
  sb_device_count := c0_raid_disks c;
  sb_reshape := Some (Reshape (from_level_and_layout (c0_new_level c) (c0_new_layout c)) (c0_position c) (c0_delta c)
                              (c0_new_chunk c) 0);
  sb_data_offset := 0;
  sb_role_index := c0_this_number c;
  sb_event_count := c0_events c;
  sb_roles := firstn (N.to_nat (c0_nr_disks c)) (c0_roles c)
|}.

(** ** Which images count as superblocks *)

(** Magic number and major version. *)
Definition v1_present (st : bytes) : Prop := uint_le st 0 4 = 0xa92b4efc /\ uint_le st 4 4 = 1.

(** Magic number, major version, and no reserved role among the listed descriptors (at most 27; descriptor [i] is at
    byte 512 + 128 i and its role at byte 12 in it).  The code counts 0xfeff as reserved here, see C22. *)
Definition v0_present (e : endian) (st : bytes) : Prop :=
  uint e st 0 4 = 0xa92b4efc /\ uint e st 4 4 = 0 /\
  forall i, i < uint e st 36 4 -> i < 27 -> ~ (0xfeff <= uint e st (512 + 128 * i + 12) 4 < 0xfffd).

(** ** Role codes *)

Inductive role_meaning : Type := RolePosition (n : N) | RoleSpare | RoleFaulty | RoleJournal | RoleReserved.

(** MD_DISK_ROLE_MAX = 0xfeff is the largest position, _JOURNAL = 0xfffd, _FAULTY = 0xfffe, _SPARE = 0xffff; codes in
    between are reserved. *)
Definition role_spec (r : N) : role_meaning :=
  if r <=? 0xfeff then RolePosition r
  else if r =? 0xffff then RoleSpare
  else if r =? 0xfffe then RoleFaulty
  else if r =? 0xfffd then RoleJournal
  else RoleReserved.
