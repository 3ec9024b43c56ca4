(** Specification of ext4 group descriptors, inodes, timestamps and file modes.

    Offsets are those of [struct ext4_group_desc] and [struct ext4_inode] in the Linux header fs/ext4/ext4.h. *)

From Verif Require Import Base SpecMd SpecCrc SpecExt4.

(** ** Inodes

    An inode slot has 128 bytes, and behind these, if it is larger, as many as its field at 128 says.  Fields that lie
    beyond count as zero: [uint_le] gives zero for missing bytes. *)
Definition inode_extra (slot : bytes) : N := if 130 <? len slot then uint_le slot 128 2 else 0.
Definition inode_visible (slot : bytes) : bytes := window slot 0 (128 + inode_extra slot).

(** Seed of the checksums of everything that belongs to an inode: CRC-32C of its number and generation, from the seed
    of the file system; there is none without the feature metadata_csum. *)
Definition inode_seed (sb : bytes) (number : N) (slot : bytes) (seed : option N) : Prop :=
  if has_bit (uint_le sb 0x64 4) 10
  then exists s v, seed = Some v /\ sb4_seed sb s /\ is_crc s (bits_of (to_le 4 number ++ window slot 100 4)) v
  else seed = None.

(** ** Timestamps: seconds since 1970 and nanoseconds *)

(** The low 32 bits of the seconds; the number of 2^32 second periods since 1901-12-13, and the nanoseconds. *)
Definition time_base (sec : Z) : N := Z.to_N (sec mod 2 ^ 32).
Definition time_extra (sec nsec : Z) : N := Z.to_N ((sec + 2 ^ 31) / 2 ^ 32 + 4 * nsec).
Definition time_nanos (sec nsec : Z) : Z := (sec * 10 ^ 9 + nsec)%Z.

(** ** File types as numbered in inodes and in directory entries *)
Definition file_type_codes : list (N * N) := [(8, 1); (4, 2); (2, 3); (6, 4); (1, 5); (12, 6); (10, 7)].
