(** Specification of an ext4 file system as a whole: where things are. *)

From Verif Require Import Base SpecMd SpecExt4.

(** ** What the superblock says *)
Definition sb4_block_size (sb : bytes) : N := 2 ^ (10 + sb4_log_block sb).
Definition sb4_blocks (sb : bytes) : N := uint_le sb 0x4 4 + 2 ^ 32 * uint_le sb 0x150 4.
Definition sb4_blocks_per_group (sb : bytes) : N := uint_le sb 0x20 4.
Definition sb4_inodes (sb : bytes) : N := uint_le sb 0x0 4.
Definition sb4_inodes_per_group (sb : bytes) : N := uint_le sb 0x28 4.
Definition sb4_inode_size (sb : bytes) : N := uint_le sb 0x58 2.
Definition sb4_desc_size (sb : bytes) : N := uint_le sb 0xfe 2.

(** The incompatible features that md-recover knows by name, as bit numbers. *)
Definition sb4_known_features : list N := [0; 1; 2; 3; 4; 6; 7; 8; 9; 10; 12; 13; 14; 15; 16].

(** A file system that can be read: written by Linux, with extents, no unknown incompatible feature, no zero size. *)
Record sb4_supported (sb : bytes) : Prop := Sb4Supported {
  su_bpg : sb4_blocks_per_group sb <> 0;
  su_desc : sb4_desc_size sb <> 0;
  su_ipg : sb4_inodes_per_group sb <> 0;
  su_linux : uint_le sb 0x48 4 = 0;
  su_extents : has_bit (uint_le sb 0x60 4) 6 = true;
  su_known : forall k, has_bit (uint_le sb 0x60 4) k = true -> In k sb4_known_features
}.

(** [k] groups are just enough for all blocks. *)
Definition sb4_group_count (sb : bytes) (k : N) : Prop :=
  sb4_blocks sb <= k * sb4_blocks_per_group sb /\ (k = 0 \/ (k - 1) * sb4_blocks_per_group sb < sb4_blocks sb).

(** The table of group descriptors starts in the block behind the one of the superblock. *)
Definition sb4_desc_offset (sb : bytes) (i : N) : N :=
  (uint_le sb 0x14 4 + 1) * sb4_block_size sb + i * sb4_desc_size sb.

(** ** Inodes: the slot of an inode within the table of its group *)
Definition inode_group (sb : bytes) (number : N) : N := (number - 1) / sb4_inodes_per_group sb.
Definition inode_index (sb : bytes) (number : N) : N := (number - 1) mod sb4_inodes_per_group sb.
(** First block of the inode table, from a descriptor as stored. *)
Definition desc_inode_table (desc : bytes) : N := uint_le desc 0x8 4 + 2 ^ 32 * uint_le desc 0x28 4.
Definition inode_offset (sb desc : bytes) (number : N) : N :=
  desc_inode_table desc * sb4_block_size sb + inode_index sb number * sb4_inode_size sb.

(** ** An opened file system over a device with content [c]: its superblock is the one on the device, and its [i]th
    descriptor has the fields of the [i]th one on the device. *)
Record opened (c sb : bytes) (groups : list bytes) : Prop := Opened {
  op_sb : sb = window c 1024 1024;
  op_len : 2048 <= len c;
  op_acceptable : sb4_acceptable sb;
  op_supported : sb4_supported sb;
  op_count : sb4_group_count sb (len groups);
  op_table : len groups <> 0 -> sb4_desc_offset sb (len groups) <= len c;
  op_group : forall i g, nth_N groups i = Some g ->
    forall o w, o + N.of_nat w <= 60 -> uint_le g o w = uint_le (window c (sb4_desc_offset sb i) (sb4_desc_size sb)) o w
}.
