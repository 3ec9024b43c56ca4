(** Specification of where Linux finds group descriptors and inodes: fs/ext4/super.c ([ext4_bg_has_super], [descriptor_loc],
    the geometry computed when mounting), fs/ext4/inode.c ([__ext4_get_inode_loc]). *)

From Verif Require Import Base SpecMd SpecExt4 SpecExt4Fs.

(** ** Features *)
Definition linux_64bit (sb : bytes) : bool := has_bit (uint_le sb 0x60 4) 7.
Definition linux_meta_bg (sb : bytes) : bool := has_bit (uint_le sb 0x60 4) 4.
Definition linux_sparse_super (sb : bytes) : bool := has_bit (uint_le sb 0x64 4) 0.
Definition linux_sparse_super2 (sb : bytes) : bool := has_bit (uint_le sb 0x5c 4) 9.

(** ** Sizes.  The size of descriptors counts only with the feature 64bit, the size of inodes only from revision 1 on. *)
Definition linux_desc_size (sb : bytes) : N := if linux_64bit sb then sb4_desc_size sb else 32.
Definition linux_inode_size (sb : bytes) : N := if uint_le sb 0x4c 4 =? 0 then 128 else sb4_inode_size sb.
Definition linux_first_data (sb : bytes) : N := uint_le sb 0x14 4.

(** [k] groups are just enough for all blocks from the first data block on. *)
Definition linux_group_count (sb : bytes) (k : N) : Prop :=
  let blocks := sb4_blocks sb - linux_first_data sb in
  blocks <= k * sb4_blocks_per_group sb /\ (k = 0 \/ (k - 1) * sb4_blocks_per_group sb < blocks).

(** ** Descriptors *)

(** Groups with a copy of the superblock in front of their descriptors. *)
Definition linux_backup (sb : bytes) (g : N) : Prop :=
  g = 0 \/
  if linux_sparse_super2 sb then g = uint_le sb 0x24c 4 \/ g = uint_le sb 0x250 4
  else g = 1 \/ linux_sparse_super sb = false \/ exists b n, In b [3; 5; 7] /\ g = b ^ n.

(** The block with byte 1024, which has the superblock. *)
Definition linux_sb_block (sb : bytes) : N := 1024 / sb4_block_size sb.

Definition linux_desc_per_block (sb : bytes) : N := sb4_block_size sb / linux_desc_size sb.

(** Block [blk] has the [nr]th part of the table. *)
Definition linux_desc_block (sb : bytes) (nr blk : N) : Prop :=
  if linux_meta_bg sb && (uint_le sb 0x104 4 <=? nr) then
    let g := linux_desc_per_block sb * nr in
    exists h, (linux_backup sb g /\ h = 1 \/ ~ linux_backup sb g /\ h = 0) /\
      blk = linux_first_data sb + g * sb4_blocks_per_group sb + h +
        (if (sb4_block_size sb =? 1024) && (nr =? 0) && (linux_first_data sb =? 0) then 1 else 0)
  else blk = linux_sb_block sb + nr + 1.

(** The descriptor of group [i] starts at byte [o]. *)
Definition linux_desc_at (sb : bytes) (i o : N) : Prop :=
  exists blk, linux_desc_block sb (i / linux_desc_per_block sb) blk /\
    o = blk * sb4_block_size sb + (i mod linux_desc_per_block sb) * linux_desc_size sb.

(** ** Inodes *)

(** First block of the inode table; the upper half exists only in descriptors of 64 bytes or more. *)
Definition linux_inode_table (sb desc : bytes) : N :=
  uint_le desc 0x8 4 + (if 64 <=? linux_desc_size sb then 2 ^ 32 * uint_le desc 0x28 4 else 0).

(** On a device with content [c], inode [n] starts at byte [o]. *)
Definition linux_inode_at (c : bytes) (n o : N) : Prop :=
  let sb := window c 1024 1024 in
  let per_block := sb4_block_size sb / linux_inode_size sb in
  let i := (n - 1) mod sb4_inodes_per_group sb in
  exists d, linux_desc_at sb ((n - 1) / sb4_inodes_per_group sb) d /\
    o = (linux_inode_table sb (window c d (linux_desc_size sb)) + i / per_block) * sb4_block_size sb + (i mod per_block) * linux_inode_size sb.

(** ** The usual geometry: what mke2fs makes of the default features of ext4 *)
Record linux_usual (sb : bytes) : Prop := LinuxUsual {
  lu_64bit : linux_64bit sb = true;
  lu_plain : linux_meta_bg sb = false;
  lu_desc : exists m, 0 < m /\ sb4_block_size sb = m * sb4_desc_size sb;
  lu_desc_64 : 64 <= sb4_desc_size sb;
  lu_first : linux_first_data sb = linux_sb_block sb;
  lu_inode : exists m, 0 < m /\ sb4_block_size sb = m * sb4_inode_size sb;
  lu_revision : uint_le sb 0x4c 4 <> 0 \/ sb4_inode_size sb = 128;
  lu_inodes : exists k, linux_group_count sb k /\ sb4_inodes sb = k * sb4_inodes_per_group sb
}.
