(** Specification of what an inode slot says about its file, from the Linux header fs/ext4/ext4.h. *)

From Verif Require Import Base SpecMd SpecExt4 SpecExt4Inode SpecExt4Fs SpecExt4File.

(** The type of the file is in the upper four bits of the mode: 8 for a regular file, 4 for a directory. *)
Definition slot_kind (slot : bytes) : N := uint_le slot 0 2 / 4096.
Definition slot_size (slot : bytes) : N := uint_le slot 0x4 4 + 2 ^ 32 * uint_le slot 0x6c 4.
Definition slot_root (slot : bytes) : bytes := window slot 0x28 60.

(** Flags: EXT4_INDEX_FL, EXT4_EXTENTS_FL, EXT4_INLINE_DATA_FL. *)
Definition slot_indexed (slot : bytes) : bool := has_bit (uint_le slot 0x20 4) 12.
Definition slot_by_extents (slot : bytes) : bool := has_bit (uint_le slot 0x20 4) 19 && negb (has_bit (uint_le slot 0x20 4) 28).

(** The superblock of a device, and where it keeps inode [number]. *)
Definition device_sb (c : bytes) : bytes := window c 1024 1024.
Definition device_desc (c : bytes) (number : N) : bytes :=
  window c (sb4_desc_offset (device_sb c) (inode_group (device_sb c) number)) (sb4_desc_size (device_sb c)).
Definition device_slot_offset (c : bytes) (number : N) : N := inode_offset (device_sb c) (device_desc c number) number.
Definition device_slot (c : bytes) (number : N) : bytes := window c (device_slot_offset c number) (sb4_inode_size (device_sb c)).

(** A device with a file system that md-recover supports, with [k] groups, all of whose descriptors are on the device. *)
Definition device_supported (c : bytes) (k : N) : Prop :=
  2048 <= len c /\ u64_ok (len c) /\ sb4_acceptable (device_sb c) /\ sb4_supported (device_sb c) /\ sb4_group_count (device_sb c) k /\
  sb4_desc_offset (device_sb c) k <= len c /\ k * 60 <= i64_max.

(** Inode [number] exists on it, and its slot is well formed and on the device. *)
Definition device_inode (c : bytes) (k number : N) : Prop :=
  1 <= number <= sb4_inodes (device_sb c) /\ inode_group (device_sb c) number < k /\
  device_slot_offset c number + sb4_inode_size (device_sb c) <= len c /\
  inode_extra (device_slot c number) <= 32 /\ 128 + inode_extra (device_slot c number) <= sb4_inode_size (device_sb c).

(** Nothing that opening inode [number] looks at is among the positions [bad] at which reads may fail: the superblock, the
    group descriptors, the inode's slot. *)
Definition metadata_good (c : bytes) (bad : N -> Prop) (k number : N) : Prop :=
  forall q, 1024 <= q < 2048 \/ sb4_desc_offset (device_sb c) 0 <= q < sb4_desc_offset (device_sb c) k \/
    device_slot_offset c number <= q < device_slot_offset c number + sb4_inode_size (device_sb c) -> ~ bad q.

(** Block [q], of [bs] bytes, is on the device and can be read. *)
Definition block_good (c : bytes) (bad : N -> Prop) (bs q : N) : Prop :=
  (q + 1) * bs <= len c /\ forall p, q * bs <= p < (q + 1) * bs -> ~ bad p.
