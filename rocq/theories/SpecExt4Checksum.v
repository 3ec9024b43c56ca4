(** Specification of the checksums of group descriptors and inodes, for file systems with the feature metadata_csum:
    fs/ext4/super.c ([ext4_group_desc_csum]), fs/ext4/inode.c ([ext4_inode_csum]).  Those of extent blocks and directory
    blocks are in SpecExt4File.v and SpecExt4Dir.v. *)

From Verif Require Import Base SpecMd SpecCrc SpecExt4 SpecExt4Inode.

Definition metadata_csum (sb : bytes) : bool := has_bit (uint_le sb 0x64 4) 10.

(** The low half of the CRC-32C of the number of the group and the descriptor, its checksum being zero. *)
Definition group_checksum_ok (sb : bytes) (group : N) (desc : bytes) : Prop :=
  exists seed v, sb4_seed sb seed /\
    is_crc seed (bits_of (to_le 4 group ++ window desc 0 0x1e ++ zeros 2 ++ window desc 0x20 (len desc - 0x20))) v /\
    uint_le desc 0x1e 2 = v mod 2 ^ 16.

(** The CRC-32C of the slot, its checksum being zero; slots with less than four extra bytes have the low half only. *)
Definition inode_checksum_ok (sb : bytes) (number : N) (slot : bytes) : Prop :=
  let high := 4 <=? inode_extra slot in
  exists seed v, inode_seed sb number slot (Some seed) /\
    is_crc seed (bits_of (window slot 0 0x7c ++ zeros 2 ++ window slot 0x7e 4 ++ (if high then zeros 2 else window slot 0x82 2) ++
      window slot 0x84 (len slot - 0x84))) v /\
    uint_le slot 0x7c 2 = v mod 2 ^ 16 /\ (high = true -> uint_le slot 0x82 2 = v / 2 ^ 16).
