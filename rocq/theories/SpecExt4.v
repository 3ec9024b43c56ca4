(** Specification of the ext4 on-disk format: the superblock.

    Offsets are those of [struct ext4_super_block] in the Linux header fs/ext4/ext4.h, as absolute numbers. *)

From Verif Require Import Base SpecMd SpecCrc.

(** ** The checksum of the superblock: CRC-32C from all ones over the first 1020 bytes, stored in the last four *)
Definition sb4_checksum_ok (st : bytes) : Prop :=
  is_crc 0xffffffff (bits_of (window st 0 1020)) (uint_le st 0x3fc 4).

(** ** When a superblock is acceptable *)

Definition sb4_bigalloc (st : bytes) : bool := has_bit (uint_le st 0x64 4) 9.
Definition sb4_log_block (st : bytes) : N := uint_le st 0x18 4.
Definition sb4_log_cluster (st : bytes) : N := uint_le st 0x1c 4.

Record sb4_acceptable (st : bytes) : Prop := Sb4Acceptable {
  sa_magic : uint_le st 0x38 2 = 0xef53;
  sa_block : sb4_log_block st <= 52;
  sa_cluster : sb4_log_cluster st <= 52;
  sa_same : sb4_bigalloc st = false ->
            sb4_log_cluster st = sb4_log_block st /\ uint_le st 0x24 4 = uint_le st 0x20 4;
  sa_errors : 1 <= uint_le st 0x3c 2 <= 3;
  sa_flex : uint_le st 0x174 1 <= 62;
  sa_checksum : uint_le st 0x175 1 = 0 \/ (uint_le st 0x175 1 = 1 /\ sb4_checksum_ok st)
}.

(** ** Strings: the bytes before the first zero byte, or all of them *)
Definition is_c_string (field s : bytes) : Prop :=
  ~ In x00 s /\ (field = s \/ exists rest, field = s ++ x00 :: rest).

(** ** The seed of all other metadata checksums: stored, or computed from the UUID, or absent *)
Definition sb4_seed (st : bytes) (seed : N) : Prop :=
  if has_bit (uint_le st 0x60 4) 13 then seed = uint_le st 0x270 4
  else if has_bit (uint_le st 0x64 4) 10 then is_crc 0xffffffff (bits_of (window st 0x68 16)) seed
  else seed = 0.
