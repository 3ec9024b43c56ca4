(** Model of src/ext4/crc.rs and of the parts of the crc crate (version 3.4.0) that it uses. *)

From Verif Require Import Base.

(** [u32::reverse_bits] (width 32). *)
Fixpoint reverse_onto (n : nat) (v acc : N) : N :=
  match n with
  | O => acc
  | S n => reverse_onto n (N.div2 v) (N.b2n (N.odd v) + 2 * acc)
  end.
Definition reverse_bits (v : N) : N := reverse_onto 32 v 0.

(** crc crate, [CRC_32_ISCSI]: poly 0x1edc6f41, init 0xffffffff, refin and refout set.
    src/ext4/crc.rs 3-6 replaces xorout by 0. *)
Definition crc_poly : N := 0x1edc6f41.
Definition crc_xorout : N := 0.

(** src/ext4/crc.rs 8, [EXT4_CRC32C_INITIAL]. *)
Definition crc_initial : N := 0xffffffff.

(** crc crate, [util::crc32] with [reflect]: one bit, and the table entry of a byte. *)
Definition crc_bit (v : N) : N :=
  N.lxor (N.div2 v) (if N.odd v then reverse_bits crc_poly else 0).
Definition crc_table (i : N) : N := Nat.iter 8 crc_bit i.

(** crc crate, [crc32::update_table] (reflected, one table): one byte. *)
Definition crc_byte (crc : N) (b : byte) : N :=
  N.lxor (crc_table (N.land (N.lxor crc (bval b)) 0xff)) (N.shiftr crc 8).

(** crc crate, [crc32::init] with refin (the shift by 32 - width is 0), [Digest::update] and
    [crc32::finalize] with refin = refout. *)
Definition crc_init (initial : N) : N := reverse_bits initial.
Definition crc_update (crc : N) (bs : bytes) : N := fold_left crc_byte bs crc.
Definition crc_finalize (crc : N) : N := N.lxor crc crc_xorout.

(** src/ext4/crc.rs 10-14. *)
Definition ext4_crc32c (initial : N) (bs : bytes) : N :=
  crc_finalize (crc_update (crc_init (reverse_bits initial)) bs).
