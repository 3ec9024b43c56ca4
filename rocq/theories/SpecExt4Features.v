(** Specification of the features of a file system and of the flags of files, from the Linux header fs/ext4/ext4.h; of the
    journal, from include/linux/jbd2.h. *)

From Verif Require Import Base SpecMd SpecExt4 SpecExt4Fs SpecExt4File SpecExt4Open SpecExt4Walk SpecExt4Frame.

(** ** Incompatible features: EXT4_FEATURE_INCOMPAT_SUPP, as bit numbers.  Linux mounts nothing that has another one. *)
Definition linux_incompat : list N := [1; 2; 4; 6; 7; 8; 9; 10; 13; 14; 15; 16; 17].
(** EXT4_FEATURE_INCOMPAT_COMPRESSION, _JOURNAL_DEV and _DIRDATA, and _CASEFOLD. *)
Definition not_in_linux : list N := [0; 3; 12].
Definition casefold : N := 17.

(** ** EXT4_ENCRYPT_FL: the content of the file is encrypted. *)
Definition slot_encrypted (slot : bytes) : bool := has_bit (uint_le slot 0x20 4) 11.

(** ** The journal

    [writes] to blocks of [bs] bytes, in order. *)
Definition replayed (bs : N) (c : bytes) (writes : list (N * bytes)) : bytes :=
  fold_left (fun c '(q, b) => poke c (q * bs, b)) writes c.

(** EXT4_FEATURE_INCOMPAT_RECOVER: the journal has writes that are to be made before the file system is used. *)
Definition needs_recovery (sb : bytes) : bool := has_bit (uint_le sb 0x60 4) 2.

Definition uint_be (b : bytes) (o : N) (w : nat) : N := uint_le (rev (window b o (N.of_nat w))) 0 w.

(** Header of the blocks that are not data: magic number, type, number of the transaction. *)
Definition jbd_magic : N := 0xc03b3998.
Definition jbd_header (b : bytes) (type seq : N) : bool :=
  (uint_be b 0 4 =? jbd_magic) && (uint_be b 4 4 =? type) && (uint_be b 8 4 =? seq).

(** Tags of a descriptor block from offset [o] on: the block that is written, and whether its magic number was taken out;
    all but the first one without UUID.  (Without the features for 64 bits and for checksums.) *)
Fixpoint jbd_tags (n : nat) (b : bytes) (o : N) : list (N * bool) :=
  match n with
  | O => []
  | S n =>
      let flags := uint_be b (o + 6) 2 in
      (uint_be b o 4, has_bit flags 0) ::
      if has_bit flags 3 then [] else jbd_tags n b (o + (if has_bit flags 1 then 8 else 24))
  end.

(** The writes of the committed transactions from number [seq] on: a descriptor block, the blocks of its tags, and so on
    until the commit block.  (Without revoke records.) *)
Fixpoint jbd_writes (log : list bytes) (seq : N) (todo : list (N * bool)) (pending : list (N * bytes)) : list (N * bytes) :=
  match log with
  | [] => []
  | b :: log =>
      match todo with
      | (q, escaped) :: todo =>
          let b := if escaped then [xc0; x3b; x39; x98] ++ skipn 4 b else b in
          jbd_writes log seq todo (pending ++ [(q, b)])
      | [] =>
          if jbd_header b 1 seq then jbd_writes log seq (jbd_tags (length b) b 12) pending
          else if jbd_header b 2 seq then pending ++ jbd_writes log (seq + 1) [] []
          else []
      end
  end.

(** The journal, as the list of its blocks: its superblock says where the log starts, and with which transaction; it is a
    ring of the blocks from the first one on. *)
Definition journal_writes (blocks : list bytes) : list (N * bytes) :=
  let sb := hd [] blocks in
  let first := uint_be sb 0x14 4 in
  let start := uint_be sb 0x1c 4 in
  if start =? 0 then []
  else jbd_writes (skipn (N.to_nat start) blocks ++ window blocks first (start - first)) (uint_be sb 0x18 4) [] [].

(** The writes touch none of the [n] bytes from [o] on. *)
Definition untouched (bs : N) (writes : list (N * bytes)) (o n : N) : Prop :=
  Forall (fun '(q, _) => o + n <= q * bs \/ (q + 1) * bs <= o) writes.

(** All that inode [number] uses can be read, and the writes do not touch it. *)
Record kept (c : bytes) (bad : N -> Prop) (writes : list (N * bytes)) (k number : N) : Prop := Kept {
  kp_good : metadata_good c bad k number;
  kp_sb : untouched (sb4_block_size (device_sb c)) writes 1024 1024;
  kp_table : untouched (sb4_block_size (device_sb c)) writes (sb4_desc_offset (device_sb c) 0) (k * sb4_desc_size (device_sb c));
  kp_slot : untouched (sb4_block_size (device_sb c)) writes (device_slot_offset c number) (sb4_inode_size (device_sb c));
  kp_blocks : let bs := sb4_block_size (device_sb c) in
    slot_by_extents (device_slot c number) = true ->
    exists l, walk c bs (slot_root (device_slot c number)) l /\ forall q, named l q -> block_good c bad bs q /\ ~ In q (map fst writes)
}.
