(** Specification of what Linux reads from a regular file: fs/ext4/extents.c ([ext4_ext_binsearch_idx], [ext4_ext_binsearch],
    [ext4_find_extent], [ext4_ext_map_blocks]).  Unlike the reader of md-recover, which walks through the tree from its
    first entry to its last, Linux looks each block up from the root. *)

From Verif Require Import Base SpecMd SpecExt4 SpecExt4Fs SpecExt4File SpecExt4Open SpecExt4Linux.

(** The binary search in a node, whose entries are in order: the last entry for blocks not after [p], or the first of all. *)
Definition chosen (es : list bytes) (p : N) (e : bytes) : Prop :=
  exists before after, es = before ++ e :: after /\ (uint_le e 0 4 <= p \/ before = []) /\ Forall (fun x => p < uint_le x 0 4) after.

Section Device.
  Context (c : bytes) (bs : N).

  (** [linux_finds b p r]: below the node [b], Linux finds for file block [p] the extent [r], or none. *)
  Inductive linux_finds : bytes -> N -> option bytes -> Prop :=
  | finds_extent b p e : node_depth b = 0 -> chosen (entries_of b) p e ->
      extent_first e <= p < extent_first e + extent_blocks e -> linux_finds b p (Some e)
  | finds_hole b p e : node_depth b = 0 -> chosen (entries_of b) p e ->
      ~ (extent_first e <= p < extent_first e + extent_blocks e) -> linux_finds b p None
  | finds_empty b p : node_depth b = 0 -> node_entries b = 0 -> linux_finds b p None
  | finds_below b p e r : node_depth b <> 0 -> chosen (entries_of b) p e ->
      linux_finds (device_block c bs (index_child e)) p r -> linux_finds b p r.

  (** Byte [o] of the file with this root: zero in a hole and in an unwritten extent, and otherwise from the device. *)
  Definition linux_byte (root : bytes) (o : N) (x : byte) : Prop :=
    exists r, linux_finds root (o / bs) r /\
      match r with
      | Some e => if extent_value e <=? 32768
                  then nth_N c ((extent_start e + (o / bs - extent_first e)) * bs + o mod bs) = Some x
                  else x = x00
      | None => x = x00
      end.

  (** Byte [o] lies in an extent that is allocated but not written. *)
  Definition in_unwritten (root : bytes) (o : N) : Prop := exists e, linux_finds root (o / bs) (Some e) /\ ~ extent_written e.

  (** The indexes of the tree refer to blocks that are [readable]. *)
  Definition nodes_readable (readable : N -> Prop) (root : bytes) : Prop :=
    forall b e, reachable c bs root b -> node_depth b <> 0 -> In e (entries_of b) -> readable (index_child e).
End Device.

(** Byte [o] of the file with inode number [number], on a device with content [c]. *)
Definition linux_file_byte (c : bytes) (number o : N) (x : byte) : Prop :=
  exists a, linux_inode_at c number a /\
    let slot := window c a (linux_inode_size (device_sb c)) in
    o < slot_size slot /\ linux_byte c (sb4_block_size (device_sb c)) (slot_root slot) o x.
