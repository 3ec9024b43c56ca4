(** Specification of what reading a file depends on: which parts of a device it uses, and when two devices agree on them. *)

From Verif Require Import Base SpecMd SpecExt4 SpecExt4Inode SpecExt4Fs SpecExt4File SpecExt4Open SpecExt4Walk.

(** Both devices have the [n] bytes from [o] on, with the same values, and both can be read there. *)
Definition alike (c : bytes) (bad : N -> Prop) (c' : bytes) (bad' : N -> Prop) (o n : N) : Prop :=
  o + n <= len c /\ o + n <= len c' /\ window c o n = window c' o n /\ forall q, o <= q < o + n -> ~ bad q /\ ~ bad' q.

(** The device blocks that the steps [l] of a tree name: those of its nodes below the root, and those of its data. *)
Definition named (l : list step) (q : N) : Prop := exists k, In (Child q k) l \/ In (Data q k) l.

(** The devices agree on all that inode [number] of the first one uses: the superblock, the group descriptors, the slot of
    the inode, and, if it has extents, the blocks that its tree names. *)
Record same_footprint (c : bytes) (bad : N -> Prop) (c' : bytes) (bad' : N -> Prop) (k number : N) : Prop := SameFootprint {
  sf_sb : alike c bad c' bad' 1024 1024;
  sf_table : alike c bad c' bad' (sb4_desc_offset (device_sb c) 0) (k * sb4_desc_size (device_sb c));
  sf_slot : alike c bad c' bad' (device_slot_offset c number) (sb4_inode_size (device_sb c));
  sf_blocks : let bs := sb4_block_size (device_sb c) in
    slot_by_extents (device_slot c number) = true ->
    exists l, walk c bs (slot_root (device_slot c number)) l /\ forall q, named l q -> alike c bad c' bad' (q * bs) bs
}.

(** Less than that: an inode of the one device and an inode of the other, wherever they are, are of the same type, have the
    same size and the same root of the tree, agree in the flags for extents, inline data and indexed directories, have the
    same seed for checksums, and the blocks that the tree names, of the same size on both, are alike.  The rest of the
    superblocks, descriptors and slots does not occur here: permissions, owners, times, links, all other flags. *)
Record same_file (c : bytes) (bad : N -> Prop) (number : N) (c' : bytes) (bad' : N -> Prop) (number' : N) : Prop := SameFile {
  sm_block_size : sb4_block_size (device_sb c') = sb4_block_size (device_sb c);
  sm_kind : slot_kind (device_slot c' number') = slot_kind (device_slot c number);
  sm_size : slot_size (device_slot c' number') = slot_size (device_slot c number);
  sm_root : slot_root (device_slot c' number') = slot_root (device_slot c number);
  sm_extents : slot_by_extents (device_slot c' number') = slot_by_extents (device_slot c number);
  sm_indexed : slot_indexed (device_slot c' number') = slot_indexed (device_slot c number);
  sm_seed : forall seed, inode_seed (device_sb c') number' (device_slot c' number') seed ->
                         inode_seed (device_sb c) number (device_slot c number) seed;
  sm_blocks : let bs := sb4_block_size (device_sb c) in
    slot_by_extents (device_slot c number) = true ->
    exists l, walk c bs (slot_root (device_slot c number)) l /\ forall q, named l q -> alike c bad c' bad' (q * bs) bs
}.
