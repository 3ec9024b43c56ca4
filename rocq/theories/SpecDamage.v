(** Specification of damage to the members of an array: which sectors still are what md stored, and which are lost. *)

From Verif Require Import Base SpecRaid SpecMd SpecArray Array PropsArrayIo PropsExt4Array SpecExt4 SpecExt4Inode SpecExt4Fs SpecExt4File SpecExt4Open SpecExt4Walk
  SpecExt4Frame.

(** Slot [i] has, at sector [t] of its data, a sector [b]. *)
Definition slot_sector (C : contents) (i t : N) (b : bytes) : Prop :=
  exists ct bad, C i = Some (ct, bad) /\ sector_at ct t b.

(** In the row of sector [s] of the array, slot [i] has the sector that md stored there for the [image]; [q] are the Q
    sectors. *)
Definition as_stored (C : contents) (f : md_format) (l : layout6) (image : bytes) (q : N -> bytes) (s i : N) : Prop :=
  let n := mf_device_count f in let c := mf_chunk_size f in let t := member_sector s c (n - 2) in
  slot_sector C i t (stored l n c image q i t).

(** In every row at most one slot is not as md stored it.  About that slot nothing is said: it may be missing, too short, or
    hold anything; it may be a data slot or a parity slot, and it may be another one in every row. *)
Definition one_wrong (C : contents) (f : md_format) (l : layout6) (image : bytes) (q : N -> bytes) : Prop :=
  let n := mf_device_count f in
  len image = mf_sectors_per_device f * (n - 2) * 512 /\
  forall s, s < mf_sectors_per_device f * (n - 2) -> exists j, forall i, i < n -> i <> j -> as_stored C f l image q s i.

(** Slot [i] is right about the row of sector [s]: it is as stored, or it has a sector there and that is the Q sector of the
    row. *)
Definition right_about (C : contents) (f : md_format) (l : layout6) (image : bytes) (q : N -> bytes) (s i : N) : Prop :=
  let n := mf_device_count f in let c := mf_chunk_size f in
  as_stored C f l image q s i \/
  nth_N (row6 l n (stripe_of s c (n - 2))) i = Some Q /\ exists b, slot_sector C i (member_sector s c (n - 2)) b.

(** The row of sector [s] is whole: all slots are right about it, and none fails there. *)
Definition whole (C : contents) (f : md_format) (l : layout6) (image : bytes) (q : N -> bytes) (s : N) : Prop :=
  (forall i, i < mf_device_count f -> right_about C f l image q s i) /\ ~ row_bad C f s.
(** The byte at position [p] of the array is in a row that is not whole. *)
Definition damaged (C : contents) (f : md_format) (l : layout6) (image : bytes) (q : N -> bytes) (p : N) : Prop :=
  ~ whole C f l image q (p / 512).
(** All rows are whole that have a part of the [n] bytes from byte [o] of the array on. *)
Definition whole_range (C : contents) (f : md_format) (l : layout6) (image : bytes) (q : N -> bytes) (o n : N) : Prop :=
  o + n <= len image /\ forall p, o <= p < o + n -> whole C f l image q (p / 512).

(** All rows are whole that inode [number] uses: those of the superblock, the [k] group descriptors, the slot of the inode,
    and, if it has extents, the blocks that its tree names. *)
Record whole_footprint (C : contents) (f : md_format) (l : layout6) (image : bytes) (q : N -> bytes) (k number : N) : Prop := WholeFootprint {
  wf_sb : whole_range C f l image q 1024 1024;
  wf_table : whole_range C f l image q (sb4_desc_offset (device_sb image) 0) (k * sb4_desc_size (device_sb image));
  wf_slot : whole_range C f l image q (device_slot_offset image number) (sb4_inode_size (device_sb image));
  wf_blocks : let bs := sb4_block_size (device_sb image) in
    slot_by_extents (device_slot image number) = true ->
    exists t, walk image bs (slot_root (device_slot image number)) t /\ forall b, named t b -> whole_range C f l image q (b * bs) bs
}.
