(** Model of src/ext4/extent: extents, indexes and the nodes of extent trees. *)

From Coq Require Import Strings.String.
From Verif Require Import Base Superblock Crc Ext4Superblock Ext4Inode.

(** ** src/ext4/extent/extent.rs *)

(** 5-10. *)
Definition extent_layout : layout :=
  [("first_file_block_number", 4); ("length", 2); ("first_fs_block_number_high", 2); ("first_fs_block_number_low", 4)]%string.
(** 19-21. *)
Definition ex_first_file_block (e : bytes) : N := fle extent_layout "first_file_block_number" e.
(** 23-25. *)
Definition ex_initialized (e : bytes) : bool := negb (N.land (fle extent_layout "length" e) 0x8000 =? 0x8000).
(** 27-29. *)
Definition ex_length (e : bytes) : N := N.land (fle extent_layout "length" e) 0x7fff.
(** 31-36. *)
Definition ex_first_fs_block (e : bytes) : N :=
  from_low_high 32 (fle extent_layout "first_fs_block_number_low" e) (fle extent_layout "first_fs_block_number_high" e).

(** ** src/ext4/extent/index.rs *)

(** 5-10. *)
Definition index_layout : layout := [("block", 4); ("leaf_low", 4); ("leaf_high", 2); ("unused", 2)]%string.
(** 19-21. *)
Definition ix_block (e : bytes) : N := fle index_layout "block" e.
(** 23-28. *)
Definition ix_leaf (e : bytes) : N := from_low_high 32 (fle index_layout "leaf_low" e) (fle index_layout "leaf_high" e).

(** ** src/ext4/extent/header.rs 6-12 and tail.rs 3-5. *)
Definition header_layout : layout := [("magic", 2); ("entries", 2); ("max", 2); ("depth", 2); ("generation", 4)]%string.
Definition tail_layout : layout := [("checksum", 4)]%string.

(** ** src/ext4/extent/tree.rs *)

(** 175-179, [ExtentTreeInternal].  Its storage has 60 bytes or the size of a block; reading the header of a storage of
    less than 12 bytes would panic, here missing bytes count as zero. *)
Record node : Type := Node { nd_storage : bytes; nd_seed : option N }.

(** 236-250, 267-269. *)
Definition nd_entry_count (n : node) : N := fle header_layout "entries" (nd_storage n).
Definition nd_max_entries (n : node) : N := fle header_layout "max" (nd_storage n).
Definition nd_depth (n : node) : N := fle header_layout "depth" (nd_storage n).
Definition nd_generation (n : node) : N := fle header_layout "generation" (nd_storage n).
Definition nd_entries_size (n : node) : N := nd_entry_count n * layout_size index_layout.

(** 200-234.  [header_layout] is all of the fixed part, so the entries start at its size.  The view of the tail cannot
    be short. *)
Definition nd_valid (n : node) : res bool :=
  if len (nd_storage n) <? layout_size header_layout then Ok false
  else if negb (fle header_layout "magic" (nd_storage n) =? 0xf30a) then Ok false
  else
    let entries_size := nd_entries_size n in
    let tail_size := match nd_seed n with Some _ => layout_size tail_layout | None => 0 end in
    let? entries_and_tail := unwrap (slice_from (nd_storage n) (layout_size header_layout)) in
    if len entries_and_tail <? entries_size + tail_size then Ok false
    else
      match nd_seed n with
      | None => Ok true
      | Some seed =>
          let? covered := unwrap (slice_to (nd_storage n) (layout_size header_layout + entries_size)) in
          let? tail := unwrap (slice_from entries_and_tail entries_size) in
          Ok (fle tail_layout "checksum" tail =? ext4_crc32c seed covered)
      end.

(** 252-254; slices panic when the entries do not fit. *)
Definition nd_entries_storage (n : node) : res bytes :=
  let? entries_and_tail := unwrap (slice_from (nd_storage n) (layout_size header_layout)) in
  unwrap (slice_to entries_and_tail (nd_entries_size n)).

(** 81-90, [subtree_index_at], and 121-130, [extent_at]: the same, as both entries have 12 bytes. *)
Definition nd_entry_at (n : node) (pos : N) : res (option bytes) :=
  if pos <? nd_entry_count n then
    let? storage := nd_entries_storage n in
    let? rest := unwrap (slice_from storage (pos * layout_size index_layout)) in
    let? entry := unwrap (slice_to rest (layout_size index_layout)) in
    Ok (Some entry)
  else Ok None.

(** 12-16. *)
Inductive tree : Type := Branch (n : node) | Leaf (n : node).
(** 35-41. *)
Definition from_internal (n : node) : tree := if nd_depth n =? 0 then Leaf n else Branch n.
(** 19-27, 181-188. *)
Definition tree_from_inode (i : inode) : option tree :=
  if contains (in_flags i) flag_has_extents && negb (contains (in_flags i) flag_has_inline_data)
  then Some (from_internal (Node (in_blocks_buffer i) None))
  else None.
(** 31-33, 193-198. *)
Definition tree_from_block (i : inode) (block : bytes) : tree := from_internal (Node block (in_seed i)).
(** 43-55. *)
Definition tree_node (t : tree) : node := match t with Branch n => n | Leaf n => n end.
Definition tree_valid (t : tree) : res bool := nd_valid (tree_node t).
Definition tree_entry_count (t : tree) : N := nd_entry_count (tree_node t).

(** 145-168, [ExtentLeafIter]: one call of [next]; the new position and the item. *)
Definition leaf_iter_next (n : node) (pos : N) : res (N * option bytes) :=
  let? e := nd_entry_at n pos in
  match e with
  | Some entry => Ok (pos + 1, Some entry)
  | None => Ok (pos, None)
  end.
