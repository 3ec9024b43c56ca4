(** Specification of extent trees and file contents, from the Linux headers fs/ext4/ext4_extents.h. *)

From Verif Require Import Base SpecMd SpecCrc.

(** ** Nodes: a header of 12 bytes and entries of 12 bytes *)
Definition node_entries (b : bytes) : N := uint_le b 2 2.
Definition node_max (b : bytes) : N := uint_le b 4 2.
Definition node_depth (b : bytes) : N := uint_le b 6 2.
Definition node_entry (b : bytes) (i : N) : bytes := window b (12 + 12 * i) 12.
(** All entries lie within the node. *)
Definition node_fits (b : bytes) : Prop := 12 + 12 * node_entries b <= len b.

(** ** Extents: the first file block, a length, and the first device block in 48 bits.

    A length of up to 32768 ([EXT_INIT_MAX_LEN]) is that of an initialised extent; a larger one stands for an unwritten
    extent, with 32768 added to its length. *)
Definition extent_first (e : bytes) : N := uint_le e 0 4.
Definition extent_value (e : bytes) : N := uint_le e 4 2.
Definition extent_start (e : bytes) : N := uint_le e 8 4 + 2 ^ 32 * uint_le e 6 2.
Definition extent_written (e : bytes) : Prop := extent_value e <= 32768.
Definition extent_blocks (e : bytes) : N := if extent_value e <=? 32768 then extent_value e else extent_value e - 32768.

(** ** Indexes: the first file block below, and the device block of the node in 48 bits *)
Definition index_first (e : bytes) : N := uint_le e 0 4.
Definition index_child (e : bytes) : N := uint_le e 4 4 + 2 ^ 32 * uint_le e 8 2.

(** ** Verification: magic number, and the checksum behind the last possible entry, over all before it *)
Definition extent_block_ok (seed : option N) (b : bytes) : Prop :=
  uint_le b 0 2 = 0xf30a /\ node_entries b <= node_max b /\
  match seed with
  | None => 12 + 12 * node_max b <= len b
  | Some s => 12 + 12 * node_max b + 4 <= len b /\
              is_crc s (bits_of (window b 0 (12 + 12 * node_max b))) (uint_le b (12 + 12 * node_max b) 4)
  end.

(** ** Trees on a device with content [c] and blocks of [bs] bytes *)
Section Device.
  Context (c : bytes) (bs : N).

  Definition device_block (n : N) : bytes := window c (n * bs) bs.

  (** [child a b]: some index of node [b] refers to node [a]. *)
  Definition child (a b : bytes) : Prop :=
    node_depth b <> 0 /\ exists i, i < node_entries b /\ a = device_block (index_child (node_entry b i)).

  (** Nodes that can be reached from the root. *)
  Inductive reachable (root : bytes) : bytes -> Prop :=
  | reach_root : reachable root root
  | reach_child a b : reachable root b -> child a b -> reachable root a.

  (** Some extent reachable from the root maps file block [p] to device block [q]; whether it is written or not. *)
  Definition mapped (root : bytes) (p q : N) : Prop :=
    exists b i, reachable root b /\ node_depth b = 0 /\ i < node_entries b /\
      let e := node_entry b i in
      extent_first e <= p /\ p < extent_first e + extent_blocks e /\ q = extent_start e + (p - extent_first e).

  (** Likewise, by an extent that is written. *)
  Definition mapped_written (root : bytes) (p q : N) : Prop :=
    exists b i, reachable root b /\ node_depth b = 0 /\ i < node_entries b /\
      let e := node_entry b i in
      extent_written e /\
      extent_first e <= p /\ p < extent_first e + extent_blocks e /\ q = extent_start e + (p - extent_first e).

  (** Extents of at most [limit] blocks; ext4 has 32768.  The nodes of the tree are in blocks that are [readable]. *)
  Context (limit : N) (readable : N -> Prop).

  (** [extents_map es p l]: the extents [es] map the file blocks from [p] on, without gap, to the device blocks [l]. *)
  Fixpoint extents_map (es : list bytes) (p : N) (l : list N) : Prop :=
    match es with
    | [] => l = []
    | e :: es =>
        extent_first e = p /\ extent_written e /\ extent_blocks e <= limit /\
        exists l', l = map (fun j => extent_start e + N.of_nat j) (seq 0 (N.to_nat (extent_blocks e))) ++ l' /\
                   extents_map es (p + extent_blocks e) l'
    end.

  Definition entries_of (b : bytes) : list bytes :=
    map (fun i => node_entry b (N.of_nat i)) (seq 0 (N.to_nat (node_entries b))).

  (** [maps b p l]: the tree below node [b] maps the file blocks from [p] on, without gap, to the device blocks [l]. *)
  Inductive maps : bytes -> N -> list N -> Prop :=
  | maps_leaf b p l : node_fits b -> node_depth b = 0 -> extents_map (entries_of b) p l -> maps b p l
  | maps_branch b p l : node_fits b -> node_depth b <> 0 -> children_map (entries_of b) p l -> maps b p l
  with children_map : list bytes -> N -> list N -> Prop :=
  | children_nil p : children_map [] p []
  | children_cons e es p l l' :
      index_first e = p -> readable (index_child e) ->
      maps (device_block (index_child e)) p l -> children_map es (p + len l) l' ->
      children_map (e :: es) p (l ++ l').
End Device.

(** ** What a reader of a file may answer, call by call

    [answers c bs root size n t calls]: [n] blocks with [t] bytes have been returned before.  A call is the buffer, the
    buffer afterwards, and the result.  A block is returned only if an extent maps it as the next one of the file; the end
    of the file is reported only after all of its bytes; a panic, which ends the history, needs a node whose entries do
    not fit into it, or 2^32 blocks. *)
Inductive answers (c : bytes) (bs : N) (root : bytes) (size : N) : N -> N -> list (bytes * bytes * res N) -> Prop :=
| answers_nil n t : answers c bs root size n t []
| answers_block n t q buf buf' k calls :
    mapped c bs root n q -> bs <= len buf -> q * bs + len buf <= len c -> buf' = window c (q * bs) (len buf) ->
    t < size -> k = N.min bs (size - t) ->
    answers c bs root size (n + 1) (t + k) calls -> answers c bs root size n t ((buf, buf', Ok k) :: calls)
| answers_end n t buf calls :
    t = size -> answers c bs root size n t calls -> answers c bs root size n t ((buf, buf, Ok 0) :: calls)
| answers_error n t buf buf' e calls :
    len buf' = len buf -> answers c bs root size n t calls -> answers c bs root size n t ((buf, buf', Err e) :: calls)
| answers_panic n t buf buf' :
    (exists b, reachable c bs root b /\ ~ node_fits b) \/ n = u32_max ->
    answers c bs root size n t [(buf, buf', Panic)].

(** ** What reading a whole file gives: its blocks in order, the last one cut to the size, and then nothing, for ever *)
Fixpoint file_calls (c : bytes) (bs size : N) (l : list N) (t : N) (bufs : list bytes) : list (bytes * bytes * res N) :=
  match bufs, l with
  | [], _ => []
  | buf :: bufs, [] => (buf, buf, Ok 0) :: file_calls c bs size [] t bufs
  | buf :: bufs, q :: l =>
      let k := N.min bs (size - t) in
      (buf, device_block c bs q, Ok k) :: file_calls c bs size l (t + k) bufs
  end.

(** The bytes that a sequence of calls has delivered. *)
Definition delivered (calls : list (bytes * bytes * res N)) : bytes :=
  concat (map (fun '(_, buf', r) => match r with Ok k => window buf' 0 k | _ => [] end) calls).

(** The content of a file: the device blocks [l] one after the other, cut to the size. *)
Definition file_content (c : bytes) (bs size : N) (l : list N) : bytes :=
  window (concat (map (device_block c bs) l)) 0 size.
