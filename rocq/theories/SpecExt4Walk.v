(** Specification of reading a file of any shape: the steps that its extent tree asks for, and what each step may answer.

    Independent of the reader's stack: the tree is laid out as one list of steps; a failing step leaves out those that
    follow it in the same node or extent. *)

From Verif Require Import Base SpecMd SpecExt4File.

(** ** Steps *)
Inductive step : Type :=
| Expect (p : N) (skip : nat)       (* an index or extent for the file blocks from [p] on; they must come next *)
| Child (q : N) (skip : nat)        (* the node in device block [q] is needed *)
| Data (q : N) (skip : nat)         (* device block [q] is the next block of the file *)
| Crash.                            (* the entries of a node do not fit into it *)

(** The length of an extent as this reader takes it: without the bit for unwritten extents.  It differs from
    [extent_blocks] for extents of 32768 blocks only, which it takes for empty. *)
Definition taken_blocks (e : bytes) : N := extent_value e mod 32768.

(** [n] blocks from device block [q] on; after a failure the others are left out. *)
Fixpoint data_steps (q : N) (n : nat) : list step :=
  match n with
  | O => []
  | S n => Data q n :: data_steps (q + 1) n
  end.

(** The extents of a leaf; a failing one leaves out the rest of the leaf. *)
Fixpoint leaf_steps (es : list bytes) : list step :=
  match es with
  | [] => []
  | e :: es =>
      let rest := data_steps (extent_start e) (N.to_nat (taken_blocks e)) ++ leaf_steps es in
      Expect (extent_first e) (length rest) :: rest
  end.

Section Device.
  Context (c : bytes) (bs : N).
  Notation on_device q := ((q + 1) * bs <= len c).

  (** [walk b l]: the steps for the tree below the node [b].  A child beyond the end of the device has none. *)
  Inductive walk : bytes -> list step -> Prop :=
  | walk_overfull b : ~ node_fits b -> walk b [Crash]
  | walk_leaf b : node_fits b -> node_depth b = 0 -> walk b (leaf_steps (entries_of b))
  | walk_branch b l : node_fits b -> node_depth b <> 0 -> children_walk (entries_of b) l -> walk b l
  with children_walk : list bytes -> list step -> Prop :=
  | walk_none : children_walk [] []
  | walk_child e es l l' :
      on_device (index_child e) -> walk (device_block c bs (index_child e)) l -> children_walk es l' ->
      children_walk (e :: es) (Expect (index_first e) (Datatypes.S (length (l ++ l'))) :: Child (index_child e) (length (l ++ l')) :: l ++ l')
  | walk_outside e es l :
      ~ on_device (index_child e) -> children_walk es l ->
      children_walk (e :: es) (Expect (index_first e) (Datatypes.S (length l)) :: Child (index_child e) (length l) :: l).

  (** ** Answers

      [follows l n t calls]: with the steps [l] ahead, [n] blocks and [t] bytes of the file having been returned, the
      calls may get these answers.  A call is the buffer, the buffer afterwards, and the result. *)
  Context (bad : N -> Prop) (size : N).

  (** Reading [k] bytes from the start of device block [q] may fail. *)
  Definition may_fail (q k : N) : Prop := len c < q * bs + k \/ exists x, q * bs <= x < q * bs + k /\ bad x.

  Inductive follows : list step -> N -> N -> list (bytes * bytes * res N) -> Prop :=
  | follows_nil l n t : follows l n t []
  (* too short a buffer: nothing happens *)
  | follows_short l n t buf calls :
      len buf < bs -> follows l n t calls -> follows l n t ((buf, buf, Err InvalidInput) :: calls)
  (* steps without an answer of their own *)
  | follows_expected n k l t calls : follows l n t calls -> follows (Expect n k :: l) n t calls
  | follows_node q k l n t calls : (q + 1) * bs <= len c -> follows l n t calls -> follows (Child q k :: l) n t calls
  (* a gap, or blocks in the wrong order *)
  | follows_gap p k l n t buf calls :
      p <> n -> bs <= len buf -> follows (skipn k l) n t calls ->
      follows (Expect p k :: l) n t ((buf, buf, Err InvalidData) :: calls)
  (* a node that cannot be read *)
  | follows_bad_node q k l n t buf e calls :
      may_fail q bs -> bs <= len buf -> follows (skipn k l) n t calls ->
      follows (Child q k :: l) n t ((buf, buf, Err e) :: calls)
  (* the next block of the file *)
  | follows_data q k l n t buf calls :
      bs <= len buf -> q * bs + len buf <= len c -> t < size -> n < u32_max ->
      follows l (n + 1) (t + N.min bs (size - t)) calls ->
      follows (Data q k :: l) n t ((buf, window c (q * bs) (len buf), Ok (N.min bs (size - t))) :: calls)
  (* a block that cannot be read *)
  | follows_bad_data q k l n t buf buf' e calls :
      bs <= len buf -> may_fail q (len buf) -> t < size -> len buf' = len buf -> follows (skipn k l) n t calls ->
      follows (Data q k :: l) n t ((buf, buf', Err e) :: calls)
  (* a block behind the end of the file *)
  | follows_beyond q k l n t buf calls :
      bs <= len buf -> t = size -> follows (skipn k l) n t calls ->
      follows (Data q k :: l) n t ((buf, buf, Err InvalidData) :: calls)
  (* panics *)
  | follows_crash l n t buf : bs <= len buf -> follows (Crash :: l) n t [(buf, buf, Panic)]
  | follows_overflow q k l n t buf :
      bs <= len buf -> q * bs + len buf <= len c -> t < size -> n = u32_max ->
      follows (Data q k :: l) n t [(buf, window c (q * bs) (len buf), Panic)]
  (* the end of the tree *)
  | follows_end n t buf calls :
      bs <= len buf -> t = size -> follows [] n t calls -> follows [] n t ((buf, buf, Ok 0) :: calls)
  | follows_early_end n t buf calls :
      bs <= len buf -> t <> size -> follows [] n t calls -> follows [] n t ((buf, buf, Err UnexpectedEof) :: calls).

  (** ** Trees in order: [ordered b lo hi]: the extents at and below [b] are for file blocks from [lo] on and before
      [hi]; they are not empty and come in ascending order without overlap. *)
  Fixpoint extents_ordered (es : list bytes) (lo hi : N) : Prop :=
    match es with
    | [] => lo <= hi
    | e :: es => lo <= extent_first e /\ 0 < extent_blocks e /\ extents_ordered es (extent_first e + extent_blocks e) hi
    end.

  Inductive ordered : bytes -> N -> N -> Prop :=
  | ordered_leaf b lo hi : node_fits b -> node_depth b = 0 -> extents_ordered (entries_of b) lo hi -> ordered b lo hi
  | ordered_branch b lo hi : node_fits b -> node_depth b <> 0 -> children_ordered (entries_of b) lo hi -> ordered b lo hi
  with children_ordered : list bytes -> N -> N -> Prop :=
  | ordered_none lo hi : lo <= hi -> children_ordered [] lo hi
  | ordered_child e es lo mid hi :
      lo <= index_first e -> index_first e < mid -> ordered (device_block c bs (index_child e)) (index_first e) mid ->
      children_ordered es mid hi -> children_ordered (e :: es) lo hi.
End Device.

(** The number of bytes that a sequence of calls has returned. *)
Definition returned (calls : list (bytes * bytes * res N)) : N :=
  fold_right (fun '(_, _, r) a => match r with Ok k => k + a | _ => a end) 0 calls.

(** ** Files without gaps: [run_of c bs l n qs]: the steps [l] ask for the device blocks [qs], as the file blocks from [n] on,
    one after the other; all their nodes are on the device. *)
Inductive run_of (c : bytes) (bs : N) : list step -> N -> list N -> Prop :=
| run_nil n : run_of c bs [] n []
| run_expect n k l qs : run_of c bs l n qs -> run_of c bs (Expect n k :: l) n qs
| run_child q k l n qs : (q + 1) * bs <= len c -> run_of c bs l n qs -> run_of c bs (Child q k :: l) n qs
| run_data q k l n qs : (q + 1) * bs <= len c -> run_of c bs l (n + 1) qs -> run_of c bs (Data q k :: l) n (q :: qs).

Definition is_ok {A} (r : res A) : Prop := match r with Ok _ => True | _ => False end.
(** All calls succeed, and the last one reports the end. *)
Definition read_whole (calls : list (bytes * bytes * res N)) : Prop :=
  Forall (fun '(_, _, r) => is_ok r) calls /\ exists pre buf buf', calls = pre ++ [(buf, buf', Ok 0)].
