(** Specification of byte streams and block devices: a cursor over a flat byte string.

    Independent of the model of src/block_device, apart from the shape of the calls
    ([seek_from], results) and the vocabulary of Base.v. *)

From Verif Require Import Base Io.

(** ** One call on a cursor over the byte string [c] *)

(** A read with buffer [buf] at position [p]: the next contiguous bytes, at least one unless the buffer
    is empty or the end is reached; on an error the position stays. *)
Definition flat_read (c : bytes) (p : N) (buf : bytes) (r : res N) (buf' : bytes) (p' : N) : Prop :=
  match r with
  | Ok k =>
      k <= len buf /\ p' = p + k /\ buf' = window c p k ++ skipn (N.to_nat k) buf /\
      (k = 0 -> len buf = 0 \/ len c <= p) /\ (k <> 0 -> p + k <= len c)
  | Err _ => p' = p /\ len buf' = len buf
  | Panic => False
  end.

(** The absolute position a seek asks for. *)
Definition seek_target (c : bytes) (p : N) (s : seek_from) : Z :=
  match s with
  | SeekStart o => Z.of_N o
  | SeekEnd o => Z.of_N (len c) + o
  | SeekCurrent o => Z.of_N p + o
  end.

(** A seek goes exactly there, or fails and stays when there is no such 64-bit position. *)
Definition flat_seek (c : bytes) (p : N) (s : seek_from) (r : res N) (p' : N) : Prop :=
  let t := seek_target c p s in
  if ((0 <=? t) && (t <=? Z.of_N u64_max))%Z
  then r = Ok (Z.to_N t) /\ p' = Z.to_N t
  else r = Err InvalidInput /\ p' = p.

(** ** Histories of calls *)

Inductive call : Type := CRead (buf : bytes) | CSeek (s : seek_from).
Inductive answer : Type := ARead (r : res N) (buf : bytes) | ASeek (r : res N).

(** [flat_history c bad p calls answers p']: the answers are those of a cursor over [c] that starts at
    [p] and ends at [p'], where reads may fail at the positions in [bad] only. *)
Inductive flat_history (c : bytes) (bad : N -> Prop) : N -> list call -> list answer -> N -> Prop :=
| fh_nil p : flat_history c bad p [] [] p
| fh_read p buf r buf' p1 cs ans p2 :
    flat_read c p buf r buf' p1 -> (forall e, r = Err e -> bad p) ->
    flat_history c bad p1 cs ans p2 ->
    flat_history c bad p (CRead buf :: cs) (ARead r buf' :: ans) p2
| fh_seek p s r p1 cs ans p2 :
    flat_seek c p s r p1 ->
    flat_history c bad p1 cs ans p2 ->
    flat_history c bad p (CSeek s :: cs) (ASeek r :: ans) p2.

(** Run a list of calls on a stream. *)
Fixpoint run_calls {S} (st : stream S) (s : S) (cs : list call) : S * list answer :=
  match cs with
  | [] => (s, [])
  | CRead buf :: cs =>
      let '(s, buf', r) := st_read st s buf in
      let '(s, ans) := run_calls st s cs in (s, ARead r buf' :: ans)
  | CSeek p :: cs =>
      let '(s, r) := st_seek st s p in
      let '(s, ans) := run_calls st s cs in (s, ASeek r :: ans)
  end.

(** A call as Rust can make it: [SeekFrom::Start] carries a [u64]. *)
Definition call_ok (c : call) : Prop :=
  match c with CSeek (SeekStart o) => u64_ok o | _ => True end.

(** ** Contracts *)

(** Stream over content [c]; [at_ s p]: state [s] is legal and stands at position [p].  Reads may fail only at
    positions in [bad].  Seeks within the content succeed; seeks beyond it may be refused, or clamped,
    but never land inside the content. *)
Record stream_ok {S} (st : stream S) (c : bytes) (bad : N -> Prop) (at_ : S -> N -> Prop) : Prop := StreamOk {
  so_read : forall s p buf s' buf' r,
    at_ s p -> st_read st s buf = (s', buf', r) ->
    exists p', flat_read c p buf r buf' p' /\ at_ s' p' /\ (forall e, r = Err e -> bad p);
  so_seek : forall s p o,
    at_ s p -> o <= len c -> exists s', st_seek st s (SeekStart o) = (s', Ok o) /\ at_ s' o;
  so_seek_out : forall s p o s' r,
    at_ s p -> len c < o -> u64_ok o -> st_seek st s (SeekStart o) = (s', r) ->
    exists p', at_ s' p' /\ r <> Panic /\ (forall k, r = Ok k -> len c <= p')
}.

(** The flat content of a device of [count] blocks. *)
Definition flat (count : N) (blk : N -> bytes) : bytes :=
  concat (map (fun i => blk (N.of_nat i)) (seq 0 (N.to_nat count))).

(** Block device with [count] blocks [blk 0], [blk 1], ... of [bs] bytes; block [n] may be unreadable only if
    [bad n].  [inv]: legal states. *)
Record block_ok {D} (ops : blockdev D) (bs count : N) (blk : N -> bytes) (bad : N -> Prop) (inv : D -> Prop)
  : Prop := BlockOk {
  bo_bs : bs <> 0;
  bo_fit : u64_ok (count * bs);
  bo_len : forall n, n < count -> len (blk n) = bs;
  bo_size : forall d, inv d -> bd_size ops d = Ok bs;
  bo_count : forall d, inv d -> bd_count ops d = Ok count;
  bo_read : forall d n buf d' buf' r,
    inv d -> n < count -> len buf = bs -> bd_read ops d n buf = (d', buf', r) ->
    inv d' /\ len buf' = len buf /\
    match r with
    | Ok k => k = bs /\ buf' = blk n
    | Err _ => bad n
    | Panic => False
    end;
  bo_clone : forall d, inv d -> exists d', bd_clone ops d = Ok d' /\ inv d'
}.
