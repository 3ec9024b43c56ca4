(** Property C125: a reader that is used as a block device as well. *)

From Verif Require Import Base BaseFacts Io SpecStream RaidFacts IoFacts PropsIo.

(** ** Specification: both interfaces of one handle *)

(** [MClone]: from here on the clone is used. *)
Inductive mcall : Type := MStream (c : call) | MBlock (n : N) (buf : bytes) | MSize | MCount | MClone.
Inductive manswer : Type := MAStream (a : answer) | MABlock (r : res N) (buf : bytes) | MANumber (r : res N) | MACloned (ok : bool).

(** The answers are those of a cursor over the blocks [blk 0], [blk 1], ..., which calls for blocks do not move and which a
    clone takes over. *)
Inductive mixed_history (bs count : N) (blk : N -> bytes) (bad : N -> Prop) : N -> list mcall -> list manswer -> N -> Prop :=
| mh_nil p : mixed_history bs count blk bad p [] [] p
| mh_stream p c a p1 cs ans p2 :
    flat_history (flat count blk) (fun p => bad (p / bs)) p [c] [a] p1 -> mixed_history bs count blk bad p1 cs ans p2 ->
    mixed_history bs count blk bad p (MStream c :: cs) (MAStream a :: ans) p2
| mh_block p n buf cs ans p2 :
    mixed_history bs count blk bad p cs ans p2 -> mixed_history bs count blk bad p (MBlock n buf :: cs) (MABlock (Ok bs) (blk n) :: ans) p2
| mh_block_bad p n buf buf' e cs ans p2 : bad n -> len buf' = len buf ->
    mixed_history bs count blk bad p cs ans p2 -> mixed_history bs count blk bad p (MBlock n buf :: cs) (MABlock (Err e) buf' :: ans) p2
| mh_size p cs ans p2 : mixed_history bs count blk bad p cs ans p2 -> mixed_history bs count blk bad p (MSize :: cs) (MANumber (Ok bs) :: ans) p2
| mh_count p cs ans p2 : mixed_history bs count blk bad p cs ans p2 -> mixed_history bs count blk bad p (MCount :: cs) (MANumber (Ok count) :: ans) p2
| mh_clone p cs ans p2 : mixed_history bs count blk bad p cs ans p2 -> mixed_history bs count blk bad p (MClone :: cs) (MACloned true :: ans) p2.

(** The calls that the contract of block devices speaks of. *)
Definition mcall_ok (bs count : N) (c : mcall) : Prop :=
  match c with MStream c => call_ok c | MBlock n buf => n < count /\ len buf = bs | _ => True end.

Fixpoint run_mixed {D} (ops : blockdev D) (r : reader D) (cs : list mcall) : reader D * list manswer :=
  match cs with
  | [] => (r, [])
  | MStream c :: cs =>
      let '(r, a) := run_calls (reader_stream ops) r [c] in
      let '(r, ans) := run_mixed ops r cs in (r, map MAStream a ++ ans)
  | MBlock n buf :: cs =>
      let '(r, buf, x) := bd_read (reader_block ops) r n buf in
      let '(r, ans) := run_mixed ops r cs in (r, MABlock x buf :: ans)
  | MSize :: cs => let '(r', ans) := run_mixed ops r cs in (r', MANumber (bd_size (reader_block ops) r) :: ans)
  | MCount :: cs => let '(r', ans) := run_mixed ops r cs in (r', MANumber (bd_count (reader_block ops) r) :: ans)
  | MClone :: cs =>
      match bd_clone (reader_block ops) r with
      | Ok r => let '(r, ans) := run_mixed ops r cs in (r, MACloned true :: ans)
      | _ => let '(r, ans) := run_mixed ops r cs in (r, MACloned false :: ans)
      end
  end.

Section Reader.
  Context {D : Type} (ops : blockdev D) (bs count : N) (blk : N -> bytes) (bad : N -> Prop) (inv : D -> Prop).
  Hypothesis OK : block_ok ops bs count blk bad inv.

  (** A reader that stands at [p] is a block device like the one below it, and calls leave it at [p]. *)
  Theorem reader_is_block_device p : block_ok (reader_block ops) bs count blk bad (fun r => reader_at bs inv r p).
  Proof.
    destruct OK as [Hb Fit Len Size Count Read Clone]. constructor; try assumption.
    - intros r (I & _). now apply Size.
    - intros r (I & _). now apply Count.
    - intros r n buf r' buf' x (I & A) L Lb E. cbn [bd_read reader_block] in E. destruct (bd_read ops (r_dev r) n buf) as [[d b] y] eqn:B.
      injection E as <- <- <-. destruct (Read _ _ _ _ _ _ I L Lb B) as (I' & X). split; [split; [exact I'|exact A]|exact X].
    - intros r (I & A). cbn [bd_clone reader_block]. destruct (Clone _ I) as (d & E & I'). rewrite E. cbn [rbind]. eexists. split; [reflexivity|].
      split; [exact I'|exact A].
  Qed.

  (** Calls of both kinds in any order, clones in between. *)
  Theorem reader_mixed d cs r' ans : inv d -> Forall (mcall_ok bs count) cs -> run_mixed ops (reader_new d) cs = (r', ans) ->
    exists p', mixed_history bs count blk bad 0 cs ans p'.
  Proof.
    intros I0. assert (A0 : reader_at bs inv (reader_new d) 0) by exact (reader_new_at _ _ _ _ _ _ OK d I0). revert A0.
    generalize (reader_new d) 0. intros r p A F. revert r p A r' ans. induction F as [|c cs C F IH]; intros r p A r' ans E.
    - injection E as <- <-. exists p. constructor.
    - pose proof (reader_is_block_device p) as OKp. destruct c as [c|n buf| | |]; cbn [run_mixed] in E.
      + destruct (run_calls (reader_stream ops) r [c]) as [r1 a] eqn:E1. destruct (run_mixed ops r1 cs) as [r2 ans2] eqn:E2. injection E as <- <-.
        destruct (reader_history ops bs count blk bad inv OK r p [c] r1 a A ltac:(now constructor) E1) as (p1 & H & A1).
        destruct (IH r1 p1 A1 _ _ E2) as (p2 & H2). exists p2. inversion H; subst; match goal with X : flat_history _ _ _ [] _ _ |- _ => inversion X; subst end; cbn [map List.app].
        * now apply (mh_stream _ _ _ _ _ _ _ p1).
        * now apply (mh_stream _ _ _ _ _ _ _ p1).
      + destruct (bd_read (reader_block ops) r n buf) as [[r1 b1] x] eqn:E1. destruct (run_mixed ops r1 cs) as [r2 ans2] eqn:E2. injection E as <- <-.
        destruct C as [L Lb]. destruct (bo_read _ _ _ _ _ _ OKp _ _ _ _ _ _ A L Lb E1) as (A1 & Lb' & X).
        destruct (IH r1 p A1 _ _ E2) as (p2 & H2). exists p2. destruct x as [k|e|]; [destruct X as [-> ->]; now constructor|now constructor|destruct X].
      + destruct (run_mixed ops r cs) as [r2 ans2] eqn:E2. injection E as <- <-. destruct (IH r p A _ _ E2) as (p2 & H2). exists p2.
        rewrite (bo_size _ _ _ _ _ _ OK (r_dev r) (proj1 A)). now constructor.
      + destruct (run_mixed ops r cs) as [r2 ans2] eqn:E2. injection E as <- <-. destruct (IH r p A _ _ E2) as (p2 & H2). exists p2.
        rewrite (bo_count _ _ _ _ _ _ OK (r_dev r) (proj1 A)). now constructor.
      + destruct (bo_clone _ _ _ _ _ _ OKp r A) as (r1 & E1 & A1). rewrite E1 in E. destruct (run_mixed ops r1 cs) as [r2 ans2] eqn:E2. injection E as <- <-.
        destruct (IH r1 p A1 _ _ E2) as (p2 & H2). exists p2. now constructor.
  Qed.

  (** A reader over a reader: a cursor over the same bytes, and the inner one stays where it is. *)
  Theorem reader_nested d cs0 r0 ans0 cs r' ans : inv d -> Forall call_ok cs0 -> Forall call_ok cs ->
    run_calls (reader_stream ops) (reader_new d) cs0 = (r0, ans0) -> run_calls (reader_stream (reader_block ops)) (reader_new r0) cs = (r', ans) ->
    exists p0 p', flat_history (flat count blk) (fun p => bad (p / bs)) 0 cs0 ans0 p0 /\ flat_history (flat count blk) (fun p => bad (p / bs)) 0 cs ans p' /\
      r_block (r_dev r') * bs + r_byte (r_dev r') = p0.
  Proof.
    intros I F0 F E0 E. destruct (reader_history ops bs count blk bad inv OK _ 0 cs0 r0 ans0 (reader_new_at _ _ _ _ _ _ OK d I) F0 E0) as (p0 & H0 & A0).
    pose proof (reader_is_block_device p0) as OK0.
    destruct (reader_history (reader_block ops) bs count blk bad _ OK0 _ 0 cs r' ans (reader_new_at _ _ _ _ _ _ OK0 r0 A0) F E) as (p' & H & A).
    exists p0, p'. split; [exact H0|]. split; [exact H|]. destruct A as ((_ & _ & Ep & _) & _). now rewrite Ep.
  Qed.
End Reader.
Print Assumptions reader_is_block_device.
Print Assumptions reader_mixed.
Print Assumptions reader_nested.

(** ** Example: six bytes in blocks of three, read from the second byte on; block 1 is read and the reader cloned meanwhile *)
Example reader_mixed_ex :
  snd (run_mixed mem_block (reader_new (mem_new [x01; x02; x03; x04; x05; x06; x07] 3))
    [MStream (CSeek (SeekStart 1)); MBlock 1 (zeros 3); MStream (CRead (zeros 9)); MClone; MCount; MBlock 0 (zeros 3); MStream (CRead (zeros 2)); MSize]) =
  [MAStream (ASeek (Ok 1)); MABlock (Ok 3) [x04; x05; x06]; MAStream (ARead (Ok 2) ([x02; x03] ++ zeros 7)); MACloned true; MANumber (Ok 2);
   MABlock (Ok 3) [x01; x02; x03]; MAStream (ARead (Ok 2) [x04; x05]); MANumber (Ok 3)] /\
  exists count blk inv, block_ok mem_block 3 count blk (fun _ => False) inv /\ inv (mem_new [x01; x02; x03; x04; x05; x06; x07] 3).
Proof.
  split; [vm_compute; reflexivity|]. pose proof (mem_block_ok [x01; x02; x03; x04; x05; x06; x07] 3 ltac:(vm_compute; discriminate) ltac:(discriminate)) as M.
  eexists _, _, _. split; [exact M|]. cbn. repeat split; lia.
Qed.
