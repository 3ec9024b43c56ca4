(** Property C107: reading a stream to its end. *)

From Verif Require Import Base BaseFacts Io SpecStream RaidFacts IoFacts PropsIo Interrupt ReadAll.

Section ReadAll.
  Context {S : Type} (st : stream S) (c : bytes) (bad : N -> Prop) (at_ : S -> N -> Prop).
  Hypothesis OK : stream_ok st c bad at_.
  Context (room : bytes -> N -> bytes).
  Hypothesis Room : forall acc i, room acc i <> [].

  Lemma read_to_end_sound fuel : forall s p i acc s' b r, at_ s p -> read_to_end st room fuel s i acc = Some (s', b, r) ->
    match r with
    | Ok n => b = acc ++ skipn (N.to_nat p) c /\ at_ s' (N.max p (len c))
    | Err e => interrupted r = false /\ exists q, p <= q /\ at_ s' q /\ bad q /\ (p <= len c -> q <= len c)
    | Panic => False
    end.
  Proof.
    induction fuel as [|fuel IH]; intros s p i acc s' b r A E; [discriminate E|]. cbn [read_to_end] in E.
    destruct (st_read st s (room acc i)) as [[s1 buf1] r1] eqn:R.
    destruct (so_read _ _ _ _ OK _ _ _ _ _ _ A R) as (p1 & F & A1 & B1).
    destruct (interrupted r1) eqn:X.
    - destruct r1 as [k|e|]; [discriminate X| |discriminate X]. destruct F as [-> _]. exact (IH _ _ _ _ _ _ _ A1 E).
    - destruct r1 as [k|e|]; [| |destruct F].
      + destruct F as (Lk & -> & Eb & Z & NZ). destruct (N.eqb_spec k 0) as [->|K0].
        * injection E as <- <- <-. destruct (Z eq_refl) as [Z'|Z'].
          { exfalso. apply (Room acc i). destruct (room acc i); [reflexivity|]. rewrite len_cons in Z'. lia. }
          rewrite N.add_0_r in A1. rewrite skipn_to_nat_nil, app_nil_r by exact Z'. split; [reflexivity|]. now rewrite N.max_l by exact Z'.
        * specialize (NZ K0). assert (LW : len (window c p k) = k) by (apply len_window_in; lia).
          assert (Lb : len buf1 = len (room acc i)) by (rewrite Eb, len_app, LW, len_skipn; lia).
          destruct (N.leb_spec k (len buf1)); [|lia].
          assert (Ef : firstn (N.to_nat k) buf1 = window c p k) by (rewrite Eb; apply firstn_app_exact; congruence).
          rewrite Ef in E. specialize (IH _ _ _ _ _ _ _ A1 E). destruct r as [n|e|]; [| |exact IH].
          -- destruct IH as [-> A2]. split.
             ++ rewrite <- app_assoc. f_equal. unfold window.
                rewrite <- (firstn_skipn (N.to_nat k) (skipn (N.to_nat p) c)) at 2. f_equal. rewrite skipn_skipn'. f_equal. lia.
             ++ replace (N.max p (len c)) with (N.max (p + k) (len c)) by lia. exact A2.
          -- destruct IH as (X' & q & Q1 & Q2 & Q3 & Q4). split; [exact X'|]. exists q. split; [lia|]. split; [exact Q2|]. split; [exact Q3|]. lia.
      + injection E as <- <- <-. destruct F as [-> _]. split; [exact X|]. exists p. split; [lia|]. split; [exact A1|]. split; [now apply (B1 e)|]. lia.
  Qed.

  Lemma read_to_end_ends : (forall q, ~ bad q) -> forall fuel s p i acc, at_ s p -> (N.to_nat (len c - p) < fuel)%nat -> read_to_end st room fuel s i acc <> None.
  Proof.
    intros NB. induction fuel as [|fuel IH]; intros s p i acc A L; [lia|]. cbn [read_to_end].
    destruct (st_read st s (room acc i)) as [[s1 buf1] r1] eqn:R.
    destruct (so_read _ _ _ _ OK _ _ _ _ _ _ A R) as (p1 & F & A1 & B1).
    destruct r1 as [k|e|]; [|destruct (NB p); now apply (B1 e)|destruct F]. cbn [interrupted].
    destruct F as (Lk & -> & Eb & Z & NZ). destruct (N.eqb_spec k 0) as [->|K0]; [discriminate|]. specialize (NZ K0).
    destruct (k <=? len buf1); [|discriminate]. apply (IH _ (p + k)); [exact A1|lia].
  Qed.

  (** C107: reading to the end gives everything from the position to the end, whatever room is offered, or an error other
      than Interrupted at a position that may fail. *)
  Theorem read_all_rest : forall fuel s p s' r, at_ s p -> read_all st room fuel s = Some (s', r) ->
    match r with
    | Ok b => b = skipn (N.to_nat p) c /\ at_ s' (N.max p (len c))
    | Err e => e <> OsError 4 /\ exists q, p <= q /\ at_ s' q /\ bad q /\ (p <= len c -> q <= len c)
    | Panic => False
    end.
  Proof.
    intros fuel s p s' r A E. unfold read_all in E. destruct (read_to_end st room fuel s 0 []) as [[[s1 b] r1]|] eqn:R; [|discriminate E].
    pose proof (read_to_end_sound _ _ _ _ _ _ _ _ A R) as O. injection E as <- <-. destruct r1 as [n|e|]; cbn [rbind]; [exact O| |exact O].
    destruct O as [X O]. split; [|exact O]. intros ->. discriminate X.
  Qed.

  (** Without failures it ends, after no more calls than there are bytes, and one. *)
  Theorem read_all_complete : forall fuel s p, (forall q, ~ bad q) -> at_ s p -> (N.to_nat (len c - p) < fuel)%nat ->
    exists s', read_all st room fuel s = Some (s', Ok (skipn (N.to_nat p) c)) /\ at_ s' (N.max p (len c)).
  Proof.
    intros fuel s p NB A L. pose proof (read_to_end_ends NB fuel s p 0 [] A L) as T. unfold read_all.
    destruct (read_to_end st room fuel s 0 []) as [[[s1 b] r1]|] eqn:R; [|contradiction].
    pose proof (read_to_end_sound _ _ _ _ _ _ _ _ A R) as O. exists s1. destruct r1 as [n|e|]; cbn [rbind].
    - destruct O as [-> A']. split; [reflexivity|exact A'].
    - destruct O as (_ & q & _ & _ & B & _). destruct (NB q B).
    - destruct O.
  Qed.
End ReadAll.
Print Assumptions read_all_rest.
Print Assumptions read_all_complete.

(** A block device read through a block reader gives all of its whole blocks. *)
Theorem read_all_device : forall {D} (ops : blockdev D) bs count blk bad inv d room fuel, block_ok ops bs count blk bad inv -> inv d ->
  (forall acc i, room acc i <> []) -> (forall n, ~ bad n) -> (N.to_nat (count * bs) < fuel)%nat ->
  exists s', read_all (reader_stream ops) room fuel (reader_new d) = Some (s', Ok (flat count blk)).
Proof.
  intros D ops bs count blk bad inv d room fuel OK I Rm NB L. pose proof (reader_stream_ok _ _ _ _ _ _ OK) as SO.
  destruct (read_all_complete _ _ _ _ SO room Rm fuel (reader_new d) 0) as (s' & E & _).
  - intros q. apply NB.
  - exact (reader_new_at _ _ _ _ _ _ OK d I).
  - rewrite (len_c _ _ _ _ _ _ OK), N.sub_0_r. exact L.
  - exists s'. exact E.
Qed.
Print Assumptions read_all_device.

(** Eleven bytes in blocks of four: two whole blocks, read with room for three bytes at a time; and from byte 5 on. *)
Example read_all_ex :
  let mem := map (fun i => byte_of (N.of_nat i)) (seq 0 11) in
  let room := fun (acc : bytes) (i : N) => zeros 3 in
  (exists s', read_all (reader_stream mem_block) room 9 (reader_new (mem_new mem 4)) = Some (s', Ok (firstn 8 mem))) /\
  (exists s', read_all mem_stream room 9 (MemDev mem 5 4) = Some (s', Ok (skipn 5 mem))) /\
  (forall acc i, room acc i <> []).
Proof. cbv zeta. split; [eexists; vm_compute; reflexivity|]. split; [eexists; vm_compute; reflexivity|]. intros acc i. discriminate. Qed.
