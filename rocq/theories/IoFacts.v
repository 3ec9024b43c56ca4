(** Proofs about streams and block devices. *)

From Verif Require Import Base BaseFacts Io SpecStream RaidFacts.

(** ** read_exact on any stream that meets the contract *)

Section ReadExact.
  Context {S : Type} (st : stream S) (c : bytes) (bad : N -> Prop) (at_ : S -> N -> Prop).
  Hypothesis OK : stream_ok st c bad at_.

  (** Outcome of [read_exact] of [n] bytes at [p]. *)
  Definition exact_outcome (p n : N) (s' : S) (b : bytes) (r : res unit) : Prop :=
    match r with
    | Ok _ => (n = 0 \/ p + n <= len c) /\ b = window c p n /\ at_ s' (p + n)
    | Err e =>
        len b = n /\ n <> 0 /\ (exists p', p <= p' /\ at_ s' p') /\
        ((exists q, p <= q < p + n /\ bad q) \/ (e = UnexpectedEof /\ len c < p + n))
    | Panic => False
    end.

  Lemma read_exact_loop_spec fuel s buf p s' b r :
    at_ s p -> (length buf <= fuel)%nat ->
    read_exact_loop (st_read st) fuel s buf = (s', b, r) ->
    exact_outcome p (len buf) s' b r.
  Proof.
    revert s buf p s' b r. induction fuel as [|fuel IH]; intros s buf p s' b r A L E.
    - destruct buf; [|cbn in L; lia]. cbn in E. inv E. cbn. rewrite window_0, N.add_0_r. auto.
    - destruct buf as [|x buf0]; [cbn in E; inv E; cbn; rewrite window_0, N.add_0_r; auto|].
      cbn [read_exact_loop] in E. set (buf := x :: buf0) in *.
      assert (LB : 1 <= len buf) by (unfold buf; rewrite len_cons; lia). clearbody buf.
      unfold sbind in E. destruct (st_read st s buf) as [[s1 buf1] r1] eqn:R.
      destruct (so_read _ _ _ _ OK _ _ _ _ _ _ A R) as (p1 & F & A1 & B1).
      destruct r1 as [k|e|]; [| |destruct F].
      + destruct F as (Lk & -> & -> & Z & NZ).
        destruct (N.eqb_spec k 0) as [K0|K0].
        * inv E. cbn. split; [now rewrite window_0|]. split; [lia|].
          split; [exists (p + 0); split; [lia|assumption]|]. right. split; [reflexivity|].
          destruct Z as [Z|Z]; lia.
        * specialize (NZ K0).
          assert (LW : len (window c p k) = k) by (apply len_window_in; lia).
          rewrite len_app, LW, len_skipn in E.
          destruct (N.leb_spec k (k + (len buf - N.of_nat (N.to_nat k)))); [|lia].
          rewrite skipn_app_exact, firstn_app_exact in E by congruence.
          destruct (read_exact_loop (st_read st) fuel s1 (skipn (N.to_nat k) buf)) as [[s2 b2] r2] eqn:R2.
          inv E. apply (IH _ _ (p + k)) in R2; [|assumption|].
          2: { rewrite skipn_length. rewrite length_len in L |- *. lia. }
          rewrite len_skipn in R2. replace (len buf - N.of_nat (N.to_nat k)) with (len buf - k) in R2 by lia.
          destruct r as [|e|]; [| |destruct R2].
          -- destruct R2 as (Lo & -> & A2). split; [right; lia|]. split.
             ++ replace (len buf) with (k + (len buf - k)) at 2 by lia. now rewrite window_app_split.
             ++ replace (p + len buf) with (p + k + (len buf - k)) by lia. exact A2.
          -- destruct R2 as (Lb & N0 & (p2 & P2 & A2) & D). split; [rewrite len_app, LW; lia|].
             split; [lia|]. split; [exists p2; split; [lia|assumption]|].
             destruct D as [(q & Q1 & Q2)|(-> & Q)].
             ++ left. exists q. split; [lia|assumption].
             ++ right. split; [reflexivity|lia].
      + inv E. destruct F as [-> LL]. split; [exact LL|]. split; [lia|].
        split; [exists p; split; [lia|assumption]|]. left. exists p. split; [lia|].
        eapply B1. reflexivity.
  Qed.

  Lemma read_exact_spec s buf p s' b r :
    at_ s p -> read_exact st s buf = (s', b, r) -> exact_outcome p (len buf) s' b r.
  Proof. intros A. apply read_exact_loop_spec; [exact A|lia]. Qed.

  (** Within the content and away from bad positions it succeeds. *)
  Lemma read_exact_good s buf p :
    at_ s p -> p + len buf <= len c -> (forall q, p <= q < p + len buf -> ~ bad q) ->
    exists s', read_exact st s buf = (s', window c p (len buf), Ok tt) /\ at_ s' (p + len buf).
  Proof.
    intros A L NB. destruct (read_exact st s buf) as [[s' b] r] eqn:E.
    pose proof (read_exact_spec _ _ _ _ _ _ A E) as O. destruct r as [[]|e|]; [| |destruct O].
    - destruct O as (_ & -> & A'). eauto.
    - destruct O as (_ & _ & _ & [(q & Q1 & Q2)|(_ & Q)]); [|lia]. exfalso. eapply NB; eassumption.
  Qed.
End ReadExact.

(** ** In-memory device *)

Definition mem_at (mem : bytes) (bs : N) (d : memdev) (p : N) : Prop :=
  m_mem d = mem /\ m_bs d = bs /\ m_pos d = p /\ p <= len mem.

Lemma mem_stream_ok mem bs :
  u64_ok (len mem) -> stream_ok mem_stream mem (fun _ => False) (mem_at mem bs).
Proof.
  intros U. constructor.
  - intros [m p0 b0] p buf s' buf' r (E1 & E2 & E3 & L). cbn in E1, E2, E3. subst m b0 p0. intros E.
    cbn [st_read mem_stream m_mem m_pos m_bs] in E.
    rewrite sub_some in E by lia. inv E. exists (p + N.min (len buf) (len mem - p)).
    split; [|split; [repeat split; cbn; lia|discriminate]].
    cbn. split; [lia|]. split; [reflexivity|]. split; [reflexivity|]. split; lia.
  - intros [m p0 b0] p o (E1 & E2 & E3 & L) Lo. cbn in E1, E2, E3. subst. cbn [st_seek mem_stream m_mem m_bs].
    replace (N.min o (len mem)) with o by lia. eexists. split; [reflexivity|]. repeat split; auto.
  - intros [m p0 b0] p o s' r (E1 & E2 & E3 & L) Lo Uo E. cbn in E1, E2, E3. subst.
    cbn [st_seek mem_stream m_mem m_bs] in E. inv E. exists (len mem). split; [|split; [discriminate|lia]].
    repeat split; cbn; lia.
Qed.

(** Block [n] of a byte string. *)
Definition block_of (c : bytes) (bs n : N) : bytes := window c (n * bs) bs.

Lemma mem_block_ok mem bs :
  u64_ok (len mem) -> bs <> 0 ->
  block_ok mem_block bs (len mem / bs) (block_of mem bs) (fun _ => False)
    (fun d => m_mem d = mem /\ m_bs d = bs /\ m_pos d <= len mem).
Proof.
  unfold u64_ok. intros U Hb.
  assert (M : len mem / bs * bs <= len mem) by (rewrite N.mul_comm; apply N.mul_div_le; lia).
  assert (IN : forall n, n < len mem / bs -> n * bs + bs <= len mem).
  { intros n L. enough (n * bs + bs <= len mem / bs * bs) by lia.
    generalize dependent (len mem / bs). intros. nia. }
  constructor; unfold u64_ok; auto; try lia.
  - intros n L. unfold block_of. apply len_window_in. now apply IN.
  - intros [m p b] (E1 & E2 & _). cbn in *. now subst.
  - intros [m p b] (E1 & E2 & _). cbn in *. subst m b. unfold cdiv64.
    destruct (N.eqb_spec bs 0); [contradiction|reflexivity].
  - intros [m p b] n buf d' buf' r (E1 & E2 & E3) L Lb E. cbn in E1, E2, E3. subst.
    cbn [bd_read mem_block m_mem m_bs] in E. destruct (N.ltb_spec (len buf) (len buf)); [lia|].
    specialize (IN n L). unfold byte_pos in E. rewrite cmul64_some in E by lia.
    rewrite sub_some in E by lia. unfold copy_from_slice in E. rewrite len_window_in in E by lia.
    rewrite N.eqb_refl in E. inv E. cbn. rewrite len_window_in by lia. auto.
  - intros d I. exists d. auto.
Qed.

(** ** Operating-system files *)

Definition os_at (c : bytes) (fx : bool) (pb sz : res N) (f : osfile) (p : N) : Prop :=
  os_content f = c /\ os_fixed f = fx /\ os_pbsz f = pb /\ os_size64 f = sz /\ os_pos f = p.

(** Positions at which the policy can fail. *)
Definition pol_bad (pol : io_policy) (p : N) : Prop := exists t n e, pol t p n = IoFail e.

Lemma os_stream_ok pol c fx pb sz :
  len c <= i64_max -> stream_ok (os_stream pol) c (pol_bad pol) (os_at c fx pb sz).
Proof.
  intros U. constructor.
  - intros f p buf s' buf' r (E1 & E2 & E3 & E4 & E5) E. cbn in E. unfold os_read in E.
    rewrite E1, E5 in E. destruct (pol (os_clock f) p (len buf)) as [e|k] eqn:P; inv E.
    + exists (os_pos f). split; [|split].
      * cbn. auto.
      * repeat split; auto.
      * intros e' _. unfold pol_bad. eauto.
    + eexists. split; [|split; [repeat split; auto|discriminate]]. cbn.
      split; [lia|]. split; [reflexivity|]. split; [reflexivity|]. split; lia.
  - intros f p o (E1 & E2 & E3 & E4 & E5) L. cbn. unfold os_seek. rewrite E1.
    destruct (N.leb_spec o i64_max); [|lia].
    destruct (Z.ltb_spec (Z.of_N o) 0); [lia|].
    destruct (Z.ltb_spec (Z.of_N i64_max) (Z.of_N o)); [lia|].
    rewrite N2Z.id. destruct (N.ltb_spec (len c) o); [lia|]. rewrite andb_false_r.
    eexists. split; [reflexivity|]. repeat split; auto.
  - intros f p o s' r (E1 & E2 & E3 & E4 & E5) L _ E. cbn in E. unfold os_seek in E. rewrite E1 in E.
    destruct (N.leb_spec o i64_max).
    + destruct (Z.ltb_spec (Z.of_N o) 0); [lia|].
      destruct (Z.ltb_spec (Z.of_N i64_max) (Z.of_N o)); [lia|].
      rewrite N2Z.id in E. destruct (N.ltb_spec (len c) o); [|lia]. rewrite andb_true_r in E.
      destruct (os_fixed f) eqn:Fx; injection E as <- <-.
      * exists p. split; [repeat split; congruence|]. split; discriminate.
      * exists o. split; [repeat split; cbn; congruence|]. split; [discriminate|lia].
    + injection E as <- <-. exists p. split; [repeat split; congruence|]. split; discriminate.
Qed.

Lemma filedev_stream_ok pol c fx pb sz bs :
  len c <= i64_max ->
  stream_ok (filedev_stream pol) c (pol_bad pol) (fun d p => fd_bs d = bs /\ os_at c fx pb sz (fd_file d) p).
Proof.
  intros U. pose proof (os_stream_ok pol c fx pb sz U) as [R K O]. constructor.
  - intros [f b0] p buf s' buf' r (Eb & A) E. cbn in *. subst.
    destruct (os_read pol f buf) as [[f1 b1] r1] eqn:E1. inv E.
    destruct (R _ _ _ _ _ _ A E1) as (p' & F & A' & B). exists p'. auto.
  - intros [f b0] p o (Eb & A) L. cbn in *. subst. destruct (K _ _ _ A L) as (s' & E & A').
    rewrite E. eexists. split; [reflexivity|]. cbn. auto.
  - intros [f b0] p o s' r (Eb & A) L Uo E. cbn in *. subst.
    destruct (os_seek f (SeekStart o)) as [f1 r1] eqn:E1. inv E.
    destruct (O _ _ _ _ _ A L Uo E1) as (p' & A' & B). exists p'. auto.
Qed.

(** Block [n] is touched by a failing position. *)
Definition pol_bad_block (pol : io_policy) (bs n : N) : Prop :=
  exists q, n * bs <= q < n * bs + bs /\ pol_bad pol q.

(** [InternalFile::read_block] for any buffer. *)
Lemma internal_read_block_spec pol c fx pb sz f p n bs buf f' buf' r :
  len c <= i64_max -> os_at c fx pb sz f p ->
  internal_read_block pol f n bs buf = (f', buf', r) ->
  (exists p', os_at c fx pb sz f' p') /\ len buf' = len buf /\
  match r with
  | Ok k => k = bs /\ bs <= len buf /\ (bs <> 0 -> (n + 1) * bs <= len c) /\
            buf' = window c (n * bs) bs ++ skipn (N.to_nat bs) buf
  | Err e => (len buf < bs /\ e = InvalidInput /\ f' = f /\ buf' = buf) \/ pol_bad_block pol bs n
             \/ len c < (n + 1) * bs
  | Panic => False
  end.
Proof.
  intros U A E. unfold internal_read_block in E.
  destruct (N.ltb_spec (len buf) bs).
  { inv E. split; [eauto|]. split; [reflexivity|]. left. auto. }
  unfold byte_pos, cmul64 in E. destruct (N.leb_spec (n * bs) u64_max) as [Fit|Fit].
  2: { inv E. split; [eauto|]. split; [reflexivity|]. right; right. unfold u64_max, i64_max in *. nia. }
  pose proof (os_stream_ok pol c fx pb sz U) as OK.
  destruct (N.le_gt_cases (n * bs) (len c)) as [In|Out].
  - destruct (so_seek _ _ _ _ OK _ _ _ A In) as (f1 & E1 & A1). cbn [st_seek os_stream] in E1.
    rewrite E1 in E.
    destruct (read_exact (os_stream pol) f1 (firstn (N.to_nat bs) buf)) as [[f2 b2] r2] eqn:R.
    pose proof (read_exact_spec _ _ _ _ OK _ _ _ _ _ _ A1 R) as O.
    rewrite len_firstn in O. replace (N.min (N.of_nat (N.to_nat bs)) (len buf)) with bs in O by lia.
    inv E. destruct r2 as [|e|]; [| |destruct O]; cbn [rbind].
    + destruct O as (L & -> & A2). split; [eauto|].
      assert (LW : len (window c (n * bs) bs) = bs). { rewrite len_window. lia. }
      split; [rewrite len_app, LW, len_skipn; lia|]. split; [reflexivity|]. split; [lia|]. split; [lia|reflexivity].
    + destruct O as (L & _ & (p' & _ & A2) & D). split; [eauto|].
      split; [rewrite len_app, L, len_skipn; lia|].
      destruct D as [(q & Q1 & Q2)|(_ & Q)]; [right; left; exists q; split; assumption|].
      right. right. lia.
  - destruct (os_seek f (SeekStart (n * bs))) as [f1 r1] eqn:E1.
    destruct (so_seek_out _ _ _ _ OK _ _ _ _ _ A Out Fit E1) as (p1 & A1 & NP & K).
    destruct r1 as [k|e|]; [| |congruence].
    + destruct (read_exact (os_stream pol) f1 (firstn (N.to_nat bs) buf)) as [[f2 b2] r2] eqn:R.
      pose proof (read_exact_spec _ _ _ _ OK _ _ _ _ _ _ A1 R) as O.
      rewrite len_firstn in O. replace (N.min (N.of_nat (N.to_nat bs)) (len buf)) with bs in O by lia.
      inv E. specialize (K _ eq_refl). destruct r2 as [|e|]; [| |destruct O]; cbn [rbind].
      * destruct O as (L & -> & A2). split; [eauto|]. rewrite (window_nil c p1) by assumption. cbn [app].
        assert (bs = 0) by lia. subst bs. rewrite N.mul_0_r in Out. lia.
      * destruct O as (L & _ & (p' & _ & A2) & D). split; [eauto|].
        split; [rewrite len_app, L, len_skipn; lia|]. right. right. lia.
    + inv E. split; [eauto|]. split; [reflexivity|]. right. right. lia.
Qed.

Lemma filedev_block_ok pol c fx pb sz bs :
  len c <= i64_max -> bs <> 0 ->
  block_ok (filedev_block pol) bs (len c / bs) (block_of c bs) (pol_bad_block pol bs)
    (fun d => fd_bs d = bs /\ exists p, os_at c fx pb sz (fd_file d) p).
Proof.
  intros U Hb.
  assert (M : len c / bs * bs <= len c) by (rewrite N.mul_comm; apply N.mul_div_le; lia).
  assert (IN : forall n, n < len c / bs -> n * bs + bs <= len c).
  { intros n L. enough (n * bs + bs <= len c / bs * bs) by lia.
    generalize dependent (len c / bs). intros. nia. }
  constructor; auto.
  - unfold u64_ok, u64_max, i64_max in *. lia.
  - intros n L. unfold block_of. apply len_window_in. now apply IN.
  - intros d (E & _). cbn. now rewrite E.
  - intros d (E & p & E1 & _). cbn. rewrite E, E1. unfold cdiv64.
    destruct (N.eqb_spec bs 0); [contradiction|reflexivity].
  - intros [f b] n buf d' buf' r (E0 & p & A) L Lb E. cbn in E0, A. subst b.
    cbn [bd_read filedev_block fd_file fd_bs] in E.
    destruct (internal_read_block pol f n bs buf) as [[f1 b1] r1] eqn:R. inv E.
    destruct (internal_read_block_spec _ _ _ _ _ _ _ _ _ _ _ _ _ U A R) as (I & L' & O).
    split; [cbn; auto|]. split; [exact L'|]. specialize (IN n L). destruct r as [k|e|]; [| |exact O].
    + destruct O as (-> & _ & _ & ->). split; [reflexivity|].
      rewrite skipn_to_nat_nil by lia. apply app_nil_r.
    + destruct O as [(O & _)|[O|O]]; [lia|exact O|lia].
  - intros d I. exists d. auto.
Qed.

Lemma native_block_ok pol c fx bs :
  len c <= i64_max -> bs <> 0 ->
  block_ok (native_block pol) bs (len c / bs) (block_of c bs) (pol_bad_block pol bs)
    (fun f => exists p, os_at c fx (Ok bs) (Ok (len c)) f p).
Proof.
  intros U Hb. destruct (filedev_block_ok pol c fx (Ok bs) (Ok (len c)) bs U Hb) as [H1 H2 H3 H4 H5 H6 H7].
  constructor; auto.
  - intros f (p & _ & _ & E & _). exact E.
  - intros f (p & _ & _ & E & E' & _). cbn [bd_count native_block]. rewrite E, E'. cbn [rbind]. unfold cdiv64.
    destruct (N.eqb_spec bs 0); [contradiction|reflexivity].
  - intros f n buf f' buf' r I L Lb E. cbn [bd_read native_block] in E.
    pose proof I as (p & _ & _ & Ep & _). rewrite Ep in E.
    specialize (H6 (FileDev f bs) n buf (FileDev f' bs) buf' r). cbn in H6. rewrite E in H6.
    destruct H6 as ((_ & I') & A & B); auto.
  - intros f I. exists f. auto.
Qed.

(** ** The block reader *)

Lemma len_concat_blocks (blk : N -> bytes) bs k i :
  (forall n, n < N.of_nat (i + k) -> len (blk n) = bs) ->
  len (concat (map (fun i => blk (N.of_nat i)) (seq i k))) = N.of_nat k * bs.
Proof.
  revert i. induction k as [|k IH]; intros i H; [reflexivity|].
  cbn [seq map concat]. rewrite len_app, H by lia. rewrite IH; [lia|]. intros n L. apply H. lia.
Qed.

Lemma len_flat count blk bs : (forall n, n < count -> len (blk n) = bs) -> len (flat count blk) = count * bs.
Proof. intros H. unfold flat. rewrite (len_concat_blocks _ bs); [lia|]. intros n L. apply H. lia. Qed.

Lemma flat_window count blk bs n o k :
  (forall n, n < count -> len (blk n) = bs) -> n < count -> o + k <= bs ->
  window (flat count blk) (n * bs + o) k = window (blk n) o k.
Proof.
  intros H L Ho. unfold flat.
  assert (S : seq 0 (N.to_nat count) =
          seq 0 (N.to_nat n) ++ N.to_nat n :: seq (S (N.to_nat n)) (N.to_nat count - S (N.to_nat n))).
  { replace (N.to_nat count) with (N.to_nat n + S (N.to_nat count - S (N.to_nat n)))%nat at 1 by lia.
    rewrite seq_app. reflexivity. }
  rewrite S, map_app, concat_app. cbn [map concat].
  assert (L1 : len (concat (map (fun i => blk (N.of_nat i)) (seq 0 (N.to_nat n)))) = n * bs).
  { rewrite (len_concat_blocks _ bs); [lia|]. intros m Lm. apply H. lia. }
  rewrite window_app_r by lia. rewrite L1. replace (n * bs + o - n * bs) with o by lia.
  rewrite N2Nat.id. apply window_app_l. rewrite H by assumption. exact Ho.
Qed.

(** The whole blocks of a byte string, put together again. *)
Lemma flat_block_of c bs :
  bs <> 0 -> flat (len c / bs) (block_of c bs) = window c 0 (len c / bs * bs).
Proof.
  intros Hb. unfold flat. set (m := N.to_nat (len c / bs)).
  replace (len c / bs) with (N.of_nat m) by lia. clearbody m.
  induction m as [|m IH]; [reflexivity|].
  rewrite seq_S, map_app, concat_app, IH. cbn [map concat Nat.add].
  rewrite app_nil_r. replace (N.of_nat (S m) * bs) with (N.of_nat m * bs + bs) by lia.
  now rewrite window_app_split.
Qed.

Section Reader.
  Context {D : Type} (ops : blockdev D) (bs count : N) (blk : N -> bytes) (bad : N -> Prop) (inv : D -> Prop).
  Hypothesis OK : block_ok ops bs count blk bad inv.

  Definition reader_at (r : reader D) (p : N) : Prop :=
    inv (r_dev r) /\ r_byte r < bs /\ p = r_block r * bs + r_byte r /\ u64_ok p.

  Definition bad_pos (p : N) : Prop := bad (p / bs).

  Let c := flat count blk.

  Lemma len_c : len c = count * bs.
  Proof. apply len_flat. apply (bo_len _ _ _ _ _ _ OK). Qed.

  Lemma reader_new_at d : inv d -> reader_at (reader_new d) 0.
  Proof.
    intros I. unfold reader_at, reader_new, u64_ok. cbn. pose proof (bo_bs _ _ _ _ _ _ OK). repeat split; auto; lia.
  Qed.

  Lemma div_block n o : o < bs -> (n * bs + o) / bs = n.
  Proof. intros L. symmetry. apply (N.div_unique _ _ _ o); lia. Qed.

  (** One read: the amount is exactly what is left of the current block. *)
  Lemma reader_read_spec r p buf r' buf' x :
    reader_at r p -> reader_read ops r buf = (r', buf', x) ->
    exists p', flat_read c p buf x buf' p' /\ reader_at r' p' /\ (forall e, x = Err e -> bad_pos p) /\
      (forall k, x = Ok k -> p < len c -> k = N.min (len buf) (bs - p mod bs)).
  Proof.
    destruct OK as [Hb Fit Len Size Count Read _]. pose proof len_c as LC.
    unfold u64_ok in Fit.
    intros (I & Lb & Ep & U) E. unfold reader_read in E. rewrite Count, Size in E by assumption.
    destruct r as [d b y]. cbn [r_dev r_block r_byte] in *.
    destruct (N.leb_spec count b) as [End|In].
    { inv E. exists (b * bs + y). split; [|split; [|split]].
      - cbn. rewrite window_0. cbn. repeat split; try lia. intros _. right. rewrite LC. nia.
      - repeat split; auto.
      - discriminate.
      - intros k _ L. rewrite LC in L. nia. }
    destruct (bd_read ops d b (zeros bs)) as [[d' block] xr] eqn:R.
    destruct (Read _ _ _ _ _ _ I In (len_zeros bs) R) as (I' & Lblk & O).
    rewrite len_zeros in Lblk.
    assert (Fit1 : (b + 1) * bs <= count * bs) by (apply N.mul_le_mono_r; lia).
    destruct xr as [k0|e|]; [| |destruct O].
    2: { inv E. exists (b * bs + y). split; [cbn; auto|]. split; [repeat split; auto|]. split; [|discriminate].
         intros e' _. unfold bad_pos. now rewrite div_block. }
    destruct O as (-> & ->). unfold csub64 in E. destruct (N.leb_spec y bs); [|lia].
    rewrite sub_some in E by lia.
    set (k := N.min (len buf) (bs - y)) in *.
    assert (FL : window c (b * bs + y) k = window (blk b) y k) by (apply flat_window; [assumption..|lia]).
    assert (PM : p mod bs = y). { symmetry. apply (N.mod_unique _ _ b); lia. }
    assert (FR : flat_read c p buf (Ok k) (window (blk b) y k ++ skipn (N.to_nat k) buf) (p + k)).
    { cbn. split; [lia|]. split; [reflexivity|]. split; [subst p; now rewrite FL|]. split; [lia|].
      intros _. rewrite LC. lia. }
    destruct (N.leb_spec bs (y + k)) as [Nx|St].
    - unfold cadd64 in E. destruct (N.leb_spec (b + 1) u64_max); [|nia].
      inv E. exists (b * bs + y + k). split; [exact FR|]. split; [|split; [discriminate|]].
      + unfold reader_at. cbn. unfold u64_ok in *. repeat split; auto; lia.
      + intros k' Ek _. inv Ek. rewrite PM. reflexivity.
    - inv E. exists (b * bs + y + k). split; [exact FR|]. split; [|split; [discriminate|]].
      + unfold reader_at. cbn. unfold u64_ok in *. repeat split; auto; lia.
      + intros k' Ek _. inv Ek. rewrite PM. reflexivity.
  Qed.

  (** One seek. *)
  Lemma reader_seek_spec r p s r' x :
    reader_at r p -> call_ok (CSeek s) -> reader_seek ops r s = (r', x) ->
    exists p', flat_seek c p s x p' /\ reader_at r' p'.
  Proof.
    destruct OK as [Hb Fit Len Size Count Read _]. pose proof len_c as LC.
    unfold u64_ok in Fit.
    intros (I & Lb & Ep & U) CO E. destruct r as [d b y]. cbn [r_dev r_block r_byte] in *.
    unfold u64_ok in U.
    assert (G : forall new, new <= u64_max ->
       (Reader d (new / bs) (new mod bs), Ok new) = (r', x) -> x = Ok new /\ reader_at r' new).
    { intros new Ln H. inv H. split; [reflexivity|]. unfold reader_at. cbn.
      pose proof (N.mod_lt new bs Hb). pose proof (N.div_mod new bs Hb). unfold u64_ok. repeat split; auto; lia. }
    assert (Dv : forall new, unwrap (cdiv64 new bs) = Ok (new / bs)).
    { intros. unfold cdiv64. destruct (N.eqb_spec bs 0); [contradiction|reflexivity]. }
    assert (Rm : forall new, unwrap (crem64 new bs) = Ok (new mod bs)).
    { intros. unfold crem64. destruct (N.eqb_spec bs 0); [contradiction|reflexivity]. }
    unfold flat_seek.
    destruct s as [o|o|o]; cbn [seek_target] in *; unfold reader_seek in E;
      cbn [r_dev r_block r_byte] in E; rewrite ?Count, ?Size in E by assumption; cbn [rbind] in E.
    - rewrite Dv, Rm in E. cbn [rbind] in E. cbn in CO. destruct (G o CO E) as (-> & A).
      unfold u64_ok in CO. replace ((0 <=? Z.of_N o) && (Z.of_N o <=? Z.of_N u64_max))%Z with true by lia.
      exists o. rewrite N2Z.id. auto.
    - unfold size_bytes in E. rewrite cmul64_some in E by assumption. cbn [ok_or rbind] in E.
      rewrite LC. unfold cadd_signed64 in E.
      destruct ((0 <=? Z.of_N (count * bs) + o) && (Z.of_N (count * bs) + o <=? Z.of_N u64_max))%Z eqn:B;
        cbn [ok_or rbind] in E.
      + rewrite Dv, Rm in E. cbn [rbind] in E. destruct (G (Z.to_N (Z.of_N (count * bs) + o)) ltac:(lia) E) as (-> & A).
        eexists. split; [split; reflexivity|exact A].
      + inv E. exists (b * bs + y). split; [auto|]. repeat split; auto.
    - unfold byte_pos in E. rewrite cmul64_some in E by lia. cbn [ok_or rbind] in E.
      rewrite cadd64_some in E by lia. cbn [ok_or rbind] in E. rewrite <- Ep in E. unfold cadd_signed64 in E.
      destruct ((0 <=? Z.of_N p + o) && (Z.of_N p + o <=? Z.of_N u64_max))%Z eqn:B; cbn [ok_or rbind] in E.
      + rewrite Dv, Rm in E. cbn [rbind] in E. destruct (G (Z.to_N (Z.of_N p + o)) ltac:(lia) E) as (-> & A).
        eexists. split; [split; reflexivity|exact A].
      + inv E. exists (b * bs + y). split; [auto|]. repeat split; auto.
  Qed.

  Lemma reader_stream_ok : stream_ok (reader_stream ops) c bad_pos reader_at.
  Proof.
    constructor.
    - intros s p buf s' buf' r A E. destruct (reader_read_spec _ _ _ _ _ _ A E) as (p' & F & A' & B & _). eauto.
    - intros s p o A L. cbn [st_seek reader_stream]. destruct (reader_seek ops s (SeekStart o)) as [s' r] eqn:E.
      assert (Uo : u64_ok o). { rewrite len_c in L. pose proof (bo_fit _ _ _ _ _ _ OK). unfold u64_ok in *. lia. }
      destruct (reader_seek_spec _ _ (SeekStart o) _ _ A Uo E) as (p' & F & A').
      unfold flat_seek in F. cbn [seek_target] in F. unfold u64_ok in Uo.
      replace ((0 <=? Z.of_N o) && (Z.of_N o <=? Z.of_N u64_max))%Z with true in F by lia.
      rewrite N2Z.id in F. destruct F as [-> ->]. eauto.
    - intros s p o s' r A L Uo E. cbn [st_seek reader_stream] in E.
      destruct (reader_seek_spec _ _ (SeekStart o) _ _ A Uo E) as (p' & F & A').
      unfold flat_seek in F. cbn [seek_target] in F. unfold u64_ok in Uo.
      replace ((0 <=? Z.of_N o) && (Z.of_N o <=? Z.of_N u64_max))%Z with true in F by lia.
      rewrite N2Z.id in F. destruct F as [-> ->]. exists o. split; [exact A'|]. split; [discriminate|lia].
  Qed.

  Lemma reader_history r p cs r' ans :
    reader_at r p -> Forall call_ok cs -> run_calls (reader_stream ops) r cs = (r', ans) ->
    exists p', flat_history c bad_pos p cs ans p' /\ reader_at r' p'.
  Proof.
    intros A F. revert r p r' ans A. induction F as [|x cs Fx F IH]; intros r p r' ans A E.
    - cbn in E. inv E. exists p. split; [constructor|exact A].
    - destruct x as [buf|s]; cbn [run_calls reader_stream st_read st_seek] in E.
      + destruct (reader_read ops r buf) as [[r1 b1] x1] eqn:R.
        destruct (run_calls (reader_stream ops) r1 cs) as [r2 a2] eqn:R2. inv E.
        destruct (reader_read_spec _ _ _ _ _ _ A R) as (p1 & F1 & A1 & B1 & _).
        destruct (IH _ _ _ _ A1 R2) as (p2 & F2 & A2). exists p2. split; [econstructor; eassumption|exact A2].
      + destruct (reader_seek ops r s) as [r1 x1] eqn:R.
        destruct (run_calls (reader_stream ops) r1 cs) as [r2 a2] eqn:R2. inv E.
        destruct (reader_seek_spec _ _ _ _ _ A Fx R) as (p1 & F1 & A1).
        destruct (IH _ _ _ _ A1 R2) as (p2 & F2 & A2). exists p2. split; [econstructor; eassumption|exact A2].
  Qed.

  Lemma reader_block_ok : block_ok (reader_block ops) bs count blk bad (fun r => exists p, reader_at r p).
  Proof.
    destruct OK as [Hb Fit Len Size Count Read Clone]. constructor; auto.
    - intros r (p & I & _). cbn. auto.
    - intros r (p & I & _). cbn. auto.
    - intros [d b y] n buf r' buf' x (p & I & A) L Lb E. cbn [bd_read reader_block r_dev r_block r_byte] in *.
      destruct (bd_read ops d n buf) as [[d1 b1] x1] eqn:R. inv E.
      destruct (Read _ _ _ _ _ _ I L Lb R) as (I1 & L1 & O). split; [|auto].
      exists p. split; [exact I1|exact A].
    - intros [d b y] (p & I & A). cbn [bd_clone reader_block r_dev r_block r_byte] in *.
      destruct (Clone d I) as (d' & E & I'). rewrite E. cbn [rbind]. eexists. split; [reflexivity|].
      exists p. split; [exact I'|exact A].
  Qed.
End Reader.
