(** Property C106: interrupted system calls. *)

From Coq Require Import ConstructiveEpsilon.
From Verif Require Import Base BaseFacts Io SpecStream RaidFacts IoFacts PropsIo Superblock Device SpecMd SpecDevice PropsDevice Interrupt.

(** ** Specification *)

(** No call is interrupted for ever. *)
Definition patient (pol : io_policy) : Prop := forall t p n, exists k : nat, pol (t + N.of_nat k) p n <> IoFail 4.

(** Positions at which the operating system can fail otherwise, and blocks that contain such a position. *)
Definition fails (pol : io_policy) (p : N) : Prop := exists t n e, pol t p n = IoFail e /\ e <> 4.
Definition fails_block (pol : io_policy) (bs n : N) : Prop := exists q, n * bs <= q < n * bs + bs /\ fails pol q.

(** ** One call, made again until it is not interrupted *)

Fixpoint os_retry (pol : io_policy) (fuel : nat) (f : osfile) (buf : bytes) : option (osfile * bytes * res N) :=
  match fuel with
  | O => None
  | Datatypes.S fuel =>
      let '(f', buf', r) := os_read pol f buf in
      if interrupted r then os_retry pol fuel f' buf' else Some (f', buf', r)
  end.

Lemma os_read_cases pol f buf f' buf' r : os_read pol f buf = (f', buf', r) ->
  length buf' = length buf /\
  (interrupted r = true -> pol (os_clock f) (os_pos f) (len buf) = IoFail 4 /\ buf' = buf /\ f' = os_set f (os_pos f) (os_clock f + 1)).
Proof.
  unfold os_read. destruct (pol (os_clock f) (os_pos f) (len buf)) as [e|k]; intros E; inv E.
  - split; [reflexivity|]. cbn. intros I. apply N.eqb_eq in I. subst e. auto.
  - split; [|discriminate]. rewrite app_length, skipn_length. unfold window. rewrite firstn_length, skipn_length. unfold len in *. lia.
Qed.

Lemma retry_mono pol : forall fuel fuel' f buf x, (fuel <= fuel')%nat -> os_retry pol fuel f buf = Some x -> os_retry pol fuel' f buf = Some x.
Proof.
  induction fuel as [|fuel IH]; intros fuel' f buf x L E; [discriminate E|]. destruct fuel' as [|fuel']; [lia|].
  cbn [os_retry] in *. destruct (os_read pol f buf) as [[f1 b1] r1]. destruct (interrupted r1); [|exact E]. apply (IH fuel'); [lia|exact E].
Qed.

Lemma retry_ends pol : patient pol -> forall f buf, exists fuel, os_retry pol fuel f buf <> None.
Proof.
  intros P f buf. destruct (P (os_clock f) (os_pos f) (len buf)) as [k K]. exists (Datatypes.S k). revert f K.
  induction k as [|k IH]; intros f K; cbn [os_retry]; destruct (os_read pol f buf) as [[f1 b1] r1] eqn:R;
    destruct (os_read_cases _ _ _ _ _ _ R) as [_ I]; destruct (interrupted r1); try discriminate.
  - exfalso. destruct (I eq_refl) as [I1 _]. apply K. now rewrite N.add_0_r.
  - destruct (I eq_refl) as (_ & -> & ->). apply (IH (os_set f (os_pos f) (os_clock f + 1))). cbn [os_set os_clock os_pos].
    replace (os_clock f + 1 + N.of_nat k) with (os_clock f + N.of_nat (Datatypes.S k)) by lia. exact K.
Qed.

Lemma some_dec {A} (o : option A) : {o <> None} + {~ o <> None}.
Proof. destruct o; [left; discriminate|right; intros H; exact (H eq_refl)]. Qed.

Section Calm.
  Context (pol : io_policy) (P : patient pol).

  (** The stream in which every call is made again until it is not interrupted. *)
  Definition retry_fuel (f : osfile) (buf : bytes) : { fuel : nat | os_retry pol fuel f buf <> None } :=
    constructive_indefinite_ground_description_nat _ (fun n => some_dec (os_retry pol n f buf)) (retry_ends pol P f buf).
  Definition calm_read (f : osfile) (buf : bytes) : osfile * bytes * res N :=
    match os_retry pol (proj1_sig (retry_fuel f buf)) f buf with Some x => x | None => (f, buf, Panic) end.
  Definition calm_stream : stream osfile := Stream calm_read os_seek.

  Lemma calm_read_retry f buf : exists fuel, os_retry pol fuel f buf = Some (calm_read f buf).
  Proof.
    unfold calm_read. destruct (retry_fuel f buf) as [fuel H]. cbn [proj1_sig]. exists fuel. destruct (os_retry pol fuel f buf); [reflexivity|contradiction].
  Qed.
  Lemma calm_read_length f buf f' buf' r : calm_read f buf = (f', buf', r) -> length buf' = length buf /\ interrupted r = false.
  Proof.
    destruct (calm_read_retry f buf) as [fuel H]. intros E. rewrite E in H. clear E. revert f buf H.
    induction fuel as [|fuel IH]; intros f buf H; [discriminate H|]. cbn [os_retry] in H.
    destruct (os_read pol f buf) as [[f1 b1] r1] eqn:R. destruct (os_read_cases _ _ _ _ _ _ R) as [L I].
    destruct (interrupted r1) eqn:X.
    - destruct (IH _ _ H) as [L' X']. split; [congruence|exact X'].
    - injection H as <- <- <-. auto.
  Qed.

  Lemma calm_stream_ok c fx pb sz : len c <= i64_max -> stream_ok calm_stream c (fails pol) (os_at c fx pb sz).
  Proof.
    intros U. pose proof (os_stream_ok pol c fx pb sz U) as [R K O]. constructor; [|exact K|exact O].
    intros f p buf s' buf' r A E. cbn [calm_stream st_read] in E. destruct (calm_read_retry f buf) as [fuel H]. rewrite E in H. clear E.
    revert f A H. induction fuel as [|fuel IH]; intros f A H; [discriminate H|]. cbn [os_retry] in H.
    destruct (os_read pol f buf) as [[f1 b1] r1] eqn:E. destruct (R _ _ _ _ _ _ A E) as (p1 & F1 & A1 & _).
    destruct (os_read_cases _ _ _ _ _ _ E) as [_ I]. destruct (interrupted r1) eqn:X.
    - destruct (I eq_refl) as (_ & -> & E1). apply (IH f1); [|exact H].
      destruct A as (B1 & B2 & B3 & B4 & B5). subst f1. repeat split; cbn; assumption.
    - injection H as <- <- <-. exists p1. split; [exact F1|]. split; [exact A1|]. intros e ->. destruct A as (B1 & B2 & B3 & B4 & B5).
      unfold os_read in E. rewrite B5 in E. destruct (pol (os_clock f) p (len buf)) as [e'|k] eqn:Q; [|discriminate E]. injection E as _ _ <-.
      exists (os_clock f), (len buf), e'. split; [exact Q|]. cbn in X. apply N.eqb_neq in X. exact X.
  Qed.

  (** The loop of the standard library. *)
  Lemma std_mono {S} (rd : S -> bytes -> S * bytes * res N) : forall fuel fuel' s buf x, (fuel <= fuel')%nat ->
    read_exact_std rd fuel s buf = Some x -> read_exact_std rd fuel' s buf = Some x.
  Proof.
    induction fuel as [|fuel IH]; intros fuel' s buf x L E.
    - destruct buf; [|discriminate E]. destruct fuel'; exact E.
    - destruct fuel' as [|fuel']; [lia|]. assert (L' : (fuel <= fuel')%nat) by lia. clear L. cbn [read_exact_std] in *.
      destruct buf as [|b0 buf0]; [exact E|]. set (buf := b0 :: buf0) in *. clearbody buf.
      destruct (rd s buf) as [[s1 b1] r1]. destruct (interrupted r1); [now apply (IH fuel')|].
      destruct r1 as [n|e|]; [|exact E|exact E]. destruct (n =? 0); [exact E|]. destruct (n <=? len b1); [|exact E].
      destruct (read_exact_std rd fuel s1 (skipn (N.to_nat n) b1)) as [y|] eqn:Y; [|discriminate E].
      now rewrite (IH fuel' _ _ _ L' Y).
  Qed.
  Lemma std_retry k : forall m f b buf f' b' r, os_retry pol k f (b :: buf) = Some (f', b', r) ->
    exists m', (m <= m')%nat /\ read_exact_std (os_read pol) (k + m) f (b :: buf) =
      match r with
      | Ok n =>
          if n =? 0 then Some (f', b', Err UnexpectedEof)
          else if n <=? len b' then
            match read_exact_std (os_read pol) m' f' (skipn (N.to_nat n) b') with
            | Some (s'', rest, r) => Some (s'', firstn (N.to_nat n) b' ++ rest, r)
            | None => None
            end
          else Some (f', b', Panic)
      | Err e => Some (f', b', Err e)
      | Panic => Some (f', b', Panic)
      end.
  Proof.
    induction k as [|k IH]; intros m f b buf f' b' r H; [discriminate H|]. cbn [os_retry] in H. cbn [Nat.add read_exact_std].
    destruct (os_read pol f (b :: buf)) as [[f1 b1] r1] eqn:R. destruct (os_read_cases _ _ _ _ _ _ R) as [L I].
    destruct (interrupted r1) eqn:X.
    - destruct (I eq_refl) as (_ & -> & _). exact (IH m _ _ _ _ _ _ H).
    - injection H as <- <- <-. exists (k + m)%nat. split; [lia|]. reflexivity.
  Qed.
  Lemma std_calm : forall n f buf, (length buf <= n)%nat ->
    exists fuel, read_exact_std (os_read pol) fuel f buf = Some (read_exact_loop calm_read n f buf).
  Proof.
    induction n as [|n IH]; intros f buf L.
    - destruct buf; [|cbn in L; lia]. exists 0%nat. reflexivity.
    - destruct buf as [|b buf]; [exists 0%nat; reflexivity|]. cbn [read_exact_loop]. unfold sbind.
      destruct (calm_read f (b :: buf)) as [[f1 b1] r1] eqn:E. destruct (calm_read_length _ _ _ _ _ E) as [L1 X].
      destruct (calm_read_retry f (b :: buf)) as [k K]. rewrite E in K.
      destruct r1 as [a|e|].
      + destruct (N.eqb_spec a 0) as [->|A0].
        { destruct (std_retry k 0 _ _ _ _ _ _ K) as (m' & _ & S'). exists (k + 0)%nat. exact S'. }
        destruct (N.leb_spec a (len b1)) as [La|La].
        * destruct (IH f1 (skipn (N.to_nat a) b1)) as [m M]; [rewrite skipn_length, L1; cbn [length] in *; lia|].
          destruct (std_retry k m _ _ _ _ _ _ K) as (m' & Lm & S'). exists (k + m)%nat. rewrite S'.
          destruct (N.eqb_spec a 0); [contradiction|]. destruct (N.leb_spec a (len b1)); [|lia].
          rewrite (std_mono _ _ _ _ _ _ Lm M). destruct (read_exact_loop calm_read n f1 (skipn (N.to_nat a) b1)) as [[f2 b2] r2]. reflexivity.
        * destruct (std_retry k 0 _ _ _ _ _ _ K) as (m' & _ & S'). exists (k + 0)%nat. rewrite S'.
          destruct (N.eqb_spec a 0); [contradiction|]. destruct (N.leb_spec a (len b1)); [lia|]. reflexivity.
      + destruct (std_retry k 0 _ _ _ _ _ _ K) as (m' & _ & S'). exists (k + 0)%nat. exact S'.
      + destruct (std_retry k 0 _ _ _ _ _ _ K) as (m' & _ & S'). exists (k + 0)%nat. exact S'.
  Qed.

  (** What [read_exact] of Io.v does on that stream is what the loop of the standard library does with the interruptions. *)
  Lemma read_exact_std_calm f buf : exists fuel, forall fuel', (fuel <= fuel')%nat ->
    read_exact_std (os_read pol) fuel' f buf = Some (read_exact calm_stream f buf).
  Proof. destruct (std_calm (length buf) f buf (le_n _)) as [fuel H]. exists fuel. intros fuel' L. exact (std_mono _ _ _ _ _ _ L H). Qed.

  (** Block reads on it. *)
  Definition calm_read_block (f : osfile) (block bs : N) (buf : bytes) : osfile * bytes * res N :=
    if len buf <? bs then (f, buf, Err InvalidInput)
    else
      match byte_pos block bs with
      | None => (f, buf, Err InvalidData)
      | Some o =>
          let '(f, r) := os_seek f (SeekStart o) in
          match r with
          | Ok _ =>
              let '(f, b, r) := read_exact calm_stream f (firstn (N.to_nat bs) buf) in
              (f, b ++ skipn (N.to_nat bs) buf, let? _ := r in Ok bs)
          | Err e => (f, buf, Err e)
          | Panic => (f, buf, Panic)
          end
      end.
  Lemma read_block_std_calm f n bs buf : exists fuel, forall fuel', (fuel <= fuel')%nat ->
    internal_read_block_std pol fuel' f n bs buf = Some (calm_read_block f n bs buf).
  Proof.
    unfold internal_read_block_std, calm_read_block. destruct (len buf <? bs); [exists 0%nat; reflexivity|].
    destruct (byte_pos n bs) as [o|]; [|exists 0%nat; reflexivity]. destruct (os_seek f (SeekStart o)) as [f1 [k|e|]]; [|exists 0%nat; reflexivity|exists 0%nat; reflexivity].
    destruct (read_exact_std_calm f1 (firstn (N.to_nat bs) buf)) as [fuel H]. exists fuel. intros fuel' L. rewrite (H fuel' L).
    destruct (read_exact calm_stream f1 (firstn (N.to_nat bs) buf)) as [[f2 b2] r2]. reflexivity.
  Qed.

  Lemma calm_read_block_spec c fx pb sz f p n bs buf f' buf' r :
    len c <= i64_max -> os_at c fx pb sz f p ->
    calm_read_block f n bs buf = (f', buf', r) ->
    (exists p', os_at c fx pb sz f' p') /\ len buf' = len buf /\
    match r with
    | Ok k => k = bs /\ bs <= len buf /\ (bs <> 0 -> (n + 1) * bs <= len c) /\
              buf' = window c (n * bs) bs ++ skipn (N.to_nat bs) buf
    | Err e => (len buf < bs /\ e = InvalidInput /\ f' = f /\ buf' = buf) \/ fails_block pol bs n
               \/ len c < (n + 1) * bs
    | Panic => False
    end.
  Proof.
    intros U A E. unfold calm_read_block in E.
    destruct (N.ltb_spec (len buf) bs).
    { inv E. split; [eauto|]. split; [reflexivity|]. left. auto. }
    unfold byte_pos, cmul64 in E. destruct (N.leb_spec (n * bs) u64_max) as [Fit|Fit].
    2: { inv E. split; [eauto|]. split; [reflexivity|]. right; right. unfold u64_max, i64_max in *. nia. }
    pose proof (calm_stream_ok c fx pb sz U) as OK.
    destruct (N.le_gt_cases (n * bs) (len c)) as [In|Out].
    - destruct (so_seek _ _ _ _ OK _ _ _ A In) as (f1 & E1 & A1). cbn [st_seek calm_stream] in E1.
      rewrite E1 in E.
      destruct (read_exact calm_stream f1 (firstn (N.to_nat bs) buf)) as [[f2 b2] r2] eqn:R.
      pose proof (read_exact_spec _ _ _ _ OK _ _ _ _ _ _ A1 R) as O.
      rewrite len_firstn in O. replace (N.min (N.of_nat (N.to_nat bs)) (len buf)) with bs in O by lia.
      inv E. destruct r2 as [|e|]; [| |destruct O]; cbn [rbind].
      + destruct O as (L & -> & A2). split; [eauto|].
        assert (LW : len (window c (n * bs) bs) = bs). { rewrite len_window. lia. }
        split; [rewrite len_app, LW, len_skipn; lia|]. split; [reflexivity|]. split; [lia|]. split; [lia|reflexivity].
      + destruct O as (L & _ & (p' & _ & A2) & D). split; [eauto|].
        split; [rewrite len_app, L, len_skipn; lia|].
        destruct D as [(q & Q1 & Q2)|(_ & Q)]; [right; left; exists q; split; assumption|].
        right. right. lia.
    - destruct (os_seek f (SeekStart (n * bs))) as [f1 r1] eqn:E1.
      destruct (so_seek_out _ _ _ _ OK _ _ _ _ _ A Out Fit E1) as (p1 & A1 & NP & K).
      destruct r1 as [k|e|]; [| |congruence].
      + destruct (read_exact calm_stream f1 (firstn (N.to_nat bs) buf)) as [[f2 b2] r2] eqn:R.
        pose proof (read_exact_spec _ _ _ _ OK _ _ _ _ _ _ A1 R) as O.
        rewrite len_firstn in O. replace (N.min (N.of_nat (N.to_nat bs)) (len buf)) with bs in O by lia.
        inv E. specialize (K _ eq_refl). destruct r2 as [|e|]; [| |destruct O]; cbn [rbind].
        * destruct O as (L & -> & A2). split; [eauto|]. rewrite (window_nil c p1) by assumption. cbn [app].
          assert (bs = 0) by lia. subst bs. rewrite N.mul_0_r in Out. lia.
        * destruct O as (L & _ & (p' & _ & A2) & D). split; [eauto|].
          split; [rewrite len_app, L, len_skipn; lia|]. right. right. lia.
      + inv E. split; [eauto|]. split; [reflexivity|]. right. right. lia.
  Qed.

  (** The file as a block device (file.rs 28-53), and as the stream on which superblocks are looked for (55-65). *)
  Definition calm_filedev : blockdev filedev := {|
    bd_size d := Ok (fd_bs d);
    bd_count d := unwrap (cdiv64 (len (os_content (fd_file d))) (fd_bs d));
    bd_read d n buf := let '(f, b, r) := calm_read_block (fd_file d) n (fd_bs d) buf in (FileDev f (fd_bs d), b, r);
    bd_clone d := Ok d
  |}.
  Definition calm_native : blockdev osfile := {|
    bd_size := os_pbsz;
    bd_count f := let? sz := os_size64 f in let? bs := os_pbsz f in unwrap (cdiv64 sz bs);
    bd_read f n buf :=
      match os_pbsz f with
      | Ok bs => calm_read_block f n bs buf
      | Err e => (f, buf, Err e)
      | Panic => (f, buf, Panic)
      end;
    bd_clone f := Ok f
  |}.

  Lemma calm_filedev_ok c fx pb sz bs : len c <= i64_max -> bs <> 0 ->
    block_ok calm_filedev bs (len c / bs) (block_of c bs) (fails_block pol bs)
      (fun d => fd_bs d = bs /\ exists p, os_at c fx pb sz (fd_file d) p).
  Proof.
    intros U Hb. destruct (filedev_block_ok pol c fx pb sz bs U Hb) as [H1 H2 H3 H4 H5 _ H7]. constructor; try assumption.
    intros [f b] n buf d' buf' r (E0 & p & A) L Lb E.
    assert (IN : n * bs + bs <= len c).
    { assert (M : len c / bs * bs <= len c) by (rewrite N.mul_comm; apply N.mul_div_le; lia). generalize dependent (len c / bs). intros. clear - L M. nia. }
    cbn in E0, A. subst b. cbn [bd_read calm_filedev fd_file fd_bs] in E.
    destruct (calm_read_block f n bs buf) as [[f1 b1] r1] eqn:R. inv E.
    destruct (calm_read_block_spec _ _ _ _ _ _ _ _ _ _ _ _ U A R) as (I & L' & O).
    split; [cbn; auto|]. split; [exact L'|].
    destruct r as [k|e|]; [| |exact O].
    - destruct O as (-> & _ & _ & ->). split; [reflexivity|]. rewrite skipn_to_nat_nil by lia. apply app_nil_r.
    - destruct O as [(O & _)|[O|O]]; [lia|exact O|lia].
  Qed.
  Lemma calm_native_ok c fx bs : len c <= i64_max -> bs <> 0 ->
    block_ok calm_native bs (len c / bs) (block_of c bs) (fails_block pol bs) (fun f => exists p, os_at c fx (Ok bs) (Ok (len c)) f p).
  Proof.
    intros U Hb. destruct (native_block_ok pol c fx bs U Hb) as [H1 H2 H3 H4 H5 _ H7]. constructor; try assumption.
    intros f n buf d' buf' r (p & A) L Lb E. cbn [bd_read calm_native] in E. destruct A as (A1 & A2 & A3 & A4 & A5). rewrite A3 in E.
    destruct (calm_filedev_ok c fx (Ok bs) (Ok (len c)) bs U Hb) as [_ _ _ _ _ R _].
    specialize (R (FileDev f bs) n buf). cbn [bd_read calm_filedev fd_file fd_bs] in R. rewrite E in R.
    destruct (R (FileDev d' bs) buf' r) as (I & O); [split; [reflexivity|]; exists p; repeat split; assumption|exact L|exact Lb|reflexivity|].
    split; [exact (proj2 I)|exact O].
  Qed.
End Calm.

(** ** C106 *)

(** Reading a block while calls are interrupted: if the interruptions do not go on for ever, the call ends, with the block, or
    with an error where the operating system fails otherwise, never with [Interrupted]; and it does so as the block device that
    all other theorems may be applied to. *)
Theorem interrupted_read : forall pol c fx pb sz f p n bs buf, patient pol -> len c <= i64_max -> os_at c fx pb sz f p ->
  exists fuel f' buf' r, (forall fuel', (fuel <= fuel')%nat -> internal_read_block_std pol fuel' f n bs buf = Some (f', buf', r)) /\
    (exists p', os_at c fx pb sz f' p') /\ len buf' = len buf /\
    match r with
    | Ok k => k = bs /\ bs <= len buf /\ (bs <> 0 -> (n + 1) * bs <= len c) /\ buf' = window c (n * bs) bs ++ skipn (N.to_nat bs) buf
    | Err e => interrupted r = false /\
               ((len buf < bs /\ e = InvalidInput /\ f' = f /\ buf' = buf) \/ fails_block pol bs n \/ len c < (n + 1) * bs)
    | Panic => False
    end.
Proof.
  intros pol c fx pb sz f p n bs buf P U A. destruct (read_block_std_calm pol P f n bs buf) as [fuel H].
  destruct (calm_read_block pol P f n bs buf) as [[f' buf'] r] eqn:E. exists fuel, f', buf', r. split; [exact H|].
  destruct (calm_read_block_spec pol P c fx pb sz f p n bs buf f' buf' r U A E) as (I & L & O). split; [exact I|]. split; [exact L|].
  destruct r as [k|e|]; [exact O| |exact O]. split; [|exact O]. clear - E.
  unfold calm_read_block in E. destruct (len buf <? bs); [injection E as _ _ <-; reflexivity|].
  destruct (byte_pos n bs) as [o|]; [|injection E as _ _ <-; reflexivity].
  destruct (os_seek f (SeekStart o)) as [f1 r1] eqn:K. destruct r1 as [k|e1|].
  - destruct (read_exact (calm_stream pol P) f1 (firstn (N.to_nat bs) buf)) as [[f2 b2] r2] eqn:R. injection E as _ _ E.
    assert (X : interrupted r2 = false).
    { clear E. unfold read_exact in R. revert R. clear K. generalize (firstn (N.to_nat bs) buf). intros l.
      generalize (length l). intros m. revert f1 f2 b2 r2 l. induction m as [|m IH]; intros f1 f2 b2 r2 b R.
      - destruct b; cbn [read_exact_loop] in R; injection R as _ _ <-; reflexivity.
      - cbn [read_exact_loop] in R. destruct b as [|b0 b1]; [injection R as _ _ <-; reflexivity|]. unfold sbind in R.
        cbn [st_read calm_stream] in R. destruct (calm_read pol P f1 (b0 :: b1)) as [[f3 b3] r3] eqn:Q.
        destruct (calm_read_length _ _ _ _ _ _ _ Q) as [_ X]. destruct r3 as [a|e3|]; [|injection R as _ _ <-; exact X|injection R as _ _ <-; reflexivity].
        destruct (a =? 0); [injection R as _ _ <-; reflexivity|]. destruct (a <=? len b3); [|injection R as _ _ <-; reflexivity].
        destruct (read_exact_loop (calm_read pol P) m f3 (skipn (N.to_nat a) b3)) as [[f4 b4] r4] eqn:Y. injection R as _ _ <-.
        exact (IH _ _ _ _ _ Y). }
    destruct r2 as [u|e2|]; cbn [rbind] in E; inv E. exact X.
  - injection E as _ _ <-. unfold os_seek in K. destruct (o <=? i64_max).
    + destruct (Z.of_N o <? 0)%Z; [injection K as _ <-; reflexivity|]. destruct (Z.of_N i64_max <? Z.of_N o)%Z; [injection K as _ <-; reflexivity|].
      destruct (os_fixed f && (len (os_content f) <? Z.to_N (Z.of_N o))); [injection K as _ <-; reflexivity|discriminate K].
    + injection K as _ <-. reflexivity.
  - discriminate E.
Qed.
Print Assumptions interrupted_read.

(** There is a block device whose reads are these, with the answers that do not depend on the number of interruptions. *)
Theorem interrupted_devices : forall pol, patient pol -> exists files natives,
  (forall d n buf, exists fuel, forall fuel', (fuel <= fuel')%nat -> filedev_read_std pol fuel' d n buf = Some (bd_read files d n buf)) /\
  (forall f n buf, exists fuel, forall fuel', (fuel <= fuel')%nat -> native_read_std pol fuel' f n buf = Some (bd_read natives f n buf)) /\
  (forall c fx pb sz bs, len c <= i64_max -> bs <> 0 ->
     block_ok files bs (len c / bs) (block_of c bs) (fails_block pol bs) (fun d => fd_bs d = bs /\ exists p, os_at c fx pb sz (fd_file d) p)) /\
  (forall c fx bs, len c <= i64_max -> bs <> 0 ->
     block_ok natives bs (len c / bs) (block_of c bs) (fails_block pol bs) (fun f => exists p, os_at c fx (Ok bs) (Ok (len c)) f p)).
Proof.
  intros pol P. exists (calm_filedev pol P), (calm_native pol P). split; [|split; [|split]].
  - intros d n buf. destruct (read_block_std_calm pol P (fd_file d) n (fd_bs d) buf) as [fuel H]. exists fuel. intros fuel' L.
    unfold filedev_read_std. rewrite (H fuel' L). cbn [bd_read calm_filedev]. destruct (calm_read_block pol P (fd_file d) n (fd_bs d) buf) as [[f b] r]. reflexivity.
  - intros f n buf. unfold native_read_std. cbn [bd_read calm_native]. destruct (os_pbsz f) as [bs|e|]; [|exists 0%nat; reflexivity|exists 0%nat; reflexivity].
    apply read_block_std_calm.
  - intros. now apply calm_filedev_ok.
  - intros. now apply calm_native_ok.
Qed.
Print Assumptions interrupted_devices.

(** Looking for superblocks: there is a stream whose [read_exact] is that of the standard library, on which members are
    recognised as if nothing had been interrupted, even though errors other than of seeking are taken for absent superblocks. *)
Theorem interrupted_probe : forall pol, patient pol -> exists st,
  (forall f buf, exists fuel, forall fuel', (fuel <= fuel')%nat -> read_exact_std (os_read pol) fuel' f buf = Some (read_exact st f buf)) /\
  (forall f w, st_seek st f w = os_seek f w) /\
  (forall c pos clock fx bs cls, len c <= i64_max -> bs <> 0 -> (forall p, ~ fails pol p) ->
     let size := len c / bs * bs in
     snd (classify (native_block pol) st (OsFile c pos clock fx (Ok bs) (Ok (len c)))) = Ok cls <->
     if size <? 12288 then cls = DsTooSmall
     else exists ls, locations size ls /\ classified c (vacant c) ls cls).
Proof.
  intros pol P. exists (calm_stream pol P). split; [intros; apply read_exact_std_calm|]. split; [reflexivity|].
  intros c pos clock fx bs cls U Hb NF size.
  assert (M : size <= len c) by (unfold size; rewrite N.mul_comm; apply N.mul_div_le; exact Hb).
  apply (member_classification_exact _ _ c (fails pol) (os_at c fx (Ok bs) (Ok (len c))) size _ pos).
  - now apply calm_stream_ok.
  - unfold os_at. cbn. auto 10.
  - unfold device_size. cbn [bd_count bd_size native_block os_size64 os_pbsz rbind].
    unfold cdiv64. destruct (N.eqb_spec bs 0); [contradiction|]. cbn [unwrap rbind].
    unfold size_bytes. rewrite cmul64_some; [reflexivity|]. fold size. change u64_max with (2 * i64_max + 1). lia.
  - exact M.
  - exact NF.
Qed.
Print Assumptions interrupted_probe.

(** Without that, the call need not end: there is no limit on how often it is made again. *)
Theorem interrupted_forever : forall pol c fx pb sz f p n bs buf, len c <= i64_max -> os_at c fx pb sz f p -> bs <> 0 -> bs <= len buf ->
  n * bs <= len c -> (forall t k, pol t (n * bs) k = IoFail 4) -> forall fuel, internal_read_block_std pol fuel f n bs buf = None.
Proof.
  intros pol c fx pb sz f p n bs buf U A Hb L In F fuel. unfold internal_read_block_std.
  destruct (N.ltb_spec (len buf) bs); [lia|]. unfold byte_pos, cmul64. destruct (N.leb_spec (n * bs) u64_max); [|change u64_max with (2 * i64_max + 1) in *; lia].
  destruct (so_seek _ _ _ _ (os_stream_ok pol c fx pb sz U) _ _ _ A In) as (f1 & E1 & A1). cbn [st_seek os_stream] in E1. rewrite E1.
  enough (X : forall f b, os_pos f = n * bs -> b <> [] -> read_exact_std (os_read pol) fuel f b = None).
  { rewrite X; [reflexivity|apply A1|]. intros E. apply (f_equal len) in E. rewrite len_firstn, len_nil in E. lia. }
  induction fuel as [|fuel IH]; intros f2 b Ep Nb; destruct b as [|b0 b]; try congruence; [reflexivity|]. cbn [read_exact_std].
  unfold os_read. rewrite Ep, F. cbn [interrupted]. rewrite N.eqb_refl. apply IH; [reflexivity|discriminate].
Qed.
Print Assumptions interrupted_forever.

(** A file of 8 bytes, of which each call delivers three at most; two of three calls are interrupted, and calls at 6 fail. *)
Definition nervous : io_policy := fun t p n => if negb (t mod 3 =? 2) then IoFail 4 else if p =? 6 then IoFail 5 else IoXfer 3.
Definition nervous_file : osfile := OsFile (map byte_of [10; 11; 12; 13; 14; 15; 16; 17]) 0 0 false (Err (OsError 25)) (Err (OsError 25)).

Lemma nervous_patient : patient nervous.
Proof.
  intros t p n. exists (N.to_nat (2 - t mod 3)). unfold nervous. rewrite N2Nat.id.
  assert (E : (t + (2 - t mod 3)) mod 3 = 2).
  { pose proof (N.mod_upper_bound t 3 ltac:(lia)). pose proof (N.div_mod t 3 ltac:(lia)) as D. set (q := t / 3) in *. set (m := t mod 3) in *. clearbody q m.
    subst t. replace (3 * q + m + (2 - m)) with (2 + q * 3) by lia. rewrite N.mod_add by lia. reflexivity. }
  rewrite E. cbn. destruct (p =? 6); discriminate.
Qed.

Example interrupted_ex : patient nervous /\ os_at (os_content nervous_file) false (Err (OsError 25)) (Err (OsError 25)) nervous_file 0 /\
  internal_read_block_std nervous 5 nervous_file 0 4 (zeros 4) = None /\
  internal_read_block_std nervous 6 nervous_file 0 4 (zeros 4) = Some (os_set nervous_file 4 6, map byte_of [10; 11; 12; 13], Ok 4) /\
  internal_read_block nervous nervous_file 0 4 (zeros 4) = (os_set nervous_file 0 1, zeros 4, Err (OsError 4)) /\
  internal_read_block_std nervous 6 nervous_file 3 2 (zeros 2) = Some (os_set nervous_file 6 3, zeros 2, Err (OsError 5)) /\
  fails_block nervous 2 3 /\ ~ fails_block nervous 4 0.
Proof.
  split; [exact nervous_patient|]. split; [repeat split|]. do 4 (split; [vm_compute; reflexivity|]). split.
  - exists 6. split; [lia|]. exists 2, 2, 5. split; [reflexivity|discriminate].
  - intros (q & Q & t & k & e & E & N4). unfold nervous in E. destruct (negb (t mod 3 =? 2)); [injection E as <-; congruence|].
    destruct (N.eqb_spec q 6); [lia|discriminate E].
Qed.
