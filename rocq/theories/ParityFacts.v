(** Proofs about the RAID-6 sector read. *)

From Verif Require Import Base BaseFacts Raid SpecRaid RaidFacts SpecParity.

Lemma xor8_bxor a b : xor8 a b = bxor a b.
Proof.
  assert (H : forallb (fun x => forallb (fun y => Byte.eqb (xor8 x y) (bxor x y))
                (map byte_of (map N.of_nat (seq 0 256)))) (map byte_of (map N.of_nat (seq 0 256))) = true)
    by (vm_compute; reflexivity).
  assert (In_all : forall x, In x (map byte_of (map N.of_nat (seq 0 256)))).
  { intros x. rewrite <- (byte_of_bval x). apply in_map.
    replace (bval x) with (N.of_nat (N.to_nat (bval x))) by lia. apply in_map.
    apply in_seq. pose proof (bval_bound x). lia. }
  rewrite forallb_forall in H. specialize (H a (In_all a)).
  rewrite forallb_forall in H. specialize (H b (In_all b)).
  now apply Byte.byte_dec_bl in H.
Qed.

Lemma byte_at_nth l j : j < len l -> nth_N l j = Some (byte_at l j).
Proof.
  intros H. rewrite nth_N_spec. unfold byte_at. apply nth_error_nth'. rewrite length_len. lia.
Qed.

(** ** The read loop *)

(** All member sectors were read, in full. *)
Definition all_read (rd : sector_reader) (sec i : N) (blks : list bytes) : Prop :=
  forall k b, nth_N blks k = Some b -> rd (i + k) sec (zeros 512) = (Ok 512, b) /\ len b = 512.

(** The reader behaves like a Rust closure on a [&mut [u8]]: the buffer keeps its length. *)
Definition reader_ok (rd : sector_reader) : Prop :=
  forall i s b, len (snd (rd i s b)) = len b.

Lemma read_all_ok rd sec k i blks :
  reader_ok rd ->
  raid6_read_all rd sec i k = Ok blks <-> length blks = k /\ all_read rd sec i blks.
Proof.
  intros RO. revert i blks. induction k as [|k IH]; intros i blks; cbn [raid6_read_all].
  - split.
    + intros E. inv E. split; [reflexivity|]. intros j b H. apply nth_N_some_lt in H.
      rewrite len_nil in H. lia.
    + intros [L _]. destruct blks; [reflexivity|discriminate].
  - destruct (rd i sec (zeros 512)) as [r buf] eqn:E.
    assert (LB : len buf = 512).
    { pose proof (RO i sec (zeros 512)) as H. rewrite E, len_zeros in H. exact H. }
    split.
    + intros H. destruct r as [got| |]; cbn [rbind] in H; try discriminate.
      destruct (N.eqb_spec got (len buf)) as [G|G]; [|discriminate].
      apply rbind_ok_inv in H as (rest & H1 & H2). inv H2.
      apply IH in H1 as [L A]. split; [cbn; now rewrite L|].
      intros j b Hj. rewrite nth_N_cons in Hj. destruct (N.eqb_spec j 0) as [->|J].
      * inv Hj. rewrite N.add_0_r, E, LB. easy.
      * apply A in Hj. replace (i + 1 + (j - 1)) with (i + j) in Hj by lia. exact Hj.
    + intros [L A]. destruct blks as [|b rest]; [discriminate|]. cbn in L.
      pose proof (A 0 b) as A0. rewrite nth_N_cons in A0.
      destruct (A0 eq_refl) as [R _]. rewrite N.add_0_r, E in R. inv R. cbn [rbind].
      rewrite LB. change (512 =? 512) with true. cbn iota.
      assert (L' : length rest = k) by lia.
      assert (R : raid6_read_all rd sec (i + 1) k = Ok rest).
      { apply IH. split; [exact L'|]. intros j b' Hj. pose proof (A (1 + j) b') as A1.
        rewrite nth_N_cons in A1. replace (1 + j =? 0) with false in A1 by (symmetry; apply N.eqb_neq; lia).
        replace (1 + j - 1) with j in A1 by lia. replace (i + 1 + j) with (i + (1 + j)) by lia. auto. }
      now rewrite R.
Qed.

Lemma read_all_fail rd sec k i :
  reader_ok rd ->
  (forall j, i <= j < i + N.of_nat k -> fst (rd j sec (zeros 512)) <> Panic) ->
  (exists j, i <= j < i + N.of_nat k /\ forall g, fst (rd j sec (zeros 512)) = Ok g -> g <> 512) ->
  exists e, raid6_read_all rd sec i k = Err e.
Proof.
  intros RO. revert i. induction k as [|k IH]; intros i NP (j & Hj & Bad); [lia|].
  cbn [raid6_read_all]. destruct (rd i sec (zeros 512)) as [r buf] eqn:E.
  assert (LB : len buf = 512).
  { pose proof (RO i sec (zeros 512)) as H. rewrite E, len_zeros in H. exact H. }
  destruct r as [got|e|]; cbn [rbind].
  - destruct (N.eqb_spec got (len buf)) as [G|G]; [|eauto].
    destruct (N.eq_dec j i) as [->|J].
    + exfalso. apply (Bad got); [now rewrite E|congruence].
    + destruct (IH (i + 1)) as [e R].
      * intros j' Hj'. apply NP. lia.
      * exists j. split; [lia|exact Bad].
      * rewrite R. cbn [rbind]. eauto.
  - eauto.
  - exfalso. apply (NP i); [lia|now rewrite E].
Qed.

(** ** The parity loop *)

(** XOR of byte [j] over a list of sectors. *)
Fixpoint xor_all (bufs : list bytes) (j : N) : byte :=
  match bufs with [] => x00 | b :: t => bxor (byte_at b j) (xor_all t j) end.

Definition full (bufs : list bytes) : Prop := Forall (fun b => len b = 512) bufs.

Lemma xor_at_ok bufs j acc :
  full bufs -> j < 512 -> raid6_xor_at bufs j acc = Ok (bxor acc (xor_all bufs j)).
Proof.
  intros F J. revert acc. induction F as [|b t L F IH]; intros acc; cbn [raid6_xor_at xor_all].
  - now rewrite bxor_0_r.
  - rewrite byte_at_nth by lia. cbn [unwrap rbind]. rewrite IH. f_equal. apply bxor_assoc.
Qed.

Lemma check_ok datas pb k i :
  full datas -> len pb = 512 -> i + N.of_nat k <= 512 ->
  (forall j, i <= j < i + N.of_nat k -> xor_all datas j = byte_at pb j) ->
  raid6_check datas pb i k = Ok tt.
Proof.
  intros F L. revert i. induction k as [|k IH]; intros i B H; [reflexivity|].
  cbn [raid6_check]. rewrite xor_at_ok by (assumption || lia). cbn [rbind].
  rewrite byte_at_nth by lia. cbn [unwrap rbind].
  rewrite bxor_0_l, (H i) by lia. rewrite (Byte.byte_dec_lb eq_refl).
  apply IH; [lia|]. intros j J. apply H. lia.
Qed.

Lemma check_bad datas pb k i :
  full datas -> len pb = 512 -> i + N.of_nat k <= 512 ->
  (exists j, i <= j < i + N.of_nat k /\ xor_all datas j <> byte_at pb j) ->
  raid6_check datas pb i k = Err InvalidData.
Proof.
  intros F L. revert i. induction k as [|k IH]; intros i B (j & J & H); [lia|].
  cbn [raid6_check]. rewrite xor_at_ok by (assumption || lia). cbn [rbind].
  rewrite byte_at_nth by lia. cbn [unwrap rbind]. rewrite bxor_0_l.
  destruct (Byte.eqb (xor_all datas i) (byte_at pb i)) eqn:E; [|reflexivity].
  apply Byte.byte_dec_bl in E. apply IH; [lia|]. exists j. split; [|exact H].
  destruct (N.eq_dec j i); [subst; contradiction|lia].
Qed.

(** The buffers kept by the filter are the data slots of the row. *)
Lemma data_buffers_xor row blks i p q j :
  length row = length blks ->
  (forall k s, nth_N row k = Some s -> (s = P <-> i + k = p) /\ (s = Q <-> i + k = q)) ->
  xor_all (raid6_data_buffers blks i p q) j = data_xor row blks j.
Proof.
  revert blks i. induction row as [|s row IH]; intros [|b blks] i L H; try discriminate; [reflexivity|].
  cbn [raid6_data_buffers data_xor].
  assert (IH' : xor_all (raid6_data_buffers blks (i + 1) p q) j = data_xor row blks j).
  { apply IH; [now injection L|]. intros k s' E. specialize (H (1 + k) s').
    rewrite nth_N_cons in H. replace (1 + k =? 0) with false in H by (symmetry; apply N.eqb_neq; lia).
    replace (1 + k - 1) with k in H by lia. replace (i + 1 + k) with (i + (1 + k)) by lia. auto. }
  specialize (H 0 s). rewrite nth_N_cons in H. specialize (H eq_refl).
  rewrite N.add_0_r in H. destruct H as [HP HQ].
  destruct (N.eqb_spec i p) as [E1|E1], (N.eqb_spec i q) as [E2|E2]; cbn [orb];
    destruct s; cbn [xor_all]; rewrite ?IH', ?xor8_bxor; try reflexivity; exfalso;
    try (destruct HP as [_ HP]; specialize (HP E1); discriminate);
    try (destruct HQ as [_ HQ]; specialize (HQ E2); discriminate);
    try (now apply E1, HP); try (now apply E2, HQ).
Qed.

Lemma slot_block_nth row blks s k b :
  length row = length blks -> NoDup row ->
  nth_N row k = Some s -> nth_N blks k = Some b -> slot_block row blks s = Some b.
Proof.
  revert blks k. induction row as [|t row IH]; intros [|c blks] k L ND Hk Hb; try discriminate.
  { apply nth_N_some_lt in Hk. rewrite len_nil in Hk. lia. }
  rewrite nth_N_cons in Hk. rewrite nth_N_cons in Hb. inv ND. destruct (N.eqb_spec k 0) as [->|K].
  - inv Hk. inv Hb. cbn. destruct s; [now rewrite N.eqb_refl|reflexivity|reflexivity].
  - assert (Ne : t <> s). { intros ->. apply H1. eapply nth_N_in; eassumption. }
    assert (R : slot_block row blks s = Some b) by (eapply IH; eauto).
    cbn. destruct s as [a| |], t as [a'| |]; try congruence.
    destruct (N.eqb_spec a a'); [subst; congruence|exact R].
Qed.

Lemma slot_block_inv row blks s b :
  slot_block row blks s = Some b -> exists k, nth_N row k = Some s /\ nth_N blks k = Some b.
Proof.
  revert blks. induction row as [|t row IH]; intros [|c blks] H; try discriminate.
  assert (Step : slot_block row blks s = Some b ->
          exists k, nth_N (t :: row) k = Some s /\ nth_N (c :: blks) k = Some b).
  { intros R. destruct (IH _ R) as (k & A & B). exists (1 + k). rewrite !nth_N_cons.
    replace (1 + k =? 0) with false by (symmetry; apply N.eqb_neq; lia).
    replace (1 + k - 1) with k by lia. auto. }
  assert (Here : forall s', t = s' -> s = s' -> c = b ->
          exists k, nth_N (t :: row) k = Some s /\ nth_N (c :: blks) k = Some b).
  { intros s' -> -> ->. exists 0. rewrite !nth_N_cons. easy. }
  cbn in H. destruct s as [a| |], t as [a'| |]; auto.
  - destruct (N.eqb_spec a a'); [subst; inv H; eauto|auto].
  - inv H. eauto.
  - inv H. eauto.
Qed.

Lemma data_buffers_full blks i p q : full blks -> full (raid6_data_buffers blks i p q).
Proof.
  intros F. revert i. induction F as [|b t L F IH]; intros i; cbn [raid6_data_buffers]; [constructor|].
  destruct ((i =? p) || (i =? q)); [apply IH|constructor; [exact L|apply IH]].
Qed.

Lemma all_read_full rd sec i blks : all_read rd sec i blks -> full blks.
Proof.
  revert i. induction blks as [|b t IH]; intros i A; [constructor|]. constructor.
  - destruct (A 0 b) as [_ L]; [rewrite nth_N_cons; reflexivity|exact L].
  - apply (IH (i + 1)). intros k b' H. pose proof (A (1 + k) b') as H'.
    rewrite nth_N_cons in H'. replace (1 + k =? 0) with false in H' by (symmetry; apply N.eqb_neq; lia).
    replace (1 + k - 1) with k in H' by lia. replace (i + 1 + k) with (i + (1 + k)) by lia. auto.
Qed.

Lemma bytes_agree_dec (f g : N -> byte) (m : nat) :
  (exists j, j < N.of_nat m /\ f j <> g j) \/ (forall j, j < N.of_nat m -> f j = g j).
Proof.
  induction m as [|m IH]; [right; intros; lia|].
  destruct IH as [(j & J & Ne)|All]; [left; exists j; split; [lia|exact Ne]|].
  destruct (Byte.eqb (f (N.of_nat m)) (g (N.of_nat m))) eqn:B.
  - apply Byte.byte_dec_bl in B. right. intros j J.
    destruct (N.eq_dec j (N.of_nat m)) as [->|]; [exact B|apply All; lia].
  - left. exists (N.of_nat m). split; [lia|]. intros Eq. rewrite Eq in B.
    rewrite (Byte.byte_dec_lb eq_refl) in B. discriminate.
Qed.

Lemma p_consistent_dec row blks : p_consistent row blks \/ ~ p_consistent row blks.
Proof.
  unfold p_consistent. destruct (slot_block row blks P) as [pb|].
  - destruct (bytes_agree_dec (data_xor row blks) (byte_at pb) 512) as [(j & J & Ne)|All].
    + right. intros H. apply Ne. apply (H pb eq_refl). lia.
    + left. intros pb' E. inv E. intros j J. apply All. lia.
  - left. discriminate.
Qed.

(** Reading a sector whose members were all read: succeeds with the data slot if and only if
    the row is P-consistent, and otherwise fails with InvalidData. *)
Section Read.
  Variables (l : layout6) (s c n : N) (rd : sector_reader).
  Hypothesis Hs : u64_ok s.
  Hypothesis Hu : u32_ok n.
  Hypothesis Hc : c <> 0.
  Hypothesis Hn : 3 <= n.
  Hypothesis Hov : ~ restart_overflow l (stripe_of s c (n - 2)).
  Hypothesis RO : reader_ok rd.

  Let k := stripe_of s c (n - 2).
  Let row := row6 l n k.
  Let sec := member_sector s c (n - 2).

  Lemma read_sector_consistent blks :
    len blks = n -> all_read rd sec 0 blks -> p_consistent row blks ->
    exists b, slot_block row blks (D (data_index_of s c (n - 2))) = Some b /\
              raid6_read_sector (raid6_of l) s c n rd = Ok b.
  Proof.
    intros L A PC.
    destruct (raid6_compute_ok l s c n Hs Hu Hc Hn Hov) as (p & q & d & E & Lp & Lq & Ld & Rp & Rq & Rd).
    fold k row sec in E, Rp, Rq, Rd.
    assert (ND : NoDup row) by (apply row6_nodup; lia).
    assert (LR : len row = n) by (apply len_row6; lia).
    assert (LL : length row = length blks) by (rewrite !length_len; congruence).
    destruct (nth_N_lt_some blks p) as [pb Ep]; [lia|].
    destruct (nth_N_lt_some blks d) as [db Ed]; [lia|].
    exists db. split; [eapply slot_block_nth; eassumption|].
    unfold raid6_read_sector. rewrite E. cbn [ok_or rbind].
    assert (R : raid6_read_all rd sec 0 (N.to_nat n) = Ok blks).
    { apply read_all_ok; [exact RO|]. split; [rewrite length_len; congruence|exact A]. }
    rewrite R. cbn [rbind]. rewrite Ep. cbn [ok_or rbind].
    assert (F : full blks) by (eapply all_read_full; eassumption).
    assert (Lpb : len pb = 512). { eapply A in Ep. apply Ep. }
    rewrite check_ok.
    - cbn [rbind]. now rewrite Ed.
    - now apply data_buffers_full.
    - exact Lpb.
    - reflexivity.
    - intros j J. rewrite (data_buffers_xor row).
      + eapply PC; [|lia]. eapply slot_block_nth; eassumption.
      + exact LL.
      + intros m t Hm. split; split.
        * intros ->. rewrite N.add_0_l. eapply nodup_nth_N; eassumption.
        * rewrite N.add_0_l. intros ->. congruence.
        * intros ->. rewrite N.add_0_l. eapply nodup_nth_N; eassumption.
        * rewrite N.add_0_l. intros ->. congruence.
  Qed.

  Lemma read_sector_inconsistent blks :
    len blks = n -> all_read rd sec 0 blks -> ~ p_consistent row blks ->
    raid6_read_sector (raid6_of l) s c n rd = Err InvalidData.
  Proof.
    intros L A PC.
    destruct (raid6_compute_ok l s c n Hs Hu Hc Hn Hov) as (p & q & d & E & Lp & Lq & Ld & Rp & Rq & Rd).
    fold k row sec in E, Rp, Rq, Rd.
    assert (ND : NoDup row) by (apply row6_nodup; lia).
    assert (LR : len row = n) by (apply len_row6; lia).
    assert (LL : length row = length blks) by (rewrite !length_len; congruence).
    destruct (nth_N_lt_some blks p) as [pb Ep]; [lia|].
    unfold raid6_read_sector. rewrite E. cbn [ok_or rbind].
    assert (R : raid6_read_all rd sec 0 (N.to_nat n) = Ok blks).
    { apply read_all_ok; [exact RO|]. split; [rewrite length_len; congruence|exact A]. }
    rewrite R. cbn [rbind]. rewrite Ep. cbn [ok_or rbind].
    assert (F : full blks) by (eapply all_read_full; eassumption).
    assert (Lpb : len pb = 512). { eapply A in Ep. apply Ep. }
    assert (Sp : slot_block row blks P = Some pb) by (eapply slot_block_nth; eassumption).
    assert (DX : forall j, xor_all (raid6_data_buffers blks 0 p q) j = data_xor row blks j).
    { intros j. apply data_buffers_xor; [exact LL|]. intros m t Hm. rewrite N.add_0_l. split; split.
        * intros ->. eapply nodup_nth_N; eassumption.
        * intros ->. congruence.
        * intros ->. eapply nodup_nth_N; eassumption.
        * intros ->. congruence. }
    assert (X : exists j, j < 512 /\ data_xor row blks j <> byte_at pb j).
    { destruct (bytes_agree_dec (data_xor row blks) (byte_at pb) 512) as [(j & J & Ne)|All].
      - exists j. split; [lia|exact Ne].
      - exfalso. apply PC. intros pb' Sp'. rewrite Sp in Sp'. inv Sp'. intros j J. apply All. lia. }
    destruct X as (j & J & Ne).
    rewrite check_bad; [reflexivity| | | | ].
    - now apply data_buffers_full.
    - exact Lpb.
    - reflexivity.
    - exists j. split; [lia|]. now rewrite DX.
  Qed.

  Lemma read_sector_ok_inv b :
    raid6_read_sector (raid6_of l) s c n rd = Ok b ->
    exists blks, len blks = n /\ all_read rd sec 0 blks /\ p_consistent row blks /\
                 slot_block row blks (D (data_index_of s c (n - 2))) = Some b.
  Proof.
    intros H. pose proof H as H0.
    destruct (raid6_compute_ok l s c n Hs Hu Hc Hn Hov) as (p & q & d & E & _).
    fold sec in E. unfold raid6_read_sector in H. rewrite E in H. cbn [ok_or rbind] in H.
    apply rbind_ok_inv in H as (blks & R & H).
    pose proof R as R'. apply read_all_ok in R' as [L A]; [|exact RO].
    assert (LN : len blks = n) by (unfold len; lia).
    clear H. exists blks. split; [exact LN|]. split; [exact A|].
    destruct (p_consistent_dec row blks) as [PC|PC].
    - split; [exact PC|]. destruct (read_sector_consistent blks LN A PC) as (b' & S & R'). rewrite R' in H0. inv H0. exact S.
    - rewrite (read_sector_inconsistent blks LN A PC) in H0. discriminate.
  Qed.
End Read.
