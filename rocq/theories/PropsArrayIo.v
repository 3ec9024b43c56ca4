(** Properties C69-C71: reading arrays while the members change state. *)

From Coq Require Import Strings.String Permutation.
From Verif Require Import Base BaseFacts Raid SpecRaid RaidFacts SpecParity ParityFacts PropsRaid Io SpecStream IoFacts Superblock Device Array
  ArrayIo SpecMd SpecArray ArrayFacts PropsArray PropsArrayRead.

(** ** Specification

    What the slots of an array hold: contents, and the positions in them at which reads may fail.  It does not mention the
    state of any member. *)
Definition contents : Type := N -> option (bytes * (N -> Prop)).

Definition slots_hold {D} (ops : blockdev D) (a : definition D) (C : contents) : Prop :=
  NoDup (map fst (ad_devices a)) /\
  (forall i m, In (i, m) (ad_devices a) -> exists ct bad, C i = Some (ct, bad) /\ member_holds ops m ct bad) /\
  (forall i ct bad, C i = Some (ct, bad) -> exists m, In (i, m) (ad_devices a)).

(** The row of sector [s]: the sectors that the slots hold there, P-consistent; and the sector in its data slot. *)
Definition row_in (C : contents) (l : layout6) (f : md_format) (s : N) (blks : list bytes) : Prop :=
  let n := mf_device_count f in let c := mf_chunk_size f in
  len blks = n /\
  (forall i b, nth_N blks i = Some b -> exists ct bad, C i = Some (ct, bad) /\ sector_at ct (member_sector s c (n - 2)) b) /\
  p_consistent (row6 l n (stripe_of s c (n - 2))) blks.

(** Some slot may fail at its sector of the row. *)
Definition row_bad (C : contents) (f : md_format) (s : N) : Prop :=
  let sec := member_sector s (mf_chunk_size f) (mf_device_count f - 2) in
  exists i ct bad q, i < mf_device_count f /\ C i = Some (ct, bad) /\ sec * 512 <= q < sec * 512 + 512 /\ bad q.

(** A row depends on nothing but the contents. *)
Lemma row_in_unique C l f s x y : row_in C l f s x -> row_in C l f s y -> x = y.
Proof.
  intros (Lx & X & _) (Ly & Y & _). apply list_ext_N; [congruence|]. intros i Hi.
  destruct (nth_N x i) as [a|] eqn:Ex; [|exfalso; rewrite nth_N_spec in Ex; apply nth_error_None in Ex; unfold len in Hi; lia].
  destruct (nth_N y i) as [b|] eqn:Ey; [|exfalso; rewrite nth_N_spec in Ey; apply nth_error_None in Ey; unfold len in *; lia].
  destruct (X _ _ Ex) as (ct & bad & E & _ & ->), (Y _ _ Ey) as (ct' & bad' & E' & _ & ->). congruence.
Qed.

(** ** One call of the closure *)

Lemma member_read_io_same {D} (ops : blockdev D) join a dev sec buf :
  let '(_, x, b) := member_read_io ops join dev sec buf a in (x, b) = member_read ops a dev sec buf.
Proof.
  unfold member_read_io, member_read. destruct (len buf <? 512); [reflexivity|]. destruct (assoc (ad_devices a) dev) as [m|]; [|reflexivity].
  destruct (bd_clone (md_block ops) m) as [m'|e|]; [|reflexivity..]. destruct (cmul64 sec 512) as [pos|]; [|reflexivity].
  destruct (reader_seek (md_block ops) (reader_new m') (SeekStart pos)) as [r [k|e|]]; [|reflexivity..].
  destruct (read_exact (reader_stream (md_block ops)) r (firstn 512 buf)) as [[r' b] x]. reflexivity.
Qed.

Lemma assoc_set_keys {V} (m : list (N * V)) k v : map fst (assoc_set m k v) = map fst m.
Proof. induction m as [|[k' v'] m IH]; cbn [assoc_set]; [reflexivity|]. destruct (k' =? k); cbn [map fst]; congruence. Qed.
Lemma assoc_set_in {V} (m : list (N * V)) k v i w : In (i, w) (assoc_set m k v) -> In (i, w) m \/ i = k /\ w = v.
Proof.
  induction m as [|[k' v'] m IH]; cbn [assoc_set]; [auto|]. destruct (N.eqb_spec k' k) as [->|].
  - intros [E|I]; [injection E as <- <-; auto|left; now right].
  - intros [E|I]; [left; now left|]. destruct (IH I); [left; now right|auto].
Qed.
Lemma keys_in {V} (m m' : list (N * V)) i v : map fst m' = map fst m -> In (i, v) m -> exists v', In (i, v') m'.
Proof.
  intros E I. assert (K : In i (map fst m')) by (rewrite E; apply in_map_iff; now exists (i, v)).
  apply in_map_iff in K as ([i' v'] & <- & K). eauto.
Qed.

(** The two ways in which a member and its clone can be related. *)
Definition joins {D} (join : D -> D -> D) : Prop := forall d d', join d d' = d \/ join d d' = d'.

Definition same_formats {D} (a a' : definition D) : Prop := ad_format a' = ad_format a /\ ad_new_format a' = ad_new_format a.

Lemma member_read_io_keeps {D} (ops : blockdev D) join C dev sec a a' x b : joins join -> slots_hold ops a C ->
  member_read_io ops join dev sec (zeros 512) a = (a', x, b) -> slots_hold ops a' C /\ same_formats a a'.
Proof.
  intros J (Nd & Mh & Ks) E. assert (Z : slots_hold ops a C /\ same_formats a a) by (split; [now repeat split|split; reflexivity]).
  unfold member_read_io in E. change (len (zeros 512) <? 512) with false in E. cbn iota in E.
  destruct (assoc (ad_devices a) dev) as [m|] eqn:As; [|injection E as <- _ _; exact Z].
  assert (Im := As). apply assoc_in in Im; [|exact Nd]. destruct (Mh _ _ Im) as (ct & bad & Ci & bs & count & blk & badb & inv & OK & I & -> & Bd).
  pose proof (md_block_ok _ _ _ _ _ _ OK) as OKm. pose proof (reader_stream_ok _ _ _ _ _ _ OKm) as SO.
  destruct (bo_clone _ _ _ _ _ _ OKm m I) as (m1 & Cl & I1). rewrite Cl in E.
  destruct (cmul64 sec 512) as [pos|] eqn:Mu; [|injection E as <- _ _; exact Z].
  assert (Up : u64_ok pos). { unfold cmul64 in Mu. destruct (N.leb_spec (sec * 512) u64_max); [|discriminate]. injection Mu as <-. assumption. }
  pose proof (reader_new_at _ _ _ _ _ _ OKm _ I1) as A0.
  assert (Set_ : forall m', inv (md_dev m') -> slots_hold ops (set_member join a dev m m') C /\ same_formats a (set_member join a dev m m')).
  { intros m' I'. split; [|split; reflexivity]. unfold slots_hold, set_member. cbn [ad_devices]. rewrite assoc_set_keys. split; [exact Nd|]. split.
    - intros i w W. apply assoc_set_in in W as [W|[-> ->]]; [now apply Mh|]. exists (flat count blk), bad. split; [exact Ci|].
      exists bs, count, blk, badb, inv. cbn [md_dev]. split; [exact OK|]. split; [|split; [reflexivity|exact Bd]].
      destruct (J (md_dev m) (md_dev m')) as [-> | ->]; assumption.
    - intros i ct' bad' E'. destruct (Ks _ _ _ E') as (m0 & I0). eapply keys_in; [|exact I0]. apply assoc_set_keys. }
  destruct (reader_seek (md_block ops) (reader_new m1) (SeekStart pos)) as [r x1] eqn:Sk.
  assert (A1 : exists p, reader_at bs (fun m => inv (md_dev m)) r p).
  { destruct (N.le_gt_cases pos (len (flat count blk))) as [In_|Out].
    - destruct (so_seek _ _ _ _ SO _ _ pos A0 In_) as (r' & Sk' & A1). cbn [st_seek reader_stream] in Sk'. rewrite Sk in Sk'. injection Sk' as -> _. eauto.
    - destruct (so_seek_out _ _ _ _ SO _ _ _ _ _ A0 Out Up Sk) as (p' & A1 & _). eauto. }
  destruct A1 as (p & A1).
  assert (Ir : forall r p, reader_at bs (fun m => inv (md_dev m)) r p -> inv (md_dev (r_dev r))) by (intros r0 p0 H; apply H).
  destruct x1 as [k|e|].
  - destruct (read_exact (reader_stream (md_block ops)) r (firstn 512 (zeros 512))) as [[r2 b2] x2] eqn:R. injection E as <- _ _. apply Set_.
    pose proof (read_exact_spec _ _ _ _ SO _ _ _ _ _ _ A1 R) as O. unfold exact_outcome in O. destruct x2 as [u|e|]; [| |destruct O].
    + destruct O as (_ & _ & A2). eapply Ir, A2.
    + destruct O as (_ & _ & (p2 & A2) & _). eapply Ir, A2.
  - injection E as <- _ _. apply Set_. eapply Ir, A1.
  - injection E as <- _ _. apply Set_. eapply Ir, A1.
Qed.

(** ** One read of the array

    A read of a sector reads every member at most once, so what it returns is what the stateless read returns with, for each
    member, the state in which it was read. *)
Definition traced {W} (rd : sector_io W) (tr : N -> W) : sector_reader := fun i sec buf => let '(_, x, b) := rd i sec buf (tr i) in (x, b).

Lemma read_all_traced {W} (rd : sector_io W) (inv : W -> Prop) sec :
  (forall i w w' x b, inv w -> rd i sec (zeros 512) w = (w', x, b) -> inv w') ->
  forall k i w w' r, inv w -> raid6_read_all_io rd sec i k w = (w', r) ->
  inv w' /\ exists tr, (forall j, inv (tr j)) /\ raid6_read_all (traced rd tr) sec i k = r.
Proof.
  intros K k. induction k as [|k IH]; intros i w w' r H E; cbn [raid6_read_all_io raid6_read_all] in *.
  - injection E as <- <-. split; [exact H|]. exists (fun _ => w). auto.
  - destruct (rd i sec (zeros 512) w) as [[w1 x] b] eqn:R. pose proof (K _ _ _ _ _ H R) as H1.
    assert (Tr : forall tr, tr i = w -> traced rd tr i sec (zeros 512) = (x, b)) by (intros tr T; unfold traced; now rewrite T, R).
    destruct x as [got|e|].
    2,3: injection E as <- <-; split; [exact H1|]; exists (fun _ => w); split; [auto|]; rewrite Tr by reflexivity; reflexivity.
    destruct (got =? len b) eqn:G.
    2: { injection E as <- <-; split; [exact H1|]; exists (fun _ => w); split; [auto|]; rewrite Tr by reflexivity. cbn [rbind]. now rewrite G. }
    destruct (raid6_read_all_io rd sec (i + 1) k w1) as [w2 rest] eqn:Rest. injection E as <- <-.
    destruct (IH _ _ _ _ H1 Rest) as (H2 & tr & Ht & Et). split; [exact H2|].
    exists (fun j => if j =? i then w else tr j). split; [intros j; destruct (j =? i); auto|].
    rewrite Tr by (now rewrite N.eqb_refl). cbn [rbind]. rewrite G.
    replace (raid6_read_all (traced rd (fun j => if j =? i then w else tr j)) sec (i + 1) k) with (raid6_read_all (traced rd tr) sec (i + 1) k); [now rewrite Et|].
    assert (Lt : i < i + 1) by lia. generalize dependent (i + 1). clear - rd tr. intros j _ _ Lt. revert j Lt. induction k as [|k IH]; intros j Lt; cbn [raid6_read_all]; [reflexivity|].
    unfold traced at 1 3. destruct (N.eqb_spec j i); [lia|]. destruct (rd j sec (zeros 512) (tr j)) as [[? y] b']. destruct y as [got|e|]; cbn [rbind]; [|reflexivity..].
    destruct (got =? len b'); [|reflexivity]. now rewrite IH by lia.
Qed.

Lemma read_sector_traced {W} (rd : sector_io W) (inv : W -> Prop) a s c n w w' r :
  (forall i sec w w' x b, inv w -> rd i sec (zeros 512) w = (w', x, b) -> inv w') ->
  inv w -> raid6_read_sector_io a s c n rd w = (w', r) ->
  inv w' /\ exists tr, (forall j, inv (tr j)) /\ raid6_read_sector a s c n (traced rd tr) = r.
Proof.
  intros K H E. unfold raid6_read_sector_io, raid6_read_sector in *. destruct (raid6_compute_sector a s c n) as [[[[sec p] q] d]|]; cbn [ok_or rbind].
  2: { injection E as <- <-. split; [exact H|]. exists (fun _ => w). auto. }
  destruct (raid6_read_all_io rd sec 0 (N.to_nat n) w) as [w1 bufs] eqn:R. injection E as <- <-.
  destruct (read_all_traced rd inv sec (fun i => K i sec) _ _ _ _ _ H R) as (H1 & tr & Ht & <-). split; [exact H1|]. exists tr. auto.
Qed.

Section Io.
  Context {D : Type} (ops : blockdev D) (join : D -> D -> D) (J : joins join) (C : contents).

  Let inv (a0 a : definition D) : Prop := slots_hold ops a C /\ same_formats a0 a.

  Lemma inv_kept a0 i sec a a' x b : inv a0 a -> member_read_io ops join i sec (zeros 512) a = (a', x, b) -> inv a0 a'.
  Proof.
    intros [H [F1 F2]] E. destruct (member_read_io_keeps ops join C i sec a a' x b J H E) as [H' [F1' F2']]. split; [exact H'|]. split; congruence.
  Qed.

  (** What the members answer during a read. *)
  Lemma trace_total a0 tr : (forall j : N, inv a0 (tr j)) ->
    let rd := traced (member_read_io ops join) tr in
    reader_ok rd /\
    forall i sec x b, rd i sec (zeros 512) = (x, b) ->
      match x with
      | Ok k => k = 512 /\ exists ct bad, C i = Some (ct, bad) /\ sector_at ct sec b
      | Err _ => C i = None \/ exists ct bad, C i = Some (ct, bad) /\ (len ct < sec * 512 + 512 \/ exists q, sec * 512 <= q < sec * 512 + 512 /\ bad q)
      | Panic => False
      end.
  Proof.
    intros H rd.
    assert (Eq : forall i sec buf, rd i sec buf = member_read ops (tr i) i sec buf).
    { intros i sec buf. unfold rd, traced. pose proof (member_read_io_same ops join (tr i) i sec buf) as X.
      destruct (member_read_io ops join i sec buf (tr i)) as [[a' x] b]. exact X. }
    assert (MT : forall i, members_hold ops (tr i) /\ NoDup (map fst (ad_devices (tr i)))).
    { intros i. destruct (H i) as [(Nd & Mh & _) _]. split; [|exact Nd]. intros j m I. destruct (Mh j m I) as (ct & bad & _ & M). eauto. }
    split.
    - intros i sec buf. rewrite Eq. destruct (MT i) as [M Nd]. apply (proj1 (member_read_total ops (tr i) M Nd)).
    - intros i sec x b E. rewrite Eq in E. destruct (H i) as [(Nd & Mh & Ks) _]. destruct (assoc (ad_devices (tr i)) i) as [m|] eqn:As.
      + assert (I := As). apply assoc_in in I; [|exact Nd]. destruct (Mh i m I) as (ct & bad & Ci & M).
        destruct (member_read_spec ops (tr i) i m ct bad sec As M (zeros 512) x b ltac:(vm_compute; discriminate) E) as [_ O].
        destruct x as [k|e|]; [| |destruct O].
        * destruct O as (-> & b1 & B1 & ->). change (skipn 512 (zeros 512)) with (@nil byte). rewrite app_nil_r. eauto.
        * right. eauto.
      + unfold member_read in E. change (len (zeros 512) <? 512) with false in E. cbn iota in E. rewrite As in E. injection E as <- <-.
        left. destruct (C i) as [[ct bad]|] eqn:Ci; [|reflexivity]. destruct (Ks _ _ _ Ci) as (m & I). exfalso. exact (proj1 (assoc_none _ _) As m I).
  Qed.

  (** ** C69: reads are sound whatever the members do in between

      One read of an array whose slots hold [C] leaves the slots holding [C], and the formats alone.  It returns the data
      sector of the P-consistent row of [C], or fails and leaves the buffer alone; it never panics.  For a RAID-6 format of
      at least three members, a failure means that the row is not on the members, or is not P-consistent, or that some slot
      failed at it. *)
  Theorem array_io_sound a s buf a' buf' r : slots_hold ops a C -> u64_ok s -> (forall f, in_use a f -> u32_ok (mf_device_count f)) ->
    len buf = 512 -> array_read_block_io ops join a s buf = (a', buf', r) ->
    slots_hold ops a' C /\ same_formats a a' /\
    match r with
    | Ok k => k = 512 /\ exists f l code ra blks,
        in_use a f /\ mf_algorithm f = AlgRaid6 ra /\ layout6_code l = Some code /\ raid6_from_layout code = Some ra /\
        mf_chunk_size f <> 0 /\ 3 <= mf_device_count f /\ row_in C l f s blks /\ data_of l f s blks = Some buf'
    | Err _ => buf' = buf /\
        forall f l code ra blks, in_use a f -> mf_algorithm f = AlgRaid6 ra -> layout6_code l = Some code -> raid6_from_layout code = Some ra ->
          mf_chunk_size f <> 0 -> 3 <= mf_device_count f -> row_in C l f s blks -> row_bad C f s
    | Panic => False
    end.
  Proof.
    intros H Us Uf Lb E. assert (I0 : inv a a) by (split; [exact H|split; reflexivity]).
    unfold array_read_block_io in E. destruct (N.ltb_spec (len buf) 512); [lia|].
    destruct (current_format a) as [f|e|] eqn:Cf.
    2: { injection E as <- <- <-. split; [exact H|]. split; [split; reflexivity|]. split; [reflexivity|]. intros f l code ra blks Iu.
         apply in_use_current in Iu. congruence. }
    2: { exfalso. unfold current_format in Cf. destruct (ad_new_format a); [discriminate|]. destruct (ad_format a); discriminate. }
    assert (Iu := Cf). apply in_use_current in Iu. specialize (Uf f Iu).
    destruct (mf_algorithm f) as [lv ly|r5|r6] eqn:Al; cbn [alg_read_sector_io] in E.
    1,2: injection E as <- <- <-; split; [exact H|]; split; [split; reflexivity|]; split; [reflexivity|];
         intros g l code ra blks Ig Ag; apply in_use_current in Ig; congruence.
    destruct (raid6_read_sector_io r6 s (mf_chunk_size f) (mf_device_count f) (member_read_io ops join) a) as [a1 x] eqn:R.
    destruct (read_sector_traced _ (inv a) _ _ _ _ _ _ _ (fun i sec w w' x b => inv_kept a i sec w w' x b) I0 R) as ([H1 F1] & tr & Ht & Rt).
    destruct (trace_total a tr Ht) as [RO Tot]. set (rd := traced (member_read_io ops join) tr) in *.
    destruct x as [blk|e|].
    - destruct (raid6_of_surj r6) as (l & code & Hl & ->).
      assert (Hcode := raid6_from_layout_code _ _ Hl).
      assert (G : mf_chunk_size f <> 0 /\ 3 <= mf_device_count f /\ ~ r6_exception (raid6_of l) s (mf_chunk_size f) (mf_device_count f)).
      { split; [|split].
        - intros Z. rewrite raid6_read_bad_geometry in Rt by auto. discriminate.
        - destruct (N.le_gt_cases 3 (mf_device_count f)) as [L|L]; [exact L|].
          rewrite raid6_read_bad_geometry in Rt by auto. discriminate.
        - intros X. rewrite raid6_read_bad_geometry in Rt by auto. discriminate. }
      destruct G as (Hc & Hn & Hx).
      pose proof (proj1 (raid6_read_ok_iff l code _ s _ _ _ blk Hl Hcode Us Uf Hc Hn Hx RO) Rt) as (blks & Lk & Rd & PC & Sb).
      assert (Bl : len blk = 512).
      { apply slot_block_in in Sb. apply In_nth_error in Sb as (i & I). apply (Rd (N.of_nat i) blk). now rewrite nth_N_spec, Nat2N.id. }
      unfold copy_from_slice in E. rewrite Lb, Bl in E. cbn in E. injection E as <- <- <-. do 2 (split; [assumption|]). split; [reflexivity|].
      exists f, l, code, (raid6_of l), blks. do 6 (split; [assumption|]). split; [|exact Sb].
      split; [exact Lk|]. split; [|exact PC]. intros i b Hb. apply Rd in Hb as [Hb _]. apply (Tot i _ _ _ Hb).
    - injection E as <- <- <-. do 2 (split; [assumption|]). split; [reflexivity|].
      intros g l code ra blks Ig Ag Hl Ha Hc Hn (Lk & Rw & PC). apply in_use_current in Ig. assert (g = f) as -> by congruence. assert (ra = r6) as -> by congruence.
      set (sec := member_sector s (mf_chunk_size f) (mf_device_count f - 2)) in *.
      (* otherwise all answers are the sectors of the row *)
      assert (Hx : ~ r6_exception r6 s (mf_chunk_size f) (mf_device_count f)).
      { intros (_ & Es & Ec & En). destruct (nth_N blks 0) as [b|] eqn:Nb.
        2: { rewrite nth_N_spec in Nb. apply nth_error_None in Nb. unfold len in Lk. lia. }
        destruct (Rw 0 b Nb) as (ct & bad & Ci & L & _). destruct H as (_ & Mh & Ks). destruct (Ks _ _ _ Ci) as (m & Im).
        destruct (Mh _ _ Im) as (ct' & bad' & Ci' & bs & count & bk & badb & iv & OK & _ & E' & _). assert (ct' = ct) by congruence. subst ct' ct.
        unfold sec, member_sector, stripe_of in L. rewrite Es, Ec, En in L. change (3 - 2) with 1 in L. rewrite !N.div_1_r in L.
        rewrite (len_c _ _ _ _ _ _ OK) in L. pose proof (bo_fit _ _ _ _ _ _ OK) as U. unfold u64_ok in U. clear - L U. rewrite N.mul_1_r in L.
        assert (u64_max <= 18446744073709551615) by (vm_compute; discriminate). lia. }
      assert (Step : forall i, i < mf_device_count f -> (exists b, nth_N blks i = Some b /\ rd i sec (zeros 512) = (Ok 512, b) /\ len b = 512) \/ row_bad C f s).
      { intros i Li. destruct (nth_N blks i) as [b|] eqn:Nb.
        2: { exfalso. rewrite nth_N_spec in Nb. apply nth_error_None in Nb. unfold len in Lk. lia. }
        destruct (Rw i b Nb) as (ct & bad & Ci & L & Eb). fold sec in L, Eb. destruct (rd i sec (zeros 512)) as [x b'] eqn:Ra. specialize (Tot i sec x b' Ra).
        destruct x as [k|e'|]; [| |destruct Tot].
        - destruct Tot as (-> & ct' & bad' & Ci' & _ & Eb'). assert (ct' = ct) by congruence. subst ct'. left. exists b. split; [reflexivity|].
          split; [congruence|]. rewrite Eb, len_window. lia.
        - right. destruct Tot as [Ci'|(ct' & bad' & Ci' & [L'|(q & Q & Bq)])]; [congruence| |].
          + exfalso. assert (ct' = ct) by congruence. subst ct'. lia.
          + exists i, ct', bad', q. auto. }
      assert (All : forall k, k <= mf_device_count f -> (forall i b, i < k -> nth_N blks i = Some b -> rd i sec (zeros 512) = (Ok 512, b) /\ len b = 512) \/ row_bad C f s).
      { intros k. induction k as [|k IH] using N.peano_ind; intros Lk'; [left; intros i b Z; lia|].
        destruct (IH ltac:(lia)) as [A|B]; [|auto]. destruct (Step k ltac:(lia)) as [(b & Nb & Rb & Lb')|B]; [|auto]. left. intros i b' Li Nb'.
        destruct (N.eq_dec i k) as [->|Ne]; [split; congruence|]. apply A; [lia|exact Nb']. }
      destruct (All (mf_device_count f) ltac:(lia)) as [A|B]; [exfalso|exact B].
      assert (Ar : forall i b, nth_N blks i = Some b -> rd i sec (zeros 512) = (Ok 512, b) /\ len b = 512).
      { intros i b Nb. apply A; [|exact Nb]. rewrite <- Lk. eapply nth_N_some_lt; eassumption. }
      destruct (raid6_read_complete l code r6 s _ _ rd blks Hl Ha Us Uf Hc Hn Hx RO Lk Ar PC) as (blk & R' & _). congruence.
    - exfalso. apply (raid6_read_never_panics r6 s (mf_chunk_size f) (mf_device_count f) rd Us Uf RO); [|exact Rt].
      intros i t P. destruct (rd i t (zeros 512)) as [x b] eqn:Ra. cbn in P. subst x. exact (Tot _ _ _ _ Ra).
  Qed.
End Io.
Print Assumptions array_io_sound.

(** ** C70: sequences of reads

    The sector [s] of an array with format [f] whose slots hold [C]. *)
Definition array_sector (C : contents) (f : md_format) (s : N) (b : bytes) : Prop :=
  exists l code ra blks, mf_algorithm f = AlgRaid6 ra /\ layout6_code l = Some code /\ raid6_from_layout code = Some ra /\
    mf_chunk_size f <> 0 /\ 3 <= mf_device_count f /\ row_in C l f s blks /\ data_of l f s blks = Some b.

Lemma array_sector_unique C f s b b' : array_sector C f s b -> array_sector C f s b' -> b = b'.
Proof.
  intros (l & code & ra & blks & Al & Hl & Ha & _ & _ & R & Db) (l' & code' & ra' & blks' & Al' & Hl' & Ha' & _ & _ & R' & Db').
  pose proof (raid6_from_layout_code _ _ Hl) as X. pose proof (raid6_from_layout_code _ _ Hl') as X'.
  assert (raid6_of l = raid6_of l') as El by congruence. destruct R as (Lk & Rw & _), R' as (Lk' & Rw' & _).
  assert (blks' = blks) as ->.
  { apply list_ext_N; [congruence|]. intros i Hi.
    destruct (nth_N blks i) as [x|] eqn:Ex; [|exfalso; rewrite nth_N_spec in Ex; apply nth_error_None in Ex; unfold len in *; lia].
    destruct (nth_N blks' i) as [y|] eqn:Ey; [|exfalso; rewrite nth_N_spec in Ey; apply nth_error_None in Ey; unfold len in *; lia].
    destruct (Rw _ _ Ex) as (ct & bad & E & _ & ->), (Rw' _ _ Ey) as (ct' & bad' & E' & _ & ->). congruence. }
  unfold data_of in *. rewrite (raid6_of_row l l') in Db by congruence. congruence.
Qed.

(** Reads one after the other, each finding the members as the one before has left them. *)
Fixpoint array_reads {D} (ops : blockdev D) (join : D -> D -> D) (a : definition D) (qs : list (N * bytes)) : list (bytes * res N) :=
  match qs with
  | [] => []
  | (s, buf) :: qs => let '(a, b, r) := array_read_block_io ops join a s buf in (b, r) :: array_reads ops join a qs
  end.

Definition read_legal (q : N * bytes) : Prop := u64_ok (fst q) /\ len (snd q) = 512.

Theorem array_reads_sound : forall {D} (ops : blockdev D) join C (a : definition D) f qs,
  joins join -> slots_hold ops a C -> in_use a f -> u32_ok (mf_device_count f) -> Forall read_legal qs ->
  Forall2 (fun '(s, buf) '(b, r) =>
    match r with
    | Ok k => k = 512 /\ array_sector C f s b
    | Err _ => b = buf /\ ((exists x, array_sector C f s x) -> row_bad C f s)
    | Panic => False
    end) qs (array_reads ops join a qs).
Proof.
  intros D ops join C a f qs J H Iu Uf Q. revert a H Iu. induction Q as [|[s buf] qs [Us Lb] Q IH]; intros a H Iu; cbn [array_reads]; [constructor|].
  destruct (array_read_block_io ops join a s buf) as [[a' b] r] eqn:E. cbn [fst snd] in Us, Lb.
  assert (Un : forall g, in_use a g -> g = f). { intros g Ig. apply in_use_current in Ig, Iu. congruence. }
  destruct (array_io_sound ops join J C a s buf a' b r H Us) as (H' & [F1 F2] & O); auto.
  { intros g Ig. now rewrite (Un g Ig). }
  constructor.
  - destruct r as [k|e|]; [| |exact O].
    + destruct O as (-> & g & l & code & ra & blks & Ig & Al & Hl & Ha & Hc & Hn & R & Db). rewrite (Un g Ig) in *. split; [reflexivity|].
      exists l, code, ra, blks. auto 8.
    + destruct O as [-> O]. split; [reflexivity|]. intros (x & l & code & ra & blks & Al & Hl & Ha & Hc & Hn & R & Db). eauto.
  - apply IH; [exact H'|]. unfold in_use in *. now rewrite F1, F2.
Qed.
Print Assumptions array_reads_sound.

(** Two runs on two arrays with the same contents, over whatever kinds of devices, in whatever states, with whatever other
    reads before: a sector that both deliver is the same. *)
Theorem array_reads_repeatable : forall {D D'} (ops : blockdev D) (ops' : blockdev D') join join' C C' (a : definition D) (a' : definition D') f qs qs'
    i j s buf buf' b b',
  joins join -> joins join' -> slots_hold ops a C -> slots_hold ops' a' C' ->
  (forall k, option_map fst (C k) = option_map fst (C' k)) ->
  in_use a f -> in_use a' f -> u32_ok (mf_device_count f) -> Forall read_legal qs -> Forall read_legal qs' ->
  nth_error qs i = Some (s, buf) -> nth_error (array_reads ops join a qs) i = Some (b, Ok 512) ->
  nth_error qs' j = Some (s, buf') -> nth_error (array_reads ops' join' a' qs') j = Some (b', Ok 512) -> b = b'.
Proof.
  intros D D' ops ops' join join' C C' a a' f qs qs' i j s buf buf' b b' J J' H H' CC Iu Iu' Uf Q Q' E1 E2 E3 E4.
  pose proof (array_reads_sound ops join C a f qs J H Iu Uf Q) as F. pose proof (array_reads_sound ops' join' C' a' f qs' J' H' Iu' Uf Q') as F'.
  assert (N2 : forall {A B} (R : A -> B -> Prop) (x : list A) (y : list B), Forall2 R x y -> forall k p q, nth_error x k = Some p -> nth_error y k = Some q -> R p q).
  { clear. intros A B R x y F. induction F as [|p q x y P F IH]; intros [|k] u v; cbn; try discriminate; [congruence|apply IH]. }
  pose proof (N2 _ _ _ _ _ F i _ _ E1 E2) as [_ S]. pose proof (N2 _ _ _ _ _ F' j _ _ E3 E4) as [_ S'].
  apply (array_sector_unique C' f s); [|exact S'].
  destruct S as (l & code & ra & blks & Al & Hl & Ha & Hc & Hn & (Lk & Rw & PC) & Db).
  exists l, code, ra, blks. do 5 (split; [assumption|]). split; [|exact Db]. split; [exact Lk|]. split; [|exact PC].
  intros k x Hx. destruct (Rw k x Hx) as (ct & bad & Ck & Se). specialize (CC k). rewrite Ck in CC. cbn in CC.
  destruct (C' k) as [[ct' bad']|] eqn:Ck'; [|discriminate]. cbn in CC. injection CC as ->. eauto.
Qed.
Print Assumptions array_reads_repeatable.

(** The members of [r6_ex] as files of an operating system that transfers at most 100 bytes at a time and fails the third
    read of each file.  The first reads of the array fail, each at another member, as the state of the members before goes on;
    then everything is delivered.  In the stateless model the first read would fail for ever. *)
Definition slow_policy : io_policy := fun clock _ _ => if clock =? 2 then IoFail 5 else IoXfer 100.
Definition slow_file (mem : bytes) : filedev := FileDev (OsFile mem 0 0 false (Ok 512) (Ok (len mem))) 512.
Definition slow_member (index : N) (mem : bytes) : md_device filedev :=
  MdDevice index (DsSuperblock (r6_sb 0 index)) (slow_file mem).
Definition slow_mem (i : N) : bytes := nth (N.to_nat i) [sec x00 ++ sec x0a; sec x31 ++ sec x0c; sec x42 ++ sec x06; sec x73 ++ sec x00] [].
Definition slow_ex : definition filedev := array_open (fun l => l) (map (fun i => slow_member i (slow_mem i)) [0; 1; 2; 3]).
Definition slow_contents : contents := fun i => if i <? 4 then Some (slow_mem i, fun p => pol_bad_block slow_policy 512 (p / 512)) else None.

Lemma slow_holds : slots_hold (filedev_block slow_policy) slow_ex slow_contents.
Proof.
  assert (Dv : ad_devices slow_ex = map (fun i => (i, slow_member i (slow_mem i))) [0; 1; 2; 3]) by reflexivity.
  assert (In4 : forall i, i < 4 <-> In i [0; 1; 2; 3]). { intros i. cbn [In]. lia. }
  assert (Sm : forall i, i < 4 -> len (slow_mem i) = 1024). { intros i Hi. apply In4 in Hi. destruct Hi as [<-|[<-|[<-|[<-|[]]]]]; reflexivity. }
  unfold slots_hold. rewrite Dv. split; [|split].
  - rewrite map_map. cbn [fst]. repeat constructor; cbn [In]; intuition discriminate.
  - intros i m I. apply in_map_iff in I as (j & E & Hj). apply In4 in Hj. injection E as <- <-. unfold slow_contents. destruct (N.ltb_spec j 4); [|lia].
    eexists. eexists. split; [reflexivity|]. specialize (Sm j Hj). exists 512, (len (slow_mem j) / 512), (block_of (slow_mem j) 512), (pol_bad_block slow_policy 512).
    eexists. split; [eapply (filedev_block_ok slow_policy (slow_mem j) false (Ok 512) (Ok (len (slow_mem j))) 512); [rewrite Sm; discriminate|discriminate]|].
    split; [split; [reflexivity|]; exists 0; repeat split; discriminate|]. split; [|intros p; reflexivity].
    rewrite flat_block_of by lia. rewrite Sm. change (1024 / 512 * 512) with 1024. rewrite <- Sm. symmetry. apply window_full.
  - intros i ct bad E. unfold slow_contents in E. destruct (N.ltb_spec i 4) as [Hi|]; [|discriminate]. apply In4 in Hi.
    eexists. apply in_map_iff. exists i. split; [reflexivity|exact Hi].
Qed.

Example array_io_ex :
  joins (@shared filedev) /\ slots_hold (filedev_block slow_policy) slow_ex slow_contents /\
  in_use slow_ex (MdFormat (AlgRaid6 R6LeftSymmetric) 4 2 1) /\
  array_reads (filedev_block slow_policy) shared slow_ex (map (fun s => (s, zeros 512)) [0; 0; 3; 2; 0; 1; 2; 3; 4]) =
    repeat (zeros 512, Err (OsError 5)) 4 ++
    [(sec x31, Ok 512); (sec x42, Ok 512); (sec x0a, Ok 512); (sec x0c, Ok 512); (zeros 512, Err UnexpectedEof)].
Proof.
  split; [intros d d'; now right|]. split; [exact slow_holds|]. split; [right; split; reflexivity|]. vm_compute. reflexivity.
Qed.
