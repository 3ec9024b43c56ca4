(** Property C122: what giving further members does to an array. *)

From Coq Require Import Permutation.
From Verif Require Import Base BaseFacts Raid Io Superblock Device Array SpecArray ArrayFacts PropsArray ArrayIo PropsArrayRead PropsArrayIo PropsArrayStale PropsRoles.

(** No member's table has a reserved code; md writes none. *)
Definition no_reserved {D} (ds : list (md_device D)) : Prop := forall i v, reserved v -> ~ claimed ds i v.

(** All members say the same of a change of the format: none that there is one, or all the same one. *)
Definition same_change {D} (ds : list (md_device D)) : Prop :=
  (forall d f, In d ds -> ~ states_new_format d f) \/ (exists f, forall d, In d ds -> states_new_format d f).

Lemma claimed_more {D} (ds ds' : list (md_device D)) i r : incl ds ds' -> claimed ds i r -> claimed ds' i r.
Proof. intros L (d & sb & I & H). exists d, sb. auto. Qed.

Lemma no_reserved_orderly {D} (ds : list (md_device D)) : no_reserved ds -> orderly ds.
Proof. intros H i v r r' R _ _ C. destruct (H i v R C). Qed.

(** If there is a table, then no two members contradict each other. *)
Lemma agreed {D} (ds : list (md_device D)) tbl i r r' : no_reserved ds -> array_roles ds = Some tbl ->
  definite r -> definite r' -> claimed ds i r -> claimed ds i r' -> r = r'.
Proof.
  intros NR E D1 D2 C1 C2. destruct (N.eq_dec r r') as [X|X]; [exact X|]. exfalso.
  assert (Z : array_roles ds = None); [|congruence].
  apply (roles_fail_iff_partial ds (no_reserved_orderly ds NR)). right. right. exists i, r, r'.
  do 5 (split; [assumption|]). intros v Rv. now apply NR.
Qed.

Lemma position_definite k : k <= 0xfeff -> definite k.
Proof. unfold definite, reserved, idle. lia. Qed.

(** A member that has a position keeps it, if there is still a table. *)
Lemma assigned_more {D} (ds ds' : list (md_device D)) tbl (d : md_device D) k : no_reserved ds' -> incl ds ds' -> array_roles ds' = Some tbl ->
  assigned (array_roles ds) d k -> assigned (array_roles ds') d k.
Proof.
  intros NR L E (sb & t & S & R & X & K). exists sb, tbl. split; [exact S|]. split; [exact E|]. split; [|exact K].
  apply (roles_merged_value ds t _ k R K) in X as (X & _). apply (claimed_more _ _ _ _ L) in X.
  apply (roles_merged_value ds' tbl _ k E K). split; [exact X|]. split; [|intros v Rv; now apply NR].
  intros r Dr Cr. exact (agreed ds' tbl _ r k NR E Dr (position_definite k K) Cr X).
Qed.

(** Whatever further members are given, in whatever order: a slot that is filled before and after is filled by the same member. *)
Theorem more_slots : forall {D} order order' (ds ds' : list (md_device D)) k d d',
  (forall l, Permutation (order l) l) -> (forall l, Permutation (order' l) l) ->
  no_reserved ds' -> incl ds ds' ->
  In (k, d) (ad_devices (array_open order ds)) -> In (k, d') (ad_devices (array_open order' ds')) -> d = d'.
Proof.
  intros D order order' ds ds' k d d' O O' NR L I I'.
  apply (proj2 (proj2 (array_members_partition order ds O))) in I as (pre & post & E & A & _).
  apply (proj2 (proj2 (array_members_partition order' ds' O'))) in I' as (pre' & post' & E' & A' & F').
  assert (Id : In d ds') by (apply L; rewrite E; apply in_elt).
  assert (A2 : assigned (array_roles ds') d k).
  { destruct A' as (sb' & tbl & _ & T & _). eapply assigned_more; eassumption. }
  rewrite E' in Id. apply in_app_or in Id. rewrite Forall_forall in F'.
  destruct Id as [J|[J|J]]; [|now symmetry|]; exfalso; refine (F' d _ A2); apply in_or_app; auto.
Qed.
Print Assumptions more_slots.

Lemma in_use_current_format {D} (a : definition D) f : in_use a f -> current_format a = Ok f.
Proof. unfold in_use, current_format, ok_or. intros [->|[-> ->]]; reflexivity. Qed.
Lemma current_in_use {D} (a : definition D) f : current_format a = Ok f -> in_use a f.
Proof. unfold in_use, current_format, ok_or. destruct (ad_new_format a), (ad_format a); intros H; try discriminate; injection H as ->; auto. Qed.

(** The format in use with more members is the one in use with fewer. *)
Lemma more_format {D} order order' (ds ds' : list (md_device D)) f : ds <> [] -> incl ds ds' -> same_change ds' ->
  in_use (array_open order' ds') f -> in_use (array_open order ds) f.
Proof.
  intros N L C. unfold in_use, array_open. cbn [ad_new_format ad_format]. intros [E|[E E2]].
  - left. apply array_new_format_unanimous in E as [_ E]. apply array_new_format_unanimous. split; [exact N|]. intros d I. apply E. auto.
  - right. split.
    + destruct (array_new_format ds) as [g|] eqn:G; [|reflexivity]. exfalso. apply array_new_format_unanimous in G as [_ G].
      destruct ds as [|d ds]; [now apply N|]. assert (Id : In d (d :: ds)) by now left. destruct C as [C|(h & C)].
      * exact (C d g (L d Id) (G d Id)).
      * assert (X : array_new_format ds' = Some h); [|congruence]. apply array_new_format_unanimous. split; [|exact C].
        intros ->. exact (L d Id).
    + apply array_format_unanimous in E2 as [_ E2]. apply array_format_unanimous. split; [exact N|]. intros d I. apply E2. auto.
Qed.

(** Two ways to read sectors that agree where both succeed. *)
Lemma read_all_agree rd rd' sec : (forall dev buf n b n' b', rd dev sec buf = (Ok n, b) -> rd' dev sec buf = (Ok n', b') -> b = b') ->
  forall k i l l', raid6_read_all rd sec i k = Ok l -> raid6_read_all rd' sec i k = Ok l' -> l = l'.
Proof.
  intros H. induction k as [|k IH]; intros i l l'; cbn [raid6_read_all]; [congruence|].
  destruct (rd i sec (zeros 512)) as [[n|e|] b] eqn:E; cbn [rbind]; try discriminate.
  destruct (rd' i sec (zeros 512)) as [[n'|e'|] b'] eqn:E'; cbn [rbind]; try discriminate.
  destruct (n =? len b); try discriminate. destruct (n' =? len b'); try discriminate.
  destruct (raid6_read_all rd sec (i + 1) k) as [t|e|] eqn:T; cbn [rbind]; try discriminate.
  destruct (raid6_read_all rd' sec (i + 1) k) as [t'|e'|] eqn:T'; cbn [rbind]; try discriminate.
  intros X X'. injection X as <-. injection X' as <-. f_equal; [exact (H _ _ _ _ _ _ E E')|exact (IH _ _ _ T T')].
Qed.
Lemma alg_read_agree alg s chunk n rd rd' b b' :
  (forall sec dev buf n b n' b', rd dev sec buf = (Ok n, b) -> rd' dev sec buf = (Ok n', b') -> b = b') ->
  alg_read_sector alg s chunk n rd = Ok b -> alg_read_sector alg s chunk n rd' = Ok b' -> b = b'.
Proof.
  intros H. destruct alg as [lv ly|a|a]; cbn [alg_read_sector]; try discriminate. unfold raid6_read_sector.
  destruct (raid6_compute_sector a s chunk n) as [[[[sec p] q] d]|]; cbn [ok_or rbind]; try discriminate.
  destruct (raid6_read_all rd sec 0 (N.to_nat n)) as [l|e|] eqn:E; cbn [rbind]; try discriminate.
  destruct (raid6_read_all rd' sec 0 (N.to_nat n)) as [l'|e'|] eqn:E'; cbn [rbind]; try (intros _; discriminate).
  rewrite <- (read_all_agree rd rd' sec (H sec) _ _ _ _ E E'). congruence.
Qed.

Lemma member_read_found {D} (ops : blockdev D) (a : definition D) dev sec buf n b : member_read ops a dev sec buf = (Ok n, b) ->
  exists m, assoc (ad_devices a) dev = Some m.
Proof.
  unfold member_read. destruct (len buf <? 512); [discriminate|]. destruct (assoc (ad_devices a) dev) as [m|]; [eauto|discriminate].
Qed.
Lemma member_read_same {D} (ops : blockdev D) (a a' : definition D) dev sec buf : assoc (ad_devices a) dev = assoc (ad_devices a') dev ->
  member_read ops a dev sec buf = member_read ops a' dev sec buf.
Proof. intros E. unfold member_read. now rewrite E. Qed.

(** Whatever further members are given: a sector that is delivered before and after is the same.  Nothing is assumed of the
    devices. *)
Theorem more_reads : forall {D} (ops : blockdev D) order order' (ds ds' : list (md_device D)) s buf buf' b b' n n',
  (forall l, Permutation (order l) l) -> (forall l, Permutation (order' l) l) ->
  no_reserved ds' -> same_change ds' -> incl ds ds' ->
  array_read_block ops (array_open order ds) s buf = (b, Ok n) ->
  array_read_block ops (array_open order' ds') s buf' = (b', Ok n') -> b = b'.
Proof.
  intros D ops order order' ds ds' s buf buf' b b' n n' O O' NR SC L. unfold array_read_block.
  set (a := array_open order ds). set (a' := array_open order' ds').
  destruct (len buf <? 512); [discriminate|]. destruct (len buf' <? 512); [intros _; discriminate|].
  destruct (current_format a) as [f|e|] eqn:F; try discriminate. destruct (current_format a') as [f'|e'|] eqn:F'; try (intros _; discriminate).
  assert (N : ds <> []). { intros ->. apply current_in_use in F. destruct F as [F|[_ F]]; discriminate F. }
  assert (f' = f) as ->.
  { pose proof (more_format order order' ds ds' f' N L SC (current_in_use _ _ F')) as X. apply in_use_current_format in X. fold a in X. congruence. }
  destruct (alg_read_sector _ _ _ _ (member_read ops a)) as [x|e|] eqn:R; try discriminate.
  destruct (alg_read_sector _ _ _ _ (member_read ops a')) as [x'|e'|] eqn:R'; try (intros _; discriminate).
  assert (x = x') as <-.
  { refine (alg_read_agree _ _ _ _ _ _ _ _ _ R R'). intros sec dev buf0 n0 b0 n0' b0' E E'.
    destruct (member_read_found _ _ _ _ _ _ _ E) as (m & M). destruct (member_read_found _ _ _ _ _ _ _ E') as (m' & M').
    assert (m = m') as <-.
    { apply (more_slots order order' ds ds' dev m m' O O' NR L); [apply assoc_in in M|apply assoc_in in M'];
        try assumption; apply array_members_partition; assumption. }
    rewrite (member_read_same ops a a' dev sec buf0) in E by congruence. congruence. }
  unfold copy_from_slice. destruct (len buf =? len x); [|discriminate]. destruct (len buf' =? len x); [|intros _; discriminate]. congruence.
Qed.
Print Assumptions more_reads.

(** ** A disk that is given twice *)

(** Who is in a slot, whatever the order. *)
Lemma slot_rest {D} order (ds : list (md_device D)) k d : (forall l, Permutation (order l) l) ->
  (In (k, d) (ad_devices (array_open order ds)) <->
   exists rest, Permutation ds (d :: rest) /\ assigned (array_roles ds) d k /\ Forall (fun d' => ~ assigned (array_roles ds) d' k) rest).
Proof.
  intros O. rewrite (proj2 (proj2 (array_members_partition order ds O)) k d). split.
  - intros (pre & post & E & A & F). exists (pre ++ post). rewrite E at 1. split; [apply Permutation_sym, Permutation_middle|auto].
  - intros (rest & P & A & F). assert (I : In d ds) by (eapply Permutation_in; [apply Permutation_sym, P|now left]).
    apply in_split in I as (pre & post & E). exists pre, post. split; [exact E|]. split; [exact A|].
    apply Forall_forall. intros y Iy. rewrite Forall_forall in F. apply F. eapply Permutation_in; [|exact Iy]. apply (Permutation_cons_inv (a := d)). rewrite <- P, E. apply Permutation_middle.
Qed.

(** The formats depend on what is stated only. *)
Lemma formats_stated {D} (ds ds' : list (md_device D)) : ds <> [] -> incl ds ds' ->
  (forall d f, In d ds' -> (forall x, In x ds -> states_format x f) -> states_format d f) ->
  (forall d f, In d ds' -> (forall x, In x ds -> states_new_format x f) -> states_new_format d f) ->
  array_format ds' = array_format ds /\ array_new_format ds' = array_new_format ds.
Proof.
  intros N L H1 H2. assert (N' : ds' <> []). { intros ->. destruct ds as [|d ds]; [now apply N|]. exact (L d (or_introl eq_refl)). }
  split; apply option_ext; intros f.
  - rewrite !array_format_unanimous. split; intros [_ H]; (split; [assumption|]); intros d I; [now apply H, L|now apply (H1 d f I)].
  - rewrite !array_new_format_unanimous. split; intros [_ H]; (split; [assumption|]); intros d I; [now apply H, L|now apply (H2 d f I)].
Qed.

(** A device that cannot be read makes all reads of its rows fail. *)
Lemma read_all_lacking rd sec dev : (forall buf n b, rd dev sec buf <> (Ok n, b)) ->
  forall k i l, i <= dev < i + N.of_nat k -> raid6_read_all rd sec i k <> Ok l.
Proof.
  intros H. induction k as [|k IH]; intros i l Hi; [lia|]. cbn [raid6_read_all].
  destruct (rd i sec (zeros 512)) as [[n|e|] b] eqn:E; cbn [rbind]; try discriminate.
  destruct (N.eq_dec i dev) as [->|Ne]; [now destruct (H _ _ _ E)|].
  destruct (n =? len b); [|discriminate]. destruct (raid6_read_all rd sec (i + 1) k) as [t|e|] eqn:T; cbn [rbind]; try discriminate.
  intros _. apply (IH (i + 1) t); [lia|exact T].
Qed.

(** One disk under two names: if a member of the array is given again, by whatever name and wherever among the others, then
    nothing at all can be read. *)
Theorem doubled_refused : forall {D} (ops : blockdev D) order order' (ds ds' : list (md_device D)) d again k f s buf b n,
  (forall l, Permutation (order l) l) -> (forall l, Permutation (order' l) l) -> no_reserved ds ->
  In (k, d) (ad_devices (array_open order ds)) -> in_use (array_open order ds) f -> k < mf_device_count f ->
  md_superblock again = md_superblock d -> Permutation ds' (again :: ds) ->
  array_read_block ops (array_open order' ds') s buf <> (b, Ok n).
Proof.
  intros D ops order order' ds ds' d again k f s buf b n O O' NR I Iu K S P.
  apply (slot_rest order ds k d O) in I as (rest & Pr & A & _).
  assert (Id : In d ds) by (eapply Permutation_in; [apply Permutation_sym, Pr|now left]).
  assert (L : incl ds ds'). { intros x Ix. eapply Permutation_in; [apply Permutation_sym, P|now right]. }
  assert (C : forall i r, claimed ds' i r -> claimed ds i r).
  { intros i r (x & sb & Ix & Sx & Nx). apply (Permutation_in _ P) in Ix as [<-|Ix]; [exists d, sb; rewrite <- S; auto|exists x, sb; auto]. }
  assert (NR' : no_reserved ds'). { intros i v R X. exact (NR i v R (C i v X)). }
  assert (F : array_format ds' = array_format ds /\ array_new_format ds' = array_new_format ds).
  { apply formats_stated; [intros ->; destruct Id|exact L| |]; intros x g Ix H; apply (Permutation_in _ P) in Ix as [<-|Ix]; auto;
      specialize (H d Id); unfold states_format, states_new_format in *; now rewrite S. }
  assert (Iu' : in_use (array_open order' ds') f).
  { unfold in_use, array_open in *. cbn [ad_new_format ad_format] in *. destruct F as [-> ->]. exact Iu. }
  assert (Em : forall x, ~ In (k, x) (ad_devices (array_open order' ds'))).
  { intros x Ix. apply (slot_rest order' ds' k x O') in Ix as (rest' & P' & A' & F').
    assert (A2 : assigned (array_roles ds') d k). { destruct A' as (sb' & tbl & _ & T & _). eapply assigned_more; eassumption. }
    assert (A3 : assigned (array_roles ds') again k). { unfold assigned in *. now rewrite S. }
    assert (Q : Permutation (x :: rest') (again :: d :: rest)).
    { rewrite <- P', P. now apply perm_skip. }
    destruct (in_split x (again :: d :: rest)) as (pre & post & E). { eapply Permutation_in; [exact Q|now left]. }
    assert (Q' : Permutation rest' (pre ++ post)). { apply (Permutation_cons_inv (a := x)). rewrite Q, E. apply Permutation_sym, Permutation_middle. }
    rewrite Forall_forall in F'. destruct pre as [|y pre]; injection E as -> E.
    - refine (F' d _ A2). eapply Permutation_in; [apply Permutation_sym, Q'|]. cbn. rewrite <- E. now left.
    - refine (F' y _ A3). eapply Permutation_in; [apply Permutation_sym, Q'|]. now left. }
  unfold array_read_block. destruct (len buf <? 512); [discriminate|]. rewrite (in_use_current_format _ _ Iu').
  destruct (mf_algorithm f) as [lv ly|a5|a6]; cbn [alg_read_sector]; try discriminate. unfold raid6_read_sector.
  destruct (raid6_compute_sector a6 s (mf_chunk_size f) (mf_device_count f)) as [[[[sec p] q] dd]|]; cbn [ok_or rbind]; try discriminate.
  destruct (raid6_read_all _ sec 0 _) as [l|e|] eqn:R; cbn [rbind]; try discriminate.
  exfalso. refine (read_all_lacking _ sec k _ _ 0 l _ R); [|rewrite N2Nat.id; lia].
  intros b0 n0 b1 E. destruct (member_read_found _ _ _ _ _ _ _ E) as (m & M). apply assoc_in in M; [exact (Em m M)|].
  now apply array_members_partition.
Qed.
Print Assumptions doubled_refused.

(** ** A spare *)

Lemma read_all_same rd rd' sec : (forall dev buf, rd dev sec buf = rd' dev sec buf) -> forall k i, raid6_read_all rd sec i k = raid6_read_all rd' sec i k.
Proof. intros H. induction k as [|k IH]; intros i; cbn [raid6_read_all]; [reflexivity|]. rewrite H. destruct (rd' i sec (zeros 512)) as [r b]. now rewrite IH. Qed.
Lemma array_read_same {D} (ops : blockdev D) (a a' : definition D) s buf :
  ad_format a = ad_format a' -> ad_new_format a = ad_new_format a' -> (forall k, assoc (ad_devices a) k = assoc (ad_devices a') k) ->
  array_read_block ops a s buf = array_read_block ops a' s buf.
Proof.
  intros F1 F2 H. unfold array_read_block, current_format. rewrite F1, F2. destruct (len buf <? 512); [reflexivity|].
  destruct (ok_or _ InvalidData) as [f|e|]; [|reflexivity..].
  assert (E : alg_read_sector (mf_algorithm f) s (mf_chunk_size f) (mf_device_count f) (member_read ops a) =
              alg_read_sector (mf_algorithm f) s (mf_chunk_size f) (mf_device_count f) (member_read ops a')); [|now rewrite E].
  destruct (mf_algorithm f) as [lv ly|a5|a6]; [reflexivity..|]. cbn [alg_read_sector]. unfold raid6_read_sector.
  destruct (raid6_compute_sector a6 s (mf_chunk_size f) (mf_device_count f)) as [[[[sec p] q] dd]|]; cbn [ok_or rbind]; [|reflexivity].
  rewrite (read_all_same (member_read ops a) (member_read ops a')); [reflexivity|]. intros dev b. apply member_read_same, H.
Qed.

(** [d] adds nothing to what [ds] say: it states the same formats and no role that they do not state, and they give it no
    position. *)
Definition adds_nothing {D} (ds : list (md_device D)) (d : md_device D) : Prop :=
  exists sb, md_superblock d = DsSuperblock sb /\
  (forall f, (forall x, In x ds -> states_format x f) -> states_format d f) /\
  (forall f, (forall x, In x ds -> states_new_format x f) -> states_new_format d f) /\
  (forall i r, definite r -> nth_error (sb_roles sb) (N.to_nat i) = Some r -> claimed ds i r) /\
  (forall k, k <= 0xfeff -> ~ claimed ds (sb_role_index sb) k).

(** A spare that is given too makes no difference to what is read, nor to the size. *)
Theorem spare_ignored : forall {D} (ops : blockdev D) order order' (ds ds' : list (md_device D)) spare s buf,
  (forall l, Permutation (order l) l) -> (forall l, Permutation (order' l) l) -> ds <> [] -> no_reserved ds' ->
  adds_nothing ds spare -> Permutation ds' (spare :: ds) ->
  array_read_block ops (array_open order' ds') s buf = array_read_block ops (array_open order ds) s buf /\
  array_block_count (array_open order' ds') = array_block_count (array_open order ds).
Proof.
  intros D ops order order' ds ds' d s buf O O' N NR (sb & S & H1 & H2 & H3 & H4) P.
  assert (L : incl ds ds'). { intros x Ix. eapply Permutation_in; [apply Permutation_sym, P|now right]. }
  assert (F : array_format ds' = array_format ds /\ array_new_format ds' = array_new_format ds).
  { apply formats_stated; [exact N|exact L| |]; intros x g Ix H; apply (Permutation_in _ P) in Ix as [<-|Ix]; auto. }
  assert (C : forall i r, definite r -> claimed ds' i r <-> claimed ds i r).
  { intros i r Dr. split; [|now apply claimed_more]. intros (x & sx & Ix & Sx & Nx).
    apply (Permutation_in _ P) in Ix as [<-|Ix]; [|exists x, sx; auto]. rewrite S in Sx. injection Sx as <-. now apply (H3 i r). }
  assert (NR0 : no_reserved ds). { intros i v R X. exact (NR i v R (claimed_more _ _ _ _ L X)). }
  assert (As : forall (x : md_device D) k, assigned (array_roles ds') x k <-> assigned (array_roles ds) x k).
  { intros x k. split.
    - intros (sx & tbl' & Sx & T' & X & K). destruct (array_roles ds) as [tbl|] eqn:T.
      + exists sx, tbl. split; [exact Sx|]. split; [reflexivity|]. split; [|exact K].
        apply (roles_merged_value ds' tbl' _ k T' K) in X as (X1 & X2 & X3). apply (roles_merged_value ds tbl _ k T K).
        split; [apply C; [now apply position_definite|exact X1]|]. split; [|intros v R; now apply NR0].
        intros r Dr Cr. apply X2; [exact Dr|]. now apply C.
      + exfalso. apply (roles_fail_iff_partial ds (no_reserved_orderly ds NR0)) in T as [T|[(y & Iy & Y)|(i & r & r' & Ne & D1 & D2 & C1 & C2 & _)]].
        * contradiction.
        * assert (Z : array_roles ds' = None); [|congruence]. apply (roles_fail_iff_partial ds' (no_reserved_orderly ds' NR)). right. left. exists y. auto.
        * apply Ne. apply (agreed ds' tbl' i r r' NR T' D1 D2); now apply C.
    - intros A. destruct (array_roles ds') as [tbl'|] eqn:T'.
      + rewrite <- T'. eapply assigned_more; eassumption.
      + exfalso. apply (roles_fail_iff_partial ds' (no_reserved_orderly ds' NR)) in T' as [T'|[(y & Iy & Y)|(i & r & r' & Ne & D1 & D2 & C1 & C2 & _)]].
        * rewrite T' in P. now apply Permutation_nil in P.
        * apply (Permutation_in _ P) in Iy as [<-|Iy]; [now destruct (Y sb)|]. destruct A as (sx & tbl & _ & T & _).
          assert (Z : array_roles ds = None); [|congruence]. apply (roles_fail_iff_partial ds (no_reserved_orderly ds NR0)). right. left. exists y. auto.
        * destruct A as (sx & tbl & _ & T & _). apply Ne. apply (agreed ds tbl i r r' NR0 T D1 D2); now apply C. }
  assert (Nd : forall k, ~ assigned (array_roles ds') d k).
  { intros k (sx & tbl' & Sx & T' & X & K). rewrite S in Sx. injection Sx as <-.
    apply (roles_merged_value ds' tbl' _ k T' K) in X as (X & _). apply (H4 k K). apply C; [now apply position_definite|exact X]. }
  split.
  - apply array_read_same; [apply F|apply F|]. intros k. apply option_ext. intros x.
    rewrite !assoc_in by (now apply array_members_partition). rewrite (slot_rest order' ds' k x O'), (slot_rest order ds k x O). split.
    + intros (rest & Pr & A & Fr). apply As in A.
      assert (Id : In d rest).
      { assert (Id : In d (x :: rest)) by (eapply Permutation_in; [exact Pr|eapply Permutation_in; [apply Permutation_sym, P|now left]]).
        destruct Id as [<-|Id]; [|exact Id]. apply As in A. now destruct (Nd k). }
      apply in_split in Id as (pre & post & E). exists (pre ++ post). split; [|split; [exact A|]].
      * apply (Permutation_cons_inv (a := d)). rewrite <- P, Pr, E, <- Permutation_middle. apply perm_swap.
      * rewrite E in Fr. apply Forall_forall. intros y Iy Ay. rewrite Forall_forall in Fr. refine (Fr y _ (proj2 (As y k) Ay)).
        apply in_or_app. cbn. apply in_app_or in Iy as [Iy|Iy]; auto.
    + intros (rest & Pr & A & Fr). exists (d :: rest). split; [|split; [now apply As|]].
      * rewrite P, Pr. apply perm_swap.
      * constructor; [apply Nd|]. eapply Forall_impl; [|exact Fr]. intros y Ny Ay. apply Ny. now apply As.
  - unfold array_block_count, current_format, array_open. cbn [ad_new_format ad_format]. now destruct F as [-> ->].
Qed.
Print Assumptions spare_ignored.

Lemma reads_formatless {D} (ops : blockdev D) join (a : definition D) e : current_format a = Err e ->
  forall qs i k b, nth_error (array_reads ops join a qs) i <> Some (b, Ok k).
Proof.
  intros F. induction qs as [|[s buf] qs IH]; intros i k b; cbn [array_reads]; [destruct i; discriminate|].
  unfold array_read_block_io at 1. rewrite F. destruct (len buf <? 512); (destruct i as [|i]; [discriminate|exact (IH i k b)]).
Qed.

(** The same with the state of the members carried along, other reads in between, and reads that fail now and then. *)
Theorem more_reads_io : forall {D} (ops : blockdev D) join order order' (ds ds' : list (md_device D)) ct bad qs qs' i j s buf buf' b b' n n',
  joins join -> (forall l, Permutation (order l) l) -> (forall l, Permutation (order' l) l) ->
  no_reserved ds' -> same_change ds' -> incl ds ds' ->
  (forall d, In d ds' -> member_holds ops d (ct d) (bad d)) ->
  (forall f, in_use (array_open order' ds') f -> u32_ok (mf_device_count f)) ->
  Forall read_legal qs -> Forall read_legal qs' ->
  nth_error qs i = Some (s, buf) -> nth_error (array_reads ops join (array_open order ds) qs) i = Some (b, Ok n) ->
  nth_error qs' j = Some (s, buf') -> nth_error (array_reads ops join (array_open order' ds') qs') j = Some (b', Ok n') -> b = b'.
Proof.
  intros D ops join order order' ds ds' ct bad qs qs' i j s buf buf' b b' n n' J O O' NR SC L H U Q Q' E1 E2 E3 E4.
  set (a := array_open order ds) in *. set (a' := array_open order' ds') in *.
  set (C := fun (x : definition D) k => option_map (fun m => (ct m, bad m)) (assoc (ad_devices x) k)).
  assert (Sl : forall o l, (forall x, Permutation (o x) x) -> incl l ds' -> slots_hold ops (array_open o l) (C (array_open o l))).
  { intros o l Po Il. destruct (array_members_partition o l Po) as (Pm & Nd & Me). split; [exact Nd|]. split.
    - intros k m Im. exists (ct m), (bad m). split.
      + unfold C. apply (assoc_in _ _ _ Nd) in Im. now rewrite Im.
      + apply H, Il. apply (Permutation_in (l := map snd (ad_devices (array_open o l)) ++ ad_inactive (array_open o l)) m Pm).
        apply in_or_app. left. exact (in_map snd _ _ Im).
    - intros k c bd. unfold C. destruct (assoc _ k) as [m|] eqn:A; [|discriminate]. intros _. exists m. now apply (assoc_in _ _ _ Nd). }
  pose proof (Sl order ds O L) as Sa. pose proof (Sl order' ds' O' (incl_refl _)) as Sa'. fold a in Sa. fold a' in Sa'.
  assert (N2 : forall {A B} (R : A -> B -> Prop) (x : list A) (y : list B), Forall2 R x y -> forall k p q, nth_error x k = Some p -> nth_error y k = Some q -> R p q).
  { clear. intros A B R x y F. induction F as [|p q x y P F IH]; intros [|k] u v; cbn; try discriminate; [congruence|apply IH]. }
  destruct (current_format a') as [f|e|] eqn:F'.
  - assert (Iu' : in_use a' f) by now apply current_in_use.
    assert (Nds : ds <> []).
    { intros ->. exact (reads_formatless ops join a InvalidData eq_refl _ _ _ _ E2). }
    assert (Iu : in_use a f) by now apply (more_format order order' ds ds').
    pose proof (array_reads_sound ops join _ a f qs J Sa Iu (U f Iu') Q) as R. pose proof (array_reads_sound ops join _ a' f qs' J Sa' Iu' (U f Iu') Q') as R'.
    pose proof (N2 _ _ _ _ _ R i _ _ E1 E2) as [_ S]. pose proof (N2 _ _ _ _ _ R' j _ _ E3 E4) as [_ S'].
    apply (array_sector_unique (C a') f s); [|exact S'].
    destruct S as (l & code & ra & blks & Al & Hl & Ha & Hc & Hn & (Lk & Rw & PC) & Db).
    destruct S' as (l' & code' & ra' & blks' & _ & _ & _ & _ & _ & (Lk' & Rw' & _) & _).
    exists l, code, ra, blks. do 5 (split; [assumption|]). split; [|exact Db]. split; [exact Lk|]. split; [|exact PC].
    intros k x Hx. destruct (Rw k x Hx) as (c & bd & Ck & Se).
    destruct (nth_N blks' k) as [y|] eqn:Hy.
    2: { exfalso. rewrite nth_N_spec in Hx, Hy. apply nth_error_None in Hy. assert (N.to_nat k < length blks)%nat by (apply nth_error_Some; congruence). unfold len in *. lia. }
    destruct (Rw' k y Hy) as (c' & bd' & Ck' & _). unfold C in Ck, Ck'.
    destruct (assoc (ad_devices a) k) as [m|] eqn:M; [|discriminate]. destruct (assoc (ad_devices a') k) as [m'|] eqn:M'; [|discriminate].
    cbn [option_map] in Ck, Ck'. injection Ck as <- <-. exists (ct m), (bad m). split; [|exact Se].
    unfold C. rewrite M'. assert (m = m') as <-; [|reflexivity].
    apply (more_slots order order' ds ds' k m m' O O' NR L); apply assoc_in; try assumption; now apply array_members_partition.
  - exfalso. exact (reads_formatless ops join a' e F' _ _ _ _ E4).
  - exfalso. unfold current_format, ok_or in F'. destruct (ad_new_format a'), (ad_format a'); discriminate.
Qed.
Print Assumptions more_reads_io.

(** ** What the two conditions are for *)

(** Row [Q D0 D1 P] in the old format and [P Q D0 D1] in the new one.  The spare was not there when the change began. *)
Definition more_sb (change : option reshape_status) (roles : list N) (index : N) : superblock :=
  Superblock 1 2 (UuidLong [x01]) None (AlgRaid6 R6LeftSymmetric) 1 1 4 change 0 index 9 roles.
Definition more_member (id : N) (sb : superblock) (b : byte) : md_device memdev := MdDevice id (DsSuperblock sb) (mem_new (sec b) 512).
Definition changing : option reshape_status := Some (Reshape (AlgRaid6 R6RightSymmetric) 0 0 1 0).
Definition more_four (change : option reshape_status) : list (md_device memdev) :=
  [more_member 10 (more_sb change [0; 1; 2; 3] 0) x31; more_member 11 (more_sb change [0; 1; 2; 3] 1) x31;
   more_member 12 (more_sb change [0; 1; 2; 3] 2) x42; more_member 13 (more_sb change [0; 1; 2; 3] 3) x73].

(** Decides [no_reserved]. *)
Definition tables_clean {D} (ds : list (md_device D)) : bool :=
  forallb (fun d => match md_superblock d with DsSuperblock sb => forallb (fun r => negb ((0xfeff <? r) && (r <? 0xfffd))) (sb_roles sb) | _ => true end) ds.
Lemma tables_clean_spec {D} (ds : list (md_device D)) : tables_clean ds = true -> no_reserved ds.
Proof.
  intros H i v R (d & sb & I & S & X). unfold tables_clean in H. rewrite forallb_forall in H. specialize (H d I). rewrite S in H.
  rewrite forallb_forall in H. specialize (H v (nth_error_In _ _ X)). unfold reserved in R.
  destruct (N.ltb_spec 0xfeff v), (N.ltb_spec v 0xfffd); try discriminate; lia.
Qed.

(** False of the code without [same_change]: given a spare that does not know of the change, the array is read in the old
    format, and both answers are delivered. *)
Theorem more_change_refuted : exists (ds ds' : list (md_device memdev)) s b b',
  no_reserved ds' /\ incl ds ds' /\ ~ same_change ds' /\
  array_read_block mem_block (array_open (fun x => x) ds) s (zeros 512) = (b, Ok 512) /\
  array_read_block mem_block (array_open (fun x => x) ds') s (zeros 512) = (b', Ok 512) /\ b <> b'.
Proof.
  exists (more_four changing), (more_four changing ++ [more_member 14 (more_sb None [0; 1; 2; 3] 4) x00]), 0, (sec x42), (sec x31).
  split; [apply tables_clean_spec; vm_compute; reflexivity|]. split; [intros d I; apply in_or_app; now left|]. split; [|split; [|split]].
  - intros [H|(f & H)].
    + apply (H (more_member 10 (more_sb changing [0; 1; 2; 3] 0) x31) (MdFormat (AlgRaid6 R6RightSymmetric) 4 1 1)); [now left|].
      eexists. eexists. split; [reflexivity|]. split; [reflexivity|]. split; [vm_compute; discriminate|reflexivity].
    + destruct (H (more_member 14 (more_sb None [0; 1; 2; 3] 4) x00)) as (sb & rs & S & R & _); [apply in_or_app; right; now left|].
      injection S as <-. discriminate R.
  - vm_compute. reflexivity.
  - vm_compute. reflexivity.
  - vm_compute. discriminate.
Qed.
Print Assumptions more_change_refuted.

(** False of the code without [no_reserved]: two strangers whose tables have reserved codes at the indices of two members
    push these out and take their places. *)
Theorem more_reserved_refuted : exists (ds ds' : list (md_device memdev)) s b b',
  same_change ds' /\ incl ds ds' /\ ~ no_reserved ds' /\
  array_read_block mem_block (array_open (fun x => x) ds) s (zeros 512) = (b, Ok 512) /\
  array_read_block mem_block (array_open (fun x => x) ds') s (zeros 512) = (b', Ok 512) /\ b <> b'.
Proof.
  set (t := [0; 0xff00; 0xff00; 3; 1; 2]).
  exists (more_four None), (more_four None ++ [more_member 14 (more_sb None t 4) x00; more_member 15 (more_sb None t 5) x73]), 0, (sec x31), (sec x00).
  split; [left|split; [intros d I; apply in_or_app; now left|split; [|split; [|split]]]].
  - intros d f I (sb & rs & S & R & _). repeat (destruct I as [<-|I]; [injection S as <-; discriminate R|]). destruct I.
  - intros H. apply (H 1 0xff00); [unfold reserved; lia|]. exists (more_member 14 (more_sb None t 4) x00), (more_sb None t 4).
    split; [apply in_or_app; right; now left|]. split; reflexivity.
  - vm_compute. reflexivity.
  - vm_compute. reflexivity.
  - vm_compute. discriminate.
Qed.
Print Assumptions more_reserved_refuted.

(** ** Examples *)

Definition more_spare : md_device memdev := more_member 14 (more_sb None [0; 1; 2; 3; 0xffff] 4) x00.

Lemma more_no_change (ds : list (md_device memdev)) : (forall d, In d ds -> exists sb, md_superblock d = DsSuperblock sb /\ sb_reshape sb = None) -> same_change ds.
Proof. intros H. left. intros d f I (sb & rs & S & R & _). destruct (H d I) as (sb' & S' & R'). congruence. Qed.

(** Four members, and the same four in another order among which a spare is. *)
Example more_reads_ex : let ds := more_four None in let ds' := more_spare :: rev ds in
  no_reserved ds' /\ same_change ds' /\ incl ds ds' /\
  array_read_block mem_block (array_open (fun x => x) ds) 1 (zeros 512) = (sec x42, Ok 512) /\
  array_read_block mem_block (array_open (fun x => rev x) ds') 1 (zeros 512) = (sec x42, Ok 512).
Proof.
  intros ds ds'. split; [apply tables_clean_spec; vm_compute; reflexivity|]. split; [|split; [|split; vm_compute; reflexivity]].
  - apply more_no_change. intros d I. repeat (destruct I as [<-|I]; [eexists; split; reflexivity|]). destruct I.
  - intros d I. right. now apply -> in_rev.
Qed.

Example spare_ex : let ds := more_four None in ds <> [] /\ no_reserved (more_spare :: rev ds) /\ adds_nothing ds more_spare /\
  Permutation (more_spare :: rev ds) (more_spare :: ds) /\
  array_block_count (array_open (fun x => x) (more_spare :: rev ds)) = Ok 2.
Proof.
  intros ds. split; [discriminate|]. split; [apply tables_clean_spec; vm_compute; reflexivity|]. split; [|split; [apply perm_skip, Permutation_sym, Permutation_rev|vm_compute; reflexivity]].
  exists (more_sb None [0; 1; 2; 3; 0xffff] 4). split; [reflexivity|]. split; [|split; [|split]].
  - intros f H. destruct (H (more_member 10 (more_sb None [0; 1; 2; 3] 0) x31)) as (sb & S & ->); [now left|]. injection S as <-. eexists. split; reflexivity.
  - intros f H. destruct (H (more_member 10 (more_sb None [0; 1; 2; 3] 0) x31)) as (sb & rs & S & R & _); [now left|]. injection S as <-. discriminate R.
  - intros i r Dr X. exists (more_member 10 (more_sb None [0; 1; 2; 3] 0) x31), (more_sb None [0; 1; 2; 3] 0). split; [now left|]. split; [reflexivity|].
    cbn [sb_roles more_sb] in *. destruct (N.to_nat i) as [|[|[|[|[|m]]]]]; cbn in X |- *; try exact X.
    + injection X as <-. destruct Dr as [_ Dr]. destruct Dr. now left.
    + now destruct m.
  - intros k K (d & sb & I & S & X). repeat (destruct I as [<-|I]; [injection S as <-; discriminate X|]). destruct I.
Qed.

(** The second member under another name. *)
Example doubled_ex : let ds := more_four None in
  In (1, more_member 11 (more_sb None [0; 1; 2; 3] 1) x31) (ad_devices (array_open (fun x => x) ds)) /\
  in_use (array_open (fun x => x) ds) (MdFormat (AlgRaid6 R6LeftSymmetric) 4 1 1) /\ no_reserved ds /\
  snd (array_read_block mem_block (array_open (fun x => x) ds) 0 (zeros 512)) = Ok 512 /\
  snd (array_read_block mem_block (array_open (fun x => x) (more_member 15 (more_sb None [0; 1; 2; 3] 1) x31 :: ds)) 0 (zeros 512)) = Err InvalidInput.
Proof.
  intros ds. split; [right; now left|]. split; [right; split; reflexivity|]. split; [apply tables_clean_spec; vm_compute; reflexivity|]. split; vm_compute; reflexivity.
Qed.

(** A sequence of reads with the spare and one without. *)
Example more_reads_io_ex : let ds := more_four None in let ds' := ds ++ [more_spare] in
  (forall d, In d ds' -> member_holds mem_block d (m_mem (md_dev d)) (fun _ => False)) /\
  nth_error (array_reads mem_block shared (array_open (fun x => x) ds) [(1, zeros 512); (0, zeros 512)]) 1 = Some (sec x31, Ok 512) /\
  nth_error (array_reads mem_block shared (array_open (fun x => x) ds') [(0, zeros 512)]) 0 = Some (sec x31, Ok 512).
Proof.
  intros ds ds'. split; [|split; vm_compute; reflexivity].
  intros d I. repeat (destruct I as [<-|I]; [apply (mem_holds _ _ 1); [reflexivity|vm_compute; reflexivity|vm_compute; discriminate]|]). destruct I.
Qed.
