(** Properties C24-C28: formats, members, roles and diagnosis of an array. *)

From Coq Require Import Permutation.
From Verif Require Import Base BaseFacts Raid Io RaidFacts Superblock Device Array SpecArray ArrayFacts.

(** ** C24 *)

Lemma format_of_states {D} (d : md_device D) f : format_of (md_superblock d) = Some f <-> states_format d f.
Proof.
  unfold format_of, states_format. destruct (md_superblock d) as [sb| |]; cbn [as_option option_map].
  - split.
    + intros E. injection E as <-. eauto.
    + intros (sb' & E & ->). now injection E as ->.
  - split; [discriminate|]. now intros (sb & E & _).
  - split; [discriminate|]. now intros (sb & E & _).
Qed.

Lemma new_format_of_states {D} (d : md_device D) f : new_format_of (md_superblock d) = Some f <-> states_new_format d f.
Proof.
  unfold new_format_of, states_new_format. destruct (md_superblock d) as [sb| |]; cbn [as_option obind].
  2, 3: split; [discriminate|]; now intros (sb & rs & E & _).
  destruct (sb_reshape sb) as [rs|] eqn:R; cbn [obind].
  2: { split; [discriminate|]. intros (sb' & rs & E & E' & _). injection E as ->. congruence. }
  unfold cadd32. destruct (N.leb_spec (sb_device_count sb + rs_delta_devices rs) u32_max); cbn [obind].
  - split.
    + intros E. injection E as <-. exists sb, rs. auto.
    + intros (sb' & rs' & E & E' & _ & ->). injection E as ->. rewrite R in E'. now injection E' as ->.
  - split; [discriminate|]. intros (sb' & rs' & E & E' & L & _). injection E as ->. rewrite R in E'. injection E' as ->. lia.
Qed.

(** The array has format [f] exactly when there are members and each of them states [f]. *)
Theorem array_format_unanimous : forall {D} (ds : list (md_device D)) f,
  array_format ds = Some f <-> ds <> [] /\ (forall d, In d ds -> states_format d f).
Proof.
  intros D ds f. unfold array_format. rewrite reduce_same, Forall_map, Forall_forall.
  split; intros (N & H); (split; [destruct ds; [easy|discriminate]|]); intros d I; apply format_of_states; auto.
Qed.
Print Assumptions array_format_unanimous.

Theorem array_new_format_unanimous : forall {D} (ds : list (md_device D)) f,
  array_new_format ds = Some f <-> ds <> [] /\ (forall d, In d ds -> states_new_format d f).
Proof.
  intros D ds f. unfold array_new_format. rewrite reduce_same, Forall_map, Forall_forall.
  split; intros (N & H); (split; [destruct ds; [easy|discriminate]|]); intros d I; apply new_format_of_states; auto.
Qed.
Print Assumptions array_new_format_unanimous.

Lemma option_ext {A} (x y : option A) : (forall a, x = Some a <-> y = Some a) -> x = y.
Proof.
  intros H. destruct x as [a|]; [symmetry; now apply H|]. destruct y as [a|]; [|reflexivity]. now apply H.
Qed.

Theorem array_formats_order : forall {D} (ds ds' : list (md_device D)),
  Permutation ds ds' -> array_format ds = array_format ds' /\ array_new_format ds = array_new_format ds'.
Proof.
  intros D ds ds' P.
  assert (N : ds <> [] <-> ds' <> []).
  { split; intros H ->; apply H; [now apply Permutation_sym, Permutation_nil in P|now apply Permutation_nil in P]. }
  assert (I : forall d, In d ds <-> In d ds').
  { intros d. split; intros H; [eapply Permutation_in; eassumption|].
    eapply Permutation_in; [apply Permutation_sym; eassumption|exact H]. }
  split; apply option_ext; intros f.
  - rewrite !array_format_unanimous. split; intros (A & B); (split; [tauto|]); intros d H; apply B; now apply I.
  - rewrite !array_new_format_unanimous. split; intros (A & B); (split; [tauto|]); intros d H; apply B; now apply I.
Qed.
Print Assumptions array_formats_order.

(** ** C25 *)

Lemma member_slot_assigned {D} roles (d : md_device D) k : member_slot roles d = Some k <-> assigned roles d k.
Proof.
  unfold member_slot, assigned. destruct (md_superblock d) as [sb| |]; cbn [as_option obind].
  2, 3: split; [discriminate|]; now intros (sb & t & E & _).
  destruct roles as [tbl|]; cbn [obind].
  2: { split; [discriminate|]. now intros (sb' & t & _ & E & _). }
  rewrite nth_N_spec. destruct (nth_error tbl (N.to_nat (sb_role_index sb))) as [r|] eqn:E; cbn [obind].
  - unfold device_number, role_max_position. destruct (N.leb_spec r 0xfeff).
    + split.
      * intros H1. injection H1 as ->. exists sb, tbl. auto.
      * intros (sb' & t & E1 & E2 & E3 & _). injection E1 as <-. injection E2 as <-. congruence.
    + split; [discriminate|]. intros (sb' & t & E1 & E2 & E3 & L). injection E1 as <-. injection E2 as <-.
      rewrite E in E3. injection E3 as ->. lia.
  - split; [discriminate|]. intros (sb' & t & E1 & E2 & E3 & _). injection E1 as <-. injection E2 as <-. congruence.
Qed.

Lemma app_swap {T} (a b c d : list T) : Permutation ((a ++ b) ++ (c ++ d)) ((a ++ c) ++ (b ++ d)).
Proof.
  rewrite <- !app_assoc. apply Permutation_app_head. rewrite !app_assoc.
  apply Permutation_app_tail, Permutation_app_comm.
Qed.

Section Open.
  Context {D : Type} (order : list (option N * list (md_device D)) -> list (option N * list (md_device D))).
  Hypothesis Ord : forall l, Permutation (order l) l.
  Variable ds : list (md_device D).

  Let roles := array_roles ds.
  Let entries := order (from_multi_iter (option_dec N.eq_dec) (map (fun d => (member_slot roles d, d)) ds)).

  Lemma open_perm :
    Permutation (map snd (ad_devices (array_open order ds)) ++ ad_inactive (array_open order ds)) ds.
  Proof.
    unfold array_open. cbn [ad_devices ad_inactive]. fold roles. fold entries.
    assert (A : forall l : list (option N * list (md_device D)),
      Permutation (map snd (flat_map left_of l) ++ flat_map right_of l) (concat (map snd l))).
    { induction l as [|e l IH]; [reflexivity|]. cbn [flat_map map concat]. rewrite map_app.
      rewrite app_swap. apply Permutation_app; [|exact IH].
      destruct e as [[k|] [|d [|d' t]]]; reflexivity. }
    rewrite A. unfold entries.
    transitivity (concat (map snd (from_multi_iter (option_dec N.eq_dec) (map (fun d => (member_slot roles d, d)) ds)))).
    - rewrite <- !flat_map_concat_map. apply Permutation_flat_map, Ord.
    - rewrite multi_concat, map_map. cbn. now rewrite map_id.
  Qed.

  Lemma open_slots k d :
    In (k, d) (ad_devices (array_open order ds)) <->
    group (option_dec N.eq_dec) (map (fun d => (member_slot roles d, d)) ds) (Some k) = [d].
  Proof.
    unfold array_open. cbn [ad_devices]. fold roles. fold entries. rewrite in_flat_map. split.
    - intros ([k' vs] & I & L). destruct k' as [k'|]; [|destruct L]. destruct vs as [|d' [|? ?]]; try easy.
      cbn in L. destruct L as [L|[]]. inv L. unfold entries in I.
      apply (Permutation_in _ (Ord _)), multi_in in I as [I _]. now symmetry.
    - intros G. exists (Some k, [d]). split; [|now left]. unfold entries.
      apply (Permutation_in _ (Permutation_sym (Ord _))), multi_in. rewrite G. split; [reflexivity|discriminate].
  Qed.

  Lemma open_nodup : NoDup (map fst (ad_devices (array_open order ds))).
  Proof.
    unfold array_open. cbn [ad_devices]. fold roles. fold entries.
    assert (N : NoDup (map fst entries)).
    { unfold entries. eapply Permutation_NoDup; [apply Permutation_map, Permutation_sym, Ord|apply multi_nodup]. }
    revert N. generalize entries. intros l N. induction l as [|e l IH]; [constructor|].
    cbn [map] in N. apply NoDup_cons_iff in N as [Ni N]. cbn [flat_map]. rewrite map_app.
    assert (Sub : forall k, In k (map fst (flat_map left_of l)) -> In (Some k) (map fst l)).
    { clear. intros k I. apply in_map_iff in I as ([k' d] & <- & I). apply in_flat_map in I as ([k0 vs] & I & L).
      apply in_map_iff. exists (k0, vs). split; [|exact I].
      destruct k0 as [k0|]; [|destruct L]. destruct vs as [|d' [|? ?]]; try easy. destruct L as [L|[]]. now inv L. }
    destruct e as [[k|] [|d [|d' t]]]; cbn [left_of map app fst]; try (now apply IH).
    constructor; [|now apply IH]. intros H. apply Ni, Sub, H.
  Qed.
End Open.

Lemma filter_single {A} (p : A -> bool) l x :
  filter p l = [x] <-> exists pre post, l = pre ++ x :: post /\ p x = true /\ Forall (fun y => p y = false) (pre ++ post).
Proof.
  split.
  - induction l as [|y l IH]; cbn [filter]; [discriminate|]. destruct (p y) eqn:P.
    + intros E. injection E as -> E. exists [], l. split; [reflexivity|]. split; [exact P|].
      cbn. apply Forall_forall. intros z I. destruct (p z) eqn:Pz; [|reflexivity].
      assert (In z (filter p l)) by (apply filter_In; auto). rewrite E in H. destruct H.
    + intros E. destruct (IH E) as (pre & post & -> & Px & F). exists (y :: pre), post.
      split; [reflexivity|]. split; [exact Px|]. cbn. now constructor.
  - intros (pre & post & -> & Px & F). apply Forall_app in F as [F1 F2].
    assert (Z : forall l, Forall (fun y => p y = false) l -> filter p l = []).
    { clear. induction 1 as [|y l H F IH]; [reflexivity|]. cbn. now rewrite H. }
    rewrite filter_app. cbn [filter]. rewrite Px, !Z by assumption. reflexivity.
Qed.

(** Every member is in exactly one place; slots are not shared; a member is active in slot [k] exactly when the role
    table assigns [k] to it and to no other member.  [order] is the unspecified iteration order of a hash map. *)
Theorem array_members_partition : forall {D} order (ds : list (md_device D)),
  (forall l, Permutation (order l) l) ->
  let a := array_open order ds in
  Permutation (map snd (ad_devices a) ++ ad_inactive a) ds /\
  NoDup (map fst (ad_devices a)) /\
  forall k d, In (k, d) (ad_devices a) <->
    exists pre post, ds = pre ++ d :: post /\ assigned (array_roles ds) d k /\
      Forall (fun d' => ~ assigned (array_roles ds) d' k) (pre ++ post).
Proof.
  intros D order ds Ord a. split; [now apply open_perm|]. split; [now apply open_nodup|].
  intros k d. unfold a. rewrite open_slots by assumption. unfold group.
  set (slot := member_slot (array_roles ds)).
  assert (G : forall (slot : md_device D -> option N) l,
              map snd (filter (fun kv => if option_dec N.eq_dec (fst kv) (Some k) then true else false)
                (map (fun d => (slot d, d)) l)) =
              filter (fun d => if option_dec N.eq_dec (slot d) (Some k) then true else false) l).
  { clear. intros slot l. induction l as [|d l IH]; [reflexivity|]. cbn [map filter fst].
    destruct (option_dec N.eq_dec (slot d) (Some k)); cbn [map snd]; now rewrite IH. }
  rewrite G, filter_single.
  assert (T : forall d, (if option_dec N.eq_dec (slot d) (Some k) then true else false) = true <-> assigned (array_roles ds) d k).
  { intros d0. rewrite <- member_slot_assigned. fold slot. destruct (option_dec N.eq_dec (slot d0) (Some k)); intuition congruence. }
  assert (F : forall d, (if option_dec N.eq_dec (slot d) (Some k) then true else false) = false <-> ~ assigned (array_roles ds) d k).
  { intros d0. rewrite <- T. destruct (option_dec N.eq_dec (slot d0) (Some k)); intuition congruence. }
  split; intros (pre & post & E & P & H); exists pre, post; (split; [exact E|]); (split; [now apply T|]);
    (eapply Forall_impl; [|exact H]); intros d0; apply F.
Qed.
Print Assumptions array_members_partition.

(** ** C26 *)

Definition tables_of {D} (ds : list (md_device D)) : list (option (list N)) :=
  map (fun d => option_map sb_roles (as_option (md_superblock d))) ds.

Lemma all_tables {D} (ds : list (md_device D)) :
  (forall d, In d ds -> exists sb, md_superblock d = DsSuperblock sb) ->
  exists tables, tables_of ds = map Some tables /\
    forall i r, claims (map (fun t => nth_N t i) tables) r <-> claimed ds i r.
Proof.
  induction ds as [|d ds IH]; intros H.
  - exists []. split; [reflexivity|]. intros i r. unfold claims, claimed. cbn. split; [easy|]. now intros (d & sb & [] & _).
  - destruct IH as (tables & E & C); [intros d' I; apply H; now right|].
    destruct (H d ltac:(now left)) as (sb & S). exists (sb_roles sb :: tables). split.
    + unfold tables_of in *. cbn [map]. now rewrite E, S.
    + intros i r. specialize (C i r). unfold claims, claimed in *. cbn [map In]. split.
      * intros [X|X].
        -- rewrite nth_N_spec in X. exists d, sb. auto.
        -- apply C in X as (d' & sb' & I & X). exists d', sb'. auto.
      * intros (d' & sb' & [<-|I] & S' & X).
        -- left. rewrite S in S'. injection S' as <-. now rewrite nth_N_spec.
        -- right. apply C. exists d', sb'. auto.
Qed.

Lemma fold_merge_opt_has_none l : forall acc, In None l -> fold_left merge_opt l acc = None.
Proof.
  induction l as [|x l IH]; intros acc; [easy|]. intros [->|I]; cbn [fold_left].
  - replace (merge_opt acc None) with (@None (list N)) by (now destruct acc). apply fold_merge_opt_none.
  - now apply IH.
Qed.

Lemma no_superblock {D} (ds : list (md_device D)) d :
  In d ds -> as_option (md_superblock d) = None -> array_roles ds = None.
Proof.
  intros I E. unfold array_roles. fold (tables_of ds).
  assert (N : In None (tables_of ds)).
  { unfold tables_of. apply in_map_iff. exists d. rewrite E. auto. }
  destruct (tables_of ds) as [|x l]; [destruct N|]. cbn [reduce_flatten]. destruct N as [->|N].
  - apply fold_merge_opt_none.
  - now apply fold_merge_opt_has_none.
Qed.

Lemma superblock_dec {D} (ds : list (md_device D)) :
  (forall d, In d ds -> exists sb, md_superblock d = DsSuperblock sb) \/
  (exists d, In d ds /\ as_option (md_superblock d) = None).
Proof.
  induction ds as [|d ds [IH|(d' & I & E)]].
  - left. intros d [].
  - destruct (md_superblock d) as [sb| |] eqn:S.
    + left. intros d' [<-|I]; eauto.
    + right. exists d. rewrite S. split; [now left|reflexivity].
    + right. exists d. rewrite S. split; [now left|reflexivity].
  - right. exists d'. split; [now right|exact E].
Qed.

Lemma array_roles_cells {D} (ds : list (md_device D)) tables :
  ds <> [] -> tables_of ds = map Some tables ->
  match array_roles ds with
  | Some c => forall i, cells tables i = Some (nth_N c i)
  | None => exists i, cells tables i = None
  end.
Proof.
  intros N E. unfold array_roles. fold (tables_of ds). rewrite E. destruct tables as [|t tables].
  - destruct ds; [easy|discriminate].
  - cbn [map reduce_flatten]. apply reduce_cells.
Qed.

(** Whenever the tables are merged, index [i] has position [k] exactly when some member states [k] there, nobody states
    a different definite role and nobody states a reserved code. *)
Theorem roles_merged_value : forall {D} (ds : list (md_device D)) tbl i k,
  array_roles ds = Some tbl -> k <= 0xfeff ->
  (nth_error tbl (N.to_nat i) = Some k <->
   claimed ds i k /\ (forall r, definite r -> claimed ds i r -> r = k) /\ (forall v, reserved v -> ~ claimed ds i v)).
Proof.
  intros D ds tbl i k E K.
  destruct (superblock_dec ds) as [A|(d & I & X)]; [|rewrite (no_superblock ds d I X) in E; discriminate].
  destruct (all_tables ds A) as (tables & T & C).
  assert (N : ds <> []) by (intros ->; discriminate).
  pose proof (array_roles_cells ds tables N T) as H. rewrite E in H. specialize (H i).
  pose proof (fold_cell_sound (map (fun t => nth_N t i) tables)) as S. unfold cells in H. rewrite H in S.
  rewrite <- nth_N_spec, (cell_position _ _ _ S K). rewrite C.
  split.
  - intros (H1 & H2 & H3). split; [exact H2|]. split; intros r R Cr; apply C in Cr; [now apply H3|now apply (H1 r)].
  - intros (H1 & H2 & H3). split; [|split; [exact H1|]]; intros r R Cr; apply C in Cr; [now apply (H3 r)|now apply H2].
Qed.
Print Assumptions roles_merged_value.

(** Merging fails only for a member without superblock or for two different definite statements ... *)
Theorem roles_fail : forall {D} (ds : list (md_device D)),
  array_roles ds = None -> ds <> [] ->
  (exists d, In d ds /\ forall sb, md_superblock d <> DsSuperblock sb) \/
  (exists i r r', r <> r' /\ definite r /\ definite r' /\ claimed ds i r /\ claimed ds i r').
Proof.
  intros D ds E N. destruct (superblock_dec ds) as [A|(d & I & X)].
  - right. destruct (all_tables ds A) as (tables & T & C).
    pose proof (array_roles_cells ds tables N T) as H. rewrite E in H. destruct H as (i & H). exists i.
    pose proof (fold_cell_sound (map (fun t => nth_N t i) tables)) as S. unfold cells in H. rewrite H in S.
    destruct S as (r & r' & N0 & D1 & D2 & C1 & C2). apply C in C1. apply C in C2. exists r, r'. auto 10.
  - left. exists d. split; [exact I|]. intros sb S. rewrite S in X. discriminate.
Qed.
Print Assumptions roles_fail.

(** ... and, unless reserved codes meet contradictory statements, exactly then. *)
Theorem roles_fail_iff_partial : forall {D} (ds : list (md_device D)),
  orderly ds ->
  (array_roles ds = None <->
   ds = [] \/ (exists d, In d ds /\ forall sb, md_superblock d <> DsSuperblock sb) \/ role_conflict ds).
Proof.
  intros D ds O. split.
  - intros E. destruct ds as [|d0 ds0]; [now left|]. set (ds := d0 :: ds0) in *. right.
    destruct (superblock_dec ds) as [A|(d & I & X)].
    + right. destruct (all_tables ds A) as (tables & T & C).
      pose proof (array_roles_cells ds tables ltac:(discriminate) T) as H. rewrite E in H. destruct H as (i & H).
      apply fold_cell_conflict in H.
      * destruct H as (NR & r & r' & N0 & D1 & D2 & C1 & C2). exists i, r, r'.
        apply C in C1. apply C in C2. repeat split; auto; try apply D1; try apply D2.
        intros v Rv Cv. apply C in Cv. now apply (NR v).
      * intros v r r' Rv D1 D2 Cv C1 C2. apply C in Cv. apply C in C1. apply C in C2. eapply O; eassumption.
    + left. exists d. split; [exact I|]. intros sb S. rewrite S in X. discriminate.
  - intros [->|[(d & I & H)|RC]]; [reflexivity| |].
    + apply (no_superblock ds d I). destruct (md_superblock d) as [sb| |] eqn:S; [destruct (H sb); reflexivity|reflexivity..].
    + destruct (superblock_dec ds) as [A|(d & I & X)]; [|now apply (no_superblock ds d)].
      destruct (all_tables ds A) as (tables & T & C).
      destruct RC as (i & r & r' & N0 & D1 & D2 & C1 & C2 & NR).
      assert (N : ds <> []) by (intros ->; destruct C1 as (? & ? & [] & _)).
      pose proof (array_roles_cells ds tables N T) as H.
      destruct (array_roles ds) as [tbl|]; [|reflexivity]. exfalso. specialize (H i).
      assert (Z : cells tables i = None).
      { apply fold_cell_conflict.
        - intros v s s' Rv D3 D4 Cv C3 C4. apply C in Cv. destruct (NR v Rv Cv).
        - split; [intros v Rv Cv; apply C in Cv; now apply (NR v)|]. exists r, r'. rewrite !C. auto. }
      congruence.
Qed.
Print Assumptions roles_fail_iff_partial.

Lemma claimed_perm {D} (ds ds' : list (md_device D)) i r : Permutation ds ds' -> claimed ds i r -> claimed ds' i r.
Proof. intros P (d & sb & I & H). exists d, sb. split; [eapply Permutation_in; eassumption|exact H]. Qed.

(** The assignment of slots does not depend on the order of the members, unless reserved codes meet contradictory
    statements. *)
Theorem roles_order_partial : forall {D} (ds ds' : list (md_device D)),
  orderly ds -> Permutation ds ds' ->
  forall (d : md_device D) k, assigned (array_roles ds) d k <-> assigned (array_roles ds') d k.
Proof.
  assert (G : forall {D} (ds ds' : list (md_device D)), orderly ds -> Permutation ds ds' ->
            forall (d : md_device D) k, assigned (array_roles ds) d k -> assigned (array_roles ds') d k).
  { intros D ds ds' O P d k (sb & tbl & S & R & X & K). pose proof (Permutation_sym P) as P'.
    apply (roles_merged_value ds tbl _ k R K) in X as (X1 & X2 & X3).
    destruct (array_roles ds') as [tbl'|] eqn:R'.
    - exists sb, tbl'. split; [exact S|]. split; [reflexivity|]. split; [|exact K].
      apply (roles_merged_value ds' tbl' _ k R' K). split; [now apply (claimed_perm ds)|].
      split; intros r Dr Cr; apply (claimed_perm _ _ _ _ P') in Cr; [now apply X2|now apply (X3 r)].
    - exfalso. assert (O' : orderly ds').
      { intros i v r r' Rv D1 D2 Cv C1 C2.
        eapply (O i v r r'); try assumption; eapply claimed_perm; eassumption. }
      apply (roles_fail_iff_partial ds' O') in R'.
      assert (F : array_roles ds = None).
      { apply (roles_fail_iff_partial ds O). destruct R' as [->|[(d' & I & H)|RC]].
        - left. now apply Permutation_sym, Permutation_nil in P.
        - right. left. exists d'. split; [eapply Permutation_in; eassumption|exact H].
        - right. right. destruct RC as (i & r & r' & N0 & D1 & D2 & C1 & C2 & NR).
          exists i, r, r'. split; [exact N0|]. split; [exact D1|]. split; [exact D2|].
          split; [now apply (claimed_perm ds')|]. split; [now apply (claimed_perm ds')|].
          intros v Rv Cv. apply (claimed_perm _ _ _ _ P) in Cv. now apply (NR v). }
      congruence. }
  intros D ds ds' O P d k. split; [now apply G|]. apply G; [|now apply Permutation_sym].
  intros i v r r' Rv D1 D2 Cv C1 C2. pose proof (Permutation_sym P) as P'.
  eapply (O i v r r'); try assumption; eapply claimed_perm; eassumption.
Qed.
Print Assumptions roles_order_partial.

(** A member with a given role index and table. *)
Definition role_sb (index : N) (roles : list N) : superblock :=
  Superblock 1 2 (UuidLong []) None (AlgRaid6 R6LeftSymmetric) 1000 128 4 None 0 index 0 roles.
Definition role_member (id index : N) (roles : list N) : md_device unit :=
  MdDevice id (DsSuperblock (role_sb index roles)) tt.

(** False of the code: a reserved code in one table wipes out the position recorded in all others ... *)
Theorem roles_reserved_refuted : exists (good : list (md_device unit)) bad d,
  assigned (array_roles good) d 0 /\ In d good /\
  claimed [bad] 0 0xff00 /\ reserved 0xff00 /\
  forall k, ~ assigned (array_roles (good ++ [bad])) d k.
Proof.
  exists [role_member 0 0 [0; 1]; role_member 1 1 [0; 1]], (role_member 2 2 [0xff00; 1]), (role_member 0 0 [0; 1]).
  split; [|split; [now left|split; [|split]]].
  - exists (role_sb 0 [0; 1]), [0; 1]. repeat split. lia.
  - exists (role_member 2 2 [0xff00; 1]), (role_sb 2 [0xff00; 1]). repeat split. now left.
  - unfold reserved. lia.
  - intros k (sb & tbl & S & R & X & K). injection S as <-. vm_compute in R. injection R as <-.
    vm_compute in X. injection X as <-. vm_compute in K. now apply K.
Qed.
Print Assumptions roles_reserved_refuted.

(** ... and then the order of the members matters. *)
Theorem roles_order_refuted : exists (ds ds' : list (md_device unit)) d,
  Permutation ds ds' /\ In d ds /\ assigned (array_roles ds) d 1 /\ forall k, ~ assigned (array_roles ds') d k.
Proof.
  set (a := role_member 0 0 [5; 1]). set (b := role_member 1 1 [6; 1]). set (c := role_member 2 2 [0xff00; 1]).
  exists [a; c; b], [a; b; c], b. split; [|split; [|split]].
  - apply perm_skip, perm_swap.
  - cbn. auto.
  - exists (role_sb 1 [6; 1]), [0xff00; 1]. repeat split. lia.
  - intros k (sb & tbl & S & R & _). vm_compute in R. discriminate.
Qed.
Print Assumptions roles_order_refuted.

Example roles_ex :
  let ds := [role_member 0 0 [0; 1; 0xfffe]; role_member 1 1 [0; 1; 2]; role_member 2 2 [0; 1; 2; 0xffff]] in
  array_roles ds = Some [0; 1; 2; 0xffff] /\ orderly ds /\
  (let a := array_open (fun l => rev l) ds in map fst (ad_devices a) = [2; 1; 0] /\ ad_inactive a = []).
Proof.
  split; [reflexivity|]. split; [|split; reflexivity].
  intros i v r r' Rv _ _ (d & sb & I & S & X). exfalso. unfold reserved in Rv.
  assert (Q : In v (sb_roles sb)) by (eapply nth_error_In; exact X). clear X.
  destruct I as [<-|[<-|[<-|[]]]]; injection S as <-; cbn in Q; intuition lia.
Qed.

Example format_ex :
  array_format [role_member 0 0 []; role_member 1 1 []] = Some (MdFormat (AlgRaid6 R6LeftSymmetric) 4 1000 128) /\
  array_format [role_member 0 0 []; MdDevice 1 DsMissing tt] = None.
Proof. split; reflexivity. Qed.

(** ** C27, C28 *)

Lemma stated_spec {D K} (f : superblock -> option K) (all : list (md_device D)) :
  stated f all = flat_map (fun d => match value f d with Some k => [(k, md_id d)] | None => [] end) all.
Proof.
  unfold stated. apply flat_map_ext. intros d. unfold value. now destruct (md_superblock d) as [sb| |].
Qed.

Lemma group_stated {D K} (dec : forall a b : K, {a = b} + {a <> b}) (f : superblock -> option K) (all : list (md_device D)) v :
  group dec (stated f all) v =
  map md_id (filter (fun d => if option_dec dec (value f d) (Some v) then true else false) all).
Proof.
  rewrite stated_spec. unfold group. induction all as [|d all IH]; [reflexivity|].
  cbn [flat_map filter]. rewrite filter_app, map_app, IH.
  destruct (value f d) as [k|]; cbn [filter map fst].
  - destruct (dec k v) as [->|N]; cbn [map snd app].
    + destruct (option_dec dec (Some v) (Some v)); [reflexivity|congruence].
    + destruct (option_dec dec (Some k) (Some v)); [congruence|reflexivity].
  - destruct (option_dec dec None (Some v)); [discriminate|reflexivity].
Qed.

Lemma filter_split {A} (p : A -> bool) (l : list A) : Permutation (filter p l ++ filter (fun x => negb (p x)) l) l.
Proof.
  induction l as [|x l IH]; [reflexivity|]. cbn [filter]. destruct (p x); cbn [negb app].
  - now apply perm_skip.
  - rewrite <- Permutation_middle. now apply perm_skip.
Qed.

Lemma exactly_filter {D} (P : md_device D -> Prop) (p : md_device D -> bool) all ds :
  (forall d, p d = true <-> P d) -> Permutation all ds -> exactly P ds (map md_id (filter p all)).
Proof.
  intros H Pm. exists (filter p all), (filter (fun x => negb (p x)) all).
  split; [now rewrite filter_split|]. split; [reflexivity|]. split; apply Forall_forall; intros d I; apply filter_In in I as [_ I].
  - now apply H.
  - rewrite <- H. destruct (p d); [discriminate|]. intros E. discriminate.
Qed.

Lemma exactly_len {D} (P : md_device D -> Prop) ds ids ids' : exactly P ds ids -> exactly P ds ids' -> Permutation ids ids'.
Proof.
  intros (s & r & Pm & -> & Fs & Fr) (s' & r' & Pm' & -> & Fs' & Fr'). apply Permutation_map.
  assert (Q : Permutation (s ++ r) (s' ++ r')) by (rewrite Pm; now symmetry).
  clear Pm Pm'. revert s' r r' Fs Fr Fs' Fr' Q. induction s as [|d s IH]; intros s' r r' Fs Fr Fs' Fr' Q.
  - destruct s' as [|d' s']; [reflexivity|]. exfalso. apply Forall_inv in Fs'.
    assert (I : In d' r) by (eapply Permutation_in; [symmetry; exact Q|now left]).
    rewrite Forall_forall in Fr. now apply (Fr d').
  - pose proof (Forall_inv Fs) as Pd. apply Forall_inv_tail in Fs.
    assert (I : In d (s' ++ r')) by (eapply Permutation_in; [exact Q|now left]).
    apply in_app_iff in I as [I|I]; [|rewrite Forall_forall in Fr'; destruct (Fr' d I Pd)].
    apply in_split in I as (a & b & ->). rewrite <- Permutation_middle. apply perm_skip.
    apply (IH _ r r'); try assumption.
    + apply Forall_app in Fs' as [Fa Fb]. apply Forall_inv_tail in Fb. apply Forall_app. auto.
    + rewrite <- app_assoc in Q. cbn [app] in Q. rewrite <- app_assoc. eapply Permutation_cons_app_inv. exact Q.
Qed.

Lemma diag_map_reports {D K} (dec : forall a b : K, {a = b} + {a <> b}) (f : superblock -> option K)
  (all ds : list (md_device D)) : Permutation all ds -> reports f ds (diag_map dec f all).
Proof.
  intros Pm. unfold diag_map. set (m := from_multi_iter dec (stated f all)).
  assert (I : forall d, In d ds <-> In d all).
  { intros d. split; intros H; [eapply Permutation_in; [symmetry|]; eassumption|eapply Permutation_in; eassumption]. }
  assert (Mi : forall v ids, In (v, ids) m <->
     ids = map md_id (filter (fun d => if option_dec dec (value f d) (Some v) then true else false) all) /\ ids <> []).
  { intros v ids. unfold m. now rewrite multi_in, group_stated. }
  assert (Nd : NoDup (map fst m)) by apply multi_nodup.
  assert (T : forall v (d : md_device D), (if option_dec dec (value f d) (Some v) then true else false) = true <-> value f d = Some v).
  { intros v d. destruct (option_dec dec (value f d) (Some v)); intuition congruence. }
  assert (Cp : forall d v, In d ds -> value f d = Some v -> exists ids, In (v, ids) m).
  { intros d v Id V. eexists. apply Mi. split; [reflexivity|]. intros E.
    assert (X : In (md_id d) []); [|destruct X]. rewrite <- E. apply in_map, filter_In. rewrite T. split; [now apply I|exact V]. }
  assert (Own : forall v ids, In (v, ids) m -> exists d, In d ds /\ value f d = Some v).
  { intros v ids H. apply Mi in H as [E N]. destruct (filter _ all) as [|d t] eqn:F; [subst; contradiction|].
    exists d. assert (X : In d (d :: t)) by now left. rewrite <- F in X. apply filter_In in X as [X1 X2].
    split; [now apply I|now apply T]. }
  unfold reports. destruct (N.ltb_spec 1 (len m)) as [L|L].
  - split; [|split; [exact Nd|split; [|exact Cp]]].
    + destruct m as [|[v ids] [|[v' ids'] t]]; [rewrite len_nil in L; lia|rewrite len_cons, len_nil in L; lia|].
      destruct (Own v ids ltac:(now left)) as (d & Id & V). destruct (Own v' ids' ltac:(now right; left)) as (d' & Id' & V').
      exists d, d', v, v'. repeat split; auto. cbn in Nd. apply NoDup_cons_iff in Nd as [Nd _]. intros ->. apply Nd. now left.
    + intros v ids H. pose proof (proj1 (Mi v ids) H) as [E N]. split; [exact N|]. rewrite E.
      apply exactly_filter; [apply T|exact Pm].
  - intros d d' v v' Id Id' V V'. destruct (Cp d v Id V) as (ids & H). destruct (Cp d' v' Id' V') as (ids' & H').
    destruct m as [|x [|y t]]; [destruct H| |rewrite !len_cons in L; lia].
    destruct H as [H|[]], H' as [H'|[]]. congruence.
Qed.

Lemma diag_set_lists {D} (c : device_superblock) (p : md_device D -> bool) (all ds : list (md_device D)) :
  (forall d, p d = true <-> md_superblock d = c) -> Permutation all ds -> lists c ds (diag_set p all).
Proof.
  intros T Pm. unfold diag_set. set (l := nodup N.eq_dec (map md_id (filter p all))).
  assert (H : forall i, In i l <-> exists d, In d ds /\ md_superblock d = c /\ md_id d = i).
  { intros i. unfold l. rewrite nodup_In, in_map_iff. split.
    - intros (d & E & X). apply filter_In in X as [X1 X2]. exists d. rewrite <- T. repeat split; auto.
      eapply Permutation_in; eassumption.
    - intros (d & X & C & E). exists d. split; [exact E|]. apply filter_In. rewrite T. split; [|exact C].
      eapply Permutation_in; [symmetry|]; eassumption. }
  assert (Nd : NoDup l) by apply NoDup_nodup.
  destruct l as [|i t]; cbn [lists].
  - intros d X C. assert (Y : In (md_id d) []) by (apply H; eauto). destruct Y.
  - split; [discriminate|]. split; [exact Nd|exact H].
Qed.

Lemma diag_index_reports {D} (all ds : list (md_device D)) : Permutation all ds -> reports_index ds (diag_role_index all).
Proof.
  intros Pm. unfold diag_role_index. set (f := fun sb => Some (sb_role_index sb)).
  set (m0 := from_multi_iter N.eq_dec (stated f all)). set (m := filter (fun e => 1 <? len (snd e)) m0).
  assert (T : forall v (d : md_device D), (if option_dec N.eq_dec (value f d) (Some v) then true else false) = true <-> value f d = Some v).
  { intros v d. destruct (option_dec N.eq_dec (value f d) (Some v)); intuition congruence. }
  assert (Mi : forall v ids, In (v, ids) m <->
     ids = map md_id (filter (fun d => if option_dec N.eq_dec (value f d) (Some v) then true else false) all) /\ 2 <= len ids).
  { intros v ids. unfold m, m0. rewrite filter_In, multi_in, group_stated. cbn [snd]. split.
    - intros ((E & _) & L). split; [exact E|]. destruct (N.ltb_spec 1 (len ids)); [lia|discriminate].
    - intros (E & L). split; [split; [exact E|]|].
      + intros ->. rewrite len_nil in L. lia.
      + destruct (N.ltb_spec 1 (len ids)); [reflexivity|lia]. }
  assert (Nd : NoDup (map fst m)).
  { assert (N0 : NoDup (map fst m0)) by apply multi_nodup. unfold m. revert N0. generalize m0. clear.
    induction m0 as [|e l IH]; intros N0; [constructor|]. cbn [map] in N0. apply NoDup_cons_iff in N0 as [Ni N0].
    cbn [filter]. destruct (1 <? len (snd e)); [|auto]. cbn [map]. constructor; [|auto]. intros I. apply Ni.
    apply in_map_iff in I as (x & E & I). apply filter_In in I as [I _]. apply in_map_iff. eauto. }
  assert (Ex : forall v ids, exactly (fun d => value f d = Some v) ds ids -> 2 <= len ids -> exists ids', In (v, ids') m).
  { intros v ids X L. eexists. apply Mi. split; [reflexivity|].
    assert (Q := exactly_len _ _ _ _ X (exactly_filter _ _ all ds (T v) Pm)). apply Permutation_length in Q.
    unfold len in *. lia. }
  unfold reports_index. fold f. destruct m as [|e t] eqn:Em.
  - intros i ids X. destruct (N.le_gt_cases (len ids) 1) as [L|L]; [exact L|].
    destruct (Ex i ids X ltac:(lia)) as (ids' & []).
  - rewrite <- Em in *. split; [rewrite Em; discriminate|]. split; [exact Nd|]. intros i. split.
    + intros ids X. apply Mi in X as [E L]. split; [exact L|]. rewrite E. apply exactly_filter; [apply T|exact Pm].
    + apply Ex.
Qed.

Lemma all_devices_perm {D} order order' (ds : list (md_device D)) :
  (forall l, Permutation (order l) l) -> (forall l, Permutation (order' l) l) ->
  Permutation (all_devices order' (array_open order ds)) ds.
Proof.
  intros O O'. unfold all_devices. etransitivity; [|exact (open_perm order O ds)].
  apply Permutation_app_tail, Permutation_map, O'.
Qed.

(** Each entry of the diagnosis is there exactly when two members disagree and lists who states what. *)
Theorem diagnosis_disagreements : forall {D} order order' (ds : list (md_device D)),
  (forall l, Permutation (order l) l) -> (forall l, Permutation (order' l) l) ->
  let g := diagnose order' (array_open order ds) in
  reports (fun sb => Some (sb_uuid sb)) ds (dg_uuid g) /\
  reports sb_name ds (dg_name g) /\
  reports (fun sb => Some (sb_algorithm sb)) ds (dg_algorithm g) /\
  reports (fun sb => Some (sb_sectors_per_device sb)) ds (dg_size g) /\
  reports (fun sb => Some (sb_chunk_size sb)) ds (dg_chunk_size g) /\
  reports (fun sb => Some (sb_device_count sb)) ds (dg_device_count g) /\
  reports (fun sb => Some (sb_reshape sb)) ds (dg_reshape g) /\
  reports (fun sb => Some (sb_event_count sb)) ds (dg_event_count g) /\
  reports (fun sb => Some (sb_roles sb)) ds (dg_roles g).
Proof.
  intros D order order' ds O O' g. pose proof (all_devices_perm order order' ds O O') as Pm.
  unfold g, diagnose. cbn [dg_uuid dg_name dg_algorithm dg_size dg_chunk_size dg_device_count dg_reshape dg_event_count dg_roles].
  repeat match goal with |- _ /\ _ => split end; now apply diag_map_reports.
Qed.
Print Assumptions diagnosis_disagreements.

(** The too-small and superblock-less members, and the claimants of each index claimed more than once. *)
Theorem diagnosis_members : forall {D} order order' (ds : list (md_device D)),
  (forall l, Permutation (order l) l) -> (forall l, Permutation (order' l) l) ->
  let g := diagnose order' (array_open order ds) in
  lists DsTooSmall ds (dg_too_small g) /\ lists DsMissing ds (dg_missing g) /\ reports_index ds (dg_role_index g).
Proof.
  intros D order order' ds O O' g. pose proof (all_devices_perm order order' ds O O') as Pm.
  unfold g, diagnose. cbn [dg_too_small dg_missing dg_role_index]. split; [|split].
  - apply diag_set_lists; [|exact Pm]. intros d. unfold is_too_small. destruct (md_superblock d); split; congruence.
  - apply diag_set_lists; [|exact Pm]. intros d. unfold is_missing. destruct (md_superblock d); split; congruence.
  - now apply diag_index_reports.
Qed.
Print Assumptions diagnosis_members.

Lemma reports_none {D K} (f : superblock -> option K) (ds : list (md_device D)) entry :
  reports f ds entry -> (forall d d' v v', In d ds -> In d' ds -> value f d = Some v -> value f d' = Some v' -> v = v') ->
  entry = None.
Proof.
  destruct entry as [m|]; [|auto]. intros ((d & d' & v & v' & I & I' & V & V' & N) & _) H. destruct N. exact (H d d' v v' I I' V V').
Qed.

(** Nothing is reported for a healthy array. *)
Theorem diagnosis_healthy : forall {D} order order' (ds : list (md_device D)),
  (forall l, Permutation (order l) l) -> (forall l, Permutation (order' l) l) -> healthy ds ->
  diagnose order' (array_open order ds) =
  Diagnosis None None None None None None None None None None None None.
Proof.
  intros D order order' ds O O' (Hs & Ha & Hn).
  destruct (diagnosis_disagreements order order' ds O O') as (R1 & R2 & R3 & R4 & R5 & R6 & R7 & R8 & R9).
  destruct (diagnosis_members order order' ds O O') as (L1 & L2 & L3).
  set (g := diagnose order' (array_open order ds)) in *. cbv zeta in *.
  assert (V : forall K (f : superblock -> option K), (forall d d' sb sb', In d ds -> In d' ds ->
      md_superblock d = DsSuperblock sb -> md_superblock d' = DsSuperblock sb' -> f sb = f sb') ->
      forall d d' v v', In d ds -> In d' ds -> value f d = Some v -> value f d' = Some v' -> v = v').
  { intros K f H d d' v v' I I' E E'. destruct (Hs d I) as (sb & S), (Hs d' I') as (sb' & S').
    unfold value in E, E'. rewrite S in E. rewrite S' in E'. rewrite (H d d' sb sb' I I' S S') in E. congruence. }
  assert (Ls : forall c entry, lists c ds entry -> (forall sb, c <> DsSuperblock sb) -> entry = None).
  { intros c [ids|] Li Nc; [|reflexivity]. cbn in Li. destruct Li as (N & _ & Li). destruct ids as [|i t]; [contradiction|].
    destruct (proj1 (Li i) ltac:(now left)) as (d & I & C & _). destruct (Hs d I) as (sb & S). destruct (Nc sb). congruence. }
  destruct g as [g1 g2 g3 g4 g5 g6 g7 g8 g9 g10 g11 g12].
  cbn [dg_too_small dg_missing dg_uuid dg_name dg_algorithm dg_size dg_chunk_size dg_device_count dg_reshape dg_event_count
       dg_role_index dg_roles] in *.
  rewrite (Ls _ _ L1) by discriminate. rewrite (Ls _ _ L2) by discriminate.
  rewrite (reports_none _ _ _ R1), (reports_none _ _ _ R2), (reports_none _ _ _ R3), (reports_none _ _ _ R4),
    (reports_none _ _ _ R5), (reports_none _ _ _ R6), (reports_none _ _ _ R7), (reports_none _ _ _ R8), (reports_none _ _ _ R9);
    try (apply V; intros d d' sb sb' I I' S S'; destruct (Ha d d' sb sb' I I' S S') as (A1 & A2 & A3 & A4 & A5 & A6 & A7 & A8 & A9); congruence).
  destruct g11 as [m|]; [|reflexivity]. exfalso. destruct L3 as (N & _ & H).
  destruct m as [|[i ids] t]; [contradiction|]. destruct (H i) as (H1 & _).
  destruct (H1 ids ltac:(now left)) as (L & sel & rest & Pm & -> & F & _). rewrite len_map in L.
  destruct sel as [|d [|d' sel]]; [rewrite len_nil in L; lia|rewrite len_cons, len_nil in L; lia|].
  assert (Nd : NoDup (map (value (fun sb => Some (sb_role_index sb))) ((d :: d' :: sel) ++ rest))).
  { eapply Permutation_NoDup; [|exact Hn]. apply Permutation_map. now symmetry. }
  apply Forall_cons_iff in F as [F0 F]. apply Forall_inv in F. cbn [app map] in Nd. rewrite F0, F in Nd.
  apply NoDup_cons_iff in Nd as [Nd _]. apply Nd. now left.
Qed.
Print Assumptions diagnosis_healthy.

(** A healthy array, and one with trouble. *)
Example diagnosis_ex :
  healthy [role_member 7 0 [0; 1]; role_member 8 1 [0; 1]] /\
  let g := diagnose (fun l => l) (array_open (fun l => l)
    [role_member 7 0 [0; 1]; MdDevice 9 DsTooSmall tt; role_member 8 0 [0; 2]]) in
  dg_too_small g = Some [9] /\ dg_missing g = None /\ dg_role_index g = Some [(0, [7; 8])] /\
  dg_roles g = Some [([0; 1], [7]); ([0; 2], [8])] /\ dg_uuid g = None.
Proof.
  split; [|vm_compute; auto 10]. split; [|split].
  - intros d [<-|[<-|[]]]; eexists; reflexivity.
  - intros d d' sb sb' [<-|[<-|[]]] [<-|[<-|[]]] S S'; injection S as <-; injection S' as <-; repeat split; reflexivity.
  - repeat constructor; cbn; intuition discriminate.
Qed.
