(** Property C26, continued: exactly when the order of the members matters. *)

From Coq Require Import Permutation.
From Verif Require Import Base BaseFacts Raid Superblock Device Array SpecArray ArrayFacts PropsArray.

(** Two members state different definite roles for one index. *)
Definition contradicted {D} (ds : list (md_device D)) : Prop :=
  exists i r r', r <> r' /\ definite r /\ definite r' /\ claimed ds i r /\ claimed ds i r'.

Lemma merge_definite r r' : r <> r' -> definite r -> definite r' -> merge_role r r' = None.
Proof.
  intros N [A B] [A' B']. unfold reserved, idle in *. unfold merge_role, is_spare, is_faulty, is_invalid, role_spare, role_faulty, role_max_position, role_journal.
  destruct (N.eqb_spec r 0xffff), (N.eqb_spec r' 0xffff), (N.eqb_spec r 0xfffe), (N.eqb_spec r' 0xfffe), (N.eqb_spec r r'),
    (N.ltb_spec 0xfeff r), (N.ltb_spec r 0xfffd), (N.ltb_spec 0xfeff r'), (N.ltb_spec r' 0xfffd); cbn; try reflexivity; exfalso; lia.
Qed.
Lemma merge_roles_contradicted : forall n a b r r', nth_error a n = Some r -> nth_error b n = Some r' -> merge_role r r' = None -> merge_roles a b = None.
Proof.
  induction n as [|n IH]; intros [|x a] [|y b] r r' A B M; try discriminate; cbn [nth_error] in A, B; cbn [merge_roles].
  - injection A as ->. injection B as ->. now rewrite M.
  - rewrite (IH a b r r' A B M). now destruct (merge_role x y).
Qed.

(** Some order of contradicted members gives no table. *)
Lemma contradicted_order {D} (ds : list (md_device D)) : contradicted ds -> exists ds', Permutation ds ds' /\ array_roles ds' = None.
Proof.
  intros (i & r & r' & N & Dr & Dr' & (d & sb & I & S & X) & (d' & sb' & I' & S' & X')).
  apply in_split in I as (pre & post & ->). apply in_app_or in I'.
  assert (I2 : In d' (pre ++ post)).
  { apply in_or_app. destruct I' as [I'|[<-|I']]; [now left| |now right]. rewrite S in S'. injection S' as <-. congruence. }
  apply in_split in I2 as (pre2 & post2 & E). exists (d :: d' :: pre2 ++ post2). split.
  - etransitivity; [apply Permutation_sym, Permutation_middle|]. apply perm_skip. rewrite E. apply Permutation_sym, Permutation_middle.
  - unfold array_roles. cbn [map reduce_flatten fold_left]. rewrite S, S'. cbn [as_option option_map]. unfold merge_opt at 2. cbn [obind].
    rewrite (merge_roles_contradicted _ _ _ r r' X X' (merge_definite r r' N Dr Dr')). apply fold_merge_opt_none.
Qed.

(** Members with superblocks give a table in every order exactly if no two of them contradict each other. *)
Theorem roles_every_order : forall {D} (ds : list (md_device D)), ds <> [] -> (forall d, In d ds -> exists sb, md_superblock d = DsSuperblock sb) ->
  ((forall ds', Permutation ds ds' -> array_roles ds' <> None) <-> ~ contradicted ds).
Proof.
  intros D ds N A. split.
  - intros H C. destruct (contradicted_order ds C) as (ds' & P & E). exact (H ds' P E).
  - intros C ds' P E. pose proof (Permutation_sym P) as P'. destruct (roles_fail ds' E) as [(d & I & X)|(i & r & r' & Nr & D1 & D2 & C1 & C2)].
    + intros ->. apply N. now apply Permutation_sym, Permutation_nil in P.
    + destruct (A d (Permutation_in _ P' I)) as (sb & S). exact (X sb S).
    + apply C. exists i, r, r'. do 3 (split; [assumption|]). split; eapply claimed_perm; eassumption.
Qed.
Print Assumptions roles_every_order.

(** If a position is assigned at all, then the positions do not depend on the order exactly if no two members contradict each
    other: reserved codes do no other harm to the order. *)
Theorem roles_order_iff : forall {D} (ds : list (md_device D)), (exists (d : md_device D) k, assigned (array_roles ds) d k) ->
  ((forall ds', Permutation ds ds' -> forall (d : md_device D) k, assigned (array_roles ds) d k <-> assigned (array_roles ds') d k) <-> ~ contradicted ds).
Proof.
  intros D ds (d0 & k0 & A0). split.
  - intros H C. destruct (contradicted_order ds C) as (ds' & P & E). apply (H ds' P) in A0 as (sb & tbl & _ & X & _). rewrite E in X. discriminate X.
  - intros C.
    assert (O : orderly ds).
    { intros i v r r' _ D1 D2 _ C1 C2. destruct (N.eq_dec r r') as [X|X]; [exact X|]. destruct C. exists i, r, r'. auto. }
    intros ds' P. now apply roles_order_partial.
Qed.
Print Assumptions roles_order_iff.

(** ** Examples *)

(** A reserved code and one position: every order gives a table, and the same one. *)
Example roles_iff_ex : let ds := [role_member 0 0 [0; 0xff00]; role_member 1 1 [0; 1]] in
  ~ contradicted ds /\ assigned (array_roles ds) (role_member 0 0 [0; 0xff00]) 0.
Proof.
  intros ds. split.
  - assert (Cl : forall i r, claimed ds i r -> (i = 0 /\ r = 0) \/ (i = 1 /\ (r = 0xff00 \/ r = 1))).
    { intros i r (d & sb & I & S & X). assert (Li : (N.to_nat i < 2)%nat).
      { assert (L : (N.to_nat i < length (sb_roles sb))%nat) by (apply nth_error_Some; congruence). destruct I as [<-|[<-|[]]]; injection S as <-; exact L. }
      assert (J : i = 0 \/ i = 1) by lia. destruct J as [-> | ->]; destruct I as [<-|[<-|[]]]; injection S as <-; cbn in X; injection X as <-; auto. }
    intros (i & r & r' & N & [R _] & [R' _] & C & C'). unfold reserved in *. apply Cl in C, C'. lia.
  - exists (role_sb 0 [0; 0xff00]), [0; 0xff00]. repeat split; try reflexivity. vm_compute. discriminate.
Qed.
(** With two positions at the index of the reserved code, the order decides. *)
Example roles_iff_order_ex : let ds := [role_member 0 0 [0; 0xff00]; role_member 1 1 [0; 1]; role_member 2 1 [0; 2]] in
  contradicted ds /\ (exists (d : md_device unit) k, assigned (array_roles ds) d k) /\ exists ds', Permutation ds ds' /\ array_roles ds' = None.
Proof.
  intros ds. assert (C : contradicted ds).
  { exists 1, 1, 2. split; [discriminate|]. split; [unfold definite, reserved, idle; lia|]. split; [unfold definite, reserved, idle; lia|].
    split; [exists (role_member 1 1 [0; 1]), (role_sb 1 [0; 1])|exists (role_member 2 1 [0; 2]), (role_sb 1 [0; 2])]; cbn; auto. }
  split; [exact C|]. split; [|now apply contradicted_order]. exists (role_member 0 0 [0; 0xff00]), 0.
  exists (role_sb 0 [0; 0xff00]), [0; 0xff00]. repeat split; try reflexivity. vm_compute. discriminate.
Qed.
