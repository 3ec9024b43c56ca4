(** Proofs about grouping, merging of role tables and formats. *)

From Coq Require Import Permutation.
From Verif Require Import Base BaseFacts Raid Io RaidFacts Superblock Device Array SpecArray.

(** ** [from_multi_iter] *)

Section Multi.
  Context {K V : Type} (dec : forall a b : K, {a = b} + {a <> b}).

  Fixpoint mget (m : list (K * list V)) (k : K) : list V :=
    match m with
    | [] => []
    | (k', vs) :: m => if dec k' k then vs else mget m k
    end.

  Definition minv (m : list (K * list V)) : Prop := NoDup (map fst m) /\ Forall (fun e => snd e <> []) m.

  Lemma mget_insert (m : list (K * list V)) k v k' :
    mget (multi_insert dec m k v) k' = if dec k k' then mget m k' ++ [v] else mget m k'.
  Proof.
    induction m as [|[k0 vs] m IH]; cbn [multi_insert mget].
    - destruct (dec k k'); reflexivity.
    - destruct (dec k0 k) as [->|N0]; cbn [mget].
      + destruct (dec k k'); reflexivity.
      + destruct (dec k0 k') as [->|N1].
        * destruct (dec k k'); [congruence|reflexivity].
        * exact IH.
  Qed.

  Lemma in_keys_insert (m : list (K * list V)) k v k' :
    In k' (map fst (multi_insert dec m k v)) <-> k' = k \/ In k' (map fst m).
  Proof.
    induction m as [|[k0 vs] m IH]; cbn [multi_insert map fst In].
    - intuition congruence.
    - destruct (dec k0 k) as [->|N0]; cbn [map fst In]; [intuition congruence|]. rewrite IH. intuition congruence.
  Qed.

  Lemma minv_insert (m : list (K * list V)) k v : minv m -> minv (multi_insert dec m k v).
  Proof.
    intros [N F]. split.
    - induction m as [|[k0 vs] m IH]; cbn [multi_insert map fst].
      + repeat constructor. now intros [].
      + cbn [map fst] in N. apply NoDup_cons_iff in N as [Ni N]. apply Forall_cons_iff in F as [_ F].
        destruct (dec k0 k) as [->|N0]; cbn [map fst].
        * now constructor.
        * constructor; [|now apply IH]. rewrite in_keys_insert. intuition congruence.
    - clear N. induction m as [|[k0 vs] m IH]; cbn [multi_insert].
      + repeat constructor. discriminate.
      + apply Forall_cons_iff in F as [F0 F]. destruct (dec k0 k); constructor; auto.
        cbn. intros E. apply app_eq_nil in E as [_ E]. discriminate.
  Qed.

  Lemma mget_in m k vs : minv m -> In (k, vs) m <-> vs = mget m k /\ vs <> [].
  Proof.
    intros [N F]. induction m as [|[k0 vs0] m IH]; cbn [mget In].
    - split; [easy|]. intros [-> H]. congruence.
    - cbn [map fst] in N. apply NoDup_cons_iff in N as [Ni N]. apply Forall_cons_iff in F as [F0 F].
      specialize (IH N F). destruct (dec k0 k) as [->|Ne].
      + split.
        * intros [E|I]; [inv E; auto|]. exfalso. apply Ni. apply in_map_iff. exists (k, vs). auto.
        * intros [-> _]. auto.
      + rewrite IH. split; [intros [E|H]; [inv E; congruence|exact H]|auto].
  Qed.

  Lemma concat_insert (m : list (K * list V)) k v :
    Permutation (concat (map snd (multi_insert dec m k v))) (v :: concat (map snd m)).
  Proof.
    induction m as [|[k0 vs] m IH]; cbn [multi_insert map snd concat].
    - cbn. reflexivity.
    - destruct (dec k0 k); cbn [map snd concat].
      + rewrite <- app_assoc. cbn. symmetry. apply Permutation_middle.
      + rewrite IH. symmetry. apply Permutation_middle.
  Qed.

  Let ins := fun (m : list (K * list V)) kv => multi_insert dec m (fst kv) (snd kv).

  Lemma fold_insert l m :
    minv m ->
    minv (fold_left ins l m) /\
    (forall k, mget (fold_left ins l m) k = mget m k ++ map snd (filter (fun kv => if dec (fst kv) k then true else false) l)) /\
    Permutation (concat (map snd (fold_left ins l m))) (concat (map snd m) ++ map snd l).
  Proof.
    revert m. induction l as [|[k0 v0] l IH]; intros m I; cbn [fold_left filter map].
    - split; [exact I|]. split; [intros; now rewrite app_nil_r|]. now rewrite app_nil_r.
    - unfold ins at 2 4 6. cbn [fst snd]. destruct (IH _ (minv_insert m k0 v0 I)) as (A & B & C).
      split; [exact A|]. split.
      + intros k. rewrite B, mget_insert. destruct (dec k0 k); [|reflexivity].
        cbn [map snd]. now rewrite <- app_assoc.
      + rewrite C, concat_insert. cbn. apply Permutation_middle.
  Qed.

  (** The value stored under a key: the values given with it, in order. *)
  Definition group (l : list (K * V)) (k : K) : list V :=
    map snd (filter (fun kv => if dec (fst kv) k then true else false) l).

  Lemma multi_nodup (l : list (K * V)) : NoDup (map fst (from_multi_iter dec l)).
  Proof. destruct (fold_insert l [] ltac:(split; constructor)) as ([A _] & _). exact A. Qed.

  Lemma multi_in (l : list (K * V)) k vs : In (k, vs) (from_multi_iter dec l) <-> vs = group l k /\ vs <> [].
  Proof.
    destruct (fold_insert l [] ltac:(split; constructor)) as (A & B & _).
    unfold from_multi_iter. fold ins. rewrite (mget_in _ k vs A), B. reflexivity.
  Qed.

  Lemma multi_concat (l : list (K * V)) : Permutation (concat (map snd (from_multi_iter dec l))) (map snd l).
  Proof. destruct (fold_insert l [] ltac:(split; constructor)) as (_ & _ & C). exact C. Qed.

  Lemma group_in l k v : In v (group l k) <-> In (k, v) l.
  Proof.
    unfold group. rewrite in_map_iff. split.
    - intros ([k' v'] & E & I). cbn in E. subst v'. apply filter_In in I as [I D]. cbn in D.
      destruct (dec k' k); [subst; exact I|discriminate].
    - intros I. exists (k, v). split; [reflexivity|]. apply filter_In. split; [exact I|]. cbn. now destruct (dec k k).
  Qed.
End Multi.

(** ** Formats *)

Lemma fold_same l x f :
  fold_left same_or_none l x = Some f <-> x = Some f /\ Forall (fun y => y = Some f) l.
Proof.
  revert x. induction l as [|y l IH]; intros x; cbn [fold_left].
  - intuition.
  - rewrite IH. unfold same_or_none. destruct (option_dec format_dec x y) as [->|Ne]; rewrite Forall_cons_iff; [tauto|].
    split; [intros [E _]; discriminate|]. intros (E1 & E2 & _). congruence.
Qed.

Lemma reduce_same l f :
  reduce_flatten same_or_none l = Some f <-> l <> [] /\ Forall (fun y => y = Some f) l.
Proof.
  destruct l as [|x l]; cbn [reduce_flatten].
  - split; [discriminate|]. intros [H _]. congruence.
  - rewrite fold_same, Forall_cons_iff. split; [intros H; split; [discriminate|tauto]|tauto].
Qed.

(** ** Role tables *)

(** One index: claims merged one after the other; [None] is a conflict. *)
Definition merge_cell (acc : option (option N)) (x : option N) : option (option N) :=
  match acc, x with
  | None, _ => None
  | Some None, y => Some y
  | Some x, None => Some x
  | Some (Some x), Some y => option_map Some (merge_role x y)
  end.

Lemma nth_N_nil {A} i : nth_N (@nil A) i = None.
Proof. rewrite nth_N_spec. now destruct (N.to_nat i). Qed.

Lemma nth_N_cons {A} (x : A) l i : nth_N (x :: l) i = if i =? 0 then Some x else nth_N l (i - 1).
Proof.
  rewrite !nth_N_spec. destruct (N.eqb_spec i 0) as [->|Ne]; [reflexivity|].
  replace (N.to_nat i) with (S (N.to_nat (i - 1))) by lia. reflexivity.
Qed.

Lemma merge_roles_cells a b :
  match merge_roles a b with
  | Some c => forall i, merge_cell (Some (nth_N a i)) (nth_N b i) = Some (nth_N c i)
  | None => exists i, merge_cell (Some (nth_N a i)) (nth_N b i) = None
  end.
Proof.
  revert b. induction a as [|x a IH]; intros b; cbn [merge_roles].
  - intros i. rewrite nth_N_nil. reflexivity.
  - destruct b as [|y b].
    + intros i. rewrite nth_N_nil. now destruct (nth_N (x :: a) i).
    + destruct (merge_role x y) as [z|] eqn:E; cbn [obind].
      * specialize (IH b). destruct (merge_roles a b) as [c|]; cbn [obind].
        -- intros i. rewrite !nth_N_cons. destruct (i =? 0); [cbn [merge_cell]; now rewrite E|apply IH].
        -- destruct IH as (i & H). exists (i + 1). rewrite !nth_N_cons. destruct (N.eqb_spec (i + 1) 0); [lia|].
           now replace (i + 1 - 1) with i by lia.
      * exists 0. rewrite !nth_N_cons. cbn [N.eqb merge_cell]. change (0 =? 0) with true. cbv iota. now rewrite E.
Qed.

Lemma fold_cell_none l : fold_left merge_cell l None = None.
Proof. induction l; auto. Qed.

Lemma fold_merge_opt_none l : fold_left merge_opt l None = None.
Proof. induction l; auto. Qed.

(** The cells of the merged table are the merged cells. *)
Lemma fold_merge_cells tables acc :
  match fold_left merge_opt (map Some tables) (Some acc) with
  | Some c => forall i, fold_left merge_cell (map (fun t => nth_N t i) tables) (Some (nth_N acc i)) = Some (nth_N c i)
  | None => exists i, fold_left merge_cell (map (fun t => nth_N t i) tables) (Some (nth_N acc i)) = None
  end.
Proof.
  revert acc. induction tables as [|t tables IH]; intros acc; cbn [map fold_left].
  - reflexivity.
  - cbn [merge_opt obind]. pose proof (merge_roles_cells acc t) as M. destruct (merge_roles acc t) as [c|].
    + specialize (IH c). destruct (fold_left merge_opt (map Some tables) (Some c)) as [c'|].
      * intros i. rewrite M. apply IH.
      * destruct IH as (i & H). exists i. now rewrite M.
    + rewrite fold_merge_opt_none. destruct M as (i & M). exists i. rewrite M. apply fold_cell_none.
Qed.

Definition cells (tables : list (list N)) (i : N) : option (option N) :=
  fold_left merge_cell (map (fun t => nth_N t i) tables) (Some None).

Lemma reduce_cells t tables :
  match fold_left merge_opt (map Some tables) (Some t) with
  | Some c => forall i, cells (t :: tables) i = Some (nth_N c i)
  | None => exists i, cells (t :: tables) i = None
  end.
Proof.
  pose proof (fold_merge_cells tables t) as M. unfold cells. cbn [map fold_left].
  assert (E : forall i, merge_cell (Some None) (nth_N t i) = Some (nth_N t i)) by reflexivity.
  destruct (fold_left merge_opt (map Some tables) (Some t)).
  - intros i. rewrite E. apply M.
  - destruct M as (i & M). exists i. now rewrite E.
Qed.

(** ** One cell *)

Inductive kind : Type := KReserved | KIdle | KDefinite.
Definition kind_of (r : N) : kind :=
  if (0xfeff <? r) && (r <? 0xfffd) then KReserved else if (r =? 0xffff) || (r =? 0xfffe) then KIdle else KDefinite.

Lemma kind_reserved r : kind_of r = KReserved <-> reserved r.
Proof. unfold kind_of, reserved. destruct (N.ltb_spec 0xfeff r), (N.ltb_spec r 0xfffd), (N.eqb_spec r 0xffff), (N.eqb_spec r 0xfffe); cbn; split; intros; try discriminate; try reflexivity; lia. Qed.
Lemma kind_idle r : kind_of r = KIdle <-> idle r.
Proof. unfold kind_of, idle. destruct (N.ltb_spec 0xfeff r), (N.ltb_spec r 0xfffd), (N.eqb_spec r 0xffff), (N.eqb_spec r 0xfffe); cbn; split; intros; try discriminate; try reflexivity; lia. Qed.
Lemma kind_definite r : kind_of r = KDefinite <-> definite r.
Proof.
  unfold definite. rewrite <- kind_reserved, <- kind_idle. destruct (kind_of r); split; try easy; intros []; congruence.
Qed.

Lemma merge_role_kind x y :
  merge_role x y =
  match kind_of x, kind_of y with
  | KIdle, _ => Some y
  | _, KReserved => Some y
  | KReserved, _ => Some x
  | _, KIdle => Some x
  | KDefinite, KDefinite => if x =? y then Some x else None
  end.
Proof.
  unfold merge_role, kind_of, is_spare, is_faulty, is_invalid, role_spare, role_faulty, role_max_position, role_journal.
  destruct (N.ltb_spec 0xfeff x), (N.ltb_spec x 0xfffd), (N.eqb_spec x 0xffff), (N.eqb_spec x 0xfffe),
    (N.ltb_spec 0xfeff y), (N.ltb_spec y 0xfffd), (N.eqb_spec y 0xffff), (N.eqb_spec y 0xfffe); cbn; try lia;
    try reflexivity; destruct (x =? y); reflexivity.
Qed.

Definition claims (l : list (option N)) (r : N) : Prop := In (Some r) l.

(** No two different definite claims next to a reserved one. *)
Definition orderly_cell (l : list (option N)) : Prop :=
  forall v r r', reserved v -> definite r -> definite r' -> claims l v -> claims l r -> claims l r' -> r = r'.

Definition cell_conflict (l : list (option N)) : Prop :=
  (forall v, reserved v -> ~ claims l v) /\ exists r r', r <> r' /\ definite r /\ definite r' /\ claims l r /\ claims l r'.

(** What the merged cell is. *)
Definition cell_spec (l : list (option N)) (x : option N) : Prop :=
  match x with
  | None => forall r, ~ claims l r
  | Some r =>
      claims l r /\
      match kind_of r with
      | KReserved => True
      | KDefinite => (forall v, reserved v -> ~ claims l v) /\ (forall r', definite r' -> claims l r' -> r' = r)
      | KIdle => forall r', claims l r' -> idle r'
      end
  end.

Lemma claims_app l l' r : claims (l ++ l') r <-> claims l r \/ claims l' r.
Proof. unfold claims. apply in_app_iff. Qed.

Lemma claims_one x r : claims [x] r <-> x = Some r.
Proof. unfold claims. cbn. intuition. Qed.

(** Folding over any list: either the cell is as specified, or two different definite claims were met. *)
Lemma fold_cell_sound l :
  match fold_left merge_cell l (Some None) with
  | Some x => cell_spec l x
  | None => exists r r', r <> r' /\ definite r /\ definite r' /\ claims l r /\ claims l r'
  end.
Proof.
  induction l as [|y l IH] using rev_ind.
  - cbn. now intros r [].
  - rewrite fold_left_app. cbn [fold_left].
    destruct (fold_left merge_cell l (Some None)) as [x|].
    2: { cbn. destruct IH as (r & r' & N0 & D & D' & C & C'). exists r, r'. rewrite !claims_app. auto 10. }
    assert (Cl : forall r, claims (l ++ [y]) r <-> claims l r \/ y = Some r).
    { intros r. now rewrite claims_app, claims_one. }
    destruct x as [x|], y as [y|]; cbn [merge_cell option_map].
    + rewrite merge_role_kind. destruct IH as (Cx & IH).
      destruct (kind_of x) eqn:Kx, (kind_of y) eqn:Ky; cbn [option_map];
        try match goal with |- context [x =? y] => destruct (N.eqb_spec x y) as [<-|Nxy]; cbn [option_map] end;
        try (cbn [cell_spec]; rewrite ?Kx, ?Ky; split; [rewrite Cl; auto|]; auto; fail).
      * (* idle, idle *) cbn [cell_spec]. rewrite Ky. split; [rewrite Cl; auto|]. intros r'. rewrite Cl.
        intros [H|E]; [auto|inv E; now apply kind_idle].
      * (* idle, definite *) cbn [cell_spec]. rewrite Ky. split; [rewrite Cl; auto|]. split.
        -- intros v Rv. rewrite Cl. intros [H|E]; [apply IH in H; apply kind_idle in H; apply kind_reserved in Rv; congruence|].
           inv E. apply kind_reserved in Rv. congruence.
        -- intros r' Dr. rewrite Cl. intros [H|E]; [apply IH in H; apply kind_idle in H; apply kind_definite in Dr; congruence|now inv E].
      * (* definite, idle *) cbn [cell_spec]. rewrite Kx. split; [rewrite Cl; auto|]. destruct IH as (I1 & I2). split.
        -- intros v Rv. rewrite Cl. intros [H|E]; [now apply (I1 v)|]. inv E. apply kind_reserved in Rv. congruence.
        -- intros r' Dr. rewrite Cl. intros [H|E]; [auto|]. inv E. apply kind_definite in Dr. congruence.
      * (* definite, same *) cbn [cell_spec]. rewrite Kx. split; [rewrite Cl; auto|]. destruct IH as (I1 & I2). split.
        -- intros v Rv. rewrite Cl. intros [H|E]; [now apply (I1 v)|]. inv E. apply kind_reserved in Rv. congruence.
        -- intros r' Dr. rewrite Cl. intros [H|E]; [auto|]. now inv E.
      * (* definite, different *) exists x, y. rewrite !Cl. rewrite <- !kind_definite. auto 10.
    + cbn [cell_spec] in *. destruct IH as (Cx & IH). split; [rewrite Cl; auto|].
      assert (Cl' : forall r, claims (l ++ [None]) r <-> claims l r) by (intros r; rewrite Cl; intuition discriminate).
      destruct (kind_of x); [exact I| |].
      * intros r' C. apply Cl' in C. auto.
      * destruct IH as (I1 & I2). split; [intros v Rv C; apply Cl' in C; now apply (I1 v)|].
        intros r' Dr C. apply Cl' in C. auto.
    + cbn [cell_spec] in *. split; [rewrite Cl; auto|].
      destruct (kind_of y) eqn:Ky; [exact I| |].
      * intros r'. rewrite Cl. intros [H|E]; [destruct (IH _ H)|]. inv E. now apply kind_idle.
      * split.
        -- intros v Rv. rewrite Cl. intros [H|E]; [destruct (IH _ H)|]. inv E. apply kind_reserved in Rv. congruence.
        -- intros r' Dr. rewrite Cl. intros [H|E]; [destruct (IH _ H)|]. now inv E.
    + cbn [cell_spec] in *. intros r. rewrite Cl. intros [H|E]; [destruct (IH _ H)|discriminate].
Qed.

Lemma fold_cell_conflict l :
  orderly_cell l -> (fold_left merge_cell l (Some None) = None <-> cell_conflict l).
Proof.
  intros O. pose proof (fold_cell_sound l) as S. split.
  - intros E. rewrite E in S. destruct S as (r & r' & N0 & D & D' & C & C'). split.
    + intros v Rv Cv. apply N0. eapply O; eassumption.
    + exists r, r'. auto 10.
  - intros (NR & r & r' & N0 & D & D' & C & C').
    destruct (fold_left merge_cell l (Some None)) as [[x|]|]; [| |reflexivity]; exfalso; cbn [cell_spec] in S.
    + destruct S as (Cx & S). destruct (kind_of x) eqn:K.
      * apply kind_reserved in K. now apply (NR x).
      * destruct D as [_ D]. apply D, S, C.
      * destruct S as (_ & S). apply N0. now rewrite (S r D C), (S r' D' C').
    + now apply (S r).
Qed.

Lemma cell_position l x k :
  cell_spec l x -> k <= 0xfeff ->
  (x = Some k <-> (forall v, reserved v -> ~ claims l v) /\ claims l k /\ (forall r, definite r -> claims l r -> r = k)).
Proof.
  intros S Hk. assert (Dk : definite k) by (unfold definite, reserved, idle; lia).
  split.
  - intros ->. cbn [cell_spec] in S. destruct S as (C & S).
    assert (K : kind_of k = KDefinite) by now apply kind_definite. rewrite K in S. tauto.
  - intros (NR & C & U). destruct x as [x|]; cbn [cell_spec] in S; [|destruct (S _ C)].
    destruct S as (Cx & S). f_equal. destruct (kind_of x) eqn:K.
    + apply kind_reserved in K. destruct (NR _ K Cx).
    + destruct Dk as [_ Dk]. destruct (Dk (S _ C)).
    + apply U; [now apply kind_definite|exact Cx].
Qed.
