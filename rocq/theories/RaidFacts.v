(** Proofs about the RAID address computations. *)

From Coq Require Import Permutation.
From Verif Require Import Base BaseFacts Raid SpecRaid.

(** ** Lists of slots *)

Lemma nth_N_app {A} (a b : list A) i :
  nth_N (a ++ b) i = if i <? len a then nth_N a i else nth_N b (i - len a).
Proof.
  rewrite !nth_N_spec. destruct (N.ltb_spec i (len a)).
  - apply nth_error_app1. rewrite length_len. lia.
  - rewrite nth_error_app2 by (rewrite length_len; lia). f_equal. rewrite length_len. lia.
Qed.

Lemma nth_N_firstn {A} (l : list A) p i :
  nth_N (firstn (N.to_nat p) l) i = if i <? p then nth_N l i else None.
Proof.
  rewrite !nth_N_spec. destruct (N.ltb_spec i p).
  - apply nth_error_firstn'. lia.
  - apply nth_error_None. rewrite firstn_length. lia.
Qed.

Lemma nth_N_skipn {A} (l : list A) p i : nth_N (skipn (N.to_nat p) l) i = nth_N l (p + i).
Proof. rewrite !nth_N_spec, nth_error_skipn'. f_equal. lia. Qed.

Lemma nth_N_cons {A} (a : A) l i :
  nth_N (a :: l) i = if i =? 0 then Some a else nth_N l (i - 1).
Proof.
  rewrite !nth_N_spec. destruct (N.eqb_spec i 0) as [->|H]; [reflexivity|].
  replace (N.to_nat i) with (S (N.to_nat (i - 1))) by lia. reflexivity.
Qed.

Lemma len_datas m : len (datas m) = m.
Proof. unfold datas. rewrite len_map. unfold len. rewrite seq_length. lia. Qed.

Lemma nth_datas m i : i < m -> nth_N (datas m) i = Some (D i).
Proof.
  intros H. unfold datas. rewrite nth_N_map, nth_N_spec.
  rewrite (nth_error_nth' _ O) by (rewrite seq_length; lia).
  rewrite seq_nth by lia. cbn [option_map]. do 2 f_equal. lia.
Qed.

Lemma nth_datas_inv m i s : nth_N (datas m) i = Some s -> i < m /\ s = D i.
Proof.
  intros H. pose proof (nth_N_some_lt _ _ _ H) as L. rewrite len_datas in L.
  rewrite nth_datas in H by assumption. inv H. easy.
Qed.

Lemma nth_insert_before p xs l i :
  i < p -> p <= len l -> nth_N (insert_at p xs l) i = nth_N l i.
Proof.
  intros H L. unfold insert_at. rewrite nth_N_app, len_firstn.
  replace (i <? _) with true by (symmetry; apply N.ltb_lt; lia).
  rewrite nth_N_firstn. replace (i <? p) with true by (symmetry; apply N.ltb_lt; lia).
  reflexivity.
Qed.

Lemma nth_insert_at p xs l i :
  p <= len l -> i < len xs -> nth_N (insert_at p xs l) (p + i) = nth_N xs i.
Proof.
  intros L H. unfold insert_at. rewrite nth_N_app, len_firstn.
  replace (p + i <? _) with false by (symmetry; apply N.ltb_ge; lia).
  rewrite nth_N_app.
  replace (p + i - N.min (N.of_nat (N.to_nat p)) (len l)) with i by lia.
  replace (i <? len xs) with true by (symmetry; apply N.ltb_lt; lia). reflexivity.
Qed.

Lemma nth_insert_after p xs l i :
  p <= len l -> p <= i -> nth_N (insert_at p xs l) (i + len xs) = nth_N l i.
Proof.
  intros L H. unfold insert_at. rewrite nth_N_app, len_firstn.
  replace (i + len xs <? _) with false by (symmetry; apply N.ltb_ge; lia).
  rewrite nth_N_app.
  replace (i + len xs - N.min (N.of_nat (N.to_nat p)) (len l) <? len xs) with false
    by (symmetry; apply N.ltb_ge; lia).
  rewrite nth_N_skipn. f_equal. lia.
Qed.

Lemma nth_insert_after' p xs l i m :
  m = len xs -> p <= len l -> p <= i -> nth_N (insert_at p xs l) (i + m) = nth_N l i.
Proof. intros ->. apply nth_insert_after. Qed.

Lemma nth_rotr k l i :
  k <= len l -> i < len l -> nth_N (rotr k l) ((k + i) mod len l) = nth_N l i.
Proof.
  intros K I. unfold rotr. cbn zeta.
  replace (length l - N.to_nat k)%nat with (N.to_nat (len l - k)) by (rewrite length_len; lia).
  rewrite nth_N_app, len_skipn, N2Nat.id, nth_N_skipn, nth_N_firstn.
  replace (len l - (len l - k)) with k by lia.
  destruct (N.lt_ge_cases (k + i) (len l)) as [L|L].
  - rewrite N.mod_small by lia.
    replace (k + i <? k) with false by (symmetry; apply N.ltb_ge; lia).
    replace (k + i - k <? len l - k) with true by (symmetry; apply N.ltb_lt; lia).
    f_equal. lia.
  - assert (E : (k + i) mod len l = k + i - len l).
    { symmetry. apply (N.mod_unique _ _ 1); lia. }
    rewrite E.
    replace (k + i - len l <? k) with true by (symmetry; apply N.ltb_lt; lia).
    f_equal. lia.
Qed.

Lemma insert_at_perm p xs l : Permutation (insert_at p xs l) (xs ++ l).
Proof.
  unfold insert_at. rewrite <- (firstn_skipn (N.to_nat p) l) at 3.
  rewrite !app_assoc. apply Permutation_app_tail. apply Permutation_app_comm.
Qed.

Lemma rotr_perm k l : Permutation (rotr k l) l.
Proof.
  unfold rotr. cbn zeta. set (j := (length l - N.to_nat k)%nat).
  rewrite Permutation_app_comm. now rewrite firstn_skipn.
Qed.

Lemma insert_pq_perm n p ds : Permutation (insert_pq n p ds) (P :: Q :: ds).
Proof.
  unfold insert_pq. destruct (p =? n - 1).
  - cbn [app]. rewrite Permutation_app_comm. cbn [app]. apply perm_swap.
  - apply insert_at_perm.
Qed.

(** Every row is an arrangement of the same slots. *)
Lemma row5_perm l n k : Permutation (row5 l n k) (P :: datas (n - 1)).
Proof.
  destruct l; cbn [row5]; try apply insert_at_perm; try apply rotr_perm; try reflexivity.
  rewrite Permutation_app_comm. reflexivity.
Qed.

Lemma row6_perm l n k : 2 <= n -> Permutation (row6 l n k) (P :: Q :: datas (n - 2)).
Proof.
  intros H. destruct l as [l| | | |l]; [destruct l| | | | ]; cbn [row6];
    try apply insert_pq_perm; try apply rotr_perm; try reflexivity.
  - rewrite Permutation_app_comm. reflexivity.
  - rewrite rotr_perm. cbn [app]. apply perm_skip. rewrite Permutation_app_comm. reflexivity.
  - rewrite row5_perm. cbn [app]. apply perm_skip.
    replace (n - 1 - 1) with (n - 2) by lia.
    rewrite Permutation_app_comm. reflexivity.
Qed.

Lemma len_perm {A} (a b : list A) : Permutation a b -> len a = len b.
Proof. intros H. unfold len. now rewrite (Permutation_length H). Qed.

Lemma len_row5 l n k : 1 <= n -> len (row5 l n k) = n.
Proof. intros. rewrite (len_perm _ _ (row5_perm l n k)), len_cons, len_datas. lia. Qed.

Lemma len_row6 l n k : 2 <= n -> len (row6 l n k) = n.
Proof. intros. rewrite (len_perm _ _ (row6_perm l n k H)), !len_cons, len_datas. lia. Qed.

Lemma datas_nodup m : NoDup (datas m).
Proof.
  unfold datas. apply FinFun.Injective_map_NoDup; [|apply seq_NoDup].
  intros a b E. inv E. lia.
Qed.

Lemma in_datas m s : In s (datas m) <-> exists i, s = D i /\ i < m.
Proof.
  unfold datas. rewrite in_map_iff. split.
  - intros (i & <- & H). apply in_seq in H. eexists; split; [reflexivity|lia].
  - intros (i & -> & H). exists (N.to_nat i). rewrite in_seq. split; [f_equal; lia|lia].
Qed.

Lemma row5_nodup l n k : NoDup (row5 l n k).
Proof.
  apply (Permutation_NoDup (Permutation_sym (row5_perm l n k))).
  constructor; [|apply datas_nodup]. rewrite in_datas. now intros (i & E & _).
Qed.

Lemma row6_nodup l n k : 2 <= n -> NoDup (row6 l n k).
Proof.
  intros H. apply (Permutation_NoDup (Permutation_sym (row6_perm l n k H))).
  constructor; [|constructor; [|apply datas_nodup]].
  - intros [E|E]; [discriminate|]. apply in_datas in E. now destruct E as (i & E & _).
  - rewrite in_datas. now intros (i & E & _).
Qed.

Lemma nodup_nth_N {A} (l : list A) i j s :
  NoDup l -> nth_N l i = Some s -> nth_N l j = Some s -> i = j.
Proof.
  rewrite !nth_N_spec. intros H Hi Hj.
  assert (N.to_nat i = N.to_nat j); [|lia].
  eapply NoDup_nth_error; [eassumption| |congruence].
  apply nth_error_Some. congruence.
Qed.

(** Every slot of a row is a parity slot or one of the data slots. *)
Lemma row5_slot l n k i s :
  nth_N (row5 l n k) i = Some s -> s = P \/ exists d, s = D d /\ d < n - 1.
Proof.
  intros H. apply nth_N_in in H. eapply Permutation_in in H; [|apply row5_perm].
  destruct H as [<-|H]; [now left|right]. now apply in_datas.
Qed.

Lemma row6_slot l n k i s :
  2 <= n -> nth_N (row6 l n k) i = Some s ->
  s = P \/ s = Q \/ exists d, s = D d /\ d < n - 2.
Proof.
  intros L H. apply nth_N_in in H. eapply Permutation_in in H; [|now apply row6_perm].
  destruct H as [<-|[<-|H]]; [auto|auto|right;right]. now apply in_datas.
Qed.

(** ** Checked arithmetic *)

Lemma cadd64_some a b : a + b <= u64_max -> cadd64 a b = Some (a + b).
Proof. unfold cadd64. intros. destruct (N.leb_spec (a + b) u64_max); [reflexivity|lia]. Qed.
Lemma cmul64_some a b : a * b <= u64_max -> cmul64 a b = Some (a * b).
Proof. unfold cmul64. intros. destruct (N.leb_spec (a * b) u64_max); [reflexivity|lia]. Qed.
Lemma csub64_some a b : b <= a -> csub64 a b = Some (a - b).
Proof. unfold csub64. intros. destruct (N.leb_spec b a); [reflexivity|lia]. Qed.
Lemma csub32_some a b : b <= a -> csub32 a b = Some (a - b).
Proof. unfold csub32. intros. destruct (N.leb_spec b a); [reflexivity|lia]. Qed.
Lemma cdiv64_some a b : b <> 0 -> cdiv64 a b = Some (a / b).
Proof. unfold cdiv64. intros. destruct (N.eqb_spec b 0); [lia|reflexivity]. Qed.
Lemma crem64_some a b : b <> 0 -> crem64 a b = Some (a mod b).
Proof. unfold crem64. intros. destruct (N.eqb_spec b 0); [lia|reflexivity]. Qed.
Lemma try32_some a : a <= u32_max -> try32 a = Some a.
Proof. unfold try32. intros. destruct (N.leb_spec a u32_max); [reflexivity|lia]. Qed.

(** ** Stripe arithmetic *)

Lemma div_le_self a b : b <> 0 -> a / b <= a.
Proof.
  intros H. pose proof (N.div_mod a b H) as E.
  generalize dependent (a mod b). generalize dependent (a / b). intros. nia.
Qed.

Lemma member_sector_le s c dd : c <> 0 -> dd <> 0 -> member_sector s c dd <= s.
Proof.
  intros Hc Hd. unfold member_sector, stripe_of.
  pose proof (N.div_mod s c Hc) as E.
  pose proof (div_le_self (s / c) dd Hd) as L.
  generalize dependent (s mod c). generalize dependent (s / c / dd).
  generalize dependent (s / c). intros. nia.
Qed.

Lemma stripe_mul_le s c dd : c <> 0 -> dd <> 0 -> stripe_of s c dd * c <= s.
Proof.
  intros Hc Hd. pose proof (member_sector_le s c dd Hc Hd). unfold member_sector in H. lia.
Qed.

Lemma stripe_le s c dd : c <> 0 -> dd <> 0 -> stripe_of s c dd <= s.
Proof. intros Hc Hd. pose proof (stripe_mul_le s c dd Hc Hd). nia. Qed.

Lemma sector_recompose s c dd :
  c <> 0 -> dd <> 0 ->
  s = (stripe_of s c dd * dd + data_index_of s c dd) * c + s mod c.
Proof.
  intros Hc Hd. unfold stripe_of, data_index_of.
  pose proof (N.div_mod s c Hc) as E. pose proof (N.div_mod (s / c) dd Hd) as E2.
  generalize dependent (s mod c). generalize dependent ((s / c) mod dd).
  generalize dependent (s / c / dd). generalize dependent (s / c). intros. nia.
Qed.

Lemma compose_parts k i o c dd :
  i < dd -> o < c ->
  let s := (k * dd + i) * c + o in
  stripe_of s c dd = k /\ data_index_of s c dd = i /\ s mod c = o /\ member_sector s c dd = k * c + o.
Proof.
  intros Hi Ho s. unfold member_sector, stripe_of, data_index_of.
  assert (E1 : s / c = k * dd + i).
  { symmetry. apply (N.div_unique _ _ _ o); unfold s; lia. }
  assert (E2 : s mod c = o).
  { symmetry. apply (N.mod_unique _ _ (k * dd + i)); unfold s; lia. }
  assert (E3 : (k * dd + i) / dd = k).
  { symmetry. apply (N.div_unique _ _ _ i); lia. }
  assert (E4 : (k * dd + i) mod dd = i).
  { symmetry. apply (N.mod_unique _ _ k); lia. }
  rewrite E1, E2, E3, E4. auto.
Qed.

Lemma member_sector_split s c dd :
  c <> 0 -> member_sector s c dd / c = stripe_of s c dd /\ member_sector s c dd mod c = s mod c.
Proof.
  intros Hc. unfold member_sector. split.
  - symmetry. apply (N.div_unique _ _ _ (s mod c)); [lia|]. lia.
  - symmetry. apply (N.mod_unique _ _ (stripe_of s c dd)); [lia|]. lia.
Qed.

(** ** RAID-5 *)

Definition raid5_of (l : layout5) : raid5_alg :=
  match l with
  | LeftAsymmetric => R5LeftAsymmetric
  | RightAsymmetric => R5RightAsymmetric
  | LeftSymmetric => R5LeftSymmetric
  | RightSymmetric => R5RightSymmetric
  | ParityFirst => R5Parity0
  | ParityLast => R5ParityN
  end.

Lemma raid5_from_layout_code l : raid5_from_layout (layout5_code l) = Some (raid5_of l).
Proof. destruct l; reflexivity. Qed.

Lemma raid5_of_surj a : exists l, a = raid5_of l.
Proof.
  destruct a; [exists LeftAsymmetric|exists RightAsymmetric|exists LeftSymmetric|
               exists RightSymmetric|exists ParityFirst|exists ParityLast]; reflexivity.
Qed.

(** Place of parity and data in a RAID-5 row, computed by the model's two functions. *)
Lemma raid5_places l n k i :
  2 <= n -> n <= u32_max -> i < n - 1 ->
  exists p d,
    raid5_parity (raid5_of l) k (n - 1) n = Some p /\
    raid5_data (raid5_of l) i p n = Some d /\
    p < n /\ d < n /\
    nth_N (row5 l n k) p = Some P /\ nth_N (row5 l n k) d = Some (D i).
Proof.
  unfold u32_max. intros Hn Hu Hi.
  assert (Hm : k mod n < n) by (apply N.mod_lt; lia).
  set (r := k mod n) in *.
  assert (Asym : forall p, p < n ->
     let d := i + (if p <=? i then 1 else 0) in
     raid5_data R5LeftAsymmetric i p n = Some d /\ d < n /\
     nth_N (insert_at p [P] (datas (n - 1))) p = Some P /\
     nth_N (insert_at p [P] (datas (n - 1))) d = Some (D i)).
  { intros p Hp. cbn zeta. cbn [raid5_data].
    rewrite cadd64_some by (unfold u64_max; destruct (p <=? i); lia).
    split; [reflexivity|]. split; [destruct (p <=? i); lia|]. split.
    - rewrite <- (N.add_0_r p) at 2. rewrite nth_insert_at; [reflexivity| |reflexivity].
      rewrite len_datas. lia.
    - destruct (N.leb_spec p i).
      + rewrite nth_insert_after'; [|reflexivity|rewrite len_datas; lia|lia].
        apply nth_datas. assumption.
      + rewrite N.add_0_r. rewrite nth_insert_before; [|lia|rewrite len_datas; lia].
        apply nth_datas. assumption. }
  assert (Sym : forall p, p < n ->
     let d := (p + 1 + i) mod n in
     raid5_data R5LeftSymmetric i p n = Some d /\ d < n /\
     nth_N (rotr p (P :: datas (n - 1))) p = Some P /\
     nth_N (rotr p (P :: datas (n - 1))) d = Some (D i)).
  { intros p Hp. cbn zeta. cbn [raid5_data].
    rewrite cadd64_some by (unfold u64_max; lia). cbn [obind].
    rewrite cadd64_some by (unfold u64_max; lia). cbn [obind].
    rewrite crem64_some by lia.
    assert (L : len (P :: datas (n - 1)) = n) by (rewrite len_cons, len_datas; lia).
    split; [reflexivity|]. split; [apply N.mod_lt; lia|]. split.
    - pose proof (nth_rotr p (P :: datas (n - 1)) 0) as H.
      rewrite L, N.add_0_r, N.mod_small in H by lia. rewrite H by lia. reflexivity.
    - pose proof (nth_rotr p (P :: datas (n - 1)) (1 + i)) as H. rewrite L in H.
      replace (p + 1 + i) with (p + (1 + i)) by lia. rewrite H by lia.
      rewrite nth_N_cons. replace (1 + i =? 0) with false by (symmetry; apply N.eqb_neq; lia).
      replace (1 + i - 1) with i by lia. apply nth_datas. assumption. }
  destruct l; cbn [raid5_of raid5_parity row5]; fold r.
  - rewrite crem64_some by lia. cbn [obind]. fold r. rewrite csub64_some by lia.
    destruct (Asym (n - 1 - r)) as (A & B & C & E); [lia|].
    exists (n - 1 - r). eexists. unfold left_pos. fold r. repeat split; try eassumption; lia.
  - rewrite crem64_some by lia. fold r.
    destruct (Asym r) as (A & B & C & E); [lia|].
    exists r. eexists. unfold right_pos. fold r. repeat split; try eassumption; lia.
  - rewrite crem64_some by lia. cbn [obind]. fold r. rewrite csub64_some by lia.
    destruct (Sym (n - 1 - r)) as (A & B & C & E); [lia|].
    exists (n - 1 - r). eexists. unfold left_pos. fold r. repeat split; try eassumption; lia.
  - rewrite crem64_some by lia. fold r.
    destruct (Sym r) as (A & B & C & E); [lia|].
    exists r. eexists. unfold right_pos. fold r. repeat split; try eassumption; lia.
  - cbn [raid5_data]. rewrite cadd64_some by (unfold u64_max; lia).
    exists 0, (i + 1). repeat split; try lia.
    rewrite nth_N_cons. replace (i + 1 =? 0) with false by (symmetry; apply N.eqb_neq; lia).
    replace (i + 1 - 1) with i by lia. now apply nth_datas.
  - cbn [raid5_data]. exists (n - 1), i. repeat split; try lia.
    + rewrite nth_N_app, len_datas. replace (n - 1 <? n - 1) with false by (symmetry; apply N.ltb_ge; lia).
      rewrite N.sub_diag. reflexivity.
    + rewrite nth_N_app, len_datas. replace (i <? n - 1) with true by (symmetry; apply N.ltb_lt; lia).
      now apply nth_datas.
Qed.

Lemma front_some s c dd :
  c <> 0 -> dd <> 0 -> dd <= u32_max ->
  in_chunk s c = Some (s / c, s mod c) /\
  as_data_device_and_stripe_number (s / c) dd = Some (data_index_of s c dd, stripe_of s c dd).
Proof.
  intros Hc Hd Hu. unfold in_chunk, as_data_device_and_stripe_number.
  rewrite !cdiv64_some, !crem64_some by assumption. cbn [obind].
  rewrite try32_some; [easy|]. pose proof (N.mod_lt (s / c) dd Hd). lia.
Qed.

Lemma raid5_compute_ok l s c n :
  u64_ok s -> u32_ok n -> c <> 0 -> 2 <= n ->
  exists p d,
    raid5_compute_sector (raid5_of l) s c n = Some (member_sector s c (n - 1), p, d) /\
    p < n /\ d < n /\
    nth_N (row5 l n (stripe_of s c (n - 1))) p = Some P /\
    nth_N (row5 l n (stripe_of s c (n - 1))) d = Some (D (data_index_of s c (n - 1))).
Proof.
  unfold u64_ok, u32_ok. intros Hs Hu Hc Hn.
  assert (Hd : n - 1 <> 0) by lia.
  destruct (front_some s c (n - 1) Hc Hd) as [F1 F2]; [lia|].
  unfold raid5_compute_sector. rewrite F1. cbn [obind].
  rewrite csub32_some by lia. cbn [obind]. rewrite F2. cbn [obind].
  assert (Hi : data_index_of s c (n - 1) < n - 1) by (apply N.mod_lt; lia).
  destruct (raid5_places l n (stripe_of s c (n - 1)) (data_index_of s c (n - 1)) Hn Hu Hi)
    as (p & d & E1 & E2 & P1 & P2 & R1 & R2).
  rewrite E1. cbn [obind]. rewrite try32_some by lia. cbn [obind].
  rewrite E2. cbn [obind]. rewrite try32_some by lia. cbn [obind].
  rewrite cmul64_some by (pose proof (stripe_mul_le s c (n - 1) Hc Hd); lia). cbn [obind].
  rewrite cadd64_some by (pose proof (member_sector_le s c (n - 1) Hc Hd) as M; unfold member_sector in M; lia).
  cbn [obind]. exists p, d. repeat split; assumption.
Qed.

Lemma raid5_compute_none a s c n :
  c = 0 \/ n < 2 -> raid5_compute_sector a s c n = None.
Proof.
  intros [->|H]; [reflexivity|].
  unfold raid5_compute_sector, in_chunk, as_data_device_and_stripe_number, csub32.
  destruct (cdiv64 s c); [|reflexivity]. cbn [obind].
  destruct (crem64 s c); [|reflexivity]. cbn [obind].
  destruct (N.leb_spec 1 n); [|reflexivity]. cbn [obind].
  replace (n - 1) with 0 by lia. reflexivity.
Qed.

(** ** RAID-6 *)

Definition raid6_of (l : layout6) : raid6_alg :=
  match l with
  | Md5 LeftAsymmetric => R6LeftAsymmetric
  | Md5 RightAsymmetric => R6RightAsymmetric
  | Md5 LeftSymmetric => R6LeftSymmetric
  | Md5 RightSymmetric => R6RightSymmetric
  | Md5 ParityFirst => R6Parity0
  | Md5 ParityLast => R6ParityN
  | DdfZeroRestart => R6Rotating0Restart
  | DdfNRestart => R6RotatingNRestart
  | DdfNContinue => R6RotatingNContinue
  | Raid5PlusQ LeftAsymmetric => R6LeftAsymmetric6
  | Raid5PlusQ RightAsymmetric => R6RightAsymmetric6
  | Raid5PlusQ LeftSymmetric => R6LeftSymmetric6
  | Raid5PlusQ RightSymmetric => R6RightSymmetric6
  | Raid5PlusQ ParityFirst => R6Parity06
  | Raid5PlusQ ParityLast => R6ParityN
  end.

Lemma raid6_from_layout_code l c :
  layout6_code l = Some c -> raid6_from_layout c = Some (raid6_of l).
Proof. destruct l as [l| | | |l]; try destruct l; cbn; intros E; inv E; reflexivity. Qed.

(** [Raid5PlusQ ParityLast] is the same row as [Md5 ParityLast]. *)
Lemma row6_parity_last n k :
  2 <= n -> row6 (Raid5PlusQ ParityLast) n k = row6 (Md5 ParityLast) n k.
Proof.
  intros H. cbn [row6 row5]. replace (n - 1 - 1) with (n - 2) by lia.
  rewrite <- app_assoc. reflexivity.
Qed.

Lemma raid6_of_surj a : exists l c, layout6_code l = Some c /\ a = raid6_of l.
Proof.
  destruct a;
    [exists (Md5 LeftAsymmetric)|exists (Md5 RightAsymmetric)|exists (Md5 LeftSymmetric)
    |exists (Md5 RightSymmetric)|exists (Md5 ParityFirst)|exists (Md5 ParityLast)
    |exists DdfZeroRestart|exists DdfNRestart|exists DdfNContinue
    |exists (Raid5PlusQ LeftAsymmetric)|exists (Raid5PlusQ RightAsymmetric)
    |exists (Raid5PlusQ LeftSymmetric)|exists (Raid5PlusQ RightSymmetric)
    |exists (Raid5PlusQ ParityFirst)]; eexists; split; reflexivity.
Qed.

Lemma ltb_t a b : a < b -> (a <? b) = true. Proof. apply N.ltb_lt. Qed.
Lemma ltb_f a b : b <= a -> (a <? b) = false. Proof. apply N.ltb_ge. Qed.

Lemma nth_insert_pq n p i :
  3 <= n -> p < n -> i < n - 2 ->
  let q := (p + 1) mod n in
  let d := i + (if q =? 0 then 1 else if p <=? i then 2 else 0) in
  q < n /\ d < n /\
  nth_N (insert_pq n p (datas (n - 2))) p = Some P /\
  nth_N (insert_pq n p (datas (n - 2))) q = Some Q /\
  nth_N (insert_pq n p (datas (n - 2))) d = Some (D i).
Proof.
  intros Hn Hp Hi q d. unfold insert_pq.
  assert (Hq : q < n) by (apply N.mod_lt; lia).
  destruct (N.eqb_spec p (n - 1)) as [E|E].
  - assert (q = 0).
    { unfold q. replace (p + 1) with n by lia. apply N.mod_same. lia. }
    unfold d. rewrite H. cbn [N.eqb].
    replace (0 =? 0) with true by reflexivity.
    repeat split; try lia.
    + rewrite nth_N_app. change (len [Q]) with 1. rewrite ltb_f by lia.
      rewrite nth_N_app, len_datas, ltb_f by lia.
      replace (p - 1 - (n - 2)) with 0 by lia. reflexivity.
    + rewrite nth_N_app. change (len [Q]) with 1. rewrite ltb_f by lia.
      rewrite nth_N_app, len_datas, ltb_t by lia.
      replace (i + 1 - 1) with i by lia. now apply nth_datas.
  - assert (Q1 : q = p + 1) by (apply N.mod_small; lia).
    unfold d. rewrite Q1. replace (p + 1 =? 0) with false by (symmetry; apply N.eqb_neq; lia).
    assert (L : p <= len (datas (n - 2))) by (rewrite len_datas; lia).
    repeat split; try lia.
    + destruct (p <=? i); lia.
    + rewrite <- (N.add_0_r p) at 2. rewrite nth_insert_at; [reflexivity|lia|reflexivity].
    + rewrite nth_insert_at; [reflexivity|lia|reflexivity].
    + destruct (N.leb_spec p i).
      * rewrite nth_insert_after' by (reflexivity || lia). now apply nth_datas.
      * rewrite N.add_0_r, nth_insert_before by lia. now apply nth_datas.
Qed.

(** The exceptional case where [stripe + 1] overflows. *)
Definition restart_overflow (l : layout6) (k : N) : Prop := l = DdfNRestart /\ u64_max <= k.

Lemma raid6_places l n k i :
  3 <= n -> n <= u32_max -> i < n - 2 -> ~ restart_overflow l k ->
  exists p q d,
    raid6_p (raid6_of l) k (n - 2) n = Some p /\
    raid6_q (raid6_of l) p (n - 2) n = Some q /\
    raid6_data (raid6_of l) i p q n = Some d /\
    p < n /\ q < n /\ d < n /\
    nth_N (row6 l n k) p = Some P /\ nth_N (row6 l n k) q = Some Q /\
    nth_N (row6 l n k) d = Some (D i).
Proof.
  unfold u32_max. intros Hn Hu Hi Hov.
  assert (Asym : forall p, p < n ->
     exists q d, raid6_q R6LeftAsymmetric p (n - 2) n = Some q /\
     raid6_data R6LeftAsymmetric i p q n = Some d /\ q < n /\ d < n /\
     nth_N (insert_pq n p (datas (n - 2))) p = Some P /\
     nth_N (insert_pq n p (datas (n - 2))) q = Some Q /\
     nth_N (insert_pq n p (datas (n - 2))) d = Some (D i)).
  { intros p Hp. destruct (nth_insert_pq n p i Hn Hp Hi) as (A & B & C & E & F).
    cbn zeta in *. eexists. eexists. cbn [raid6_q raid6_data].
    rewrite cadd64_some by (unfold u64_max; lia). cbn [obind].
    rewrite crem64_some by lia. split; [reflexivity|].
    rewrite cadd64_some.
    2:{ unfold u64_max. destruct (_ =? 0), (p <=? i); lia. }
    split; [reflexivity|]. auto. }
  assert (Sym : forall p, p < n ->
     exists q d, raid6_q R6LeftSymmetric p (n - 2) n = Some q /\
     raid6_data R6LeftSymmetric i p q n = Some d /\ q < n /\ d < n /\
     nth_N (rotr p (P :: Q :: datas (n - 2))) p = Some P /\
     nth_N (rotr p (P :: Q :: datas (n - 2))) q = Some Q /\
     nth_N (rotr p (P :: Q :: datas (n - 2))) d = Some (D i)).
  { intros p Hp. cbn [raid6_q raid6_data].
    assert (L : len (P :: Q :: datas (n - 2)) = n) by (rewrite !len_cons, len_datas; lia).
    rewrite !cadd64_some by (unfold u64_max; lia). cbn [obind].
    rewrite cadd64_some by (unfold u64_max; lia). cbn [obind].
    rewrite !crem64_some by lia.
    exists ((p + 1) mod n), ((p + 2 + i) mod n).
    pose proof (nth_rotr p (P :: Q :: datas (n - 2))) as H. rewrite L in H.
    repeat split; try (apply N.mod_lt; lia).
    - rewrite <- (N.mod_small p n) at 2 by lia. rewrite <- (N.add_0_r p) at 2.
      rewrite H by lia. reflexivity.
    - rewrite H by lia. rewrite !nth_N_cons. reflexivity.
    - rewrite <- N.add_assoc, H by lia. rewrite !nth_N_cons.
      replace (2 + i =? 0) with false by (symmetry; apply N.eqb_neq; lia).
      replace (2 + i - 1 =? 0) with false by (symmetry; apply N.eqb_neq; lia).
      replace (2 + i - 1 - 1) with i by lia. now apply nth_datas. }
  assert (Cont : forall p, p < n ->
     exists q d, raid6_q R6RotatingNContinue p (n - 2) n = Some q /\
     raid6_data R6RotatingNContinue i p q n = Some d /\ q < n /\ d < n /\
     nth_N (rotr p ([P] ++ datas (n - 2) ++ [Q])) p = Some P /\
     nth_N (rotr p ([P] ++ datas (n - 2) ++ [Q])) q = Some Q /\
     nth_N (rotr p ([P] ++ datas (n - 2) ++ [Q])) d = Some (D i)).
  { intros p Hp. cbn [raid6_q raid6_data].
    assert (L : len ([P] ++ datas (n - 2) ++ [Q]) = n).
    { rewrite !len_app, len_datas. change (len [P]) with 1. change (len [Q]) with 1. lia. }
    rewrite !cadd64_some by (unfold u64_max; lia). cbn [obind].
    rewrite csub64_some by lia. cbn [obind].
    rewrite cadd64_some by (unfold u64_max; lia). cbn [obind].
    rewrite !crem64_some by lia.
    exists ((p + n - 1) mod n), ((p + 1 + i) mod n).
    pose proof (nth_rotr p ([P] ++ datas (n - 2) ++ [Q])) as H. rewrite L in H.
    repeat split; try (apply N.mod_lt; lia).
    - rewrite <- (N.mod_small p n) at 2 by lia. rewrite <- (N.add_0_r p) at 2.
      rewrite H by lia. reflexivity.
    - replace (p + n - 1) with (p + (n - 1)) by lia. rewrite H by lia.
      rewrite nth_N_app. change (len [P]) with 1. rewrite ltb_f by lia.
      rewrite nth_N_app, len_datas, ltb_f by lia.
      replace (n - 1 - 1 - (n - 2)) with 0 by lia. reflexivity.
    - rewrite <- N.add_assoc, H by lia.
      rewrite nth_N_app. change (len [P]) with 1. rewrite ltb_f by lia.
      rewrite nth_N_app, len_datas, ltb_t by lia.
      replace (1 + i - 1) with i by lia. now apply nth_datas. }
  assert (Md : forall k, k mod n < n) by (intros; apply N.mod_lt; lia).
  assert (Md1 : forall k, k mod (n - 1) < n - 1) by (intros; apply N.mod_lt; lia).
  assert (Plus : forall l5 p d,
     raid5_parity (raid5_of l5) k (n - 2) (n - 1) = Some p ->
     raid5_data (raid5_of l5) i p (n - 1) = Some d ->
     p < n - 1 -> d < n - 1 ->
     nth_N (row5 l5 (n - 1) k) p = Some P -> nth_N (row5 l5 (n - 1) k) d = Some (D i) ->
     n - 1 < n /\
     nth_N (row5 l5 (n - 1) k ++ [Q]) p = Some P /\
     nth_N (row5 l5 (n - 1) k ++ [Q]) (n - 1) = Some Q /\
     nth_N (row5 l5 (n - 1) k ++ [Q]) d = Some (D i)).
  { intros l5 p d _ _ Hp Hd R1 R2. rewrite !nth_N_app, len_row5 by lia.
    rewrite (ltb_t p), (ltb_t d), ltb_f by lia. rewrite N.sub_diag. repeat split; auto. lia. }
  destruct l as [l| | | |l].
  - destruct l; cbn [raid6_of raid6_p row6].
    + rewrite csub64_some by lia. cbn [obind]. rewrite crem64_some by lia. cbn [obind].
      specialize (Md k). rewrite csub64_some by lia.
      destruct (Asym (n - 1 - k mod n)) as (q & d & H1 & H2 & H3 & H4 & H5 & H6 & H7); [lia|].
      exists (n - 1 - k mod n), q, d. repeat split; try assumption. lia.
    + rewrite crem64_some by lia. specialize (Md k).
      destruct (Asym (k mod n)) as (q & d & H1 & H2 & H3 & H4 & H5 & H6 & H7); [lia|].
      exists (k mod n), q, d. repeat split; try assumption.
    + rewrite csub64_some by lia. cbn [obind]. rewrite crem64_some by lia. cbn [obind].
      specialize (Md k). rewrite csub64_some by lia.
      destruct (Sym (n - 1 - k mod n)) as (q & d & H1 & H2 & H3 & H4 & H5 & H6 & H7); [lia|].
      exists (n - 1 - k mod n), q, d. repeat split; try assumption. lia.
    + rewrite crem64_some by lia. specialize (Md k).
      destruct (Sym (k mod n)) as (q & d & H1 & H2 & H3 & H4 & H5 & H6 & H7); [lia|].
      exists (k mod n), q, d. repeat split; try assumption.
    + cbn [raid6_q raid6_data]. rewrite cadd64_some by (unfold u64_max; lia).
      exists 0, 1, (i + 2). repeat split; try lia; rewrite nth_N_app; change (len [P; Q]) with 2;
        try reflexivity.
      rewrite ltb_f by lia. replace (i + 2 - 2) with i by lia. now apply nth_datas.
    + cbn [raid6_q raid6_data]. rewrite cadd64_some by (unfold u64_max; lia).
      exists (n - 2), (n - 2 + 1), i. repeat split; try lia.
      * rewrite nth_N_app, len_datas, ltb_f by lia. rewrite N.sub_diag. reflexivity.
      * rewrite nth_N_app, len_datas, ltb_f by lia.
        replace (n - 2 + 1 - (n - 2)) with 1 by lia. reflexivity.
      * rewrite nth_N_app, len_datas, ltb_t by lia. now apply nth_datas.
  - cbn [raid6_of raid6_p row6]. rewrite crem64_some by lia. specialize (Md k).
    destruct (Asym (k mod n)) as (q & d & H1 & H2 & H3 & H4 & H5 & H6 & H7); [lia|].
    exists (k mod n), q, d. repeat split; try assumption.
  - cbn [raid6_of raid6_p row6]. rewrite csub64_some by lia. cbn [obind].
    assert (k < u64_max).
    { destruct (N.lt_ge_cases k u64_max); [assumption|]. exfalso. apply Hov. now split. }
    rewrite cadd64_some by lia. cbn [obind]. rewrite crem64_some by lia. cbn [obind].
    specialize (Md (k + 1)). rewrite csub64_some by lia.
    destruct (Asym (n - 1 - (k + 1) mod n)) as (q & d & H1 & H2 & H3 & H4 & H5 & H6 & H7); [lia|].
    exists (n - 1 - (k + 1) mod n), q, d. repeat split; try assumption. lia.
  - cbn [raid6_of raid6_p row6]. rewrite csub64_some by lia. cbn [obind].
    rewrite crem64_some by lia. cbn [obind].
    specialize (Md k). rewrite csub64_some by lia.
    destruct (Cont (n - 1 - k mod n)) as (q & d & H1 & H2 & H3 & H4 & H5 & H6 & H7); [lia|].
    exists (n - 1 - k mod n), q, d. repeat split; try assumption. lia.
  - destruct (raid5_places l (n - 1) k i) as (p & d & E1 & E2 & P1 & P2 & R1 & R2);
      [lia|unfold u32_max; lia|lia|].
    replace (n - 1 - 1) with (n - 2) in E1 by lia.
    destruct (Plus l p d E1 E2 P1 P2 R1 R2) as (K0 & K1 & K2 & K3).
    destruct l; cbn [raid6_of raid6_p raid6_q raid6_data row6];
      cbn [raid5_of raid5_parity raid5_data] in E1, E2.
    + rewrite csub64_some by lia. cbn [obind].
      exists p, (n - 1), d. repeat split; try assumption; lia.
    + rewrite csub64_some by lia. cbn [obind].
      exists p, (n - 1), d. repeat split; try assumption; lia.
    + rewrite csub64_some by lia. cbn [obind].
      exists p, (n - 1), d. repeat split; try assumption; lia.
    + rewrite csub64_some by lia. cbn [obind].
      exists p, (n - 1), d. repeat split; try assumption; lia.
    + rewrite csub64_some by lia. cbn [obind].
      exists p, (n - 1), d. repeat split; try assumption; lia.
    + inv E1. inv E2. rewrite cadd64_some by (unfold u64_max; lia).
      replace (n - 1) with (n - 2 + 1) in K2 at 2 by lia.
      exists (n - 2), (n - 2 + 1), d. repeat split; try assumption; lia.
Qed.

Lemma raid6_compute_ok l s c n :
  u64_ok s -> u32_ok n -> c <> 0 -> 3 <= n -> ~ restart_overflow l (stripe_of s c (n - 2)) ->
  exists p q d,
    raid6_compute_sector (raid6_of l) s c n = Some (member_sector s c (n - 2), p, q, d) /\
    p < n /\ q < n /\ d < n /\
    nth_N (row6 l n (stripe_of s c (n - 2))) p = Some P /\
    nth_N (row6 l n (stripe_of s c (n - 2))) q = Some Q /\
    nth_N (row6 l n (stripe_of s c (n - 2))) d = Some (D (data_index_of s c (n - 2))).
Proof.
  unfold u64_ok, u32_ok. intros Hs Hu Hc Hn Hov.
  assert (Hd : n - 2 <> 0) by lia.
  destruct (front_some s c (n - 2) Hc Hd) as [F1 F2]; [lia|].
  unfold raid6_compute_sector. rewrite F1. cbn [obind].
  rewrite csub32_some by lia. cbn [obind]. rewrite F2. cbn [obind].
  assert (Hi : data_index_of s c (n - 2) < n - 2) by (apply N.mod_lt; lia).
  destruct (raid6_places l n (stripe_of s c (n - 2)) (data_index_of s c (n - 2)) Hn Hu Hi Hov)
    as (p & q & d & E1 & E2 & E3 & P1 & P2 & P3 & R1 & R2 & R3).
  rewrite E1. cbn [obind]. rewrite try32_some by lia. cbn [obind].
  rewrite E2. cbn [obind]. rewrite try32_some by lia. cbn [obind].
  rewrite E3. cbn [obind]. rewrite try32_some by lia. cbn [obind].
  rewrite cmul64_some by (pose proof (stripe_mul_le s c (n - 2) Hc Hd); lia). cbn [obind].
  rewrite cadd64_some by (pose proof (member_sector_le s c (n - 2) Hc Hd) as M; unfold member_sector in M; lia).
  cbn [obind]. exists p, q, d. repeat split; assumption.
Qed.

(** The stripe number can only reach 2^64-1 in the single corner case. *)
Lemma stripe_max s c dd :
  u64_ok s -> c <> 0 -> dd <> 0 ->
  u64_max <= stripe_of s c dd <-> s = u64_max /\ c = 1 /\ dd = 1.
Proof.
  unfold u64_ok. intros Hs Hc Hd. split.
  - intros H. pose proof (sector_recompose s c dd Hc Hd) as E.
    set (k := stripe_of s c dd) in *. clearbody k.
    assert (c = 1) by (destruct (N.eq_dec c 1); [assumption|exfalso; unfold u64_max in *; nia]).
    assert (dd = 1) by (destruct (N.eq_dec dd 1); [assumption|exfalso; unfold u64_max in *; nia]).
    subst. unfold u64_max in *. repeat split; lia.
  - intros (-> & -> & ->). vm_compute. discriminate.
Qed.

Lemma raid6_compute_none a s c n :
  c = 0 \/ n < 3 -> raid6_compute_sector a s c n = None.
Proof.
  intros [->|H]; [reflexivity|].
  unfold raid6_compute_sector, in_chunk, as_data_device_and_stripe_number, csub32.
  destruct (cdiv64 s c); [|reflexivity]. cbn [obind].
  destruct (crem64 s c); [|reflexivity]. cbn [obind].
  destruct (N.leb_spec 2 n); [|reflexivity]. cbn [obind].
  replace (n - 2) with 0 by lia. reflexivity.
Qed.

Lemma raid6_compute_corner :
  raid6_compute_sector R6RotatingNRestart u64_max 1 3 = None.
Proof. vm_compute. reflexivity. Qed.
