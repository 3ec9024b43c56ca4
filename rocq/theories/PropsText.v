(** Properties C89 to C92: the text that the program prints. *)

From Coq Require Import Strings.String Permutation.
From Verif Require Import Base BaseFacts Raid Io Superblock Device Array Ext4String SpecExt4String PropsExt4String Main PropsMain Text SpecText TextFacts.

(** ** What each implementation of [Debug] says *)

Lemma says_option {A} (f : A -> bytes) (v : A -> value) o : (forall a, says (f a) (v a)) -> says (debug_option f o) (v_option v o).
Proof. intros H. destruct o; cbn [debug_option v_option]; [apply says_tuple; [good|repeat constructor; apply H]|apply says_name; good]. Qed.
Lemma says_unit w n : good_word w -> says (debug_tuple w [debug_uint n]) (v_unit w n).
Proof. intros G. apply says_tuple; [exact G|]. constructor; [apply says_number|constructor]. Qed.
Lemma says_each_of {A} (f : A -> bytes) (v : A -> value) l : (forall a, says (f a) (v a)) -> Forall2 says (map f l) (map v l).
Proof. intros H. induction l; constructor; auto. Qed.

Lemma says_member plain ids i : says (debug_rc plain ids i) (v_member (fun i => id_reference (id_at ids i)) i).
Proof.
  unfold debug_rc, debug_device_id, v_member.
  assert (E : id_index (id_at ids i) = i).
  { unfold id_at. destruct (find _ ids) as [d|] eqn:F; [|reflexivity]. apply find_some in F as [_ F]. now apply N.eqb_eq. }
  rewrite E. apply says_struct; [good|].
  constructor; [split; [reflexivity|split; [good|apply says_number]]|].
  constructor; [split; [reflexivity|split; [good|apply says_option, says_text]]|constructor].
Qed.
Lemma says_uuid u : says (debug_uuid u) (v_uuid u).
Proof.
  assert (H : forall b, says (debug_u8s b) (VList (map (fun x => VNumber (bval x)) b))).
  { intros b. apply says_list. apply (says_each_of (fun x => debug_uint (bval x)) (fun x => VNumber (bval x))). intros a. apply says_number. }
  destruct u; apply says_tuple; try good; constructor; try constructor; apply H.
Qed.
Lemma says_algorithm a : says (debug_algorithm a) (v_algorithm a).
Proof.
  destruct a as [level layout|a|a]; cbn [debug_algorithm v_algorithm].
  - apply says_struct; [good|]. do 2 (constructor; [split; [reflexivity|split; [good|apply says_number]]|]). constructor.
  - apply says_tuple; [good|]. constructor; [|constructor]. destruct a; apply says_name; good.
  - apply says_tuple; [good|]. constructor; [|constructor]. destruct a; apply says_name; good.
Qed.
Lemma says_reshape r : says (debug_reshape r) (v_reshape r).
Proof.
  apply says_struct; [good|].
  constructor; [split; [reflexivity|split; [good|apply says_algorithm]]|].
  constructor; [split; [reflexivity|split; [good|apply says_unit; good]]|].
  constructor; [split; [reflexivity|split; [good|apply says_unit; good]]|].
  constructor; [split; [reflexivity|split; [good|apply says_unit; good]]|].
  constructor; [split; [reflexivity|split; [good|apply says_number]]|constructor].
Qed.
Lemma says_groups {K} plain ids (f : K -> bytes) (v : K -> value) l : (forall k, says (f k) (v k)) ->
  says (debug_by plain ids f l) (v_groups v (fun i => id_reference (id_at ids i)) l).
Proof.
  intros H. apply says_map. induction l as [|[k l'] l IH]; [constructor|]. cbn [map]. constructor; [|exact IH]. split; [apply H|].
  apply says_list, says_each_of. intros a. apply says_member.
Qed.

Lemma says_diagnosis plain ids d : says (debug_diagnosis plain ids d) (v_diagnosis (fun i => id_reference (id_at ids i)) d).
Proof.
  apply says_struct; [good|].
  assert (S : forall o, says (debug_option (debug_ids plain ids) o) (v_option (fun l => VSet (map (v_member (fun i => id_reference (id_at ids i))) l)) o)).
  { intros o. apply says_option. intros l. apply says_set, says_each_of. intros a. apply says_member. }
  assert (G : forall K (f : K -> bytes) (v : K -> value) o, (forall k, says (f k) (v k)) ->
    says (debug_option (debug_by plain ids f) o) (v_option (v_groups v (fun i => id_reference (id_at ids i))) o)).
  { intros K f v o H. apply says_option. intros l. now apply says_groups. }
  constructor; [split; [reflexivity|split; [good|apply S]]|].
  constructor; [split; [reflexivity|split; [good|apply S]]|].
  constructor; [split; [reflexivity|split; [good|apply G, says_uuid]]|].
  constructor; [split; [reflexivity|split; [good|apply G, says_text]]|].
  constructor; [split; [reflexivity|split; [good|apply G, says_algorithm]]|].
  constructor; [split; [reflexivity|split; [good|apply G; intros k; apply says_unit; good]]|].
  constructor; [split; [reflexivity|split; [good|apply G; intros k; apply says_unit; good]]|].
  constructor; [split; [reflexivity|split; [good|apply G; intros k; apply says_unit; good]]|].
  constructor; [split; [reflexivity|split; [good|apply G; intros k; apply says_option, says_reshape]]|].
  constructor; [split; [reflexivity|split; [good|apply G; intros k; apply says_unit; good]]|].
  constructor; [split; [reflexivity|split; [good|apply G, says_number]]|].
  constructor; [split; [reflexivity|split; [good|apply G; intros k; apply says_list, says_each_of; intros a; apply says_unit; good]]|constructor].
Qed.

(** ** C89: the text of a diagnosis is read back

    Whoever reads the text as a Rust value finds, under the name of each question, the answer that was found, with every member
    named by the number of its argument and by the argument itself. *)

Lemma id_at_path ids paths i : map id_index ids = map N.of_nat (seq 0 (length paths)) -> map id_reference ids = map Some paths ->
  id_reference (id_at ids i) = nth_error paths (N.to_nat i).
Proof.
  intros X R. unfold id_at.
  assert (G : forall ids paths k, map id_index ids = map N.of_nat (seq k (length paths)) -> map id_reference ids = map Some paths -> (k <= N.to_nat i)%nat ->
    id_reference match find (fun d => id_index d =? i) ids with Some d => d | None => DeviceId i None end = nth_error paths (N.to_nat i - k)).
  { clear. intros ids. induction ids as [|d ids IH]; intros paths k X R L; destruct paths as [|p paths]; try discriminate; cbn [find].
    - cbn. now destruct (N.to_nat i - k)%nat.
    - cbn [map length seq] in X, R. injection X as X1 X2. injection R as R1 R2. destruct (N.eqb_spec (id_index d) i) as [E|E].
      + replace (N.to_nat i - k)%nat with O by lia. cbn. exact R1.
      + rewrite (IH paths (S k) X2 R2) by lia. replace (N.to_nat i - k)%nat with (S (N.to_nat i - S k)) by lia. reflexivity. }
  rewrite (G ids paths O X R) by lia. now rewrite Nat.sub_0_r.
Qed.

Lemma v_member_ext r r' i : r i = r' i -> v_member r i = v_member r' i.
Proof. intros E. unfold v_member. now rewrite E. Qed.
Lemma v_groups_ext {K} (f : K -> value) r r' l : (forall i, r i = r' i) -> v_groups f r l = v_groups f r' l.
Proof.
  intros E. unfold v_groups. f_equal. apply map_ext. intros [k m]. do 2 f_equal. apply map_ext. intros i. now apply v_member_ext.
Qed.
Lemma v_option_ext {A} (f g : A -> value) o : (forall a, f a = g a) -> v_option f o = v_option g o.
Proof. intros E. destruct o; cbn; [now rewrite E|reflexivity]. Qed.
Lemma v_diagnosis_ext r r' d : (forall i, r i = r' i) -> v_diagnosis r d = v_diagnosis r' d.
Proof.
  intros E. assert (M : forall l, VSet (map (v_member r) l) = VSet (map (v_member r') l)).
  { intros l. f_equal. apply map_ext. intros i. now apply v_member_ext. }
  unfold v_diagnosis.
  rewrite (v_option_ext _ _ (dg_too_small d) M), (v_option_ext _ _ (dg_missing d) M).
  rewrite !(v_option_ext (v_groups _ r) (v_groups _ r')) by (intros l; now apply v_groups_ext).
  reflexivity.
Qed.

Theorem text_read_back : forall pol open order order' paths plain strerror quote out,
  (forall l, Permutation (order l) l) -> (forall l, Permutation (order' l) l) -> len paths <= u64_max ->
  (forall p, In p paths -> exists c bs, is_device open p c bs) ->
  (exists p, main_program pol open order order' paths = Ok p /\ prints plain strerror quote p out) ->
  exists ids g d, main_program pol open order order' paths = Ok (PrDiagnosis ids g) /\ iterated g d /\
    read_text out = Some (v_diagnosis (fun i => nth_error paths (N.to_nat i)) d).
Proof.
  intros pol open order order' paths plain strerror quote out O O' L D (p & E & P).
  destruct (main_prints_diagnosis pol open order order' paths O O' L D) as (ids & ds & g & E' & I & R & _).
  rewrite E in E'. injection E' as ->. destruct P as (d & It & ->). exists ids, g, d. split; [exact E|]. split; [exact It|].
  unfold stdout. rewrite (read_says _ _ (says_diagnosis plain ids d)). f_equal. apply v_diagnosis_ext. intros i. now apply id_at_path.
Qed.
Print Assumptions text_read_back.

(** ** The value determines the diagnosis *)

Lemma record_inj w w' l l' : VRecord w l = VRecord w' l' -> l = l'.
Proof. congruence. Qed.
Lemma field_inj (f : bytes) (v v' : value) l l' : (f, v) :: l = (f, v') :: l' -> v = v' /\ l = l'.
Proof. intros H. injection H. auto. Qed.

Definition same_option {A} (R : A -> A -> Prop) (o o' : option A) : Prop :=
  match o, o' with None, None => True | Some a, Some b => R a b | _, _ => False end.
Lemma v_option_inj {A} (f g : A -> value) (R : A -> A -> Prop) o o' : (forall a b, f a = g b -> R a b) ->
  v_option f o = v_option g o' -> same_option R o o'.
Proof. intros H E. destruct o, o'; cbn in *; try discriminate E; [|exact Logic.I]. injection E as E. now apply H. Qed.
Lemma map_inj {A B} (f g : A -> B) l l' : (forall a b, f a = g b -> a = b) -> map f l = map g l' -> l = l'.
Proof.
  intros H. revert l'. induction l as [|a l IH]; intros [|b l'] E; try discriminate E; [reflexivity|]. cbn in E. injection E as E1 E2.
  f_equal; [now apply H|now apply IH].
Qed.

Lemma cons_inj {A} (a b : A) l l' : a :: l = b :: l' -> a = b /\ l = l'.
Proof. intros H. injection H. auto. Qed.

Section Same.
  Variables r r' : N -> option bytes.
  Lemma v_text_inj o o' : v_option VText o = v_option VText o' -> o = o'.
  Proof. destruct o, o'; cbn; congruence. Qed.
  Lemma v_member_inj i j : v_member r i = v_member r' j -> i = j /\ r i = r' j.
  Proof.
    intros E. apply record_inj in E. injection E as E1 E2. split; [exact E1|]. exact (v_text_inj _ _ E2).
  Qed.
  Lemma v_members_inj l l' : map (v_member r) l = map (v_member r') l' -> l = l' /\ forall i, In i l -> r i = r' i.
  Proof.
    revert l'. induction l as [|a l IH]; intros [|b l'] E; try discriminate E; [split; [reflexivity|contradiction]|].
    cbn [map] in E. apply cons_inj in E as [E1 E2]. apply v_member_inj in E1 as [-> E1].
    apply IH in E2 as [-> E2]. split; [reflexivity|]. intros i [<-|I]; auto.
  Qed.
  Lemma v_set_inj o o' :
    v_option (fun l => VSet (map (v_member r) l)) o = v_option (fun l => VSet (map (v_member r') l)) o' ->
    o = o' /\ forall i, in_set o i -> r i = r' i.
  Proof.
    intros E. destruct o as [l|], o' as [l'|]; cbn [v_option] in E; try discriminate E; [|split; [reflexivity|contradiction]].
    assert (E' : map (v_member r) l = map (v_member r') l') by congruence. apply v_members_inj in E' as [-> H]. auto.
  Qed.
  Lemma v_map_inj l l' : v_map l = v_map l' -> l = l'.
  Proof. destruct l, l'; cbn [v_map]; congruence. Qed.
  Lemma v_groups_inj {K} (f : K -> value) o o' : (forall a b, f a = f b -> a = b) ->
    v_option (v_groups f r) o = v_option (v_groups f r') o' -> o = o' /\ forall i, in_groups o i -> r i = r' i.
  Proof.
    intros F E. destruct o as [l|], o' as [l'|]; cbn [v_option] in E; try discriminate E; [|split; [reflexivity|contradiction]].
    assert (E' : v_groups f r l = v_groups f r' l') by congruence. apply v_map_inj in E'. clear E.
    assert (G : l = l' /\ forall i k m, In (k, m) l -> In i m -> r i = r' i).
    { revert l' E'. induction l as [|[k m] l IH]; intros [|[k' m'] l'] E; try discriminate E; [split; [reflexivity|contradiction]|].
      cbn [map] in E. apply cons_inj in E as [E1 E2]. destruct (IH l' E2) as [-> H].
      assert (A : f k = f k' /\ map (v_member r) m = map (v_member r') m') by (split; congruence). destruct A as [A B].
      apply F in A. subst k'. apply v_members_inj in B as [-> B]. split; [reflexivity|].
      intros i k0 m0 [X|I] Im; [|eauto]. injection X as -> ->. auto. }
    destruct G as [-> G]. split; [reflexivity|]. intros i (k & m & I & J). eauto.
  Qed.
End Same.

Lemma v_unit_inj w a b : v_unit w a = v_unit w b -> a = b.
Proof. unfold v_unit. congruence. Qed.
Lemma bval_list_inj (a b : bytes) : map (fun x => VNumber (bval x)) a = map (fun x => VNumber (bval x)) b -> a = b.
Proof. apply map_inj. intros x y E. injection E as E. now apply bval_inj. Qed.
Lemma v_uuid_inj a b : v_uuid a = v_uuid b -> a = b.
Proof.
  destruct a as [a|a], b as [b|b]; cbn [v_uuid]; intros E; try discriminate E; f_equal; apply bval_list_inj; congruence.
Qed.
Lemma raid5_name_inj a b : raid5_name a = raid5_name b -> a = b.
Proof. destruct a, b; intros E; try reflexivity; discriminate E. Qed.
Lemma raid6_name_inj a b : raid6_name a = raid6_name b -> a = b.
Proof. destruct a, b; intros E; try reflexivity; discriminate E. Qed.
Lemma v_algorithm_inj a b : v_algorithm a = v_algorithm b -> a = b.
Proof.
  destruct a as [l y|a|a], b as [l' y'|b|b]; cbn [v_algorithm]; intros E; try discriminate E.
  - assert (Q : l = l' /\ y = y') by (split; congruence). destruct Q. congruence.
  - f_equal. apply raid5_name_inj. congruence.
  - f_equal. apply raid6_name_inj. congruence.
Qed.
Lemma v_reshape_inj a b : v_reshape a = v_reshape b -> a = b.
Proof.
  destruct a as [al p d c o], b as [al' p' d' c' o']. unfold v_reshape. cbn [rs_algorithm rs_position rs_delta_devices rs_chunk_size rs_offset].
  intros E. apply record_inj in E. apply field_inj in E as [E1 E]. apply field_inj in E as [E2 E]. apply field_inj in E as [E3 E]. apply field_inj in E as [E4 E].
  apply field_inj in E as [E5 _]. apply v_algorithm_inj in E1. apply v_unit_inj in E2, E3, E4. injection E5 as E5. congruence.
Qed.
Lemma v_reshape_option_inj a b : v_option v_reshape a = v_option v_reshape b -> a = b.
Proof. intros E. apply (v_option_inj _ _ eq) in E; [|apply v_reshape_inj]. destruct a, b; cbn in E; try contradiction; congruence. Qed.
Lemma v_roles_inj a b : VList (map (v_unit (name "MdDeviceRole")) a) = VList (map (v_unit (name "MdDeviceRole")) b) -> a = b.
Proof. intros E. apply (map_inj (v_unit (name "MdDeviceRole")) (v_unit (name "MdDeviceRole"))); [apply v_unit_inj|congruence]. Qed.

Lemma v_diagnosis_inj r r' d d' : v_diagnosis r d = v_diagnosis r' d' -> d = d' /\ forall i, names_member d i -> r i = r' i.
Proof.
  destruct d as [d1 d2 d3 d4 d5 d6 d7 d8 d9 d10 d11 d12], d' as [e1 e2 e3 e4 e5 e6 e7 e8 e9 e10 e11 e12]. unfold v_diagnosis, names_member.
  cbn [dg_too_small dg_missing dg_uuid dg_name dg_algorithm dg_size dg_chunk_size dg_device_count dg_reshape dg_event_count dg_role_index dg_roles].
  intros E. apply record_inj in E.
  apply field_inj in E as [E1 E]. apply field_inj in E as [E2 E]. apply field_inj in E as [E3 E]. apply field_inj in E as [E4 E].
  apply field_inj in E as [E5 E]. apply field_inj in E as [E6 E]. apply field_inj in E as [E7 E]. apply field_inj in E as [E8 E].
  apply field_inj in E as [E9 E]. apply field_inj in E as [E10 E]. apply field_inj in E as [E11 E]. apply field_inj in E as [E12 _].
  apply v_set_inj in E1 as [-> H1]. apply v_set_inj in E2 as [-> H2].
  apply v_groups_inj in E3 as [-> H3]; [|apply v_uuid_inj].
  apply v_groups_inj in E4 as [-> H4]; [|congruence].
  apply v_groups_inj in E5 as [-> H5]; [|apply v_algorithm_inj].
  apply v_groups_inj in E6 as [-> H6]; [|apply v_unit_inj].
  apply v_groups_inj in E7 as [-> H7]; [|apply v_unit_inj].
  apply v_groups_inj in E8 as [-> H8]; [|apply v_unit_inj].
  apply v_groups_inj in E9 as [-> H9]; [|apply v_reshape_option_inj].
  apply v_groups_inj in E10 as [-> H10]; [|apply v_unit_inj].
  apply v_groups_inj in E11 as [-> H11]; [|congruence].
  apply v_groups_inj in E12 as [-> H12]; [|apply v_roles_inj].
  split; [reflexivity|]. intros i H. repeat destruct H as [H|H]; auto.
Qed.

(** ** Lines *)

Definition no_newline (t : bytes) : Prop := Forall (fun c => bval c <> 10) t.

Lemma newline_iff c : Byte.eqb c newline = false <-> bval c <> 10.
Proof. destruct c; split; intros H; try reflexivity; try discriminate; now contradict H. Qed.
Lemma one_line_iff t : one_line t <-> no_newline t.
Proof. split; apply Forall_impl; intros c H; now apply newline_iff. Qed.

Lemma lines_line w t : no_newline w -> lines (w ++ newline :: t) = w :: lines t.
Proof.
  induction 1 as [|c w C F IH]; cbn [app lines]; [reflexivity|]. destruct (N.eqb_spec (bval c) 10); [contradiction|]. now rewrite IH.
Qed.

(** Texts that end with the end of a line. *)
Inductive closed : bytes -> Prop :=
| closed_nil : closed []
| closed_line w t : no_newline w -> closed t -> closed (w ++ newline :: t).

Lemma closed_end t : closed (t ++ [newline]).
Proof.
  induction t as [|c t IH]; [apply (closed_line [] []); constructor|]. cbn [app].
  destruct (N.eq_dec (bval c) 10) as [E|E].
  - assert (c = newline) as -> by now apply bval_inj. apply (closed_line []); [constructor|exact IH].
  - inversion IH as [Q|w u W U Q]; [now destruct t|]. change (c :: w ++ newline :: u) with ((c :: w) ++ newline :: u). apply closed_line; [now constructor|exact U].
Qed.
Lemma closed_app t u : closed t -> closed u -> closed (t ++ u).
Proof. intros T U. induction T; [exact U|]. rewrite <- app_assoc. cbn [app]. now apply closed_line. Qed.
Lemma lines_app t u : closed t -> lines (t ++ u) = lines t ++ lines u.
Proof. induction 1 as [|w t W T IH]; [reflexivity|]. rewrite <- app_assoc. cbn [app]. rewrite !lines_line by exact W. now rewrite IH. Qed.
Lemma pad_false_line w t : no_newline w -> pad false (w ++ newline :: t) = w ++ newline :: pad true t.
Proof.
  induction 1 as [|c w C F IH]; [reflexivity|]. cbn [app pad]. apply newline_iff in C. now rewrite C, IH.
Qed.
Lemma pad_true_line w t : no_newline w -> pad true (w ++ newline :: t) = (lit "    " ++ w) ++ newline :: pad true t.
Proof.
  intros W. destruct W as [|c w C F]; [reflexivity|]. cbn [app pad]. apply newline_iff in C. rewrite C, pad_false_line by exact F. reflexivity.
Qed.
Lemma indent_line w : no_newline w -> no_newline (lit "    " ++ w).
Proof. intros W. apply Forall_app. split; [repeat constructor; vm_compute; discriminate|exact W]. Qed.
Lemma closed_pad t : closed t -> closed (pad true t) /\ lines (pad true t) = map (app (lit "    ")) (lines t).
Proof.
  induction 1 as [|w t W T [IH L]]; [split; [constructor|reflexivity]|]. rewrite pad_true_line by exact W. split.
  - apply closed_line; [now apply indent_line|exact IH].
  - rewrite lines_line by now apply indent_line. rewrite lines_line by exact W. cbn [map]. now rewrite L.
Qed.

(** The lines of a field: one if there is no problem; otherwise all between the first and the last are indented. *)
Lemma field_lines {A} (f : A -> bytes) w o : no_newline w ->
  let t := pad true (w ++ lit ": " ++ debug_option f o ++ lit "," ++ [newline]) in
  closed t /\
  lines t = match o with
            | None => [lit "    " ++ w ++ lit ": None,"]
            | Some a => (lit "    " ++ w ++ lit ": Some(") :: map (app (lit "        ")) (lines (f a ++ lit "," ++ [newline])) ++ [lit "    ),"]
            end.
Proof.
  intros W t.
  assert (Lit : forall s, no_newline (lit s) -> no_newline (w ++ lit s)) by (intros s H; apply Forall_app; auto).
  assert (C : closed (w ++ lit ": " ++ debug_option f o ++ lit "," ++ [newline])).
  { rewrite !app_assoc. apply closed_end. }
  destruct (closed_pad _ C) as [C' L]. split; [exact C'|]. unfold t. rewrite L. destruct o as [a|]; cbn [debug_option].
  - unfold debug_tuple. cbn [flat_map].
    assert (Ca : closed (f a ++ lit "," ++ [newline])) by (rewrite app_assoc; apply closed_end).
    destruct (closed_pad _ Ca) as [Cp Lp].
    replace (w ++ lit ": " ++ (lit "Some" ++ lit "(" ++ [newline] ++ (pad true (f a ++ lit "," ++ [newline]) ++ []) ++ lit ")") ++ lit "," ++ [newline])
      with ((w ++ lit ": Some(") ++ newline :: pad true (f a ++ lit "," ++ [newline]) ++ lit ")," ++ newline :: []).
    2:{ rewrite app_nil_r, <- !app_assoc. reflexivity. }
    rewrite lines_line by (apply Lit; repeat constructor; vm_compute; discriminate). rewrite lines_app by exact Cp. rewrite Lp.
    rewrite lines_line by (repeat constructor; vm_compute; discriminate). cbn [lines map]. rewrite map_app, map_map. cbn [map]. f_equal.
  - replace (w ++ lit ": " ++ lit "None" ++ lit "," ++ [newline]) with ((w ++ lit ": None,") ++ newline :: []) by (rewrite <- !app_assoc; reflexivity).
    rewrite lines_line by (apply Lit; repeat constructor; vm_compute; discriminate). reflexivity.
Qed.

(** ** C90: looking for a line *)

Definition none_line (question : bytes) : bytes := name "    " ++ question ++ name ": None,".

(** A field whose value is optional, and whether there is one. *)
Definition optional (fv : bytes * bytes) (q : bytes * bool) : Prop :=
  fst fv = fst q /\ exists A (f : A -> bytes) o, snd fv = debug_option f o /\ snd q = match o with Some _ => true | None => false end.

Lemma optional_fields plain ids d : Forall2 optional
  [(lit "device_too_small_problem", debug_option (debug_ids plain ids) (dg_too_small d));
       (lit "missing_superblock_problem", debug_option (debug_ids plain ids) (dg_missing d));
       (lit "array_uuid_problem", debug_option (debug_by plain ids debug_uuid) (dg_uuid d));
       (lit "array_name_problem", debug_option (debug_by plain ids (debug_os plain)) (dg_name d));
       (lit "algorithm_problem", debug_option (debug_by plain ids debug_algorithm) (dg_algorithm d));
       (lit "size_problem", debug_option (debug_by plain ids debug_sector_count) (dg_size d));
       (lit "chunk_size_problem", debug_option (debug_by plain ids debug_sector_count) (dg_chunk_size d));
       (lit "device_count_problem", debug_option (debug_by plain ids debug_device_count) (dg_device_count d));
       (lit "reshape_problem", debug_option (debug_by plain ids (debug_option debug_reshape)) (dg_reshape d));
       (lit "event_count_problem", debug_option (debug_by plain ids debug_event_count) (dg_event_count d));
       (lit "device_role_index_problem", debug_option (debug_by plain ids debug_uint) (dg_role_index d));
       (lit "device_roles_problem", debug_option (debug_by plain ids (fun l => debug_list (map debug_role l))) (dg_roles d))]
  (questions d).
Proof.
  repeat (constructor; [split; [reflexivity|]; eexists; eexists; eexists; split; reflexivity|]). constructor.
Qed.

(** A name that starts with a letter. *)
Definition plain_name (w : bytes) : Prop := good_name w /\ no_newline w.

Lemma none_in_fields q (Q : plain_name q) fs qs : Forall2 optional fs qs -> Forall (fun x => no_newline (fst x)) qs ->
  let t := flat_map (fun '(f, v) => pad true (f ++ lit ": " ++ v ++ lit "," ++ [newline])) fs in
  closed t /\ (In (none_line q) (lines t) <-> In (q, false) qs).
Proof.
  induction 1 as [|[f v] [g b] fs qs [Ef (A & h & o & Ev & Eb)] H IH]; intros F; [split; [constructor|reflexivity]|].
  cbn [fst snd] in *. subst f v b. inversion F as [|? ? F1 F2]; subst. destruct (IH F2) as [C I]. cbn [fst] in F1.
  destruct (field_lines h g o F1) as [Cf Lf]. cbn [flat_map]. split; [now apply closed_app|]. rewrite lines_app by exact Cf. rewrite in_app_iff, I, Lf.
  cbn [In]. destruct o as [a|].
  - split; [|intros [X|X]; [discriminate X|auto]]. intros [[X|X]|X]; [| |auto].
    + exfalso. assert (Y : rev (none_line q) = rev (lit "    " ++ g ++ lit ": Some(")) by (now rewrite X). unfold none_line in Y. rewrite !rev_app_distr in Y. discriminate Y.
    + exfalso. apply in_app_iff in X as [X|[X|[]]].
      * apply in_map_iff in X as (l & X & _). unfold none_line in X. change (lit "        ") with (name "    " ++ lit "    ") in X. rewrite <- app_assoc in X.
        apply app_inv_head in X. destruct Q as [[Q1 Q2] _]. destruct q as [|c q]; [contradiction|]. inversion Q2 as [|? ? W _]; subst. injection X as X _. subst c. discriminate W.
      * unfold none_line in X. change (lit "    ),") with (name "    " ++ lit "),") in X. apply app_inv_head in X. destruct Q as [[Q1 Q2] _].
        destruct q as [|c q]; [contradiction|]. inversion Q2 as [|? ? W _]; subst. injection X as X _. subst c. discriminate W.
  - cbn [In]. split.
    + intros [[X|[]]|X]; [|auto]. left. unfold none_line in X. apply app_inv_head in X. apply app_inv_tail in X. now subst.
    + intros [X|X]; [|auto]. injection X as <-. left. left. reflexivity.
Qed.

Theorem text_none_lines : forall plain strerror quote ids d out q b,
  prints plain strerror quote (PrDiagnosis ids d) out -> In (q, b) (questions d) ->
  (In (none_line q) (lines out) <-> b = false).
Proof.
  intros plain strerror quote ids d out q b (d' & It & ->) Iq.
  assert (Eq : questions d' = questions d).
  { destruct It as (H1 & H2 & H3 & H4 & H5 & H6 & H7 & H8 & H9 & H10 & H11 & H12). destruct d, d'. unfold questions. cbn in *.
    repeat match goal with H : reordered ?a ?b |- _ => destruct a, b; cbn in H; try contradiction; clear H end; reflexivity. }
  assert (Qn : Forall (fun x => plain_name (fst x)) (questions d')).
  { repeat constructor; try (vm_compute; discriminate). }
  assert (Q : plain_name q).
  { rewrite Eq in Qn. rewrite Forall_forall in Qn. exact (Qn _ Iq). }
  assert (Nn : Forall (fun x => no_newline (fst x)) (questions d')) by (revert Qn; apply Forall_impl; now intros x [_ X]).
  unfold stdout, debug_diagnosis, debug_struct.
  destruct (none_in_fields q Q _ _ (optional_fields plain ids d') Nn) as [C I].
  rewrite <- !app_assoc. change (lit "Diagnosis" ++ lit " {" ++ [newline] ++ ?x) with (lit "Diagnosis {" ++ newline :: x).
  rewrite lines_line by (repeat constructor; vm_compute; discriminate). rewrite lines_app by exact C.
  change (lines (lit "}" ++ [newline])) with [lit "}"]. cbn [In]. rewrite in_app_iff, I, Eq. cbn [In].
  assert (U : forall b', In (q, b') (questions d) -> b' = b).
  { intros b' Ib. assert (ND : NoDup (map fst (questions d))).
    { repeat (constructor; [cbn [In]; intros X; repeat destruct X as [X|X]; try discriminate X; contradiction|]). constructor. }
    clear -ND Ib Iq. induction (questions d) as [|[x y] l IH]; [contradiction|]. cbn [map fst] in ND. inversion ND as [|? ? N1 N2]; subst.
    destruct Ib as [Ib|Ib], Iq as [Iq|Iq].
    - congruence.
    - exfalso. injection Ib as -> ->. apply N1. apply in_map_iff. exists (q, b). auto.
    - exfalso. injection Iq as -> ->. apply N1. apply in_map_iff. exists (q, b'). auto.
    - auto. }
  split.
  - intros [X|[X|[X|[]]]]; [discriminate X|symmetry; now apply U|discriminate X].
  - intros ->. auto.
Qed.
Print Assumptions text_none_lines.

(** ** C91: lines for failures *)

Definition fails_as (strerror : N -> bytes) (quote : bytes -> bytes) (fe : bytes * ekind) : bytes :=
  quote (fst fe) ++ name ": " ++ display_error strerror (snd fe).

Lemma display_one_line strerror e : (forall n, no_newline (strerror n)) -> no_newline (display_error strerror e).
Proof.
  intros S. destruct e as [| | | |n]; cbn [display_error]; try (repeat constructor; vm_compute; discriminate).
  apply Forall_app. split; [apply S|]. apply Forall_app. split; [repeat constructor; vm_compute; discriminate|].
  apply Forall_app. split; [|repeat constructor; vm_compute; discriminate].
  destruct (debug_uint_reads n) as (_ & D & _). revert D. apply Forall_impl. intros c D E. assert (c = newline) as -> by now apply bval_inj. discriminate D.
Qed.

Theorem text_failures : forall plain strerror quote l out,
  (forall n, no_newline (strerror n)) -> (forall p, no_newline (quote p)) ->
  prints plain strerror quote (PrErrors l) out ->
  lines out = map (fails_as strerror quote) l.
Proof.
  intros plain strerror quote l out S Q ->. cbn [stdout]. induction l as [|[p e] l IH]; [reflexivity|]. cbn [flat_map map].
  replace ((quote p ++ lit ": " ++ display_error strerror e ++ [newline]) ++
    flat_map (fun '(path, e) => quote path ++ lit ": " ++ display_error strerror e ++ [newline]) l)
    with (fails_as strerror quote (p, e) ++ newline :: flat_map (fun '(path, e) => quote path ++ lit ": " ++ display_error strerror e ++ [newline]) l).
  2:{ unfold fails_as. cbn [fst snd]. rewrite <- !app_assoc. reflexivity. }
  rewrite lines_line; [now rewrite IH|]. apply Forall_app. split; [apply Q|]. apply Forall_app. split; [repeat constructor; vm_compute; discriminate|now apply display_one_line].
Qed.
Print Assumptions text_failures.

(** ** C92: the text determines what is reported *)

Lemma digits_stop a b c c' x y :
  Forall (fun d => decimal_digit d = true) a -> Forall (fun d => decimal_digit d = true) b -> decimal_digit c = false -> decimal_digit c' = false ->
  a ++ c :: x = b ++ c' :: y -> a = b.
Proof.
  intros A; revert b. induction A as [|d a D A IH]; intros b B C C' E; destruct B as [|d' b D' B]; [reflexivity| | |].
  - injection E as -> _. congruence.
  - injection E as -> _. congruence.
  - injection E as -> E. f_equal. now apply IH.
Qed.

Lemma debug_uint_inj n m : debug_uint n = debug_uint m -> n = m.
Proof. intros E. destruct (debug_uint_reads n) as (H & _), (debug_uint_reads m) as (H' & _). congruence. Qed.

Lemma display_error_inj strerror e e' : display_error strerror e = display_error strerror e' -> e = e'.
Proof.
  intros E.
  assert (R : rev (display_error strerror e) = rev (display_error strerror e')) by now rewrite E. clear E.
  assert (O : forall n, rev (display_error strerror (OsError n)) = x29 :: rev (debug_uint n) ++ x20 :: rev (strerror n ++ lit " (os error")).
  { intros n. cbn [display_error]. change (lit " (os error ") with (lit " (os error" ++ [x20]). rewrite !rev_app_distr. cbn [rev app]. rewrite <- !app_assoc. reflexivity. }
  destruct e as [| | | |n], e' as [| | | |m]; try reflexivity; try discriminate R; try (exfalso; rewrite O in R; discriminate R).
  rewrite !O in R. apply cons_inj in R as [_ R]. f_equal. apply debug_uint_inj.
  apply digits_stop in R; [|apply Forall_rev; apply debug_uint_reads|apply Forall_rev; apply debug_uint_reads|reflexivity|reflexivity].
  rewrite <- (rev_involutive (debug_uint n)), R. apply rev_involutive.
Qed.

Lemma reordered_sym {A} (a b : option (list A)) : reordered a b -> reordered b a.
Proof. destruct a, b; cbn; auto. apply Permutation_sym. Qed.
Lemma reordered_trans {A} (a b c : option (list A)) : reordered a b -> reordered b c -> reordered a c.
Proof. destruct a, b, c; cbn; auto; try contradiction. apply Permutation_trans. Qed.
Lemma iterated_sym d d' : iterated d d' -> iterated d' d.
Proof. unfold iterated. intuition; now apply reordered_sym. Qed.
Lemma iterated_trans a b c : iterated a b -> iterated b c -> iterated a c.
Proof.
  intros (A1 & A2 & A3 & A4 & A5 & A6 & A7 & A8 & A9 & A10 & A11 & A12) (B1 & B2 & B3 & B4 & B5 & B6 & B7 & B8 & B9 & B10 & B11 & B12).
  repeat split; eapply reordered_trans; eassumption.
Qed.
Lemma in_set_reordered a b i : reordered a b -> in_set a i -> in_set b i.
Proof. destruct a, b; cbn; auto; try contradiction. intros P. now apply Permutation_in. Qed.
Lemma in_groups_reordered {K} (a b : option (list (K * list N))) i : reordered a b -> in_groups a i -> in_groups b i.
Proof. destruct a, b; cbn; auto; try contradiction. intros P (k & m & H & I). exists k, m. split; [|exact I]. revert H. now apply Permutation_in. Qed.
Lemma names_member_iterated d d' i : iterated d d' -> names_member d i -> names_member d' i.
Proof.
  intros (A1 & A2 & A3 & A4 & A5 & A6 & A7 & A8 & A9 & A10 & A11 & A12) H. unfold names_member in *.
  repeat destruct H as [H|H];
    first [eapply in_set_reordered in H; [|eassumption]|eapply in_groups_reordered in H; [|eassumption]]; auto 20.
Qed.

(** The same report: the same failures in the same order, or the same answers about members given by the same paths. *)
Definition same_report (p p' : printed) : Prop :=
  match p, p' with
  | PrErrors l, PrErrors l' => l = l'
  | PrDiagnosis ids d, PrDiagnosis ids' d' =>
      iterated d d' /\ forall i, names_member d i -> id_reference (id_at ids i) = id_reference (id_at ids' i)
  | _, _ => False
  end.

Lemma diagnosis_not_failures plain strerror quote ids d l : quoting quote -> (forall n, no_newline (strerror n)) ->
  stdout plain strerror quote (PrDiagnosis ids d) <> stdout plain strerror quote (PrErrors l).
Proof.
  intros [Q _] S E.
  assert (L : lines (stdout plain strerror quote (PrErrors l)) = map (fails_as strerror quote) l) by (apply (text_failures plain); auto; reflexivity).
  rewrite <- E in L. unfold stdout, debug_diagnosis, debug_struct in L. rewrite <- !app_assoc in L.
  change (lit "Diagnosis" ++ lit " {" ++ [newline] ++ ?x) with (lit "Diagnosis {" ++ newline :: x) in L.
  rewrite lines_line in L by (repeat constructor; vm_compute; discriminate). destruct l as [|[p e] l]; [discriminate L|]. cbn [map] in L.
  apply cons_inj in L as [L _]. unfold fails_as in L. cbn [fst snd] in L.
  assert (I : In x3a (lit "Diagnosis {")) by (rewrite L; apply in_app_iff; right; left; reflexivity).
  cbn in I. repeat destruct I as [I|I]; try discriminate I. contradiction.
Qed.

Theorem text_unambiguous : forall plain strerror quote p p' out,
  quoting quote -> (forall n, no_newline (strerror n)) ->
  prints plain strerror quote p out -> prints plain strerror quote p' out -> same_report p p'.
Proof.
  intros plain strerror quote p p' out Q S P P'. destruct p as [ids d|l], p' as [ids' d'|l'].
  - destruct P as (g & I & ->), P' as (g' & I' & E).
    assert (V : Some (v_diagnosis (fun i => id_reference (id_at ids i)) g) = Some (v_diagnosis (fun i => id_reference (id_at ids' i)) g')).
    { rewrite <- (read_says _ _ (says_diagnosis plain ids g)), <- (read_says _ _ (says_diagnosis plain ids' g')). now f_equal. }
    assert (V' : v_diagnosis (fun i => id_reference (id_at ids i)) g = v_diagnosis (fun i => id_reference (id_at ids' i)) g') by congruence. clear V.
    apply v_diagnosis_inj in V' as [<- R]. split; [apply (iterated_trans _ g); [exact I|now apply iterated_sym]|].
    intros i N. apply R. exact (names_member_iterated _ _ _ I N).
  - destruct P as (g & I & ->). cbn [prints] in P'. now apply diagnosis_not_failures in P'.
  - destruct P' as (g & I & ->). cbn [prints] in P. now apply diagnosis_not_failures in P.
  - destruct Q as [Q1 Q2]. apply text_failures in P, P'; auto. rewrite P in P'. clear P S. cbn [same_report]. revert l' P'.
    induction l as [|[p e] l IH]; intros [|[p' e'] l'] E; try reflexivity; try discriminate E. cbn [map] in E. apply cons_inj in E as [E T].
    unfold fails_as in E. cbn [fst snd] in E. pose proof (Q2 _ _ _ _ E) as <-. apply app_inv_head, app_inv_head, display_error_inj in E as <-. now rewrite (IH _ T).
Qed.
Print Assumptions text_unambiguous.

(** ** Examples *)

Definition ascii (v : N) : bool := (0x20 <=? v) && (v <? 0x7f).
Definition ex_strerror (n : N) : bytes := if n =? 2 then lit "No such file or directory" else lit "Inappropriate ioctl for device".
(** One of the many ways of quoting: as hexadecimal digits. *)
Definition ex_quote (p : bytes) : bytes := flat_map upper_hex_byte p.

Lemma ex_quote_byte : forall b, (forall c, upper_hex_byte b = upper_hex_byte c -> b = c) /\ no_newline (upper_hex_byte b) /\ ~ In x3a (upper_hex_byte b).
Proof.
  pose (un := fun w => fold_left (fun n d => 16 * n + (if bval d <? 65 then bval d - 48 else bval d - 55)) w 0).
  assert (R : forall c, un (upper_hex_byte c) = bval c /\ no_newline (upper_hex_byte c) /\ ~ In x3a (upper_hex_byte c)).
  { intros c. destruct c; (split; [reflexivity|]); (split; [repeat constructor; vm_compute; discriminate|]); vm_compute; intros [X|[X|[]]]; discriminate X. }
  intros b. destruct (R b) as (E & N & C). split; [|auto]. intros c H. apply bval_inj. destruct (R c) as (E' & _). congruence.
Qed.
Lemma ex_quoting : quoting ex_quote.
Proof.
  split.
  - intros p. unfold ex_quote. induction p as [|b p IH]; [constructor|]. cbn [flat_map]. apply Forall_app. split; [apply ex_quote_byte|exact IH].
  - intros p p' r r'. unfold ex_quote. revert p'.
    assert (C : forall b p r q r', flat_map upper_hex_byte (b :: p) ++ r <> x3a :: q ++ r').
    { intros b q r1 q2 r2 E. destruct (ex_quote_byte b) as (_ & _ & N). apply N. unfold upper_hex_byte in *. cbn [flat_map app] in E. apply cons_inj in E as [E _]. left. exact E. }
    induction p as [|b p IH]; intros [|b' p'] E; [reflexivity| | |].
    + symmetry in E. apply (C _ _ _ [x20]) in E. contradiction.
    + apply (C _ _ _ [x20]) in E. contradiction.
    + cbn [flat_map] in E. rewrite <- !app_assoc in E. unfold upper_hex_byte at 1 3 in E. cbn [app] in E.
      apply cons_inj in E as [E1 E]. apply cons_inj in E as [E2 E]. f_equal; [|exact (IH _ E)].
      apply ex_quote_byte. unfold upper_hex_byte. now rewrite E1, E2.
Qed.
Lemma ex_strerror_line n : no_newline (ex_strerror n).
Proof. unfold ex_strerror. destruct (n =? 2); repeat constructor; vm_compute; discriminate. Qed.

(** The whole text for a member, a device without a superblock and one that is too small. *)
Definition ex_out : bytes :=
  stdout ascii ex_strerror ex_quote
    (PrDiagnosis [DeviceId 0 (Some [x61]); DeviceId 1 (Some [x62]); DeviceId 2 (Some [x63])]
       (Diagnosis (Some [2]) (Some [1]) None None None None None None None None None None)).
Example text_ex : lines ex_out = map lit
  ["Diagnosis {";
   "    device_too_small_problem: Some(";
   "        {";
   "            MdDeviceId {";
   "                internal_index: 2,";
   "                user_reference: Some(";
   "                    ""c"",";
   "                ),";
   "            },";
   "        },";
   "    ),";
   "    missing_superblock_problem: Some(";
   "        {";
   "            MdDeviceId {";
   "                internal_index: 1,";
   "                user_reference: Some(";
   "                    ""b"",";
   "                ),";
   "            },";
   "        },";
   "    ),";
   "    array_uuid_problem: None,";
   "    array_name_problem: None,";
   "    algorithm_problem: None,";
   "    size_problem: None,";
   "    chunk_size_problem: None,";
   "    device_count_problem: None,";
   "    reshape_problem: None,";
   "    event_count_problem: None,";
   "    device_role_index_problem: None,";
   "    device_roles_problem: None,";
   "}"]%string.
Proof. vm_compute. reflexivity. Qed.

Lemma iterated_refl d : iterated d d.
Proof. assert (R : forall A (o : option (list A)), reordered o o) by (intros A [l|]; cbn; auto). repeat split; apply R. Qed.

Example text_read_back_ex : exists ids g d,
  main_program ex_pol ex_open (fun l => l) (fun l => l) [[x61]; [x62]; [x63]] = Ok (PrDiagnosis ids g) /\ iterated g d /\
  read_text ex_out = Some (v_diagnosis (fun i => nth_error [[x61]; [x62]; [x63]] (N.to_nat i)) d).
Proof.
  apply (text_read_back ex_pol ex_open (fun l => l) (fun l => l) _ ascii ex_strerror ex_quote);
    [reflexivity|reflexivity|vm_compute; discriminate|exact ex_devices|].
  eexists. split; [exact (proj2 main_diagnosis_ex)|]. eexists. split; [apply iterated_refl|reflexivity].
Qed.

(** Every kind of value, names and paths with quotes, colons, line ends and bytes that are not text. *)
Definition ex_wild : diagnosis :=
  Diagnosis (Some [2]) (Some [1; 0]) (Some [(UuidShort [x00; xff; x12; x30], [0]); (UuidLong [xaa], [1; 2])])
    (Some [([x61; x22; xc3; xa4; xff; x0a; x3a; x20], [0; 2]); ([], [1])]) (Some [(AlgRaid5 R5LeftAsymmetric, [0])]) (Some [(u64_max, [])])
    (Some []) None (Some [(None, [0]); (Some (Reshape (AlgRaid6 R6Parity06) 1 2 300 4), [2])]) (Some [(7, [2; 2])]) (Some [(0, [1])])
    (Some [([1; 2; 65535], [2]); ([], [])]).
Definition ex_wild_ids : list device_id := [DeviceId 0 (Some (lit "/dev/sda', }" ++ [newline])); DeviceId 1 None].
Example text_read_back_wild_ex :
  read_text (stdout ascii ex_strerror ex_quote (PrDiagnosis ex_wild_ids ex_wild)) =
    Some (v_diagnosis (fun i => id_reference (id_at ex_wild_ids i)) ex_wild).
Proof. vm_compute. reflexivity. Qed.

Example text_none_lines_ex :
  In (lit "    device_count_problem: None,") (lines (stdout ascii ex_strerror ex_quote (PrDiagnosis ex_wild_ids ex_wild))) /\
  ~ In (lit "    chunk_size_problem: None,") (lines (stdout ascii ex_strerror ex_quote (PrDiagnosis ex_wild_ids ex_wild))).
Proof.
  pose proof (fun q b => text_none_lines ascii ex_strerror ex_quote ex_wild_ids ex_wild _ q b (ex_intro _ ex_wild (conj (iterated_refl _) eq_refl))) as T. split.
  - apply (T (name "device_count_problem") false); [do 7 right; left|]; reflexivity.
  - intros H. apply (T (name "chunk_size_problem") true) in H; [discriminate H|]. do 6 right. left. reflexivity.
Qed.

Example text_failures_ex :
  lines (stdout ascii ex_strerror ex_quote (PrErrors [([x64], OsError 2); ([x65; x0a], OsError 25)])) =
    [lit "64: No such file or directory (os error 2)"; lit "650A: Inappropriate ioctl for device (os error 25)"].
Proof.
  rewrite (text_failures ascii ex_strerror ex_quote [([x64], OsError 2); ([x65; x0a], OsError 25)] _ ex_strerror_line (proj1 ex_quoting) eq_refl). vm_compute. reflexivity.
Qed.

(** The same diagnosis of a device with another path, or one with another error, is printed otherwise. *)
Example text_unambiguous_ex : forall out,
  let d := Diagnosis (Some [2]) None None None None None None None None None None None in
  ~ (prints ascii ex_strerror ex_quote (PrDiagnosis [DeviceId 2 (Some [x61])] d) out /\
     prints ascii ex_strerror ex_quote (PrDiagnosis [DeviceId 2 (Some [x61; x61])] d) out) /\
  ~ (prints ascii ex_strerror ex_quote (PrErrors [([x61], OsError 25)]) out /\ prints ascii ex_strerror ex_quote (PrErrors [([x61], OsError 5)]) out).
Proof.
  intros out d. split.
  - intros [P P']. destruct (text_unambiguous _ _ _ _ _ _ ex_quoting ex_strerror_line P P') as [_ H]. discriminate (H 2 (or_introl (or_introl eq_refl))).
  - intros [P P']. discriminate (text_unambiguous _ _ _ _ _ _ ex_quoting ex_strerror_line P P').
Qed.
