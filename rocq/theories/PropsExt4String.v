(** Names: property C56. *)

From Verif Require Import Base BaseFacts Ext4String SpecExt4String.

(** ** Characters by their bytes *)
Definition char_bytes (l : bytes) : bool :=
  match l with
  | [b0] => utf8_width b0 =? 1
  | [b0; b1] => (utf8_width b0 =? 2) && continuation b1
  | [b0; b1; b2] => (utf8_width b0 =? 3) && second_of_three b0 b1 && continuation b2
  | [b0; b1; b2; b3] => (utf8_width b0 =? 4) && second_of_four b0 b1 && continuation b2 && continuation b3
  | _ => false
  end.

Lemma bval_small n : n < 256 -> bval (byte_of n) = n.
Proof. intros L. rewrite bval_byte_of. now apply N.mod_small. Qed.
Lemma bval_six v : bval (six_bits v) = 0x80 + v mod 64.
Proof. unfold six_bits. apply bval_small. pose proof (N.mod_lt v 64 ltac:(lia)). lia. Qed.

Lemma continuation_six v : continuation (six_bits v) = true.
Proof. unfold continuation, in_range. rewrite bval_six. pose proof (N.mod_lt v 64 ltac:(lia)). apply andb_true_intro. rewrite !N.leb_le. lia. Qed.

Lemma in_range_true lo hi v : in_range lo hi v = true <-> lo <= v <= hi.
Proof. unfold in_range. rewrite Bool.andb_true_iff, !N.leb_le. reflexivity. Qed.

Lemma width_spec b : 
  (bval b <= 0x7f /\ utf8_width b = 1) \/ (0x80 <= bval b <= 0xc1 /\ utf8_width b = 0) \/ (0xc2 <= bval b <= 0xdf /\ utf8_width b = 2) \/
  (0xe0 <= bval b <= 0xef /\ utf8_width b = 3) \/ (0xf0 <= bval b <= 0xf4 /\ utf8_width b = 4) \/ (0xf5 <= bval b /\ utf8_width b = 0).
Proof.
  unfold utf8_width. destruct (N.leb_spec (bval b) 0x7f); [auto|].
  destruct (in_range 0xc2 0xdf (bval b)) eqn:A; [apply in_range_true in A; tauto|].
  destruct (in_range 0xe0 0xef (bval b)) eqn:B; [apply in_range_true in B; tauto|].
  destruct (in_range 0xf0 0xf4 (bval b)) eqn:C; [apply in_range_true in C; tauto|].
  assert (NR : forall lo hi, in_range lo hi (bval b) = false -> ~ (lo <= bval b <= hi)).
  { intros lo hi R Q. apply in_range_true in Q. congruence. }
  apply NR in A, B, C. pose proof (bval_bound b). destruct (N.le_gt_cases (bval b) 0xc1); [right; left; split; [lia|reflexivity]|].
  do 5 right. split; [lia|reflexivity].
Qed.

Lemma cont_spec b : continuation b = true <-> 0x80 <= bval b <= 0xbf.
Proof. apply in_range_true. Qed.
Lemma three_spec b0 b1 : second_of_three b0 b1 = true <->
  0x80 <= bval b1 <= 0xbf /\ (bval b0 = 0xe0 -> 0xa0 <= bval b1) /\ (bval b0 = 0xed -> bval b1 <= 0x9f).
Proof. unfold second_of_three. destruct (N.eqb_spec (bval b0) 0xe0); [|destruct (N.eqb_spec (bval b0) 0xed)]; rewrite in_range_true; lia. Qed.
Lemma four_spec b0 b1 : second_of_four b0 b1 = true <->
  0x80 <= bval b1 <= 0xbf /\ (bval b0 = 0xf0 -> 0x90 <= bval b1) /\ (bval b0 = 0xf4 -> bval b1 <= 0x8f).
Proof. unfold second_of_four. destruct (N.eqb_spec (bval b0) 0xf0); [|destruct (N.eqb_spec (bval b0) 0xf4)]; rewrite in_range_true; lia. Qed.

Lemma cut v k : v = v / k * k + v mod k.
Proof. destruct (N.eq_dec k 0) as [->|K]; [destruct v; reflexivity|]. rewrite N.mul_comm. now apply N.div_mod. Qed.

Lemma encode_char_bytes v : scalar v -> char_bytes (encode_char v) = true.
Proof.
  unfold scalar, encode_char. intros SV.
  destruct (N.ltb_spec v 0x80); [|destruct (N.ltb_spec v 0x800); [|destruct (N.ltb_spec v 0x10000)]]; cbn [char_bytes].
  - assert (B : bval (byte_of v) = v) by (apply bval_small; lia).
    destruct (width_spec (byte_of v)) as [[? ->]|]; [reflexivity|lia].
  - pose proof (cut v 64). pose proof (N.mod_lt v 64 ltac:(lia)).
    assert (B : bval (byte_of (0xc0 + v / 64)) = 0xc0 + v / 64) by (apply bval_small; lia).
    destruct (width_spec (byte_of (0xc0 + v / 64))) as [|[|[[_ ->]|]]]; try lia. now rewrite continuation_six.
  - pose proof (cut v 64). pose proof (N.mod_lt v 64 ltac:(lia)).
    pose proof (cut (v / 64) 64) as C2. pose proof (N.mod_lt (v / 64) 64 ltac:(lia)).
    rewrite N.div_div in C2 by lia. change (64 * 64) with 4096 in C2.
    assert (B : bval (byte_of (0xe0 + v / 4096)) = 0xe0 + v / 4096) by (apply bval_small; lia).
    destruct (width_spec (byte_of (0xe0 + v / 4096))) as [|[|[|[[_ ->]|]]]]; try lia. rewrite continuation_six.
    assert (X : second_of_three (byte_of (0xe0 + v / 4096)) (six_bits (v / 64)) = true).
    { apply three_spec. rewrite B, bval_six. lia. }
    now rewrite X.
  - pose proof (cut v 64). pose proof (N.mod_lt v 64 ltac:(lia)).
    pose proof (cut (v / 64) 64) as C2. pose proof (N.mod_lt (v / 64) 64 ltac:(lia)).
    rewrite N.div_div in C2 by lia. change (64 * 64) with 4096 in C2.
    pose proof (cut (v / 4096) 64) as C3. pose proof (N.mod_lt (v / 4096) 64 ltac:(lia)).
    rewrite N.div_div in C3 by lia. change (4096 * 64) with 262144 in C3.
    assert (B : bval (byte_of (0xf0 + v / 262144)) = 0xf0 + v / 262144) by (apply bval_small; lia).
    destruct (width_spec (byte_of (0xf0 + v / 262144))) as [|[|[|[|[[_ ->]|]]]]]; try lia. rewrite !continuation_six.
    assert (X : second_of_four (byte_of (0xf0 + v / 262144)) (six_bits (v / 4096)) = true).
    { apply four_spec. rewrite B, bval_six. lia. }
    now rewrite X.
Qed.

Lemma digit a b k : b < k -> (a * k + b) / k = a /\ (a * k + b) mod k = b.
Proof. intros L. rewrite N.add_comm, N.div_add, N.mod_add by lia. rewrite N.div_small, N.mod_small by lia. lia. Qed.

Lemma char_bytes_char l : char_bytes l = true -> is_char l.
Proof.
  intros H. destruct l as [|b0 [|b1 [|b2 [|b3 [|]]]]]; try discriminate; cbn [char_bytes] in H;
    repeat (apply Bool.andb_true_iff in H as [H ?]); apply N.eqb_eq in H;
    destruct (width_spec b0) as [[W Q]|[[W Q]|[[W Q]|[[W Q]|[[W Q]|[W Q]]]]]]; rewrite Q in H; try discriminate; clear H Q;
    repeat match goal with
    | X : continuation _ = true |- _ => apply cont_spec in X
    | X : second_of_three _ _ = true |- _ => apply three_spec in X
    | X : second_of_four _ _ = true |- _ => apply four_spec in X
    end.
  - exists (bval b0). unfold scalar, encode_char. split; [lia|]. destruct (N.ltb_spec (bval b0) 0x80); [|lia]. now rewrite byte_of_bval.
  - set (v := (bval b0 - 0xc0) * 64 + (bval b1 - 0x80)). destruct (digit (bval b0 - 0xc0) (bval b1 - 0x80) 64) as [D M]; [lia|]. fold v in D, M.
    exists v. unfold scalar, encode_char. split; [lia|].
    destruct (N.ltb_spec v 0x80); [lia|]. destruct (N.ltb_spec v 0x800); [|lia]. unfold six_bits. rewrite D, M.
    f_equal; [|f_equal]; rewrite <- (byte_of_bval _) at 1; f_equal; lia.
  - set (w := (bval b0 - 0xe0) * 64 + (bval b1 - 0x80)). destruct (digit (bval b0 - 0xe0) (bval b1 - 0x80) 64) as [D M]; [lia|]. fold w in D, M.
    set (v := w * 64 + (bval b2 - 0x80)). destruct (digit w (bval b2 - 0x80) 64) as [D' M']; [lia|]. fold v in D', M'.
    exists v. unfold scalar, encode_char. split; [lia|].
    destruct (N.ltb_spec v 0x80); [lia|]. destruct (N.ltb_spec v 0x800); [lia|]. destruct (N.ltb_spec v 0x10000); [|lia].
    unfold six_bits. change 4096 with (64 * 64). rewrite <- N.div_div by lia. rewrite M', D', D, M.
    f_equal; [|f_equal; [|f_equal]]; rewrite <- (byte_of_bval _) at 1; f_equal; lia.
  - set (w := (bval b0 - 0xf0) * 64 + (bval b1 - 0x80)). destruct (digit (bval b0 - 0xf0) (bval b1 - 0x80) 64) as [D M]; [lia|]. fold w in D, M.
    set (x := w * 64 + (bval b2 - 0x80)). destruct (digit w (bval b2 - 0x80) 64) as [D' M']; [lia|]. fold x in D', M'.
    set (v := x * 64 + (bval b3 - 0x80)). destruct (digit x (bval b3 - 0x80) 64) as [D'' M'']; [lia|]. fold v in D'', M''.
    exists v. unfold scalar, encode_char. split; [lia|].
    destruct (N.ltb_spec v 0x80); [lia|]. destruct (N.ltb_spec v 0x800); [lia|]. destruct (N.ltb_spec v 0x10000); [lia|].
    unfold six_bits. change 262144 with (64 * (64 * 64)). change 4096 with (64 * 64). rewrite <- !N.div_div by lia. rewrite M'', D'', D', M', D, M.
    f_equal; [|f_equal; [|f_equal; [|f_equal]]]; rewrite <- (byte_of_bval _) at 1; f_equal; lia.
Qed.

Lemma is_char_iff l : is_char l <-> char_bytes l = true.
Proof. split; [intros (v & SV & ->); now apply encode_char_bytes|apply char_bytes_char]. Qed.

(** ** Beginnings of characters by their bytes *)
Definition begins_bytes (l : bytes) : bool :=
  match l with
  | [b0] => negb (utf8_width b0 =? 0)
  | [b0; b1] => (utf8_width b0 =? 2) && continuation b1 || (utf8_width b0 =? 3) && second_of_three b0 b1 ||
                (utf8_width b0 =? 4) && second_of_four b0 b1
  | [b0; b1; b2] => (utf8_width b0 =? 3) && second_of_three b0 b1 && continuation b2 ||
                    (utf8_width b0 =? 4) && second_of_four b0 b1 && continuation b2
  | _ => char_bytes l
  end.

Lemma begins_iff l : l <> [] -> begins_char l <-> begins_bytes l = true.
Proof.
  intros NE. split.
  - intros (q & H). apply is_char_iff in H.
    destruct l as [|b0 [|b1 [|b2 [|b3 [|]]]]], q as [|c0 [|c1 [|c2 [|c3]]]]; try contradiction; cbn [app char_bytes begins_bytes] in *;
      try discriminate; try exact H; repeat (apply Bool.andb_true_iff in H as [H ?]);
      repeat match goal with X : _ = true |- _ => rewrite X; clear X end; rewrite ?Bool.orb_true_r; try reflexivity;
      apply N.eqb_eq in H; rewrite H; reflexivity.
  - intros H. unfold begins_char.
    assert (W2 : continuation x80 = true) by reflexivity.
    assert (W3 : forall b0, utf8_width b0 = 3 -> exists b1, second_of_three b0 b1 = true).
    { intros b0 W. destruct (N.eq_dec (bval b0) 0xe0) as [E|E].
      - exists xa0. apply three_spec. change (bval xa0) with 0xa0. lia.
      - exists x80. apply three_spec. change (bval x80) with 0x80. lia. }
    assert (W4 : forall b0, utf8_width b0 = 4 -> exists b1, second_of_four b0 b1 = true).
    { intros b0 W. destruct (N.eq_dec (bval b0) 0xf0) as [E|E].
      - exists x90. apply four_spec. change (bval x90) with 0x90. lia.
      - exists x80. apply four_spec. change (bval x80) with 0x80. lia. }
    destruct l as [|b0 [|b1 [|b2 [|b3 l]]]]; [contradiction| | | |]; cbn [begins_bytes] in H.
    + destruct (width_spec b0) as [[_ W]|[[_ W]|[[_ W]|[[_ W]|[[_ W]|[_ W]]]]]]; rewrite W in H; try discriminate.
      * exists []. apply is_char_iff. cbn. now rewrite W.
      * exists [x80]. apply is_char_iff. cbn [app char_bytes]. now rewrite W.
      * destruct (W3 b0 W) as (b1 & B1). exists [b1; x80]. apply is_char_iff. cbn [app char_bytes]. now rewrite W, B1.
      * destruct (W4 b0 W) as (b1 & B1). exists [b1; x80; x80]. apply is_char_iff. cbn [app char_bytes]. now rewrite W, B1.
    + apply Bool.orb_true_iff in H as [H|H]; [apply Bool.orb_true_iff in H as [H|H]|]; pose proof H as H0; apply Bool.andb_true_iff in H as [W H].
      * exists []. now apply is_char_iff.
      * exists [x80]. apply is_char_iff. cbn [app char_bytes]. now rewrite W, H.
      * exists [x80; x80]. apply is_char_iff. cbn [app char_bytes]. now rewrite W, H.
    + apply Bool.orb_true_iff in H as [H|H].
      * exists []. now apply is_char_iff.
      * exists [x80]. apply is_char_iff. cbn [app char_bytes]. now rewrite H.
    + exists []. apply is_char_iff. now rewrite app_nil_r.
Qed.

(** ** One step of the conversion *)
Definition no_char (s : bytes) : Prop := forall q r, char_bytes q = true -> s <> q ++ r.

Inductive lossy_case (s : bytes) : Prop :=
| case_char p r : char_bytes p = true -> s = p ++ r -> lossy s = p ++ lossy r -> lossy_case s
| case_part p r : no_char s -> p <> [] -> begins_bytes p = true ->
    match r with [] => True | b :: _ => begins_bytes (p ++ [b]) = false end ->
    s = p ++ r -> lossy s = replacement ++ lossy r -> lossy_case s
| case_byte b r : begins_bytes [b] = false -> s = b :: r -> lossy s = replacement ++ lossy r -> lossy_case s.

Ltac no_char_tac :=
  let q := fresh "q" in let r := fresh "r" in let C := fresh "C" in let E := fresh "E" in
  intros q r C E; destruct q as [|? [|? [|? [|? [|]]]]]; try discriminate; cbn [app char_bytes] in *; injection E; intros; subst;
  repeat match goal with X : _ = true |- _ => rewrite X in *; clear X end;
  repeat match goal with X : _ = false |- _ => rewrite X in *; clear X end;
  repeat match goal with X : utf8_width _ = _ |- _ => rewrite X in *; clear X end;
  try discriminate.

Lemma lossy_cases s : s <> [] -> lossy_case s.
Proof.
  destruct s as [|b0 t0]; [contradiction|]. intros _.
  destruct (width_spec b0) as [[_ W]|[[_ W]|[[_ W]|[[_ W]|[[_ W]|[_ W]]]]]].
  - apply (case_char _ [b0] t0); [cbn; now rewrite W|reflexivity|]. cbn [lossy]. now rewrite W.
  - apply (case_byte _ b0 t0); [cbn; now rewrite W|reflexivity|]. cbn [lossy]. now rewrite W.
  - destruct t0 as [|b1 t1].
    + apply (case_part _ [b0] []); [no_char_tac|discriminate|cbn; now rewrite W|exact Logic.I|reflexivity|]. cbn [lossy]. now rewrite W.
    + destruct (continuation b1) eqn:C1.
      * apply (case_char _ [b0; b1] t1); [cbn; now rewrite W, C1|reflexivity|]. cbn [lossy]. now rewrite W, C1.
      * apply (case_part _ [b0] (b1 :: t1)); [no_char_tac|discriminate|cbn; now rewrite W|cbn; now rewrite W, C1|reflexivity|].
        cbn [lossy]. now rewrite W, C1.
  - destruct t0 as [|b1 t1].
    + apply (case_part _ [b0] []); [no_char_tac|discriminate|cbn; now rewrite W|exact Logic.I|reflexivity|]. cbn [lossy]. now rewrite W.
    + destruct (second_of_three b0 b1) eqn:C1.
      * destruct t1 as [|b2 t2].
        -- apply (case_part _ [b0; b1] []); [no_char_tac|discriminate|cbn; now rewrite W, C1|exact Logic.I|reflexivity|].
           cbn [lossy]. now rewrite W, C1.
        -- destruct (continuation b2) eqn:C2.
           ++ apply (case_char _ [b0; b1; b2] t2); [cbn; now rewrite W, C1, C2|reflexivity|]. cbn [lossy]. now rewrite W, C1, C2.
           ++ apply (case_part _ [b0; b1] (b2 :: t2)); [no_char_tac|discriminate|cbn; now rewrite W, C1|cbn; now rewrite W, C1, C2|reflexivity|].
              cbn [lossy]. now rewrite W, C1, C2.
      * apply (case_part _ [b0] (b1 :: t1)); [no_char_tac|discriminate|cbn; now rewrite W|cbn; now rewrite W, C1|reflexivity|].
        cbn [lossy]. now rewrite W, C1.
  - destruct t0 as [|b1 t1].
    + apply (case_part _ [b0] []); [no_char_tac|discriminate|cbn; now rewrite W|exact Logic.I|reflexivity|]. cbn [lossy]. now rewrite W.
    + destruct (second_of_four b0 b1) eqn:C1.
      * destruct t1 as [|b2 t2].
        -- apply (case_part _ [b0; b1] []); [no_char_tac|discriminate|cbn; now rewrite W, C1|exact Logic.I|reflexivity|].
           cbn [lossy]. now rewrite W, C1.
        -- destruct (continuation b2) eqn:C2.
           ++ destruct t2 as [|b3 t3].
              ** apply (case_part _ [b0; b1; b2] []); [no_char_tac|discriminate|cbn; now rewrite W, C1, C2|exact Logic.I|reflexivity|].
                 cbn [lossy]. now rewrite W, C1, C2.
              ** destruct (continuation b3) eqn:C3.
                 --- apply (case_char _ [b0; b1; b2; b3] t3); [cbn; now rewrite W, C1, C2, C3|reflexivity|]. cbn [lossy]. now rewrite W, C1, C2, C3.
                 --- apply (case_part _ [b0; b1; b2] (b3 :: t3));
                       [no_char_tac|discriminate|cbn; now rewrite W, C1, C2|cbn; now rewrite W, C1, C2, C3|reflexivity|].
                     cbn [lossy]. now rewrite W, C1, C2, C3.
           ++ apply (case_part _ [b0; b1] (b2 :: t2)); [no_char_tac|discriminate|cbn; now rewrite W, C1|cbn; now rewrite W, C1, C2|reflexivity|].
              cbn [lossy]. now rewrite W, C1, C2.
      * apply (case_part _ [b0] (b1 :: t1)); [no_char_tac|discriminate|cbn; now rewrite W|cbn; now rewrite W, C1|reflexivity|].
        cbn [lossy]. now rewrite W, C1.
  - apply (case_byte _ b0 t0); [cbn; now rewrite W|reflexivity|]. cbn [lossy]. now rewrite W.
Qed.

Lemma replacement_char : replacement = encode_char 0xfffd.
Proof. reflexivity. Qed.

Lemma is_text_app p s : is_char p -> is_text s -> is_text (p ++ s).
Proof. intros (v & SV & ->) (vs & F & ->). exists (v :: vs). split; [now constructor|reflexivity]. Qed.

Lemma bytes_induction (P : bytes -> Prop) : (forall s, (forall r, (length r < length s)%nat -> P r) -> P s) -> forall s, P s.
Proof. intros H s. induction s as [s IH] using (well_founded_induction (Wf_nat.well_founded_ltof _ (@length byte))). apply H. exact IH. Qed.

Lemma char_nonempty p : char_bytes p = true -> (0 < length p)%nat.
Proof. destruct p; [discriminate|]. cbn. lia. Qed.

Lemma char_begins p : char_bytes p = true -> begins_bytes p = true.
Proof.
  intros H. apply begins_iff; [intros ->; discriminate|]. exists []. rewrite app_nil_r. now apply is_char_iff.
Qed.
Lemma begins_app p q : p <> [] -> begins_bytes (p ++ q) = true -> begins_bytes p = true.
Proof.
  intros NE H. apply begins_iff in H; [|destruct p; [contradiction|discriminate]]. apply begins_iff; [exact NE|].
  destruct H as (r & H). exists (q ++ r). now rewrite app_assoc.
Qed.
(** No character is the beginning of another one. *)
Lemma char_prefix p q : char_bytes p = true -> char_bytes (p ++ q) = true -> q = [].
Proof.
  intros A B. destruct p as [|b0 [|b1 [|b2 [|b3 [|]]]]], q as [|c0 [|c1 [|c2 [|c3]]]]; try discriminate; try reflexivity;
    cbn [app char_bytes] in *; repeat (apply Bool.andb_true_iff in A as [A ?]); repeat (apply Bool.andb_true_iff in B as [B ?]);
    apply N.eqb_eq in A; rewrite A in B; discriminate.
Qed.

Lemma same_start {A} (p q r s : list A) : p ++ r = q ++ s -> (exists m, q = p ++ m) \/ (exists m, p = q ++ m).
Proof.
  revert q. induction p as [|x p IH]; intros q E; [left; now exists q|]. destruct q as [|y q]; [right; now exists (x :: p)|].
  injection E as -> E. destruct (IH q E) as [(m & ->)|(m & ->)]; [left|right]; now exists m.
Qed.

(** C56: the conversion follows the rule of the Unicode standard for every byte string. *)
Theorem name_text_replaced s t : replaced s t <-> t = to_str_lossy s.
Proof.
  unfold to_str_lossy. split.
  - intros R. induction R as [|p s t C R ->|p s t NC NE B M R ->|b s t B R ->].
    + reflexivity.
    + apply is_char_iff in C. destruct (lossy_cases (p ++ s)) as [p' r C' E L|p' r N' _ _ _ E L|b r B E L].
      * apply char_nonempty in C. destruct p; [cbn in C; lia|discriminate].
      * destruct (same_start _ _ _ _ E) as [(m & ->)|(m & ->)].
        -- rewrite (char_prefix _ _ C C') in *. rewrite app_nil_r in *. apply app_inv_head in E as ->. now rewrite L.
        -- rewrite (char_prefix _ _ C' C) in *. rewrite app_nil_r in *. apply app_inv_head in E as ->. now rewrite L.
      * exfalso. apply (N' p s C eq_refl).
      * exfalso. destruct p as [|b' p]; [discriminate|]. injection E as -> E. apply char_begins in C.
        apply (begins_app [b] p) in C; [congruence|discriminate].
    + destruct (lossy_cases (p ++ s)) as [p' r C' E L|p' r N' NE' B' M' E L|b r B' E L].
      * destruct p; [contradiction|discriminate].
      * exfalso. apply is_char_iff in C'. now apply (NC p' r).
      * apply begins_iff in B; [|exact NE].
        assert (p = p') as <-.
        { destruct (same_start _ _ _ _ E) as [(m & ->)|(m & ->)].
          - destruct m as [|b m]; [now rewrite app_nil_r|]. exfalso. rewrite <- app_assoc in E. apply app_inv_head in E. cbn [app] in E.
            apply (M b (m ++ r) E). apply begins_iff; [now destruct p|].
            apply (begins_app (p ++ [b]) m); [now destruct p|]. now rewrite <- app_assoc.
          - destruct m as [|b m]; [now rewrite app_nil_r|]. exfalso. rewrite <- app_assoc in E. apply app_inv_head in E. cbn [app] in E.
            subst r. assert (X : begins_bytes (p' ++ [b]) = true); [|congruence].
            apply (begins_app (p' ++ [b]) m); [now destruct p'|]. now rewrite <- app_assoc. }
        apply app_inv_head in E as <-. now rewrite L.
      * exfalso. destruct p as [|b0 p]; [contradiction|]. injection E as -> E. apply begins_iff in B; [|discriminate].
        apply (begins_app [b] p) in B; [congruence|discriminate].
    + destruct (lossy_cases (b :: s)) as [p' r C' E L|p' r N' NE' B' M' E L|b' r B' E L]; [discriminate| | |].
      * exfalso. destruct p' as [|b0 p']; [discriminate|]. injection E as <- E. apply B. apply begins_iff; [discriminate|].
        apply char_begins in C'. now apply (begins_app [b] p') in C'.
      * exfalso. destruct p' as [|b0 p']; [contradiction|]. injection E as <- E. apply B. apply begins_iff; [discriminate|].
        now apply (begins_app [b] p') in B'.
      * injection E as <- <-. now rewrite L.
  - intros ->. induction s as [s IH] using bytes_induction. destruct s as [|b0 t0]; [constructor|].
    destruct (lossy_cases (b0 :: t0)) as [p r C E L|p r NC NE B M E L|b r B E L]; [discriminate| | |]; rewrite L, E.
    + apply replaced_char; [now apply is_char_iff|]. apply IH. rewrite E, app_length. apply char_nonempty in C. lia.
    + apply replaced_part; [|exact NE|now apply begins_iff| |].
      * intros q r' C. apply is_char_iff in C. rewrite <- E. now apply NC.
      * intros b r' -> BC. apply begins_iff in BC; [congruence|now destruct p].
      * apply IH. rewrite E, app_length. destruct p; [contradiction|]. cbn. lia.
    + apply replaced_byte; [|apply IH; rewrite E; cbn; lia]. intros BC. apply begins_iff in BC; [congruence|discriminate].
Qed.
Print Assumptions name_text_replaced.

Lemma lossy_encode vs : Forall scalar vs -> to_str_lossy (encode_text vs) = encode_text vs.
Proof.
  intros F. symmetry. apply name_text_replaced. induction F as [|v vs SV F IH]; [constructor|].
  cbn [encode_text flat_map]. apply replaced_char; [now exists v|exact IH].
Qed.
Lemma lossy_is_text s : is_text (to_str_lossy s).
Proof.
  unfold to_str_lossy. induction s as [s IH] using bytes_induction. destruct s as [|b0 t0]; [exists []; split; [constructor|reflexivity]|].
  assert (RC : is_char replacement) by (exists 0xfffd; split; [right; lia|reflexivity]).
  destruct (lossy_cases (b0 :: t0)) as [p r C E L|p r NC NE B M E L|b r B E L]; [discriminate| | |]; rewrite L.
  - apply is_text_app; [now apply is_char_iff|]. apply IH. rewrite E, app_length. apply char_nonempty in C. lia.
  - apply is_text_app; [exact RC|]. apply IH. rewrite E, app_length. destruct p; [contradiction|]. cbn. lia.
  - apply is_text_app; [exact RC|]. apply IH. rewrite E. cbn. lia.
Qed.

Lemma bytes_eqb_eq a b : bytes_eqb a b = true <-> a = b.
Proof.
  revert b. induction a as [|x a IH]; intros [|y b]; cbn; try (split; [discriminate|discriminate]); [tauto|].
  rewrite Bool.andb_true_iff, IH. split.
  - intros [E ->]. apply Byte.byte_dec_bl in E. now subst.
  - intros E. injection E as -> ->. split; [|reflexivity]. now apply Byte.byte_dec_lb.
Qed.

(** C56: the text of a name is well-formed; it is the name itself exactly for well-formed names, and exactly these are
    converted into a [String]. *)
Theorem name_text_valid s : is_text (to_str_lossy s) /\ (to_str_lossy s = s <-> is_text s) /\
  (forall t, try_string s = Some t <-> is_text s /\ t = s).
Proof.
  assert (X : to_str_lossy s = s <-> is_text s).
  { split; [intros E; rewrite <- E; apply lossy_is_text|]. intros (vs & F & ->). now apply lossy_encode. }
  split; [apply lossy_is_text|]. split; [exact X|]. intros t. unfold try_string, utf8_valid. fold (to_str_lossy s).
  destruct (bytes_eqb (to_str_lossy s) s) eqn:E.
  - apply bytes_eqb_eq in E. split; [intros Q; injection Q as <-; tauto|]. now intros [_ ->].
  - split; [discriminate|]. intros [T _]. apply X, bytes_eqb_eq in T. congruence.
Qed.
Print Assumptions name_text_valid.

(** ** Order *)
Lemma bytes_cmp_eq a b : bytes_cmp a b = Eq <-> a = b.
Proof.
  revert b. induction a as [|x a IH]; intros [|y b]; cbn; try (split; discriminate); [tauto|].
  destruct (N.compare_spec (bval x) (bval y)) as [E|E|E].
  - apply bval_inj in E as ->. rewrite IH. split; [now intros ->|]. intros Q. now injection Q.
  - split; [discriminate|]. intros Q. injection Q as -> ->. lia.
  - split; [discriminate|]. intros Q. injection Q as -> ->. lia.
Qed.
Lemma bytes_cmp_sym a b : bytes_cmp b a = CompOpp (bytes_cmp a b).
Proof.
  revert b. induction a as [|x a IH]; intros [|y b]; cbn; try reflexivity. rewrite N.compare_antisym.
  destruct (bval x ?= bval y); [apply IH|reflexivity..].
Qed.
Lemma bytes_cmp_trans a b c o : bytes_cmp a b = o -> bytes_cmp b c = o -> bytes_cmp a c = o.
Proof.
  revert b c. induction a as [|x a IH]; intros [|y b] [|z c]; cbn; intros H1 H2; try congruence.
  destruct (N.compare_spec (bval x) (bval y)) as [E|E|E], (N.compare_spec (bval y) (bval z)) as [E'|E'|E'],
    (N.compare_spec (bval x) (bval z)) as [E''|E''|E'']; try lia; try congruence; eauto.
Qed.

(** The digits of a value to the base 64. *)
Lemma digits v : exists h m2 m1 m0, v = h * 262144 + m2 * 4096 + m1 * 64 + m0 /\ m2 < 64 /\ m1 < 64 /\ m0 < 64 /\
  v / 64 = h * 4096 + m2 * 64 + m1 /\ v / 4096 = h * 64 + m2 /\ v / 262144 = h /\
  v mod 64 = m0 /\ (v / 64) mod 64 = m1 /\ (v / 4096) mod 64 = m2.
Proof.
  pose proof (cut v 64) as C1. pose proof (cut (v / 64) 64) as C2. pose proof (cut (v / 4096) 64) as C3.
  rewrite N.div_div in C2, C3 by lia. change (64 * 64) with 4096 in C2. change (4096 * 64) with 262144 in C3.
  pose proof (N.mod_lt v 64 ltac:(lia)). pose proof (N.mod_lt (v / 64) 64 ltac:(lia)). pose proof (N.mod_lt (v / 4096) 64 ltac:(lia)).
  exists (v / 262144), ((v / 4096) mod 64), ((v / 64) mod 64), (v mod 64).
  repeat split; try assumption; lia.
Qed.

Lemma cmp_head x y a b : bytes_cmp (x :: a) (y :: b) = match bval x ?= bval y with Eq => bytes_cmp a b | c => c end.
Proof. reflexivity. Qed.

Lemma char_lt a b x y : a < b -> b < 0x110000 -> bytes_cmp (encode_char a ++ x) (encode_char b ++ y) = Lt.
Proof.
  intros L B. unfold encode_char, six_bits.
  destruct (digits a) as (ah & a2 & a1 & a0 & EA & A2 & A1 & A0 & -> & -> & -> & -> & -> & ->).
  destruct (digits b) as (bh & b2 & b1 & b0 & EB & B2 & B1 & B0 & -> & -> & -> & -> & -> & ->).
  destruct (N.ltb_spec a 0x80); [|destruct (N.ltb_spec a 0x800); [|destruct (N.ltb_spec a 0x10000)]];
    (destruct (N.ltb_spec b 0x80); [|destruct (N.ltb_spec b 0x800); [|destruct (N.ltb_spec b 0x10000)]]); try (exfalso; lia);
    cbn [app]; rewrite !cmp_head, !bval_small by lia;
    repeat match goal with |- match ?p ?= ?q with _ => _ end = _ =>
      destruct (N.compare_spec p q); [|reflexivity|exfalso; lia] end; exfalso; lia.
Qed.

Lemma char_order a b x y : scalar a -> scalar b ->
  bytes_cmp (encode_char a ++ x) (encode_char b ++ y) = match a ?= b with Eq => bytes_cmp x y | c => c end.
Proof.
  intros SA SB. assert (A : a < 0x110000) by (unfold scalar in SA; lia). assert (B : b < 0x110000) by (unfold scalar in SB; lia).
  destruct (N.compare_spec a b) as [->|L|L].
  - generalize (encode_char b). intros p. induction p as [|h p IH]; [reflexivity|]. cbn. now rewrite N.compare_refl.
  - now apply char_lt.
  - rewrite bytes_cmp_sym. now rewrite char_lt.
Qed.

Lemma text_cmp a b : Forall scalar a -> Forall scalar b -> bytes_cmp (encode_text a) (encode_text b) = text_order a b.
Proof.
  intros FA. revert b. induction FA as [|x a SX FA IH]; intros b FB; destruct FB as [|y b SY FB]; cbn [encode_text flat_map text_order].
  - reflexivity.
  - pose proof (char_nonempty _ (encode_char_bytes y SY)). destruct (encode_char y); [cbn in *; lia|reflexivity].
  - pose proof (char_nonempty _ (encode_char_bytes x SX)). destruct (encode_char x); [cbn in *; lia|reflexivity].
  - rewrite char_order by assumption. destruct (x ?= y); [now apply IH|reflexivity..].
Qed.

(** C56: names are ordered as their texts are, and this is an order in which any two names are comparable. *)
Theorem name_order a b c :
  (exists va vb, Forall scalar va /\ Forall scalar vb /\ replaced a (encode_text va) /\ replaced b (encode_text vb) /\
     name_cmp a b = text_order va vb) /\
  name_cmp a a = Eq /\ name_cmp b a = CompOpp (name_cmp a b) /\
  (forall o, name_cmp a b = o -> name_cmp b c = o -> name_cmp a c = o).
Proof.
  split; [|split; [|split]].
  - destruct (lossy_is_text a) as (va & FA & EA), (lossy_is_text b) as (vb & FB & EB). exists va, vb.
    split; [exact FA|]. split; [exact FB|]. rewrite <- EA, <- EB. split; [now apply name_text_replaced|].
    split; [now apply name_text_replaced|]. unfold name_cmp. rewrite EA, EB. now apply text_cmp.
  - now apply bytes_cmp_eq.
  - apply bytes_cmp_sym.
  - intros o. apply bytes_cmp_trans.
Qed.
Print Assumptions name_order.

(** C56: equality is equality of the bytes; equal names are equal in the order and hash equally; names that are equal in
    the order hash equally; and for well-formed names all three agree. *)
Theorem name_agree_partial a b :
  (name_eqb a b = true <-> a = b) /\ (a = b -> name_cmp a b = Eq) /\
  (name_cmp a b = Eq <-> name_hash_input a = name_hash_input b) /\
  (is_text a -> is_text b -> (name_cmp a b = Eq <-> a = b)).
Proof.
  split; [apply bytes_eqb_eq|]. split; [intros ->; now apply bytes_cmp_eq|]. split.
  - unfold name_cmp, name_hash_input. rewrite bytes_cmp_eq. split; [now intros ->|]. now intros E%app_inv_tail.
  - intros TA TB. apply name_text_valid in TA, TB. unfold name_cmp. rewrite TA, TB. apply bytes_cmp_eq.
Qed.
Print Assumptions name_agree_partial.

Theorem name_agree_refuted : ~ (forall a b, name_cmp a b = Eq <-> a = b).
Proof. intros H. destruct (H [xff] [xfe]) as [X _]. specialize (X eq_refl). discriminate. Qed.
Print Assumptions name_agree_refuted.

(** A text of characters of one to four bytes; the same with its last byte cut off; and with a surrogate. *)
Example name_ex :
  let vs := [0x41; 0xe9; 0x20ac; 0x1f600] in
  Forall scalar vs /\ encode_text vs = [x41; xc3; xa9; xe2; x82; xac; xf0; x9f; x98; x80] /\
  to_str_lossy [x41; xf0; x9f; x98; x42; xed; xa0; x80] = [x41] ++ replacement ++ [x42] ++ replacement ++ replacement ++ replacement /\
  name_cmp (encode_text vs) (encode_text [0x41; 0xe9; 0x20ad]) = Lt /\ name_cmp [xff] [xef; xbf; xbd] = Eq.
Proof.
  cbv zeta. split; [|split; [reflexivity|split; [reflexivity|split; reflexivity]]].
  repeat (constructor; [unfold scalar; lia|]). constructor.
Qed.
