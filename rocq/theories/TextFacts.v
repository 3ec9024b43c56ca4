(** Facts about printed text: what each builder writes is read back. *)

From Coq Require Import Strings.String.
From Verif Require Import Base BaseFacts Raid Io Superblock Device Array Ext4String SpecExt4String PropsExt4String Main Text SpecText.

(** ** Characters *)

Lemma byte_of_is n b : n = bval b -> byte_of n = b.
Proof. intros ->. apply byte_of_bval. Qed.

Lemma encode_width1 b0 : utf8_width b0 = 1 -> encode_char (bval b0) = [b0] /\ bval b0 < 0x80.
Proof.
  intros W. destruct (width_spec b0) as [[V Q]|[[V Q]|[[V Q]|[[V Q]|[[V Q]|[V Q]]]]]]; try congruence. split; [|lia].
  unfold encode_char. destruct (N.ltb_spec (bval b0) 0x80); [|lia]. now rewrite byte_of_bval.
Qed.
Lemma encode_width2 b0 b1 : utf8_width b0 = 2 -> continuation b1 = true ->
  encode_char ((bval b0 - 0xc0) * 64 + (bval b1 - 0x80)) = [b0; b1] /\ 0x80 <= (bval b0 - 0xc0) * 64 + (bval b1 - 0x80).
Proof.
  intros W C. destruct (width_spec b0) as [[V Q]|[[V Q]|[[V Q]|[[V Q]|[[V Q]|[V Q]]]]]]; try congruence. apply cont_spec in C.
  set (v := (bval b0 - 0xc0) * 64 + (bval b1 - 0x80)). destruct (digit (bval b0 - 0xc0) (bval b1 - 0x80) 64) as [D M]; [lia|]. fold v in D, M.
  split; [|lia]. unfold encode_char. destruct (N.ltb_spec v 0x80); [lia|]. destruct (N.ltb_spec v 0x800); [|lia]. unfold six_bits. rewrite D, M.
  f_equal; [|f_equal]; apply byte_of_is; lia.
Qed.
Lemma encode_width3 b0 b1 b2 : utf8_width b0 = 3 -> second_of_three b0 b1 = true -> continuation b2 = true ->
  encode_char ((bval b0 - 0xe0) * 4096 + (bval b1 - 0x80) * 64 + (bval b2 - 0x80)) = [b0; b1; b2] /\
  0x80 <= (bval b0 - 0xe0) * 4096 + (bval b1 - 0x80) * 64 + (bval b2 - 0x80).
Proof.
  intros W C C'. destruct (width_spec b0) as [[V Q]|[[V Q]|[[V Q]|[[V Q]|[[V Q]|[V Q]]]]]]; try congruence. apply three_spec in C. apply cont_spec in C'.
  set (w := (bval b0 - 0xe0) * 64 + (bval b1 - 0x80)). destruct (digit (bval b0 - 0xe0) (bval b1 - 0x80) 64) as [D M]; [lia|]. fold w in D, M.
  replace ((bval b0 - 0xe0) * 4096 + (bval b1 - 0x80) * 64 + (bval b2 - 0x80)) with (w * 64 + (bval b2 - 0x80)) by lia.
  set (v := w * 64 + (bval b2 - 0x80)). destruct (digit w (bval b2 - 0x80) 64) as [D' M']; [lia|]. fold v in D', M'.
  split; [|lia]. unfold encode_char.
  destruct (N.ltb_spec v 0x80); [lia|]. destruct (N.ltb_spec v 0x800); [lia|]. destruct (N.ltb_spec v 0x10000); [|lia].
  unfold six_bits. change 4096 with (64 * 64). rewrite <- N.div_div by lia. rewrite M', D', D, M.
  f_equal; [|f_equal; [|f_equal]]; apply byte_of_is; lia.
Qed.
Lemma encode_width4 b0 b1 b2 b3 : utf8_width b0 = 4 -> second_of_four b0 b1 = true -> continuation b2 = true -> continuation b3 = true ->
  encode_char ((bval b0 - 0xf0) * 262144 + (bval b1 - 0x80) * 4096 + (bval b2 - 0x80) * 64 + (bval b3 - 0x80)) = [b0; b1; b2; b3] /\
  0x80 <= (bval b0 - 0xf0) * 262144 + (bval b1 - 0x80) * 4096 + (bval b2 - 0x80) * 64 + (bval b3 - 0x80).
Proof.
  intros W C C' C''. destruct (width_spec b0) as [[V Q]|[[V Q]|[[V Q]|[[V Q]|[[V Q]|[V Q]]]]]]; try congruence.
  apply four_spec in C. apply cont_spec in C', C''.
  set (w := (bval b0 - 0xf0) * 64 + (bval b1 - 0x80)). destruct (digit (bval b0 - 0xf0) (bval b1 - 0x80) 64) as [D M]; [lia|]. fold w in D, M.
  set (x := w * 64 + (bval b2 - 0x80)). destruct (digit w (bval b2 - 0x80) 64) as [D' M']; [lia|]. fold x in D', M'.
  replace ((bval b0 - 0xf0) * 262144 + (bval b1 - 0x80) * 4096 + (bval b2 - 0x80) * 64 + (bval b3 - 0x80)) with (x * 64 + (bval b3 - 0x80)) by lia.
  set (v := x * 64 + (bval b3 - 0x80)). destruct (digit x (bval b3 - 0x80) 64) as [D'' M'']; [lia|]. fold v in D'', M''.
  split; [|lia]. unfold encode_char.
  destruct (N.ltb_spec v 0x80); [lia|]. destruct (N.ltb_spec v 0x800); [lia|]. destruct (N.ltb_spec v 0x10000); [lia|].
  unfold six_bits. change 262144 with (64 * (64 * 64)). change 4096 with (64 * 64). rewrite <- !N.div_div by lia. rewrite M'', D'', D', M', D, M.
  f_equal; [|f_equal; [|f_equal; [|f_equal]]]; apply byte_of_is; lia.
Qed.

(** A text is empty, or starts with a character, or with bytes that are given by their numbers. *)
Inductive os_case (plain : N -> bool) (s : bytes) : Prop :=
| os_char v p r : encode_char v = p -> p <> [] -> (v < 0x80 -> p = [byte_of v]) -> (0x80 <= v -> Forall (fun b => 0x80 <= bval b) p) -> s = p ++ r ->
    debug_os_inner plain s = escape_debug plain v p ++ debug_os_inner plain r -> os_case plain s
| os_part p r : p <> [] -> s = p ++ r -> debug_os_inner plain s = flat_map escape_byte p ++ debug_os_inner plain r -> os_case plain s.

Lemma width_high b : utf8_width b = 2 \/ utf8_width b = 3 \/ utf8_width b = 4 -> 0x80 <= bval b.
Proof. intros H. destruct (width_spec b) as [[V Q]|[[V Q]|[[V Q]|[[V Q]|[[V Q]|[V Q]]]]]]; lia. Qed.

Ltac high := intros _; repeat constructor;
  try (apply width_high; auto; fail);
  repeat match goal with
  | X : continuation _ = true |- _ => apply cont_spec in X
  | X : second_of_three _ _ = true |- _ => apply three_spec in X
  | X : second_of_four _ _ = true |- _ => apply four_spec in X
  end; lia.

Ltac part p r := apply (os_part _ _ p r); [discriminate|reflexivity|];
  cbn [debug_os_inner flat_map app]; rewrite <- ?app_assoc.

Lemma os_cases plain s : s <> [] -> os_case plain s.
Proof.
  destruct s as [|b0 t0]; [contradiction|]. intros _.
  destruct (width_spec b0) as [[V W]|[[V W]|[[V W]|[[V W]|[[V W]|[V W]]]]]].
  - destruct (encode_width1 b0 W) as [E L]. apply (os_char _ _ (bval b0) [b0] t0); [exact E|discriminate|now rewrite byte_of_bval|lia|reflexivity|].
    cbn [debug_os_inner]. now rewrite W.
  - part [b0] t0. now rewrite W.
  - destruct t0 as [|b1 t1]; [part [b0] (@nil byte); now rewrite W|].
    destruct (continuation b1) eqn:C1; [|part [b0] (b1 :: t1); now rewrite W, C1].
    destruct (encode_width2 b0 b1 W C1) as [E L].
    eapply (os_char _ _ _ [b0; b1] t1); [exact E|discriminate|lia|high|reflexivity|]. cbn [debug_os_inner]. now rewrite W, C1.
  - destruct t0 as [|b1 t1]; [part [b0] (@nil byte); now rewrite W|].
    destruct (second_of_three b0 b1) eqn:C1; [|part [b0] (b1 :: t1); now rewrite W, C1].
    destruct t1 as [|b2 t2]; [part [b0; b1] (@nil byte); now rewrite W, C1|].
    destruct (continuation b2) eqn:C2; [|part [b0; b1] (b2 :: t2); now rewrite W, C1, C2].
    destruct (encode_width3 b0 b1 b2 W C1 C2) as [E L].
    eapply (os_char _ _ _ [b0; b1; b2] t2); [exact E|discriminate|lia|high|reflexivity|]. cbn [debug_os_inner]. now rewrite W, C1, C2.
  - destruct t0 as [|b1 t1]; [part [b0] (@nil byte); now rewrite W|].
    destruct (second_of_four b0 b1) eqn:C1; [|part [b0] (b1 :: t1); now rewrite W, C1].
    destruct t1 as [|b2 t2]; [part [b0; b1] (@nil byte); now rewrite W, C1|].
    destruct (continuation b2) eqn:C2; [|part [b0; b1] (b2 :: t2); now rewrite W, C1, C2].
    destruct t2 as [|b3 t3]; [part [b0; b1; b2] (@nil byte); now rewrite W, C1, C2|].
    destruct (continuation b3) eqn:C3; [|part [b0; b1; b2] (b3 :: t3); now rewrite W, C1, C2, C3].
    destruct (encode_width4 b0 b1 b2 b3 W C1 C2 C3) as [E L].
    eapply (os_char _ _ _ [b0; b1; b2; b3] t3); [exact E|discriminate|lia|high|reflexivity|]. cbn [debug_os_inner]. now rewrite W, C1, C2, C3.
  - part [b0] t0. now rewrite W.
Qed.

(** ** Numbers *)

Lemma log2_fuel b n : 2 <= b -> n < b ^ N.of_nat (S (N.to_nat (N.log2 n))).
Proof.
  intros B. rewrite Nat2N.inj_succ, N2Nat.id. destruct (N.eq_dec n 0) as [->|Z]; [cbn; rewrite N.pow_1_r; lia|].
  pose proof (N.log2_spec n ltac:(lia)). apply N.lt_le_trans with (2 ^ N.succ (N.log2 n)); [lia|]. now apply N.pow_le_mono_l.
Qed.

Lemma numeral_ind (b : N) (P : N -> bytes -> Prop) : 2 <= b ->
  (forall n, n < b -> P n [digit_char n]) -> (forall n t, b <= n -> P (n / b) t -> P n (t ++ [digit_char (n mod b)])) ->
  forall fuel n, n < b ^ N.of_nat fuel -> fuel <> O -> P n (numeral b fuel n).
Proof.
  intros B H0 H1 fuel. induction fuel as [|fuel IH]; intros n L F; [contradiction|]. cbn [numeral].
  destruct (N.ltb_spec n b); [now apply H0|]. apply H1; [assumption|].
  assert (Q : n / b < b ^ N.of_nat fuel).
  { apply N.div_lt_upper_bound; [lia|]. rewrite Nat2N.inj_succ, N.pow_succ_r in L by lia. exact L. }
  apply IH; [exact Q|]. intros ->. change (N.of_nat 0) with 0 in Q. rewrite N.pow_0_r in Q. assert (Z : n / b = 0) by lia. apply N.div_small_iff in Z; lia.
Qed.

Lemma small_cases (P : N -> Prop) (k : nat) : (forall i, (i < k)%nat -> P (N.of_nat i)) -> forall n, n < N.of_nat k -> P n.
Proof. intros H n L. rewrite <- (N2Nat.id n). apply H. lia. Qed.

Ltac each_digit n L k := revert n L; apply (small_cases _ k); intros i Li;
  repeat (destruct i as [|i]; [reflexivity|]); lia.

Lemma decimal_digit_char n : n < 10 -> decimal_digit (digit_char n) = true.
Proof. intros L. each_digit n L 10%nat. Qed.
Lemma decimal_digit_value n : n < 10 -> bval (digit_char n) - 48 = n.
Proof. intros L. each_digit n L 10%nat. Qed.
Lemma hex_digit_value n : n < 16 -> hex_value (digit_char n) = Some n.
Proof. intros L. each_digit n L 16%nat. Qed.
Lemma hex_digit_brace n : n < 16 -> (bval (digit_char n) =? 125) = false.
Proof. intros L. each_digit n L 16%nat. Qed.
Lemma digit_char_newline n : n < 16 -> Byte.eqb (digit_char n) newline = false.
Proof. intros L. each_digit n L 16%nat. Qed.

Lemma horner_app a w d : horner a (w ++ [d]) = let* m := horner a w in if decimal_digit d then Some (10 * m + (bval d - 48)) else None.
Proof. revert a. induction w as [|c w IH]; intros a; cbn; [reflexivity|]. destruct (decimal_digit c); [apply IH|reflexivity]. Qed.

Lemma debug_uint_reads n : horner 0 (debug_uint n) = Some n /\ Forall (fun c => decimal_digit c = true) (debug_uint n) /\ debug_uint n <> [].
Proof.
  unfold debug_uint. apply (numeral_ind 10 (fun n w => horner 0 w = Some n /\ Forall (fun c => decimal_digit c = true) w /\ w <> [])); [lia|..].
  - intros m L. cbn [horner]. rewrite decimal_digit_char, decimal_digit_value by exact L. repeat split; [|discriminate].
    constructor; [now apply decimal_digit_char|constructor].
  - intros m t L (H & F & E). pose proof (N.mod_lt m 10 ltac:(lia)) as M. rewrite horner_app, H. cbn [obind]. rewrite decimal_digit_char, decimal_digit_value by exact M.
    repeat split; [f_equal; rewrite N.mul_comm; rewrite N.mul_comm at 1; symmetry; apply N.div_mod; lia| |].
    + apply Forall_app. split; [exact F|]. constructor; [now apply decimal_digit_char|constructor].
    + intros C. now apply app_eq_nil in C as [C _].
  - apply log2_fuel. lia.
  - discriminate.
Qed.

(** Numbers of characters. *)
Lemma unquote_digit a n r : n < 16 -> unquote (Some a) (digit_char n :: r) = unquote (Some (16 * a + n)) r.
Proof. intros L. cbn [unquote]. rewrite hex_digit_brace, hex_digit_value by exact L. reflexivity. Qed.

Lemma lower_hex_reads n : exists k, forall a r, unquote (Some a) (lower_hex n ++ r) = unquote (Some (16 ^ k * a + n)) r.
Proof.
  unfold lower_hex. apply (numeral_ind 16 (fun n w => exists k, forall a r, unquote (Some a) (w ++ r) = unquote (Some (16 ^ k * a + n)) r)); [lia|..].
  - intros m L. exists 1. intros a r. cbn [app]. rewrite unquote_digit by exact L. now rewrite N.pow_1_r.
  - intros m t L (k & H). pose proof (N.mod_lt m 16 ltac:(lia)) as M. exists (N.succ k). intros a r. rewrite <- app_assoc. cbn [app]. rewrite H, unquote_digit by exact M.
    do 2 f_equal. rewrite N.pow_succ_r by lia. rewrite (N.div_mod m 16) at 3 by lia. generalize (m / 16) (m mod 16) (16 ^ k). intros. lia.
  - apply log2_fuel. lia.
  - discriminate.
Qed.

(** ** Texts in quotes *)

(** [raw] says the bytes [p]. *)
Definition reads_as (raw p : bytes) : Prop :=
  forall r, unquote None (raw ++ r) = let* (t, rest) := unquote None r in Some (p ++ t, rest).
Definition one_line (t : bytes) : Prop := Forall (fun c => Byte.eqb c newline = false) t.

Lemma reads_as_app a b p q : reads_as a p -> reads_as b q -> reads_as (a ++ b) (p ++ q).
Proof.
  intros A B r. rewrite <- app_assoc, A, B. destruct (unquote None r) as [[t rest]|]; cbn; [now rewrite app_assoc|reflexivity].
Qed.
Lemma reads_as_nil : reads_as [] [].
Proof. intros r. cbn [app]. destruct (unquote None r) as [[t rest]|]; reflexivity. Qed.

Lemma escape_byte_reads b : reads_as (escape_byte b) [b] /\ one_line (escape_byte b).
Proof. split; [intros r; destruct b; reflexivity|destruct b; repeat constructor]. Qed.

Lemma plain_byte_reads b : b <> x22 -> b <> x5c -> reads_as [b] [b].
Proof. intros A B r. destruct b; try reflexivity; contradiction. Qed.

Lemma high_reads p : Forall (fun b => 0x80 <= bval b) p -> reads_as p p /\ one_line p.
Proof.
  induction 1 as [|b p L F [R O]]; [split; [apply reads_as_nil|constructor]|]. split.
  - apply (reads_as_app [b] p [b] p); [|exact R]. apply plain_byte_reads; intros ->; vm_compute in L; contradiction.
  - constructor; [|exact O]. destruct (Byte.eqb b newline) eqn:E; [|reflexivity]. apply Byte.byte_dec_bl in E. subst b. vm_compute in L. contradiction.
Qed.

Lemma numeral_line b fuel n : 2 <= b <= 16 -> n < b ^ N.of_nat fuel -> fuel <> O -> one_line (numeral b fuel n).
Proof.
  intros B. apply (numeral_ind b (fun _ w => one_line w)); [lia|..].
  - intros m L. constructor; [apply digit_char_newline; lia|constructor].
  - intros m t L H. apply Forall_app. split; [exact H|]. pose proof (N.mod_lt m b ltac:(lia)). constructor; [apply digit_char_newline; lia|constructor].
Qed.

Lemma escape_debug_reads plain v p : encode_char v = p -> (v < 0x80 -> p = [byte_of v]) -> (0x80 <= v -> Forall (fun b => 0x80 <= bval b) p) ->
  reads_as (escape_debug plain v p) p /\ one_line (escape_debug plain v p).
Proof.
  intros E Lo Hi. unfold escape_debug.
  destruct (N.eqb_spec v 0x00) as [->|N0]; [subst p; split; [intros r; reflexivity|repeat constructor]|].
  destruct (N.eqb_spec v 0x09) as [->|N1]; [subst p; split; [intros r; reflexivity|repeat constructor]|].
  destruct (N.eqb_spec v 0x0d) as [->|N2]; [subst p; split; [intros r; reflexivity|repeat constructor]|].
  destruct (N.eqb_spec v 0x0a) as [->|N3]; [subst p; split; [intros r; reflexivity|repeat constructor]|].
  destruct (N.eqb_spec v 0x5c) as [->|N4]; [subst p; split; [intros r; reflexivity|repeat constructor]|].
  destruct (N.eqb_spec v 0x22) as [->|N5]; [subst p; split; [intros r; reflexivity|repeat constructor]|].
  destruct (N.eqb_spec v 0x27) as [->|N6]; [subst p; split; [intros r; reflexivity|repeat constructor]|].
  destruct (plain v).
  - destruct (N.lt_ge_cases v 0x80) as [L|L]; [|now apply high_reads, Hi]. rewrite (Lo L).
    assert (B : bval (byte_of v) = v) by (apply bval_small; lia). split.
    + apply plain_byte_reads; intros C; rewrite C in B; [apply N5|apply N4]; now rewrite <- B.
    + constructor; [|constructor]. destruct (Byte.eqb (byte_of v) newline) eqn:Q; [|reflexivity]. apply Byte.byte_dec_bl in Q. rewrite Q in B. exfalso. apply N3. now rewrite <- B.
  - split.
    + intros r. destruct (lower_hex_reads v) as (k & H). change (lit "\u{") with [x5c; x75; x7b]. change (lit "}") with [x7d]. cbn [app].
      rewrite <- app_assoc. cbn [unquote]. rewrite H. rewrite N.mul_0_r, N.add_0_l. cbn [app unquote]. change (bval x7d =? 125) with true. cbn iota. now rewrite E.
    + repeat (apply Forall_app; split); [repeat constructor| |repeat constructor]. apply numeral_line; [lia|apply log2_fuel; lia|discriminate].
Qed.

Lemma debug_os_inner_reads plain s : reads_as (debug_os_inner plain s) s /\ one_line (debug_os_inner plain s).
Proof.
  induction s as [s IH] using bytes_induction. destruct s as [|b s]; [split; [apply reads_as_nil|constructor]|].
  destruct (os_cases plain (b :: s) ltac:(discriminate)) as [v p r E NE Lo Hi S D|p r NE S D]; rewrite D, S.
  - destruct (IH r) as [R O]; [rewrite S, app_length; destruct p; [contradiction|cbn; lia]|].
    destruct (escape_debug_reads plain v p E Lo Hi) as [R' O']. split; [now apply reads_as_app|now apply Forall_app].
  - destruct (IH r) as [R O]; [rewrite S, app_length; destruct p; [contradiction|cbn; lia]|].
    assert (X : reads_as (flat_map escape_byte p) p /\ one_line (flat_map escape_byte p)).
    { clear. induction p as [|b p [R O]]; [split; [apply reads_as_nil|constructor]|]. cbn [flat_map]. destruct (escape_byte_reads b) as [R' O'].
      split; [now apply (reads_as_app _ _ [b] p)|now apply Forall_app]. }
    destruct X as [R' O']. split; [now apply reads_as_app|now apply Forall_app].
Qed.

Lemma debug_os_reads plain s : exists raw, debug_os plain s = x22 :: raw /\ one_line raw /\ forall r, unquote None (raw ++ r) = Some (s, r).
Proof.
  destruct (debug_os_inner_reads plain s) as [R O]. exists (debug_os_inner plain s ++ [x22]). split; [reflexivity|]. split.
  - apply Forall_app. split; [exact O|repeat constructor].
  - intros r. rewrite <- app_assoc. rewrite R. cbn. now rewrite app_nil_r.
Qed.

(** ** Tokens of a text *)

Definition starts_word (t : bytes) : Prop := match t with c :: _ => word_char c = true | [] => False end.

Inductive spells : bytes -> list token -> Prop :=
| sp_nil : spells [] []
| sp_blank c t ts : blank c = true -> spells t ts -> spells (c :: t) ts
| sp_word w t ts : w <> [] -> Forall (fun c => word_char c = true) w -> ~ starts_word t -> spells t ts -> spells (w ++ t) (TWord w :: ts)
| sp_text raw s t ts : one_line raw -> (forall r, unquote None (raw ++ r) = Some (s, r)) -> spells t ts -> spells (x22 :: raw ++ t) (TText s :: ts)
| sp_sign c t ts : blank c = false -> word_char c = false -> bval c <> 34 -> spells t ts -> spells (c :: t) (TSign c :: ts).

Lemma word_spells w t : Forall (fun c => word_char c = true) w -> ~ starts_word t -> word (w ++ t) = (w, t).
Proof.
  induction 1 as [|c w C F IH]; intros S; cbn [app word].
  - destruct t as [|c t]; [reflexivity|]. cbn in *. destruct (word_char c); [now contradict S|reflexivity].
  - rewrite C, (IH S). reflexivity.
Qed.

Lemma word_not_blank c : word_char c = true -> blank c = false.
Proof. destruct c; intros; try reflexivity; discriminate. Qed.

Lemma tokens_spells t ts : spells t ts -> forall fuel, (length t < fuel)%nat -> tokens fuel t = Some ts.
Proof.
  induction 1 as [|c t ts B H IH|w t ts NE F S H IH|raw s t ts O U H IH|c t ts B W Q H IH]; intros [|fuel] L; try lia; [reflexivity|..].
  - cbn [tokens]. rewrite B. apply IH. cbn in L. lia.
  - destruct w as [|c w]; [contradiction|]. cbn [app tokens]. inversion F as [|? ? C F']; subst. rewrite (word_not_blank c C), C.
    change (c :: w ++ t) with ((c :: w) ++ t). rewrite (word_spells _ t F S). rewrite IH; [reflexivity|]. rewrite app_length in L. cbn in L. lia.
  - cbn [app tokens]. change (blank x22) with false. change (word_char x22) with false. change (bval x22 =? 34) with true. cbn iota.
    rewrite U. cbn [obind]. rewrite IH; [reflexivity|]. cbn in L. rewrite app_length in L. lia.
  - cbn [tokens]. rewrite B, W. destruct (N.eqb_spec (bval c) 34); [contradiction|]. rewrite IH; [reflexivity|]. cbn in L. lia.
Qed.

(** Padding adds blanks only. *)
Lemma spells_blanks k t ts : spells t ts -> Forall (fun c => blank c = true) k -> spells (k ++ t) ts.
Proof. intros H. induction 1; [exact H|]. now constructor. Qed.
Lemma padding_blank b : Forall (fun c => blank c = true) (if b : bool then lit "    " else []).
Proof. destruct b; repeat constructor. Qed.
Lemma pad_line b w t : one_line w -> w <> [] -> pad b (w ++ t) = (if b then lit "    " else []) ++ w ++ pad false t.
Proof.
  intros O NE. destruct w as [|c w]; [contradiction|]. cbn [app pad]. inversion O as [|? ? C O']; subst. f_equal. f_equal. rewrite C.
  clear -O'. induction O' as [|d w D O IH]; [reflexivity|]. cbn [app pad]. rewrite D. cbn [app]. now rewrite IH.
Qed.
Lemma starts_word_pad t : starts_word (pad false t) -> starts_word t.
Proof. destruct t; cbn; auto. Qed.
Lemma word_line w : Forall (fun c => word_char c = true) w -> one_line w.
Proof. apply Forall_impl. intros c C. destruct c; try reflexivity; discriminate. Qed.

Lemma spells_pad t ts : spells t ts -> forall b, spells (pad b t) ts.
Proof.
  induction 1 as [|c t ts B H IH|w t ts NE F S H IH|raw s t ts O U H IH|c t ts B W Q H IH]; intros b.
  - constructor.
  - cbn [pad]. apply spells_blanks; [|apply padding_blank]. now constructor.
  - rewrite pad_line by (try apply word_line; assumption). apply spells_blanks; [|apply padding_blank].
    constructor; try assumption; [|apply IH]. intros X. now apply S, starts_word_pad.
  - change (x22 :: raw ++ t) with ((x22 :: raw) ++ t). rewrite pad_line; [|now constructor|discriminate]. apply spells_blanks; [|apply padding_blank].
    cbn [app]. now apply sp_text.
  - cbn [pad]. apply spells_blanks; [|apply padding_blank]. now constructor.
Qed.

Lemma spells_app t ts u us : spells t ts -> spells u us -> ~ starts_word u -> spells (t ++ u) (ts ++ us).
Proof.
  intros H U S. induction H as [|c t ts B H IH|w t ts NE F Sw H IH|raw s t ts O Q H IH|c t ts B W Q H IH]; cbn [app].
  - exact U.
  - now constructor.
  - rewrite <- app_assoc. constructor; try assumption. destruct t; [exact S|exact Sw].
  - rewrite <- app_assoc. now constructor.
  - now constructor.
Qed.

Lemma spells_word w : w <> [] -> Forall (fun c => word_char c = true) w -> spells w [TWord w].
Proof. intros NE F. rewrite <- (app_nil_r w) at 1. constructor; [assumption|assumption|exact (fun x => x)|constructor]. Qed.
Lemma spells_os plain s : spells (debug_os plain s) [TText s].
Proof.
  destruct (debug_os_reads plain s) as (raw & -> & O & U). rewrite <- (app_nil_r raw). apply (sp_text raw s [] []); [exact O| |constructor].
  intros r. apply U.
Qed.

(** ** Values of tokens *)

(** What may not follow a value. *)
Definition ends_value (r : list token) : Prop :=
  match r with TSign c :: _ => c <> x28 /\ c <> x7b | _ => True end.
Definition opens_value (ts : list token) : Prop :=
  match ts with TWord _ :: _ => True | TText _ :: _ => True | TSign c :: _ => c = x5b \/ c = x7b | [] => False end.

Record means (ts : list token) (v : value) : Prop := {
  mn_opens : opens_value ts;
  mn_parse : forall fuel r, (length ts < fuel)%nat -> ends_value r -> parse fuel (ts ++ r) = Some (v, r)
}.

Definition says (t : bytes) (v : value) : Prop := exists ts, spells t ts /\ means ts v.

Definition good_word (w : bytes) : Prop := w <> [] /\ Forall (fun c => word_char c = true) w.
Definition good_name (w : bytes) : Prop := match w with c :: _ => decimal_digit c = false | [] => False end /\ Forall (fun c => word_char c = true) w.
Lemma good_name_word w : good_name w -> good_word w.
Proof. intros [N F]. split; [|exact F]. intros ->. exact N. Qed.

Ltac good := split; [first [reflexivity|discriminate]|repeat constructor].

Lemma sign_same c r : sign c (TSign c :: r) = Some r.
Proof. cbn. now rewrite (Byte.byte_dec_lb eq_refl). Qed.
Lemma sign_other c d r : c <> d -> sign c (TSign d :: r) = None.
Proof. intros N. cbn. destruct (Byte.eqb c d) eqn:E; [|reflexivity]. apply Byte.byte_dec_bl in E. contradiction. Qed.

Lemma parse_word fuel w r : ends_value r -> parse (S fuel) (TWord w :: r) = let* v := of_word w in Some (v, r).
Proof.
  intros E. cbn [parse]. destruct r as [|[|?|c] r]; try reflexivity. cbn in E. destruct E as [A B].
  rewrite !sign_other by (intros X; now symmetry in X). reflexivity.
Qed.

Lemma says_name w : good_name w -> says w (VName w).
Proof.
  intros G. destruct (good_name_word _ G) as [NE F]. exists [TWord w]. split; [now apply spells_word|]. split; [exact Logic.I|].
  intros [|fuel] r L E; [cbn in L; lia|]. cbn [app]. rewrite parse_word by exact E. unfold of_word. destruct w as [|c w]; [contradiction|].
  destruct G as [-> _]. reflexivity.
Qed.
Lemma says_number n : says (debug_uint n) (VNumber n).
Proof.
  destruct (debug_uint_reads n) as (H & D & NE). exists [TWord (debug_uint n)]. split.
  - apply spells_word; [exact NE|]. revert D. apply Forall_impl. intros c C. unfold word_char. now rewrite C.
  - split; [exact Logic.I|]. intros [|fuel] r L E; [cbn in L; lia|]. cbn [app]. rewrite parse_word by exact E. unfold of_word.
    destruct (debug_uint n) as [|c w]; [contradiction|]. inversion D as [|? ? C _]; subst. rewrite C, H. reflexivity.
Qed.
Lemma says_text plain s : says (debug_os plain s) (VText s).
Proof.
  exists [TText s]. split; [apply spells_os|]. split; [exact Logic.I|]. intros [|fuel] r L E; [cbn in L; lia|]. reflexivity.
Qed.

(** Lists of items. *)
Lemma items_read {A} (item : list token -> option (A * list token)) close l : forall fuel r,
  Forall (fun '(ts, a) => opens_value ts /\ forall r, item (ts ++ TSign x2c :: r) = Some (a, TSign x2c :: r)) l ->
  (length l < fuel)%nat -> close <> x5b -> close <> x7b ->
  items item close fuel (flat_map (fun '(ts, _) => ts ++ [TSign x2c]) l ++ TSign close :: r) = Some (map snd l, r).
Proof.
  induction l as [|[ts a] l IH]; intros fuel r F L C1 C2; (destruct fuel as [|fuel]; [cbn in L; lia|]); cbn [flat_map app items map].
  - now rewrite sign_same.
  - inversion F as [|? ? OI F']; subst. cbn beta iota in OI. destruct OI as [O I]. rewrite <- !app_assoc. cbn [app].
    specialize (IH fuel r F' ltac:(cbn in L; lia) C1 C2). specialize (I (flat_map (fun '(ts0, _) => ts0 ++ [TSign x2c]) l ++ TSign close :: r)).
    assert (N : sign close (ts ++ TSign x2c :: flat_map (fun '(ts0, _) => ts0 ++ [TSign x2c]) l ++ TSign close :: r) = None).
    { destruct ts as [|[w|s|c] ts]; cbn [opens_value] in O; [contradiction|reflexivity|reflexivity|]. cbn [app]. apply sign_other. destruct O as [->| ->]; assumption. }
    rewrite N, I. cbn [obind]. rewrite sign_same. cbn [obind]. rewrite IH. reflexivity.
Qed.

Lemma flat_length {A} (l : list (list token * A)) ts a : In (ts, a) l -> (length ts < length (flat_map (fun '(ts, _) => ts ++ [TSign x2c]) l))%nat.
Proof.
  induction l as [|[us b] l IH]; [contradiction|]. intros [E|I]; cbn [flat_map]; rewrite !app_length; cbn [length].
  - injection E as -> ->. lia.
  - specialize (IH I). lia.
Qed.
Lemma flat_length_items {A} (l : list (list token * A)) : (length l <= length (flat_map (fun '(ts, _) => ts ++ [TSign x2c]) l))%nat.
Proof. induction l as [|[us b] l IH]; [reflexivity|]. cbn [flat_map]. rewrite !app_length. cbn [length]. lia. Qed.

(** Values one after the other, each on lines of its own with a comma. *)
Lemma comma_line : spells (lit "," ++ [newline]) [TSign x2c].
Proof. cbn [app lit String.list_byte_of_string]. apply sp_sign; [reflexivity|reflexivity|discriminate|]. apply sp_blank; [reflexivity|constructor]. Qed.
Lemma comma_not_word : ~ starts_word (lit "," ++ [newline]).
Proof. cbn. discriminate. Qed.

(** A padded line starts with a blank. *)
Lemma pad_not_word t : ~ starts_word (pad true t).
Proof. destruct t; cbn; [auto|discriminate]. Qed.

Lemma spells_items {A} (l : list (bytes * (list token * A))) : Forall (fun '(t, (ts, _)) => spells t ts) l ->
  spells (flat_map (fun v => pad true (v ++ lit "," ++ [newline])) (map fst l)) (flat_map (fun '(ts, _) => ts ++ [TSign x2c]) (map snd l)) /\
  ~ starts_word (flat_map (fun v => pad true (v ++ lit "," ++ [newline])) (map fst l)).
Proof.
  induction 1 as [|[t [ts a]] l H F [IH S]]; [split; [constructor|exact (fun x => x)]|]. cbn [map flat_map fst snd].
  split.
  - apply spells_app; [|exact IH|exact S]. apply spells_pad. apply spells_app; [exact H|apply comma_line|apply comma_not_word].
  - destruct (t ++ lit "," ++ [newline]) eqn:E; [now destruct t|]. cbn. discriminate.
Qed.

(** ** Builders *)

Lemma says_each ts vs : Forall2 says ts vs -> exists l : list (bytes * (list token * value)),
  map fst l = ts /\ map snd (map snd l) = vs /\ Forall (fun '(t, (us, v)) => spells t us /\ means us v) l.
Proof.
  induction 1 as [|t v ts vs (us & S & M) F (l & E1 & E2 & H)]; [exists []; auto|].
  exists ((t, (us, v)) :: l). cbn [map fst snd]. rewrite E1, E2. repeat split; auto.
Qed.

Lemma spells_each {A} (P : list token -> A -> Prop) (l : list (bytes * (list token * A))) :
  Forall (fun '(t, (us, v)) => spells t us /\ P us v) l -> Forall (fun '(t, (us, _)) => spells t us) l.
Proof. apply Forall_impl. now intros [t [us v]] [H _]. Qed.

Lemma means_items (l : list (bytes * (list token * value))) fuel :
  Forall (fun '(t, (us, v)) => spells t us /\ means us v) l -> (length (flat_map (fun '(ts, _) => ts ++ [TSign x2c]) (map snd l)) <= fuel)%nat ->
  Forall (fun '(ts, a) => opens_value ts /\ forall r, parse fuel (ts ++ TSign x2c :: r) = Some (a, TSign x2c :: r)) (map snd l).
Proof.
  intros F L. apply Forall_forall. intros [ts a] I. pose proof (flat_length _ _ _ I) as L'.
  apply in_map_iff in I as ([t [ts' a']] & E & I). cbn in E. injection E as -> ->.
  rewrite Forall_forall in F. destruct (F _ I) as [_ [O P]]. split; [exact O|]. intros r. apply P; [lia|]. split; discriminate.
Qed.

Lemma spells_sign c t ts : blank c = false -> word_char c = false -> bval c <> 34 -> spells t ts -> spells ([c] ++ t) (TSign c :: ts).
Proof. intros. now apply sp_sign. Qed.

Lemma says_tuple w texts vs : good_word w -> Forall2 says texts vs -> says (debug_tuple w texts) (VTuple w vs).
Proof.
  intros [NE F] H. destruct (says_each _ _ H) as (l & <- & <- & A). unfold debug_tuple.
  destruct (spells_items l (spells_each _ _ A)) as [Sp _].
  exists (TWord w :: TSign x28 :: flat_map (fun '(ts, _) => ts ++ [TSign x2c]) (map snd l) ++ [TSign x29]). split.
  - apply sp_word; [exact NE|exact F|discriminate|]. apply spells_sign; [reflexivity|reflexivity|discriminate|]. apply sp_blank; [reflexivity|].
    apply spells_app; [exact Sp| |discriminate]. apply sp_sign; [reflexivity|reflexivity|discriminate|constructor].
  - split; [exact Logic.I|]. intros [|fuel] r L E; [cbn in L; lia|]. cbn [length] in L. rewrite app_length in L. cbn [length] in L.
    cbn [app parse]. rewrite sign_same. rewrite <- app_assoc. cbn [app].
    rewrite items_read; [reflexivity|apply means_items; [exact A|lia]| |discriminate|discriminate].
    pose proof (flat_length_items (map snd l)). lia.
Qed.

Lemma says_list texts vs : Forall2 says texts vs -> says (debug_list texts) (VList vs).
Proof.
  intros H. destruct (says_each _ _ H) as (l & <- & <- & A). unfold debug_list, debug_inner.
  destruct (spells_items l (spells_each _ _ A)) as [Sp _].
  exists (TSign x5b :: flat_map (fun '(ts, _) => ts ++ [TSign x2c]) (map snd l) ++ [TSign x5d]). split.
  - apply spells_sign; [reflexivity|reflexivity|discriminate|].
    assert (X : spells (flat_map (fun v => pad true (v ++ lit "," ++ [newline])) (map fst l) ++ lit "]") (flat_map (fun '(ts, _) => ts ++ [TSign x2c]) (map snd l) ++ [TSign x5d])).
    { apply spells_app; [exact Sp| |discriminate]. apply sp_sign; [reflexivity|reflexivity|discriminate|constructor]. }
    destruct (map fst l); [exact X|]. apply sp_blank; [reflexivity|exact X].
  - split; [now left|]. intros [|fuel] r L E; [cbn in L; lia|]. cbn [length] in L. rewrite app_length in L. cbn [length] in L.
    cbn [app parse]. rewrite sign_same. rewrite <- app_assoc. cbn [app].
    rewrite items_read; [reflexivity|apply means_items; [exact A|lia]| |discriminate|discriminate].
    pose proof (flat_length_items (map snd l)). lia.
Qed.

(** Fields and entries: two parts with a colon between. *)
Lemma colon_spells t ts : spells t ts -> spells (lit ": " ++ t) (TSign x3a :: ts).
Proof. intros H. cbn [app lit String.list_byte_of_string]. apply sp_sign; [reflexivity|reflexivity|discriminate|]. now apply sp_blank. Qed.
Lemma colon_items (l : list (bytes * bytes)) :
  flat_map (fun '(k, v) => pad true (k ++ lit ": " ++ v ++ lit "," ++ [newline])) l =
  flat_map (fun v => pad true (v ++ lit "," ++ [newline])) (map (fun '(k, v) => k ++ lit ": " ++ v) l).
Proof. induction l as [|[k v] l IH]; [reflexivity|]. cbn [flat_map map]. rewrite IH, <- !app_assoc. reflexivity. Qed.

Lemma says_struct w fs vs : good_word w -> Forall2 (fun '(f, t) '(g, v) => f = g /\ good_word f /\ says t v) fs vs ->
  says (debug_struct w fs) (VRecord w vs).
Proof.
  intros [NE F] H. unfold debug_struct. rewrite colon_items.
  assert (X : exists l : list (bytes * (list token * (bytes * value))), map fst l = map (fun '(k, v) => k ++ lit ": " ++ v) fs /\ map snd (map snd l) = vs /\
    Forall (fun '(t, (us, (f, v))) => spells t us /\ exists ts, us = TWord f :: TSign x3a :: ts /\ means ts v) l).
  { clear -H. induction H as [|[f t] [g v] fs vs (<- & [NE F] & ts & S & M) _ (l & E1 & E2 & A)]; [exists []; auto|].
    exists ((f ++ lit ": " ++ t, (TWord f :: TSign x3a :: ts, (f, v))) :: l). cbn [map fst snd]. rewrite E1, E2. split; [reflexivity|]. split; [reflexivity|].
    constructor; [|exact A]. split; [|exists ts; auto]. apply sp_word; [exact NE|exact F|discriminate|]. now apply colon_spells. }
  destruct X as (l & <- & <- & A).
  assert (A' : Forall (fun '(t, (us, _)) => spells t us) l) by (revert A; apply Forall_impl; now intros [t [us [f v]]] [Q _]).
  destruct (spells_items l A') as [Sp _].
  exists (TWord w :: TSign x7b :: flat_map (fun '(ts, _) => ts ++ [TSign x2c]) (map snd l) ++ [TSign x7d]). split.
  - apply sp_word; [exact NE|exact F|discriminate|]. change (lit " {") with ([x20] ++ [x7b]). rewrite <- app_assoc. apply sp_blank; [reflexivity|].
    apply spells_sign; [reflexivity|reflexivity|discriminate|]. apply sp_blank; [reflexivity|].
    apply spells_app; [exact Sp| |discriminate]. apply sp_sign; [reflexivity|reflexivity|discriminate|constructor].
  - split; [exact Logic.I|]. intros [|fuel] r L E; [cbn in L; lia|]. cbn [length] in L. rewrite app_length in L. cbn [length] in L.
    cbn [app parse]. rewrite sign_other by discriminate. rewrite sign_same. rewrite <- app_assoc. cbn [app].
    rewrite items_read; [reflexivity| | |discriminate|discriminate].
    + apply Forall_forall. intros [ts a] I. pose proof (flat_length _ _ _ I) as L'. apply in_map_iff in I as ([t [ts' [f v]]] & Eq & I). cbn in Eq. injection Eq as <- <-.
      rewrite Forall_forall in A. destruct (A _ I) as [_ (ts & -> & [_ P])]. split; [exact Logic.I|]. intros q. cbn [app named]. rewrite sign_same. cbn [obind].
      rewrite P; [reflexivity|cbn [length] in L'; lia|split; discriminate].
    + pose proof (flat_length_items (map snd l)). lia.
Qed.

Lemma braces_set vs : braces (map (fun v => (v, None)) vs) = Some (VSet vs).
Proof.
  unfold braces. assert (E : forallb (fun '(_, v) => match v with Some _ => false | None => true end) (map (fun v : value => (v, @None value)) vs) = true).
  { induction vs; [reflexivity|]. exact IHvs. }
  rewrite E, map_map. cbn [fst]. now rewrite map_id.
Qed.
Lemma braces_map vs : vs <> [] -> braces (map (fun '(k, v) => (k, Some v)) vs) = Some (VMap vs).
Proof.
  intros NE. unfold braces. destruct vs as [|[k v] vs]; [contradiction|]. cbn [map forallb andb].
  assert (E : forallb (fun '(_, v) => match v with Some _ => true | None => false end) (map (fun '(k, v) => (k, Some v)) vs) = true).
  { clear. induction vs as [|[k v] vs IH]; [reflexivity|]. exact IH. }
  rewrite E. cbn [flat_map app]. do 3 f_equal. clear. induction vs as [|[k v] vs IH]; [reflexivity|]. cbn. now rewrite IH.
Qed.

Lemma says_set texts vs : Forall2 says texts vs -> says (debug_set texts) (VSet vs).
Proof.
  intros H. destruct (says_each _ _ H) as (l & <- & <- & A). unfold debug_set, debug_inner.
  destruct (spells_items l (spells_each _ _ A)) as [Sp _].
  exists (TSign x7b :: flat_map (fun '(ts, _) => ts ++ [TSign x2c]) (map snd l) ++ [TSign x7d]). split.
  - apply spells_sign; [reflexivity|reflexivity|discriminate|].
    assert (X : spells (flat_map (fun v => pad true (v ++ lit "," ++ [newline])) (map fst l) ++ lit "}") (flat_map (fun '(ts, _) => ts ++ [TSign x2c]) (map snd l) ++ [TSign x7d])).
    { apply spells_app; [exact Sp| |discriminate]. apply sp_sign; [reflexivity|reflexivity|discriminate|constructor]. }
    destruct (map fst l); [exact X|]. apply sp_blank; [reflexivity|exact X].
  - split; [now right|]. intros [|fuel] r L E; [cbn in L; lia|]. cbn [length] in L. rewrite app_length in L. cbn [length] in L.
    cbn [app parse]. rewrite sign_other by discriminate. rewrite sign_same. rewrite <- app_assoc. cbn [app].
    set (l' := map (fun '(ts, v) => (ts, (v, @None value))) (map snd l)).
    replace (flat_map (fun '(ts, _) => ts ++ [TSign x2c]) (map snd l)) with (flat_map (fun '(ts, _) => ts ++ [TSign x2c]) l').
    2:{ unfold l'. generalize (map snd l). intros k. induction k as [|[ts v] k IH]; [reflexivity|]. cbn [map flat_map]. now rewrite IH. }
    rewrite items_read; [| | |discriminate|discriminate].
    + cbn [obind]. replace (map snd l') with (map (fun v => (v, @None value)) (map snd (map snd l))).
      2:{ unfold l'. rewrite !map_map. apply map_ext. now intros [t [ts v]]. }
      rewrite braces_set. reflexivity.
    + pose proof (means_items l fuel A ltac:(lia)) as M. unfold l'. rewrite Forall_map. revert M. apply Forall_impl. intros [ts v] [O P]. split; [exact O|].
      intros q. unfold entry. rewrite P. cbn [obind]. rewrite sign_other by discriminate. reflexivity.
    + unfold l'. rewrite map_length. pose proof (flat_length_items (map snd l)). lia.
Qed.

Lemma says_map ts vs : Forall2 (fun '(k, t) '(k', v) => says k k' /\ says t v) ts vs -> says (debug_map ts) (v_map vs).
Proof.
  intros H. destruct H as [|[k t] [k' v] ts vs (A & B) H]; [apply (says_set [] []); constructor|].
  unfold v_map. assert (H' : Forall2 (fun '(k, t) '(k', v) => says k k' /\ says t v) ((k, t) :: ts) ((k', v) :: vs)) by (constructor; auto). clear H A B.
  unfold debug_map. rewrite colon_items. remember ((k, t) :: ts) as ts' eqn:Et. remember ((k', v) :: vs) as vs' eqn:Ev.
  assert (X : exists l : list (bytes * (list token * (value * value))), map fst l = map (fun '(k, v) => k ++ lit ": " ++ v) ts' /\ map snd (map snd l) = vs' /\
    Forall (fun '(t, (us, (k, v))) => spells t us /\ exists ks ts, us = ks ++ TSign x3a :: ts /\ means ks k /\ means ts v) l).
  { clear -H'. induction H' as [|[k t] [k' v] ts vs ((ks & Sk & Mk) & (us & St & Mt)) _ (l & E1 & E2 & A)]; [exists []; auto|].
    exists ((k ++ lit ": " ++ t, (ks ++ TSign x3a :: us, (k', v))) :: l). cbn [map fst snd]. rewrite E1, E2. split; [reflexivity|]. split; [reflexivity|].
    constructor; [|exact A]. split; [|exists ks, us; auto]. apply spells_app; [exact Sk|now apply colon_spells|discriminate]. }
  destruct X as (l & <- & E & A).
  assert (NE : vs' <> []) by (subst vs'; discriminate). clear Ev.
  assert (A' : Forall (fun '(t, (us, _)) => spells t us) l) by (revert A; apply Forall_impl; now intros [? [us [? ?]]] [Q _]).
  destruct (spells_items l A') as [Sp _].
  exists (TSign x7b :: flat_map (fun '(ts, _) => ts ++ [TSign x2c]) (map snd l) ++ [TSign x7d]). split.
  - apply spells_sign; [reflexivity|reflexivity|discriminate|].
    assert (X : spells (flat_map (fun v => pad true (v ++ lit "," ++ [newline])) (map fst l) ++ lit "}") (flat_map (fun '(ts, _) => ts ++ [TSign x2c]) (map snd l) ++ [TSign x7d])).
    { apply spells_app; [exact Sp| |discriminate]. apply sp_sign; [reflexivity|reflexivity|discriminate|constructor]. }
    apply sp_blank; [reflexivity|exact X].
  - split; [now right|]. intros [|fuel] r L En; [cbn in L; lia|]. cbn [length] in L. rewrite app_length in L. cbn [length] in L.
    cbn [app parse]. rewrite sign_other by discriminate. rewrite sign_same. rewrite <- app_assoc. cbn [app].
    set (l' := map (fun '(ts, (k, v)) => (ts, (k, Some v))) (map snd l)).
    replace (flat_map (fun '(ts, _) => ts ++ [TSign x2c]) (map snd l)) with (flat_map (fun '(ts, _) => ts ++ [TSign x2c]) l').
    2:{ unfold l'. generalize (map snd l). intros q. induction q as [|[us [? ?]] q IH]; [reflexivity|]. cbn [map flat_map]. now rewrite IH. }
    rewrite items_read; [| | |discriminate|discriminate].
    + cbn [obind]. replace (map snd l') with (map (fun '(k, v) => (k, Some v)) vs').
      2:{ unfold l'. rewrite <- E, !map_map. apply map_ext. now intros [? [us [? ?]]]. }
      rewrite braces_map by exact NE. reflexivity.
    + unfold l'. rewrite Forall_map. apply Forall_forall. intros [us [a b]] I. pose proof (flat_length _ _ _ I) as L'.
      apply in_map_iff in I as ([? [us' [? ?]]] & Eq & I). cbn in Eq. injection Eq as <- <- <-.
      rewrite Forall_forall in A. destruct (A _ I) as [_ (ks & vts & -> & [Ok Pk] & [Ov Pv])]. rewrite app_length in L'. cbn [length] in L'. split.
      * destruct ks as [|[| |] ks]; [contradiction|exact Logic.I|exact Logic.I|exact Ok].
      * intros q. unfold entry. rewrite <- app_assoc. cbn [app]. rewrite Pk; [|lia|split; discriminate]. cbn [obind]. rewrite sign_same.
        rewrite Pv; [reflexivity|lia|split; discriminate].
    + unfold l'. rewrite map_length. pose proof (flat_length_items (map snd l)). lia.
Qed.

(** A whole text. *)
Lemma read_says t v : says t v -> read_text (t ++ [newline]) = Some v.
Proof.
  intros (ts & S & M). unfold read_text.
  assert (S' : spells (t ++ [newline]) (ts ++ [])) by (apply spells_app; [exact S|apply sp_blank; [reflexivity|constructor]|discriminate]).
  rewrite (tokens_spells _ _ S') by lia. cbn [obind]. rewrite (mn_parse _ _ M); [reflexivity|rewrite app_length; cbn; lia|exact Logic.I].
Qed.
