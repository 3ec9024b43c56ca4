(** The checksum against its polynomial specification, and its error detection. *)

From Verif Require Import Base BaseFacts Crc SpecCrc CrcFacts.

(** ** Polynomial arithmetic *)

Lemma pmul_double a b : pmul (2 * a) b = 2 * pmul a b.
Proof. destruct a; reflexivity. Qed.

Lemma pmul_b2n a c b : pmul (N.b2n c + 2 * a) b = N.lxor (if c then b else 0) (2 * pmul a b).
Proof.
  destruct c; cbn [N.b2n].
  - destruct a as [|a]; [change (2 * pmul 0 b) with 0; rewrite N.lxor_0_r; reflexivity|reflexivity].
  - rewrite N.add_0_l, N.lxor_0_l. apply pmul_double.
Qed.

Lemma double_shiftl a : 2 * a = N.shiftl a 1.
Proof. rewrite N.shiftl_mul_pow2. apply N.mul_comm. Qed.

Lemma double_lxor a b : 2 * N.lxor a b = N.lxor (2 * a) (2 * b).
Proof. rewrite !double_shiftl. apply N.shiftl_lxor. Qed.

Lemma castagnoli_value : castagnoli = 2 ^ 32 + crc_poly.
Proof. reflexivity. Qed.

Lemma testbit_double a i : N.testbit (2 * a) i = if i =? 0 then false else N.testbit a (i - 1).
Proof. exact (testbit_b2n_add false a i). Qed.

(** One bit of the model is one step of the long division. *)
Lemma reverse_step r b : r < 2 ^ 32 ->
  reverse_bits (crc_step r b) =
  N.lxor (N.lxor (2 * reverse_bits r) (N.b2n b * 2 ^ 32))
         (if xorb (N.testbit (reverse_bits r) 31) b then castagnoli else 0).
Proof.
  intros Hr. apply N.bits_inj. intros i.
  rewrite testbit_reverse. unfold crc_step, crc_bit. fold poly_r.
  assert (O : N.odd (N.lxor r (N.b2n b)) = xorb (N.testbit (reverse_bits r) 31) b).
  { rewrite <- N.bit0_odd, N.lxor_spec, testbit_reverse. f_equal. destruct b; reflexivity. }
  rewrite O. set (c := xorb (N.testbit (reverse_bits r) 31) b) in *.
  rewrite !N.lxor_spec, testbit_div2, testbit_double, N.lxor_spec.
  assert (B : N.testbit (N.b2n b) (31 - i + 1) = false).
  { destruct b; [|apply N.bits_0]. change (N.b2n true) with (2 ^ 0). apply N.pow2_bits_false. lia. }
  assert (B2 : N.testbit (N.b2n b * 2 ^ 32) i = (i =? 32) && b).
  { rewrite <- N.shiftl_mul_pow2. destruct (N.lt_ge_cases i 32) as [L|L].
    - rewrite N.shiftl_spec_low by exact L. destruct (N.eqb_spec i 32); [lia|reflexivity].
    - rewrite N.shiftl_spec_high' by exact L. destruct (N.eqb_spec i 32) as [->|Hn].
      + destruct b; reflexivity.
      + destruct b; [|apply N.bits_0]. change (N.b2n true) with (2 ^ 0). apply N.pow2_bits_false. lia. }
  rewrite B, B2.
  destruct (N.lt_ge_cases i 33) as [L|L].
  - assert (P : (i <? 32) && N.testbit poly_r (31 - i) = if i =? 32 then false else N.testbit castagnoli i).
    { assert (In i (map N.of_nat (seq 0 33))) as Hin.
      { replace i with (N.of_nat (N.to_nat i)) by lia. apply in_map, in_seq. lia. }
      cbn in Hin. repeat (destruct Hin as [<-|Hin]; [reflexivity|]). destruct Hin. }
    destruct (N.eqb_spec i 32) as [->|Hn].
    + cbn [andb]. change (32 <? 32) with false. change (32 =? 0) with false. cbn [andb].
      change (32 - 1) with 31. subst c. destruct (N.testbit (reverse_bits r) 31), b; reflexivity.
    + destruct (N.ltb_spec i 32); [|lia]. cbn [andb] in *.
      assert (R : (if i =? 0 then false else N.testbit (reverse_bits r) (i - 1)) = N.testbit r (31 - i + 1)).
      { destruct (N.eqb_spec i 0) as [->|Hz].
        - symmetry. apply (proj1 (bits_bound r 32) Hr). lia.
        - rewrite testbit_reverse. destruct (N.ltb_spec (i - 1) 32); [|lia]. cbn [andb]. f_equal. lia. }
      rewrite R. destruct c; rewrite <- ?P, ?N.bits_0;
        destruct (N.testbit r (31 - i + 1)); try destruct (N.testbit poly_r (31 - i)); reflexivity.
  - destruct (N.ltb_spec i 32); [lia|]. destruct (N.eqb_spec i 32); [lia|]. destruct (N.eqb_spec i 0); [lia|].
    cbn [andb]. rewrite testbit_reverse. destruct (N.ltb_spec (i - 1) 32); [lia|]. cbn [andb xorb].
    destruct c; [|reflexivity].
    rewrite (proj1 (bits_bound castagnoli 33) eq_refl i) by lia. reflexivity.
Qed.

Lemma poly_of_snoc l b : poly_of (l ++ [b]) = 2 * poly_of l + N.b2n b.
Proof. unfold poly_of. now rewrite fold_left_app. Qed.

Lemma lxor_swap a b c d : N.lxor (N.lxor a b) (N.lxor c d) = N.lxor (N.lxor a c) (N.lxor b d).
Proof.
  apply N.bits_inj. intros i. rewrite !N.lxor_spec.
  destruct (N.testbit a i), (N.testbit b i), (N.testbit c i), (N.testbit d i); reflexivity.
Qed.

Lemma lxor_b2n_pow b v : (2 * v + N.b2n b) * 2 ^ 32 = N.lxor (2 * (v * 2 ^ 32)) (N.b2n b * 2 ^ 32).
Proof.
  rewrite N.add_comm, <- lxor_b2n_double, N.lxor_comm, <- !N.shiftl_mul_pow2, N.shiftl_lxor. f_equal.
  rewrite !N.shiftl_mul_pow2. lia.
Qed.

Lemma crc_bits_division r l : r < 2 ^ 32 ->
  exists q, N.lxor (pmul q castagnoli) (reverse_bits (crc_bits r l)) =
            N.lxor (poly_of l * 2 ^ 32) (reverse_bits r * 2 ^ len l).
Proof.
  intros Hr. induction l as [|b l [q IH]] using rev_ind.
  - exists 0. change (pmul 0 castagnoli) with 0. change (poly_of [] * 2 ^ 32) with 0.
    change (2 ^ len (@nil bool)) with 1. now rewrite N.mul_1_r.
  - rewrite crc_bits_app. cbn [crc_bits fold_left]. fold (crc_bits r l).
    set (s := crc_bits r l) in *. assert (Hs : s < 2 ^ 32) by apply crc_bits_bound, Hr.
    set (c := xorb (N.testbit (reverse_bits s) 31) b).
    exists (N.b2n c + 2 * q). rewrite (reverse_step s b Hs). fold c.
    rewrite pmul_b2n, poly_of_snoc, lxor_b2n_pow, len_app. change (len [b]) with 1.
    rewrite N.add_1_r, N.pow_succ_r by lia.
    replace (reverse_bits r * (2 * 2 ^ len l)) with (2 * (reverse_bits r * 2 ^ len l)) by lia.
    transitivity (N.lxor (2 * N.lxor (poly_of l * 2 ^ 32) (reverse_bits r * 2 ^ len l)) (N.b2n b * 2 ^ 32)).
    + rewrite <- IH, double_lxor. apply N.bits_inj. intros i. rewrite !N.lxor_spec.
      destruct (N.testbit (if c then castagnoli else 0) i), (N.testbit (2 * pmul q castagnoli) i),
        (N.testbit (2 * reverse_bits s) i), (N.testbit (N.b2n b * 2 ^ 32) i); reflexivity.
    + rewrite double_lxor. apply N.bits_inj. intros i. rewrite !N.lxor_spec.
      destruct (N.testbit (2 * (poly_of l * 2 ^ 32)) i), (N.testbit (2 * (reverse_bits r * 2 ^ len l)) i),
        (N.testbit (N.b2n b * 2 ^ 32) i); reflexivity.
Qed.

(** ** The specification determines the checksum *)


Lemma odd_lxor a b : N.odd (N.lxor a b) = xorb (N.odd a) (N.odd b).
Proof. rewrite <- !N.bit0_odd. apply N.lxor_spec. Qed.

Lemma div2_lxor a b : N.div2 (N.lxor a b) = N.lxor (N.div2 a) (N.div2 b).
Proof. rewrite !N.div2_spec. apply N.shiftr_lxor. Qed.

Lemma split_odd a : a = N.b2n (N.odd a) + 2 * N.div2 a.
Proof. rewrite N.add_comm. apply N.div2_odd. Qed.

Lemma pmul_split a c : pmul a c = N.lxor (if N.odd a then c else 0) (2 * pmul (N.div2 a) c).
Proof. rewrite (split_odd a) at 1. apply pmul_b2n. Qed.

Lemma pmul_lxor a b c : pmul (N.lxor a b) c = N.lxor (pmul a c) (pmul b c).
Proof.
  assert (H : forall n a b, a < 2 ^ N.of_nat n -> b < 2 ^ N.of_nat n ->
    pmul (N.lxor a b) c = N.lxor (pmul a c) (pmul b c)).
  { clear. induction n as [|n IH]; intros a b Ha Hb.
    - change (2 ^ N.of_nat 0) with 1 in *. replace a with 0 by lia. replace b with 0 by lia. reflexivity.
    - rewrite Nat2N.inj_succ, N.pow_succ_r in Ha, Hb by lia.
      rewrite (pmul_split a), (pmul_split b), (pmul_split (N.lxor a b)), odd_lxor, div2_lxor, IH, double_lxor.
      + rewrite lxor_swap. f_equal. destruct (N.odd a), (N.odd b); cbn [xorb];
          now rewrite ?N.lxor_0_l, ?N.lxor_0_r, ?N.lxor_nilpotent.
      + rewrite N.div2_div. apply N.div_lt_upper_bound; lia.
      + rewrite N.div2_div. apply N.div_lt_upper_bound; lia. }
  assert (B : forall v, v < 2 ^ v) by (intros; apply N.pow_gt_lin_r; lia).
  apply (H (N.to_nat (N.max a b))); rewrite N2Nat.id.
  - eapply N.lt_le_trans; [apply (B a)|]. apply N.pow_le_mono_r; lia.
  - eapply N.lt_le_trans; [apply (B b)|]. apply N.pow_le_mono_r; lia.
Qed.

Lemma testbit_ge v k : N.testbit v k = true -> 2 ^ k <= v.
Proof.
  intros H. destruct (N.le_gt_cases (2 ^ k) v) as [L|L]; [exact L|].
  rewrite (proj1 (bits_bound v k) L k) in H by lia. discriminate.
Qed.

Lemma pmul_degree q : 0 < q -> 2 ^ 32 <= pmul q castagnoli.
Proof.
  destruct q as [|q]; [lia|]. intros _. cbn [pmul]. induction q as [q IH|q IH|]; cbn [pmul_pos].
  - set (x := pmul_pos q castagnoli) in *.
    assert (L : 33 <= N.log2 (2 * x)).
    { rewrite <- (N.log2_pow2 33) by lia. apply N.log2_le_mono. change (2 ^ 33) with (2 * 2 ^ 32). lia. }
    apply N.le_trans with (2 ^ N.log2 (2 * x)); [apply N.pow_le_mono_r; lia|].
    apply testbit_ge. rewrite N.lxor_spec, N.bit_log2 by (change (2 ^ 32) with 4294967296 in IH; lia).
    rewrite (proj1 (bits_bound castagnoli 33)); [reflexivity|reflexivity|exact L].
  - lia.
  - apply N.leb_le. reflexivity.
Qed.

Lemma remainder_unique q q' w w' : w < 2 ^ 32 -> w' < 2 ^ 32 ->
  N.lxor (pmul q castagnoli) w = N.lxor (pmul q' castagnoli) w' -> w = w'.
Proof.
  intros Hw Hw' E.
  assert (E' : pmul (N.lxor q q') castagnoli = N.lxor w w').
  { rewrite pmul_lxor. apply N.lxor_eq. rewrite lxor_swap, E. apply N.lxor_nilpotent. }
  assert (N.lxor q q' = 0) as Z.
  { destruct (N.eq_dec (N.lxor q q') 0) as [Z|Z]; [exact Z|].
    pose proof (pmul_degree (N.lxor q q') ltac:(lia)) as D. rewrite E' in D.
    pose proof (lxor_bound w w' 32 Hw Hw'). lia. }
  rewrite Z in E'. symmetry in E'. now apply N.lxor_eq in E'.
Qed.

(** ** Linearity in the data *)

Fixpoint xor_bits (a b : list bool) : list bool :=
  match a, b with
  | x :: a, y :: b => xorb x y :: xor_bits a b
  | _, _ => []
  end.

Lemma b2n_xorb x y : N.b2n (xorb x y) = N.lxor (N.b2n x) (N.b2n y).
Proof. destruct x, y; reflexivity. Qed.

Lemma crc_bits_lxor a b r s : length a = length b ->
  crc_bits (N.lxor r s) (xor_bits a b) = N.lxor (crc_bits r a) (crc_bits s b).
Proof.
  revert b r s. induction a as [|x a IH]; intros [|y b] r s L; try discriminate; [reflexivity|].
  cbn [xor_bits crc_bits fold_left]. fold (crc_bits (crc_step r x) a) (crc_bits (crc_step s y) b).
  rewrite <- IH by (cbn in L; lia). unfold crc_bits. f_equal. unfold crc_step.
  rewrite b2n_xorb, lxor_swap. apply crc_bit_lxor.
Qed.

Lemma crc_bits_diff a b r : length a = length b ->
  crc_bits r a = crc_bits r b <-> crc_bits 0 (xor_bits a b) = 0.
Proof.
  intros L. pose proof (crc_bits_lxor a b r r L) as X. rewrite N.lxor_nilpotent in X. rewrite X. split.
  - intros ->. apply N.lxor_nilpotent.
  - apply N.lxor_eq.
Qed.

(** Number of set bits. *)
Fixpoint weight (l : list bool) : N :=
  match l with [] => 0 | b :: l => N.b2n b + weight l end.

Lemma weight_xor a b : length a = length b -> weight (xor_bits a b) = distance a b.
Proof.
  revert b. induction a as [|x a IH]; intros [|y b] L; try discriminate; [reflexivity|].
  cbn in *. rewrite IH by lia. reflexivity.
Qed.

Lemma len_xor_bits a b : length a = length b -> len (xor_bits a b) = len a.
Proof.
  revert b. induction a as [|x a IH]; intros [|y b] L; try discriminate; [reflexivity|].
  cbn [xor_bits]. rewrite !len_cons, IH by (cbn in L; lia). reflexivity.
Qed.

Lemma distance_0 a b : length a = length b -> distance a b = 0 -> a = b.
Proof.
  revert b. induction a as [|x a IH]; intros [|y b] L E; try discriminate; [reflexivity|].
  cbn [distance] in E. assert (x = y) as -> by (destruct x, y; cbn in E; lia || reflexivity).
  f_equal. apply IH; [cbn in L; lia|lia].
Qed.

(** ** Odd numbers of flipped bits: the polynomial is divisible by x + 1 *)

Fixpoint parity_pos (p : positive) : bool :=
  match p with xH => true | xO p => parity_pos p | xI p => negb (parity_pos p) end.
Definition parity (v : N) : bool := match v with N0 => false | Npos p => parity_pos p end.

Lemma parity_b2n b v : parity (N.b2n b + 2 * v) = xorb b (parity v).
Proof. destruct b, v as [|p]; try reflexivity.
  change (parity (N.b2n false + 2 * Npos p)) with (parity_pos p). cbn [parity]. now rewrite xorb_false_l.
Qed.

Lemma parity_lxor a b : parity (N.lxor a b) = xorb (parity a) (parity b).
Proof.
  assert (H : forall n a b, a < 2 ^ N.of_nat n -> b < 2 ^ N.of_nat n ->
    parity (N.lxor a b) = xorb (parity a) (parity b)).
  { clear. induction n as [|n IH]; intros a b Ha Hb.
    - change (2 ^ N.of_nat 0) with 1 in *. replace a with 0 by lia. replace b with 0 by lia. reflexivity.
    - rewrite Nat2N.inj_succ, N.pow_succ_r in Ha, Hb by lia.
      rewrite (split_odd a) at 2. rewrite (split_odd b) at 2. rewrite (split_odd (N.lxor a b)), !parity_b2n, odd_lxor, div2_lxor, IH.
      + destruct (N.odd a), (N.odd b), (parity (N.div2 a)), (parity (N.div2 b)); reflexivity.
      + rewrite N.div2_div. apply N.div_lt_upper_bound; lia.
      + rewrite N.div2_div. apply N.div_lt_upper_bound; lia. }
  assert (B : forall v, v < 2 ^ v) by (intros; apply N.pow_gt_lin_r; lia).
  apply (H (N.to_nat (N.max a b))); rewrite N2Nat.id.
  - eapply N.lt_le_trans; [apply (B a)|]. apply N.pow_le_mono_r; lia.
  - eapply N.lt_le_trans; [apply (B b)|]. apply N.pow_le_mono_r; lia.
Qed.

Lemma parity_bit v : parity (crc_bit v) = parity v.
Proof.
  unfold crc_bit. rewrite parity_lxor. rewrite (split_odd v) at 3. rewrite parity_b2n.
  destruct (N.odd v); [|destruct (parity (N.div2 v)); reflexivity].
  change (parity (reverse_bits crc_poly)) with true. destruct (parity (N.div2 v)); reflexivity.
Qed.

Lemma parity_bits l r : parity (crc_bits r l) = xorb (parity r) (N.odd (weight l)).
Proof.
  revert r. induction l as [|b l IH]; intros r; [now rewrite xorb_false_r|].
  cbn [crc_bits fold_left weight]. fold (crc_bits (crc_step r b) l). rewrite IH. unfold crc_step.
  rewrite parity_bit, parity_lxor, N.odd_add, xorb_assoc. f_equal. destruct b; reflexivity.
Qed.

(** ** Two flipped bits: the order of x *)

(** A linear map given by the images of the bits. *)
Fixpoint lin (cols : list N) (v : N) : N :=
  match cols with
  | [] => 0
  | c :: cols => N.lxor (if N.odd v then c else 0) (lin cols (N.div2 v))
  end.

Lemma lin_lxor cols a b : lin cols (N.lxor a b) = N.lxor (lin cols a) (lin cols b).
Proof.
  revert a b. induction cols as [|c cols IH]; intros a b; [reflexivity|]. cbn [lin].
  rewrite odd_lxor, div2_lxor, IH, lxor_swap. f_equal.
  destruct (N.odd a), (N.odd b); cbn [xorb]; now rewrite ?N.lxor_0_l, ?N.lxor_0_r, ?N.lxor_nilpotent.
Qed.

Lemma lin_0 cols : lin cols 0 = 0.
Proof. induction cols as [|c cols IH]; [reflexivity|]. cbn [lin]. change (N.odd 0) with false. change (N.div2 0) with 0. now rewrite IH. Qed.

Lemma lin_compose a b v : lin (map (lin a) b) v = lin a (lin b v).
Proof.
  revert v. induction b as [|c b IH]; intros v; [symmetry; apply lin_0|].
  cbn [lin map]. rewrite IH, lin_lxor. f_equal. destruct (N.odd v); [reflexivity|symmetry; apply lin_0].
Qed.

Fixpoint powers (n : nat) (k : N) : list N := match n with O => [] | S n => 2 ^ k :: powers n (k + 1) end.

Lemma lin_powers n k v : v < 2 ^ N.of_nat n -> lin (powers n k) v = v * 2 ^ k.
Proof.
  revert k v. induction n as [|n IH]; intros k v H.
  - change (2 ^ N.of_nat 0) with 1 in H. replace v with 0 by lia. reflexivity.
  - cbn [powers lin]. rewrite Nat2N.inj_succ, N.pow_succ_r in H by lia. rewrite IH.
    2:{ rewrite N.div2_div. apply N.div_lt_upper_bound; lia. }
    rewrite (split_odd v) at 3. rewrite <- lxor_b2n_double, <- !N.shiftl_mul_pow2, N.shiftl_lxor. f_equal.
    + destruct (N.odd v); cbn [N.b2n]; [now rewrite N.shiftl_1_l|now rewrite N.shiftl_0_l].
    + rewrite !N.shiftl_mul_pow2, N.add_1_r, N.pow_succ_r by lia. lia.
Qed.

Definition step_cols : list N := poly_r :: powers 31 0.

Lemma lin_step v : v < 2 ^ 32 -> lin step_cols v = crc_bit v.
Proof.
  intros H. cbn [step_cols lin]. rewrite lin_powers.
  - rewrite N.mul_1_r, N.lxor_comm. reflexivity.
  - change (2 ^ 32) with (2 * 2 ^ 31) in H. change (N.of_nat 31) with 31. rewrite N.div2_div. apply N.div_lt_upper_bound; lia.
Qed.

Definition square (cols : list N) : list N := map (lin cols) cols.

(** Two to the [k] steps at once. *)
Fixpoint big_step (k : nat) : list N := match k with O => step_cols | S k => square (big_step k) end.

Lemma iter_bound_N n a : a < 2 ^ 32 -> N.iter n crc_bit a < 2 ^ 32.
Proof. intros H. rewrite N2Nat.inj_iter. apply iter_bound, H. Qed.

Lemma iter_add_N n m v : N.iter (n + m) crc_bit v = N.iter n crc_bit (N.iter m crc_bit v).
Proof. apply N.iter_add. Qed.

Lemma big_step_spec k v : v < 2 ^ 32 -> lin (big_step k) v = N.iter (2 ^ N.of_nat k) crc_bit v.
Proof.
  revert v. induction k as [|k IH]; intros v H; [apply lin_step, H|].
  cbn [big_step square]. unfold square. rewrite lin_compose.
  rewrite (IH v H), IH by apply iter_bound_N, H. rewrite <- iter_add_N. f_equal.
  rewrite Nat2N.inj_succ, N.pow_succ_r by lia. lia.
Qed.

(** The register with only the lowest bit set returns to itself after 2^31 - 1 steps ... *)
Lemma period_aux n : n + 1 = 2 ^ N.of_nat 31 -> N.iter n crc_bit 1 = 1.
Proof.
  intros Hn.
  assert (E : crc_bit (N.iter n crc_bit 1) = crc_bit 1).
  { rewrite <- N.iter_succ, <- N.add_1_r, Hn, <- big_step_spec by reflexivity. vm_compute. reflexivity. }
  apply crc_bit_inj in E; [exact E|apply iter_bound_N; reflexivity|reflexivity].
Qed.

Definition mersenne : N := 2147483647.

Lemma period : N.iter mersenne crc_bit 1 = 1.
Proof. apply period_aux. reflexivity. Qed.

Local Opaque mersenne.

(** ... and 2^31 - 1 is a prime number, ... *)
Fixpoint no_divisor (fuel : nat) (d p : N) : bool :=
  match fuel with O => true | S fuel => negb (p mod d =? 0) && no_divisor fuel (d + 1) p end.

Lemma no_divisor_spec fuel d p e : no_divisor fuel d p = true -> d <= e < d + N.of_nat fuel -> p mod e <> 0.
Proof.
  revert d. induction fuel as [|fuel IH]; intros d H [L U]; [lia|].
  cbn [no_divisor] in H. apply andb_true_iff in H as [H1 H2].
  destruct (N.eq_dec d e) as [<-|Hd]; [apply negb_true_iff, N.eqb_neq in H1; exact H1|].
  apply (IH (d + 1)); [exact H2|lia].
Qed.

Lemma mersenne_value : mersenne = 2147483647.
Proof. reflexivity. Qed.

Lemma mersenne_prime g : (g | mersenne) -> g = 1 \/ g = mersenne.
Proof.
  assert (C : no_divisor (N.to_nat 46339) 2 mersenne = true) by (vm_compute; reflexivity).
  assert (S : forall a b, a * b = mersenne -> a <= b -> a = 1).
  { intros a b E L. destruct (N.eq_dec a 0) as [->|Z]; [rewrite mersenne_value in E; discriminate|].
    destruct (N.eq_dec a 1) as [->|O]; [reflexivity|].
    destruct (N.le_gt_cases 46341 a) as [B|B].
    - assert (46341 * 46341 <= a * b) by (apply N.mul_le_mono; lia). rewrite mersenne_value in *. lia.
    - exfalso. apply (no_divisor_spec _ _ _ a C); [rewrite N2Nat.id; lia|]. rewrite <- E, N.mul_comm. apply N.mod_mul, Z. }
  intros [h E]. symmetry in E. destruct (N.le_gt_cases h g) as [L|L].
  - right. pose proof (S h g E L) as ->. lia.
  - left. apply (S g h); [rewrite N.mul_comm; exact E|lia].
Qed.

(** ... so it does not return earlier. *)
Lemma iter_mul n k : N.iter n crc_bit 1 = 1 -> N.iter (k * n) crc_bit 1 = 1.
Proof.
  intros H. induction k as [|k IH] using N.peano_ind; [reflexivity|].
  rewrite N.mul_succ_l, iter_add_N, H. exact IH.
Qed.

Lemma no_early_return n : 0 < n < mersenne -> N.iter n crc_bit 1 <> 1.
Proof.
  intros Hn E.
  assert (G : N.gcd n mersenne = 1).
  { destruct (mersenne_prime (N.gcd n mersenne)) as [G|G]; [apply N.gcd_divide_r|exact G|].
    pose proof (N.gcd_divide_l n mersenne) as D. rewrite G in D. apply N.divide_pos_le in D; lia. }
  destruct (N.gcd_bezout_pos n mersenne) as (a & b & B); [lia|]. rewrite G in B.
  assert (A : N.iter (a * n) crc_bit 1 = 1) by (apply iter_mul, E).
  rewrite B, iter_add_N in A. rewrite (iter_mul mersenne b period) in A. discriminate A.
Qed.

(** ** Which differences go unnoticed *)

Lemma crc_bits_falses n r : crc_bits r (repeat false n) = Nat.iter n crc_bit r.
Proof.
  revert r. induction n as [|n IH]; intros r; [reflexivity|].
  cbn [repeat crc_bits fold_left]. fold (crc_bits (crc_step r false) (repeat false n)).
  rewrite IH, iter_Sr. unfold crc_step. now rewrite N.lxor_0_r.
Qed.

Lemma iter_0 n : Nat.iter n crc_bit 0 = 0.
Proof. induction n as [|n IH]; [reflexivity|]. change (crc_bit (Nat.iter n crc_bit 0) = 0). now rewrite IH. Qed.

Lemma weight_0 l : weight l = 0 -> l = repeat false (length l).
Proof.
  induction l as [|b l IH]; intros H; [reflexivity|]. cbn [weight length repeat] in *.
  destruct b; cbn [N.b2n] in H; [lia|]. f_equal. apply IH. lia.
Qed.

(** The first set bit. *)
Lemma weight_pos l : 0 < weight l -> exists k t, l = repeat false k ++ true :: t.
Proof.
  induction l as [|b l IH]; cbn [weight]; intros H; [lia|]. destruct b.
  - exists O, l. reflexivity.
  - destruct IH as (k & t & ->); [cbn [N.b2n] in H; lia|]. exists (S k), t. reflexivity.
Qed.

Lemma weight_falses k : weight (repeat false k) = 0.
Proof. induction k as [|k IH]; [reflexivity|]. cbn. now rewrite IH. Qed.

Lemma weight_app a b : weight (a ++ b) = weight a + weight b.
Proof. induction a as [|x a IH]; [reflexivity|]. cbn [app weight]. rewrite IH. lia. Qed.

Lemma crc_zero_inj l r : r < 2 ^ 32 -> crc_bits r l = 0 -> weight l = 0 -> r = 0.
Proof.
  intros H E W. rewrite (weight_0 l W), crc_bits_falses in E.
  apply (iter_inj (length l)); [exact H|reflexivity|]. now rewrite E, iter_0.
Qed.

Lemma diff_detected d : 0 < weight d -> weight d <= 3 -> len d <= 2 ^ 31 - 1 -> crc_bits 0 d <> 0.
Proof.
  intros W1 W3 L E.
  assert (Par : N.odd (weight d) = false).
  { pose proof (parity_bits d 0) as P. rewrite E in P. change (parity 0) with false in P. rewrite xorb_false_l in P. now symmetry. }
  assert (W : weight d = 2).
  { destruct (N.eq_dec (weight d) 1) as [X|X]; [rewrite X in Par; discriminate|].
    destruct (N.eq_dec (weight d) 3) as [Y|Y]; [rewrite Y in Par; discriminate|lia]. }
  destruct (weight_pos d W1) as (j & t & ->).
  rewrite weight_app, weight_falses in W. cbn [weight N.b2n] in W.
  destruct (weight_pos t ltac:(lia)) as (k & u & ->).
  rewrite weight_app, weight_falses in W. cbn [weight N.b2n] in W.
  rewrite crc_bits_app, crc_bits_falses, iter_0 in E. cbn [crc_bits fold_left] in E.
  fold (crc_bits (crc_step 0 true) (repeat false k ++ true :: u)) in E.
  rewrite crc_bits_app, crc_bits_falses in E.
  change (crc_step 0 true) with (crc_bit 1) in E. rewrite <- iter_Sr in E.
  set (s := Nat.iter (S k) crc_bit 1) in *.
  assert (Hs : s < 2 ^ 32) by (apply iter_bound; reflexivity).
  cbn [crc_bits fold_left] in E. fold (crc_bits (crc_step s true) u) in E.
  apply crc_zero_inj in E; [|apply crc_step_bound, Hs|lia].
  change 0 with (crc_bit 0) in E. apply crc_bit_inj in E; [|apply lxor_bound; [exact Hs|reflexivity]|reflexivity].
  apply N.lxor_eq in E. cbn [N.b2n] in E.
  apply (no_early_return (N.of_nat (S k))).
  - rewrite !len_app, !len_cons, !len_app, !len_repeat, !len_cons in L. rewrite mersenne_value. change (2 ^ 31 - 1) with 2147483647 in L. lia.
  - rewrite N2Nat.inj_iter, Nat2N.id. exact E.
Qed.
