(** Facts about the checksum: linearity, invertibility, bit-by-bit form. *)

From Verif Require Import Base BaseFacts Crc SpecCrc.

(** ** Mirroring *)

Lemma testbit_b2n_add b a i :
  N.testbit (N.b2n b + 2 * a) i = if i =? 0 then b else N.testbit a (i - 1).
Proof.
  destruct (N.eqb_spec i 0) as [->|H].
  - rewrite N.add_comm. apply N.testbit_0_r.
  - replace i with (N.succ (i - 1)) at 1 by lia. rewrite N.add_comm. apply N.testbit_succ_r.
Qed.

Lemma testbit_div2 v i : N.testbit (N.div2 v) i = N.testbit v (i + 1).
Proof. now rewrite N.div2_spec, N.shiftr_spec'. Qed.

Lemma testbit_reverse_onto n v acc i :
  N.testbit (reverse_onto n v acc) i =
  if i <? N.of_nat n then N.testbit v (N.of_nat n - 1 - i) else N.testbit acc (i - N.of_nat n).
Proof.
  revert v acc i. induction n as [|n IH]; intros v acc i; cbn [reverse_onto].
  - destruct (N.ltb_spec i (N.of_nat 0)); [lia|]. f_equal. lia.
  - rewrite IH, testbit_b2n_add.
    destruct (N.ltb_spec i (N.of_nat n)).
    + destruct (N.ltb_spec i (N.of_nat (S n))); [|lia].
      rewrite testbit_div2. f_equal. lia.
    + destruct (N.eqb_spec (i - N.of_nat n) 0).
      * destruct (N.ltb_spec i (N.of_nat (S n))); [|lia].
        replace (N.of_nat (S n) - 1 - i) with 0 by lia. now rewrite N.bit0_odd.
      * destruct (N.ltb_spec i (N.of_nat (S n))); [lia|]. f_equal. lia.
Qed.

Lemma testbit_reverse v i : N.testbit (reverse_bits v) i = (i <? 32) && N.testbit v (31 - i).
Proof.
  unfold reverse_bits. rewrite testbit_reverse_onto, N.bits_0. change (N.of_nat 32) with 32.
  destruct (N.ltb_spec i 32); [|reflexivity]. cbn [andb]. reflexivity.
Qed.

Lemma bits_bound v n : v < 2 ^ n <-> forall i, n <= i -> N.testbit v i = false.
Proof.
  split.
  - intros H i Hi. destruct (N.eq_dec v 0) as [->|Hv]; [apply N.bits_0|].
    apply N.bits_above_log2. apply N.log2_lt_pow2 in H; lia.
  - intros H. destruct (N.eq_dec v 0) as [->|Hv]; [apply N.neq_0_lt_0, N.pow_nonzero; lia|].
    apply N.log2_lt_pow2; [lia|]. destruct (N.lt_ge_cases (N.log2 v) n) as [L|L]; [exact L|].
    apply H in L. rewrite N.bit_log2 in L by exact Hv. discriminate.
Qed.

Lemma lxor_bound a b n : a < 2 ^ n -> b < 2 ^ n -> N.lxor a b < 2 ^ n.
Proof.
  rewrite !bits_bound. intros Ha Hb i Hi. rewrite N.lxor_spec, Ha, Hb by exact Hi. reflexivity.
Qed.

Lemma reverse_bound v : reverse_bits v < 2 ^ 32.
Proof.
  apply bits_bound. intros i Hi. rewrite testbit_reverse. destruct (N.ltb_spec i 32); [lia|reflexivity].
Qed.

Lemma reverse_mirrored v : mirrored v (reverse_bits v).
Proof.
  split; [apply reverse_bound|]. intros i Hi. rewrite testbit_reverse.
  destruct (N.ltb_spec i 32); [reflexivity|lia].
Qed.

Lemma mirrored_reverse v w : mirrored v w -> w = reverse_bits v.
Proof.
  intros [B H]. apply N.bits_inj. intros i. rewrite testbit_reverse.
  destruct (N.ltb_spec i 32) as [L|L]; [apply H, L|]. now apply (proj1 (bits_bound w 32) B).
Qed.

Lemma reverse_reverse v : v < 2 ^ 32 -> reverse_bits (reverse_bits v) = v.
Proof.
  intros B. apply N.bits_inj. intros i. rewrite !testbit_reverse.
  destruct (N.ltb_spec i 32) as [L|L].
  - destruct (N.ltb_spec (31 - i) 32); [|lia]. cbn [andb]. f_equal. lia.
  - symmetry. now apply (proj1 (bits_bound v 32) B).
Qed.

(** ** One bit *)

Definition poly_r : N := reverse_bits crc_poly.

Lemma poly_r_value : poly_r = 0x82f63b78.
Proof. reflexivity. Qed.

Lemma crc_bit_lxor a b : crc_bit (N.lxor a b) = N.lxor (crc_bit a) (crc_bit b).
Proof.
  unfold crc_bit. fold poly_r. rewrite <- !N.bit0_odd, N.lxor_spec.
  replace (N.div2 (N.lxor a b)) with (N.lxor (N.div2 a) (N.div2 b)).
  2:{ rewrite !N.div2_spec. symmetry. apply N.shiftr_lxor. }
  destruct (N.testbit a 0), (N.testbit b 0); cbn [xorb];
    apply N.bits_inj; intros i; rewrite ?N.lxor_spec, ?N.bits_0;
    destruct (N.testbit (N.div2 a) i), (N.testbit (N.div2 b) i), (N.testbit poly_r i); reflexivity.
Qed.

Lemma crc_bit_bound v : v < 2 ^ 32 -> crc_bit v < 2 ^ 32.
Proof.
  intros H. unfold crc_bit. apply lxor_bound.
  - rewrite N.div2_div. change (2 ^ 32) with 4294967296 in *. lia.
  - destruct (N.odd v); [apply reverse_bound|reflexivity].
Qed.

(** The top bit remembers the bit shifted out, so a step can be undone. *)
Lemma crc_bit_top v : v < 2 ^ 32 -> N.testbit (crc_bit v) 31 = N.odd v.
Proof.
  intros H. unfold crc_bit. rewrite N.lxor_spec, N.div2_spec, N.shiftr_spec'.
  rewrite (proj1 (bits_bound v 32) H) by lia. destruct (N.odd v); reflexivity.
Qed.

Lemma crc_bit_inj a b : a < 2 ^ 32 -> b < 2 ^ 32 -> crc_bit a = crc_bit b -> a = b.
Proof.
  intros Ha Hb E.
  assert (O : N.odd a = N.odd b) by (rewrite <- crc_bit_top, E, crc_bit_top; auto).
  unfold crc_bit in E. rewrite O in E.
  assert (D : N.div2 a = N.div2 b).
  { apply (f_equal (fun x => N.lxor x (if N.odd b then reverse_bits crc_poly else 0))) in E.
    now rewrite !N.lxor_assoc, N.lxor_nilpotent, !N.lxor_0_r in E. }
  now rewrite (N.div2_odd a), (N.div2_odd b), D, O.
Qed.

Lemma iter_lxor n a b : Nat.iter n crc_bit (N.lxor a b) = N.lxor (Nat.iter n crc_bit a) (Nat.iter n crc_bit b).
Proof.
  induction n as [|n IH]; [reflexivity|]. etransitivity; [exact (f_equal crc_bit IH)|apply crc_bit_lxor].
Qed.

Lemma iter_bound n a : a < 2 ^ 32 -> Nat.iter n crc_bit a < 2 ^ 32.
Proof. intros H. induction n as [|n IH]; [exact H|]. apply (crc_bit_bound _ IH). Qed.

Lemma iter_inj n a b : a < 2 ^ 32 -> b < 2 ^ 32 -> Nat.iter n crc_bit a = Nat.iter n crc_bit b -> a = b.
Proof.
  intros Ha Hb. induction n as [|n IH]; [exact id|]. intros E.
  exact (IH (crc_bit_inj _ _ (iter_bound n a Ha) (iter_bound n b Hb) E)).
Qed.

Lemma crc_bit_shiftl v : crc_bit (2 * v) = v.
Proof. unfold crc_bit. rewrite N.odd_mul. cbn. rewrite N.lxor_0_r. destruct v; reflexivity. Qed.

Lemma iter_add n m v : Nat.iter (n + m) crc_bit v = Nat.iter n crc_bit (Nat.iter m crc_bit v).
Proof. induction n as [|n IH]; [reflexivity|]. exact (f_equal crc_bit IH). Qed.

Lemma iter_Sr n v : Nat.iter (S n) crc_bit v = Nat.iter n crc_bit (crc_bit v).
Proof. replace (S n) with (n + 1)%nat by lia. exact (iter_add n 1 v). Qed.

Lemma iter_shiftl n v : Nat.iter n crc_bit (2 ^ N.of_nat n * v) = v.
Proof.
  revert v. induction n as [|n IH]; intros v; [change (2 ^ N.of_nat 0) with 1; apply N.mul_1_l|].
  rewrite iter_Sr.
  replace (2 ^ N.of_nat (S n) * v) with (2 * (2 ^ N.of_nat n * v)).
  2:{ rewrite Nat2N.inj_succ, N.pow_succ_r by lia. lia. }
  rewrite crc_bit_shiftl. apply IH.
Qed.

(** ** One byte: the table gives eight bit steps *)

Lemma lxor_split v : v = N.lxor (N.land v 0xff) (2 ^ 8 * N.shiftr v 8).
Proof.
  rewrite N.mul_comm, <- N.shiftl_mul_pow2. apply N.bits_inj. intros i.
  change 0xff with (N.ones 8). rewrite N.lxor_spec, N.land_spec.
  destruct (N.lt_ge_cases i 8) as [L|L].
  - rewrite N.ones_spec_low, N.shiftl_spec_low by exact L. now rewrite andb_true_r, xorb_false_r.
  - rewrite N.ones_spec_high, N.shiftl_spec_high', N.shiftr_spec' by lia.
    rewrite andb_false_r, xorb_false_l. f_equal. lia.
Qed.

Lemma crc_byte_spec crc b : crc_byte crc b = Nat.iter 8 crc_bit (N.lxor crc (bval b)).
Proof.
  unfold crc_byte, crc_table. rewrite (lxor_split (N.lxor crc (bval b))) at 2.
  rewrite iter_lxor. change (2 ^ 8) with (2 ^ N.of_nat 8). rewrite iter_shiftl. f_equal.
  rewrite N.shiftr_lxor. replace (N.shiftr (bval b) 8) with 0; [now rewrite N.lxor_0_r|].
  rewrite N.shiftr_div_pow2. pose proof (bval_bound b). change (2 ^ 8) with 256.
  symmetry. apply N.div_small. exact H.
Qed.

Lemma bval_32 b : bval b < 2 ^ 32.
Proof. pose proof (bval_bound b). change (2 ^ 32) with 4294967296. lia. Qed.

Lemma crc_byte_bound crc b : crc < 2 ^ 32 -> crc_byte crc b < 2 ^ 32.
Proof. intros H. rewrite crc_byte_spec. apply iter_bound, lxor_bound; [exact H|apply bval_32]. Qed.

(** ** Bit by bit *)

Definition crc_step (r : N) (b : bool) : N := crc_bit (N.lxor r (N.b2n b)).
Definition crc_bits (r : N) (l : list bool) : N := fold_left crc_step l r.

Lemma b2n_32 b : N.b2n b < 2 ^ 32.
Proof. destruct b; reflexivity. Qed.

Lemma crc_step_bound r b : r < 2 ^ 32 -> crc_step r b < 2 ^ 32.
Proof. intros H. apply crc_bit_bound, lxor_bound; [exact H|apply b2n_32]. Qed.

Lemma crc_bits_bound l r : r < 2 ^ 32 -> crc_bits r l < 2 ^ 32.
Proof. revert r. induction l as [|b l IH]; intros r H; [exact H|]. apply IH, crc_step_bound, H. Qed.

Lemma crc_bits_app r a b : crc_bits r (a ++ b) = crc_bits (crc_bits r a) b.
Proof. apply fold_left_app. Qed.

(** Up to 32 bits can be added to the register at once. *)
Fixpoint low_first (l : list bool) : N :=
  match l with
  | [] => 0
  | b :: l => N.b2n b + 2 * low_first l
  end.

Lemma lxor_b2n_double b v : N.lxor (N.b2n b) (2 * v) = N.b2n b + 2 * v.
Proof.
  apply N.bits_inj. intros i. rewrite testbit_b2n_add, N.lxor_spec.
  destruct (N.eqb_spec i 0) as [->|H].
  - rewrite N.testbit_even_0, N.bit0_odd. destruct b; reflexivity.
  - replace i with (N.succ (i - 1)) at 1 2 by lia. rewrite N.testbit_even_succ by lia.
    destruct b; cbn [N.b2n]; [|now rewrite N.bits_0, xorb_false_l].
    replace (N.testbit 1 (N.succ (i - 1))) with false; [apply xorb_false_l|].
    symmetry. rewrite <- (N.shiftl_1_l 0) at 1. now rewrite N.shiftl_1_l, N.pow2_bits_false by lia.
Qed.

Lemma crc_bits_low l r : crc_bits r l = Nat.iter (length l) crc_bit (N.lxor r (low_first l)).
Proof.
  revert r. induction l as [|b l IH]; intros r; [symmetry; apply N.lxor_0_r|].
  cbn [crc_bits fold_left low_first length]. change (fold_left crc_step l (crc_step r b)) with (crc_bits (crc_step r b) l).
  rewrite IH, iter_Sr. f_equal.
  rewrite <- lxor_b2n_double, <- N.lxor_assoc, crc_bit_lxor, crc_bit_shiftl. reflexivity.
Qed.

Lemma low_first_byte b : low_first (byte_bits b) = bval b.
Proof. destruct b; reflexivity. Qed.

Lemma crc_byte_bits r b : crc_byte r b = crc_bits r (byte_bits b).
Proof. rewrite crc_byte_spec, crc_bits_low, low_first_byte. reflexivity. Qed.

Lemma crc_update_bits bs r : crc_update r bs = crc_bits r (bits_of bs).
Proof.
  revert r. induction bs as [|b bs IH]; intros r; [reflexivity|].
  cbn [bits_of flat_map]. rewrite crc_bits_app, <- crc_byte_bits. apply IH.
Qed.

Lemma crc32c_bits seed bs : seed < 2 ^ 32 -> ext4_crc32c seed bs = crc_bits seed (bits_of bs).
Proof.
  intros H. unfold ext4_crc32c, crc_finalize, crc_init, crc_xorout.
  rewrite N.lxor_0_r, reverse_reverse by exact H. apply crc_update_bits.
Qed.

Lemma crc32c_bound seed bs : seed < 2 ^ 32 -> ext4_crc32c seed bs < 2 ^ 32.
Proof. intros H. rewrite crc32c_bits by exact H. apply crc_bits_bound, H. Qed.

(** ** Injectivity *)

Lemma low_first_bound l : low_first l < 2 ^ len l.
Proof.
  induction l as [|b l IH]; [reflexivity|]. rewrite len_cons, N.add_1_l, N.pow_succ_r by lia.
  cbn [low_first]. destruct b; cbn [N.b2n]; lia.
Qed.

Lemma low_first_inj a b : len a = len b -> low_first a = low_first b -> a = b.
Proof.
  revert b. induction a as [|x a IH]; intros [|y b] L E; rewrite ?len_nil, ?len_cons in L; try lia; [reflexivity|].
  cbn [low_first] in E.
  assert (x = y) as -> by (destruct x, y; cbn [N.b2n] in E; lia || reflexivity).
  f_equal. apply IH; [lia|]. destruct y; cbn [N.b2n] in E; lia.
Qed.

Lemma crc_bits_inj_seed l r s : r < 2 ^ 32 -> s < 2 ^ 32 -> crc_bits r l = crc_bits s l -> r = s.
Proof.
  revert r s. induction l as [|b l IH]; intros r s Hr Hs E; [exact E|].
  apply IH in E; auto using crc_step_bound. apply crc_bit_inj in E; auto using lxor_bound, b2n_32.
  apply (f_equal (fun x => N.lxor x (N.b2n b))) in E.
  now rewrite !N.lxor_assoc, N.lxor_nilpotent, !N.lxor_0_r in E.
Qed.

Lemma crc_bits_inj_data a b r : r < 2 ^ 32 -> len a = len b -> len a <= 32 ->
  crc_bits r a = crc_bits r b -> a = b.
Proof.
  intros Hr L H E. rewrite !crc_bits_low in E.
  replace (length b) with (length a) in E by (unfold len in L; lia).
  assert (P : forall l : list bool, len l <= 32 -> low_first l < 2 ^ 32).
  { intros l Hl. eapply N.lt_le_trans; [apply low_first_bound|]. apply N.pow_le_mono_r; lia. }
  apply iter_inj in E; try (apply lxor_bound; [exact Hr|apply P; lia]).
  apply low_first_inj; [exact L|]. apply (f_equal (N.lxor r)) in E.
  now rewrite <- !N.lxor_assoc, N.lxor_nilpotent, !N.lxor_0_l in E.
Qed.

Lemma crc_bits_burst n a b r : n <= 32 -> r < 2 ^ 32 -> burst n a b -> crc_bits r a <> crc_bits r b.
Proof.
  intros Hn Hr (Hd & p & x & y & s & -> & -> & L & Hx) E. rewrite !crc_bits_app in E.
  apply crc_bits_inj_seed in E; auto using crc_bits_bound.
  apply crc_bits_inj_data in E; auto using crc_bits_bound; [|lia]. now subst y.
Qed.

Lemma len_bits bs : len (bits_of bs) = 8 * len bs.
Proof. induction bs as [|b bs IH]; [reflexivity|]. cbn [bits_of flat_map]. rewrite len_app, len_cons. change (len (byte_bits b)) with 8. unfold bits_of in IH. lia. Qed.

Lemma bits_of_app a b : bits_of (a ++ b) = bits_of a ++ bits_of b.
Proof. apply flat_map_app. Qed.

Lemma bits_of_inj a b : bits_of a = bits_of b -> a = b.
Proof.
  revert b. induction a as [|x a IH]; intros [|y b] E; [reflexivity|discriminate|discriminate|].
  cbn [bits_of flat_map] in E.
  assert (B : byte_bits x = byte_bits y /\ bits_of a = bits_of b).
  { unfold byte_bits in E. cbn [map app] in E. injection E as E0 E1 E2 E3 E4 E5 E6 E7 E8.
    split; [|exact E8]. unfold byte_bits. cbn [map]. now rewrite E0, E1, E2, E3, E4, E5, E6, E7. }
  destruct B as [B1 B2]. f_equal; [|now apply IH].
  apply bval_inj. rewrite <- !low_first_byte. now rewrite B1.
Qed.
