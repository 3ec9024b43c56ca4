(** Lemmas about the vocabulary of [Base].  No statement about md-recover here. *)

From Verif Require Import Base.

Ltac inv H := inversion H; subst; clear H.

Lemma rbind_ok_inv {A B} (m : res A) (k : A -> res B) b :
  rbind m k = Ok b -> exists a, m = Ok a /\ k a = Ok b.
Proof. destruct m; cbn; intros H; try discriminate. eauto. Qed.

Lemma obind_some_inv {A B} (m : option A) (k : A -> option B) b :
  obind m k = Some b -> exists a, m = Some a /\ k a = Some b.
Proof. destruct m; cbn; intros H; try discriminate. eauto. Qed.

(** ** Lengths, firstn, skipn, windows *)

Lemma len_nil {A} : len (@nil A) = 0.
Proof. reflexivity. Qed.

Lemma len_cons {A} (a : A) l : len (a :: l) = 1 + len l.
Proof. unfold len. cbn [length]. lia. Qed.

Lemma len_app {A} (a b : list A) : len (a ++ b) = len a + len b.
Proof. unfold len. rewrite app_length. lia. Qed.

Lemma len_repeat {A} (a : A) n : len (repeat a n) = N.of_nat n.
Proof. unfold len. now rewrite repeat_length. Qed.

Lemma len_zeros n : len (zeros n) = n.
Proof. unfold zeros. rewrite len_repeat. lia. Qed.

Lemma len_map {A B} (f : A -> B) l : len (map f l) = len l.
Proof. unfold len. now rewrite map_length. Qed.

Lemma len_rev {A} (l : list A) : len (rev l) = len l.
Proof. unfold len. now rewrite rev_length. Qed.

Lemma len_0_nil {A} (l : list A) : len l = 0 -> l = [].
Proof. destruct l; [easy|]. rewrite len_cons. lia. Qed.

Lemma len_firstn {A} n (l : list A) : len (firstn n l) = N.min (N.of_nat n) (len l).
Proof. unfold len. rewrite firstn_length. lia. Qed.

Lemma len_skipn {A} n (l : list A) : len (skipn n l) = len l - N.of_nat n.
Proof. unfold len. rewrite skipn_length. lia. Qed.

Lemma len_window {A} (l : list A) o n : len (window l o n) = N.min n (len l - o).
Proof. unfold window. rewrite len_firstn, len_skipn. lia. Qed.

Lemma len_window_in {A} (l : list A) o n : o + n <= len l -> len (window l o n) = n.
Proof. intros. rewrite len_window. lia. Qed.

Lemma length_len {A} (l : list A) : length l = N.to_nat (len l).
Proof. unfold len. lia. Qed.

Lemma window_0 {A} (l : list A) o : window l o 0 = [].
Proof. reflexivity. Qed.

Lemma window_nil {A} (l : list A) o n : len l <= o -> window l o n = [].
Proof. intros H. apply len_0_nil. rewrite len_window. lia. Qed.

Lemma window_full {A} (l : list A) : window l 0 (len l) = l.
Proof.
  unfold window. rewrite N2Nat.inj_0. cbn [skipn]. apply firstn_all2. rewrite length_len. lia.
Qed.

Lemma skipn_skipn' {A} n m (l : list A) : skipn n (skipn m l) = skipn (m + n) l.
Proof.
  revert l; induction m as [|m IH]; intros l; cbn [skipn Nat.add]; [reflexivity|].
  destruct l; [now rewrite !skipn_nil|apply IH].
Qed.

Lemma window_app_split {A} (l : list A) o n m :
  window l o (n + m) = window l o n ++ window l (o + n) m.
Proof.
  unfold window. rewrite !N2Nat.inj_add, <- skipn_skipn'.
  set (t := skipn (N.to_nat o) l). clearbody t. clear.
  revert t; generalize (N.to_nat n) as k; generalize (N.to_nat m) as j.
  intros j k; induction k as [|k IH]; intros t; cbn [Nat.add firstn skipn app]; [reflexivity|].
  destruct t as [|a t]; cbn [firstn skipn app]; [now rewrite firstn_nil|].
  now rewrite IH.
Qed.

Lemma firstn_firstn_min {A} n m (l : list A) : firstn n (firstn m l) = firstn (Nat.min n m) l.
Proof. apply firstn_firstn. Qed.

Lemma skipn_firstn_comm' {A} n m (l : list A) : skipn n (firstn m l) = firstn (m - n) (skipn n l).
Proof. apply skipn_firstn_comm. Qed.

Lemma window_window {A} (l : list A) o n p m :
  p + m <= n -> window (window l o n) p m = window l (o + p) m.
Proof.
  intros H. unfold window.
  rewrite skipn_firstn_comm', firstn_firstn_min, skipn_skipn'.
  f_equal; [lia|f_equal; lia].
Qed.

Lemma window_app_l {A} (a b : list A) o n :
  o + n <= len a -> window (a ++ b) o n = window a o n.
Proof.
  intros H. unfold window. rewrite skipn_app, firstn_app.
  rewrite skipn_length, length_len.
  replace (N.to_nat n - (N.to_nat (len a) - N.to_nat o))%nat with O by lia.
  cbn [firstn]. now rewrite app_nil_r.
Qed.

Lemma window_app_r {A} (a b : list A) o n :
  len a <= o -> window (a ++ b) o n = window b (o - len a) n.
Proof.
  intros H. unfold window. rewrite skipn_app.
  rewrite (skipn_all2 a) by (rewrite length_len; lia). cbn [app].
  rewrite length_len. f_equal. f_equal. lia.
Qed.

Lemma firstn_to_nat_all {A} (l : list A) n : len l <= n -> firstn (N.to_nat n) l = l.
Proof. intros. apply firstn_all2. rewrite length_len. lia. Qed.

Lemma skipn_to_nat_nil {A} (l : list A) n : len l <= n -> skipn (N.to_nat n) l = [].
Proof. intros. apply skipn_all2. rewrite length_len. lia. Qed.

Lemma window_firstn {A} (l : list A) n : window l 0 n = firstn (N.to_nat n) l.
Proof. reflexivity. Qed.

Lemma firstn_app_exact {A} (a b : list A) n : n = len a -> firstn (N.to_nat n) (a ++ b) = a.
Proof.
  intros ->. rewrite firstn_app, length_len, Nat.sub_diag. cbn [firstn].
  rewrite app_nil_r. apply firstn_all2. rewrite length_len; lia.
Qed.

Lemma skipn_app_exact {A} (a b : list A) n : n = len a -> skipn (N.to_nat n) (a ++ b) = b.
Proof.
  intros ->. rewrite skipn_app, length_len, Nat.sub_diag. cbn [skipn].
  rewrite skipn_all2; [reflexivity|]. rewrite length_len; lia.
Qed.

(** ** Checked slices *)

Lemma slice_from_some {A} (l : list A) o : o <= len l -> slice_from l o = Some (skipn (N.to_nat o) l).
Proof. unfold slice_from. intros. destruct (N.leb_spec o (len l)); [reflexivity|lia]. Qed.

Lemma slice_to_some {A} (l : list A) n : n <= len l -> slice_to l n = Some (firstn (N.to_nat n) l).
Proof. unfold slice_to. intros. destruct (N.leb_spec n (len l)); [reflexivity|lia]. Qed.

Lemma slice_to_inv {A} (l : list A) n t :
  slice_to l n = Some t -> n <= len l /\ t = firstn (N.to_nat n) l.
Proof. unfold slice_to. destruct (N.leb_spec n (len l)); intros E; inv E. now split. Qed.

Lemma slice_from_inv {A} (l : list A) n t :
  slice_from l n = Some t -> n <= len l /\ t = skipn (N.to_nat n) l.
Proof. unfold slice_from. destruct (N.leb_spec n (len l)); intros E; inv E. now split. Qed.

Lemma sub_some {A} (l : list A) o n : o + n <= len l -> sub l o n = Some (window l o n).
Proof.
  intros. unfold sub. rewrite slice_from_some by lia. cbn [obind].
  rewrite slice_to_some; [reflexivity|]. rewrite len_skipn. lia.
Qed.

Lemma sub_none {A} (l : list A) o n : len l < o + n -> sub l o n = None.
Proof.
  intros H. unfold sub, slice_from, slice_to.
  destruct (N.leb_spec o (len l)); [cbn [obind]|reflexivity].
  rewrite len_skipn. destruct (N.leb_spec n (len l - N.of_nat (N.to_nat o))); [lia|reflexivity].
Qed.

Lemma sub_inv {A} (l : list A) o n t : sub l o n = Some t -> o + n <= len l /\ t = window l o n.
Proof.
  intros H. destruct (N.le_gt_cases (o + n) (len l)) as [L|L].
  - rewrite sub_some in H by assumption. inv H. now split.
  - rewrite sub_none in H by assumption. discriminate.
Qed.

Lemma nth_N_spec {A} (l : list A) i : nth_N l i = nth_error l (N.to_nat i).
Proof.
  unfold nth_N. destruct (N.ltb_spec i (len l)); [reflexivity|].
  symmetry. apply nth_error_None. rewrite length_len. lia.
Qed.

Lemma nth_N_some_lt {A} (l : list A) i a : nth_N l i = Some a -> i < len l.
Proof. unfold nth_N. destruct (N.ltb_spec i (len l)); [easy|discriminate]. Qed.

Lemma nth_N_lt_some {A} (l : list A) i : i < len l -> exists a, nth_N l i = Some a.
Proof.
  intros H. rewrite nth_N_spec. destruct (nth_error l (N.to_nat i)) eqn:E; [eauto|].
  apply nth_error_None in E. rewrite length_len in E. lia.
Qed.

Lemma nth_N_in {A} (l : list A) i a : nth_N l i = Some a -> In a l.
Proof. rewrite nth_N_spec. apply nth_error_In. Qed.

Lemma nth_N_map {A B} (f : A -> B) l i : nth_N (map f l) i = option_map f (nth_N l i).
Proof. rewrite !nth_N_spec. apply nth_error_map. Qed.

Lemma nth_error_firstn' {A} (l : list A) n i : (i < n)%nat -> nth_error (firstn n l) i = nth_error l i.
Proof.
  revert l i; induction n; intros l i H; [lia|].
  destruct l; [now destruct i|]. destruct i; cbn; [reflexivity|]. apply IHn. lia.
Qed.

Lemma nth_error_skipn' {A} (l : list A) n i : nth_error (skipn n l) i = nth_error l (n + i).
Proof.
  revert l; induction n; intros l; [reflexivity|]. destruct l; cbn [skipn Nat.add nth_error].
  - now destruct i.
  - apply IHn.
Qed.

Lemma nth_N_window {A} (l : list A) o n i : i < n -> nth_N (window l o n) i = nth_N l (o + i).
Proof.
  intros H. rewrite !nth_N_spec. unfold window.
  rewrite nth_error_firstn' by lia. rewrite nth_error_skipn'. f_equal. lia.
Qed.

Lemma list_ext_N {A} (a b : list A) :
  len a = len b -> (forall i, i < len a -> nth_N a i = nth_N b i) -> a = b.
Proof.
  revert b. induction a as [|x a IH]; intros b L H.
  - symmetry; apply len_0_nil. now rewrite <- L.
  - destruct b as [|y b]; [rewrite len_nil, len_cons in L; lia|].
    rewrite !len_cons in L.
    assert (x = y).
    { assert (H0 : nth_N (x :: a) 0 = nth_N (y :: b) 0) by (apply H; rewrite len_cons; lia).
      rewrite !nth_N_spec in H0. cbn in H0. now inv H0. }
    subst. f_equal. apply IH; [lia|]. intros i Hi.
    specialize (H (1 + i)). rewrite !nth_N_spec in H |- *.
    replace (N.to_nat (1 + i)) with (S (N.to_nat i)) in H by lia. cbn in H. apply H.
    rewrite len_cons. lia.
Qed.

(** ** Bytes *)

Lemma bval_bound b : bval b < 256.
Proof. unfold bval. pose proof (Byte.to_N_bounded b). lia. Qed.

Lemma bval_byte_of n : bval (byte_of n) = n mod 256.
Proof.
  unfold byte_of, bval.
  assert (H : n mod 256 < 256) by lia.
  destruct (Byte.of_N (n mod 256)) as [b|] eqn:E.
  - now apply Byte.to_of_N in E.
  - apply Byte.of_N_None_iff in E. lia.
Qed.

Lemma byte_of_bval b : byte_of (bval b) = b.
Proof.
  unfold byte_of, bval. pose proof (Byte.to_N_bounded b).
  rewrite N.mod_small by lia. now rewrite Byte.of_to_N.
Qed.

Lemma bval_inj a b : bval a = bval b -> a = b.
Proof. intros H. rewrite <- (byte_of_bval a), <- (byte_of_bval b). now rewrite H. Qed.

Lemma lxor_byte_bound a b : a < 256 -> b < 256 -> N.lxor a b < 256.
Proof.
  intros Ha Hb. destruct (N.eq_dec (N.lxor a b) 0) as [->|Hn]; [lia|].
  change 256 with (2 ^ 8). apply N.log2_lt_pow2; [lia|].
  eapply N.le_lt_trans; [apply N.log2_lxor|].
  destruct (N.eq_dec a 0) as [->|Ha0], (N.eq_dec b 0) as [->|Hb0];
    cbn [N.log2]; try lia;
    try apply N.max_lub_lt; try (apply N.log2_lt_pow2; lia); try lia.
Qed.

Lemma bval_bxor a b : bval (bxor a b) = N.lxor (bval a) (bval b).
Proof.
  unfold bxor. rewrite bval_byte_of. apply N.mod_small.
  apply lxor_byte_bound; apply bval_bound.
Qed.

Lemma bxor_assoc a b c : bxor (bxor a b) c = bxor a (bxor b c).
Proof. apply bval_inj. rewrite !bval_bxor. apply N.lxor_assoc. Qed.

Lemma bxor_comm a b : bxor a b = bxor b a.
Proof. apply bval_inj. rewrite !bval_bxor. apply N.lxor_comm. Qed.

Lemma bxor_nilpotent a : bxor a a = x00.
Proof. apply bval_inj. rewrite bval_bxor. apply N.lxor_nilpotent. Qed.

Lemma bxor_0_l a : bxor x00 a = a.
Proof. apply bval_inj. rewrite bval_bxor. apply N.lxor_0_l. Qed.

Lemma bxor_0_r a : bxor a x00 = a.
Proof. rewrite bxor_comm. apply bxor_0_l. Qed.

Lemma bxor_cancel_l a b c : bxor a b = bxor a c -> b = c.
Proof.
  intros H. rewrite <- (bxor_0_l b), <- (bxor_0_l c), <- (bxor_nilpotent a), !bxor_assoc.
  now rewrite H.
Qed.

(** ** Endianness *)

Lemma le_bound bs : le bs < 256 ^ len bs.
Proof.
  induction bs as [|b t IH].
  - cbn. lia.
  - rewrite len_cons. cbn [le]. rewrite N.pow_add_r, N.pow_1_r.
    pose proof (bval_bound b). nia.
Qed.

Lemma be_bound bs : be bs < 256 ^ len bs.
Proof. unfold be. rewrite <- (len_rev bs). apply le_bound. Qed.

Lemma len_to_le n v : len (to_le n v) = N.of_nat n.
Proof.
  revert v; induction n; intros v; [reflexivity|]. cbn [to_le]. rewrite len_cons, IHn. lia.
Qed.

Lemma le_to_le n v : v < 256 ^ N.of_nat n -> le (to_le n v) = v.
Proof.
  revert v; induction n as [|n IH]; intros v H.
  - cbn in *. lia.
  - cbn [to_le le]. rewrite bval_byte_of.
    replace (N.of_nat (S n)) with (1 + N.of_nat n) in H by lia.
    rewrite N.pow_add_r, N.pow_1_r in H.
    rewrite IH. { pose proof (N.div_mod v 256). lia. }
    apply N.div_lt_upper_bound; lia.
Qed.

Lemma to_le_le bs : to_le (length bs) (le bs) = bs.
Proof.
  induction bs as [|b t IH]; [reflexivity|]. cbn [length le to_le].
  pose proof (bval_bound b). f_equal.
  - apply bval_inj. rewrite bval_byte_of.
    rewrite (N.mul_comm 256), N.mod_add by lia. now apply N.mod_small.
  - rewrite (N.mul_comm 256), N.div_add by lia. rewrite N.div_small by lia. apply IH.
Qed.

Lemma le_inj a b : len a = len b -> le a = le b -> a = b.
Proof.
  intros L H. rewrite <- (to_le_le a), <- (to_le_le b), H, !length_len, L. reflexivity.
Qed.

Lemma be_to_be n v : v < 256 ^ N.of_nat n -> be (to_be n v) = v.
Proof. intros. unfold be, to_be. rewrite rev_involutive. now apply le_to_le. Qed.

Lemma len_to_be n v : len (to_be n v) = N.of_nat n.
Proof. unfold to_be. now rewrite len_rev, len_to_le. Qed.

Lemma be_inj a b : len a = len b -> be a = be b -> a = b.
Proof.
  unfold be. intros L H. apply le_inj in H; [|now rewrite !len_rev].
  rewrite <- (rev_involutive a), <- (rev_involutive b). now rewrite H.
Qed.

Lemma le_app a b : le (a ++ b) = le a + 256 ^ len a * le b.
Proof.
  induction a as [|x a IH]; cbn [app le].
  - change (len (@nil byte)) with 0. rewrite N.pow_0_r. lia.
  - rewrite len_cons, N.pow_add_r, N.pow_1_r, IH. lia.
Qed.
