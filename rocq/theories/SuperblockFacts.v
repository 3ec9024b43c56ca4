(** Facts about images and superblock decoding. *)

From Coq Require Import Strings.String.
From Verif Require Import Base BaseFacts Raid Io Superblock SpecMd.

Lemma byte_val_nth st o : byte_val st o = match nth_N st o with Some b => bval b | None => 0 end.
Proof. unfold byte_val. now rewrite nth_N_spec. Qed.

Lemma window_S {A} (st : list A) o w :
  window st o (N.of_nat (S w)) =
  match nth_N st o with Some b => b :: window st (o + 1) (N.of_nat w) | None => [] end.
Proof.
  rewrite nth_N_spec. unfold window. rewrite !Nat2N.id.
  replace (N.to_nat (o + 1)) with (S (N.to_nat o)) by lia.
  generalize (N.to_nat o) as k. clear o. intros k. revert st. induction k as [|k IH]; intros [|a st]; try reflexivity.
  cbn [skipn nth_error]. rewrite IH. destruct (nth_error st k); reflexivity.
Qed.

Lemma uint_le_window st o w : uint_le st o w = le (window st o (N.of_nat w)).
Proof.
  revert o. induction w as [|w IH]; intros o; [now rewrite window_0|].
  cbn [uint_le]. rewrite window_S, byte_val_nth, IH. destruct (nth_N st o) eqn:E; [reflexivity|].
  rewrite nth_N_spec in E. apply nth_error_None in E. rewrite length_len in E.
  rewrite window_nil by lia. reflexivity.
Qed.

Lemma be_snoc a b : be (a ++ [b]) = 256 * be a + bval b.
Proof. unfold be. rewrite rev_app_distr. cbn. lia. Qed.

Lemma uint_be_window st o w : o + N.of_nat w <= len st -> uint_be st o w = be (window st o (N.of_nat w)).
Proof.
  induction w as [|w IH]; intros L; [now rewrite window_0|].
  cbn [uint_be]. rewrite IH by lia.
  destruct (nth_N_lt_some st (o + N.of_nat w)) as [b E]; [lia|].
  replace (N.of_nat (S w)) with (N.of_nat w + 1) by lia.
  rewrite window_app_split.
  replace 1 with (N.of_nat 1) by reflexivity. rewrite window_S, E, window_0, be_snoc, byte_val_nth, E. reflexivity.
Qed.

Lemma holds_window st o b : holds st (o, b) <-> o + len b <= len st /\ window st o (len b) = b.
Proof.
  unfold holds. split; intros [L H]; (split; [exact L|]).
  - apply list_ext_N; rewrite len_window_in by assumption; [reflexivity|].
    intros i I. rewrite nth_N_window by assumption. now apply H.
  - intros i I. rewrite <- H. now rewrite nth_N_window.
Qed.

(** ** Overwriting *)

Lemma len_poke st o b : o + len b <= len st -> len (poke st (o, b)) = len st.
Proof. intros. unfold poke. rewrite !len_app, len_firstn, len_skipn. lia. Qed.

Lemma nth_poke st o b i : o + len b <= len st ->
  nth_N (poke st (o, b)) i = if (o <=? i) && (i <? o + len b) then nth_N b (i - o) else nth_N st i.
Proof.
  intros L. rewrite !nth_N_spec. unfold poke.
  assert (Lf : length (firstn (N.to_nat o) st) = N.to_nat o) by (rewrite firstn_length, length_len; lia).
  destruct (N.leb_spec o i) as [A|A]; cbn [andb].
  - rewrite nth_error_app2 by lia. rewrite Lf. destruct (N.ltb_spec i (o + len b)) as [B|B].
    + rewrite nth_error_app1 by (rewrite length_len; lia). f_equal. lia.
    + rewrite nth_error_app2 by (rewrite length_len; lia). rewrite nth_error_skipn'. f_equal. rewrite length_len. lia.
  - rewrite nth_error_app1 by lia. apply nth_error_firstn'. lia.
Qed.

Definition disjoint (a b : N * bytes) : Prop :=
  fst a + len (snd a) <= fst b \/ fst b + len (snd b) <= fst a.

Lemma holds_poke st a b :
  holds st a -> disjoint a b -> fst b + len (snd b) <= len st -> holds (poke st b) a.
Proof.
  destruct a as [o x], b as [o' y]. unfold holds, disjoint. cbn [fst snd]. intros [L H] Dj L'.
  rewrite len_poke by assumption. split; [exact L|]. intros i I. rewrite nth_poke by assumption.
  destruct (N.leb_spec o' (o + i)), (N.ltb_spec (o + i) (o' + len y)); cbn [andb]; auto; lia.
Qed.

Lemma holds_poke_same st a : fst a + len (snd a) <= len st -> holds (poke st a) a.
Proof.
  destruct a as [o x]. cbn [fst snd]. intros L. unfold holds. rewrite len_poke by assumption. split; [exact L|].
  intros i I. rewrite nth_poke by assumption.
  destruct (N.leb_spec o (o + i)), (N.ltb_spec (o + i) (o + len x)); cbn [andb]; try lia. f_equal. lia.
Qed.

Lemma fold_poke_holds l st :
  ForallOrdPairs disjoint l -> Forall (fun a => fst a + len (snd a) <= len st) l ->
  Forall (holds (fold_left poke l st)) l /\ len (fold_left poke l st) = len st /\
  (forall a, holds st a -> Forall (disjoint a) l -> holds (fold_left poke l st) a).
Proof.
  revert st. induction l as [|a l IH]; intros st F L; [repeat split; auto|].
  inv F. inv L. cbn [fold_left].
  assert (Lp : len (poke st a) = len st) by (destruct a; now apply len_poke).
  destruct (IH (poke st a)) as (I1 & I2 & I3); auto; [now rewrite Lp|]. repeat split.
  - constructor; [|assumption]. apply I3; [now apply holds_poke_same|assumption].
  - congruence.
  - intros x Hx Dj. inv Dj. apply I3; [|assumption]. now apply holds_poke.
Qed.

(** ** Fields *)

Lemma fle_holds lay name o w st b :
  field lay name = Some (o, w) -> holds st (o, b) -> len b = w -> fle lay name st = le b.
Proof.
  intros F H L. apply holds_window in H as [_ H]. unfold fle, fbytes. rewrite F, <- L, H. reflexivity.
Qed.

Lemma val_enc e w v : v < 256 ^ N.of_nat w -> val e (enc e w v) = v.
Proof. intros. destruct e; cbn; [now apply le_to_le|now apply be_to_be]. Qed.

Lemma len_enc e w v : len (enc e w v) = N.of_nat w.
Proof. destruct e; cbn; [apply len_to_le|apply len_to_be]. Qed.

Lemma fval_holds e lay name o w st b :
  field lay name = Some (o, w) -> holds st (o, b) -> len b = w -> fval e lay name st = val e b.
Proof.
  intros F H L. apply holds_window in H as [_ H]. unfold fval, fbytes. rewrite F, <- L, H. reflexivity.
Qed.

(** A field of a nested view. *)
Lemma window_nested {A} (st : list A) o n p m : p + m <= n -> window (window st o n) p m = window st (o + p) m.
Proof. intros. apply window_window. assumption. Qed.

(** ** The role table *)

Lemma len_flat_map_le l : len (flat_map (to_le 2) l) = 2 * len l.
Proof. induction l; [reflexivity|]. cbn [flat_map]. rewrite len_app, len_to_le, IHl, len_cons. lia. Qed.

Lemma read_u16s_flat l rest :
  Forall (fits 2) l -> read_u16s (length l) (flat_map (to_le 2) l ++ rest) = l.
Proof.
  induction 1 as [|v l Hv _ IH]; [reflexivity|]. cbn [length read_u16s flat_map].
  rewrite <- app_assoc. set (t := flat_map (to_le 2) l ++ rest) in *.
  change (firstn 2 (to_le 2 v ++ t)) with (to_le 2 v). change (skipn 2 (to_le 2 v ++ t)) with t.
  rewrite le_to_le by exact Hv. now rewrite IH.
Qed.

Lemma contains_bit flags k : contains flags (2 ^ k) = has_bit flags k.
Proof.
  unfold contains, has_bit. destruct (N.testbit flags k) eqn:B.
  - apply N.eqb_eq. apply N.bits_inj. intros i. rewrite N.land_spec. destruct (N.eq_dec k i) as [->|Ne].
    + rewrite B. reflexivity.
    + rewrite (N.pow2_bits_false k i Ne). apply andb_false_r.
  - apply N.eqb_neq. intros E. apply (f_equal (fun x => N.testbit x k)) in E.
    rewrite N.land_spec, B, N.pow2_bits_true in E. discriminate.
Qed.
