(** Property C119: texts of UUIDs, identifiers and quantities; products of double width. *)

From Coq Require Import Strings.String.
From Verif Require Import Base BaseFacts Superblock Device PropsSuperblock Text SpecText TextFacts PropsText Display.

(** ** Specification: reading the texts back *)

(** Pairs of hexadecimal digits. *)
Fixpoint unhex (s : bytes) : option bytes :=
  match s with
  | [] => Some []
  | a :: b :: s => let* x := hex_value a in let* y := hex_value b in let* l := unhex s in Some (byte_of (16 * x + y) :: l)
  | _ => None
  end.
(** The digits of a text, and the rest of it. *)
Definition digits_of (s : bytes) : bytes := filter decimal_digit s.
Definition words_of (s : bytes) : bytes := filter (fun c => negb (decimal_digit c)) s.
(** What the text calls the quantity: [#] for a number, the plural for a count. *)
Definition words (q : quantity) : string :=
  match q with
  | QChunkNumber => "chunk #" | QSectorCount => " sectors" | QCheckpointEventCount => " superblock events" | QMetadataEventCount => " metadata events"
  | QStripeNumber => "stripe #" | QSectorNumber => "sector #" | QDeviceNumber => "md device #" | QDeviceCount => " devices"
  | QExt4BlockCount => " blocks" | QInodeNumber => "inode #" | QInodeCount => " inodes" | QFileBlockNumber => "file block #"
  | QFsBlockNumber => "filesystem block #" | QBlockNumber => "block #" | QBlockCount => " blocks" | QBlockSize => " bytes"
  end%string.
(** UUIDs as they are made: of 4 or of 16 bytes. *)
Definition uuid_bytes (u : array_uuid) : bytes := match u with UuidShort b => b | UuidLong b => b end.
Definition uuid_made (u : array_uuid) : Prop := match u with UuidShort b => len b = 4 | UuidLong b => len b = 16 end.

(** ** Facts *)

Lemma unhex_hex b l s : unhex s = Some l -> unhex (lower_hex_byte b ++ s) = Some (b :: l).
Proof.
  intros E. cbn [lower_hex_byte app unhex]. pose proof (bval_bound b) as B.
  assert (D : bval b / 16 < 16) by (apply N.div_lt_upper_bound; lia). pose proof (N.mod_upper_bound (bval b) 16 ltac:(lia)) as M.
  rewrite !hex_digit_value by assumption. cbn [obind]. rewrite E. cbn [obind].
  rewrite <- (N.div_mod (bval b) 16) by lia. now rewrite byte_of_bval.
Qed.
Lemma unhex_all b : unhex (flat_map lower_hex_byte b) = Some b.
Proof. induction b as [|x b IH]; [reflexivity|]. cbn [flat_map]. now apply unhex_hex. Qed.

Lemma filter_all {A} (p : A -> bool) l : Forall (fun x => p x = true) l -> filter p l = l /\ filter (fun x => negb (p x)) l = [].
Proof. induction 1 as [|x l H _ [I1 I2]]; [split; reflexivity|]. cbn. now rewrite H, I1, I2. Qed.

(** Length and first two letters tell the words of the units apart. *)
Definition print (s : bytes) : N * N * N := (len s, bval (nth 0 s (byte_of 0)), bval (nth 1 s (byte_of 0))).
Lemma print_words q : print (name (words q)) =
  match q with
  | QChunkNumber => (7, 99, 104) | QSectorCount => (8, 32, 115) | QCheckpointEventCount => (18, 32, 115) | QMetadataEventCount => (16, 32, 109)
  | QStripeNumber => (8, 115, 116) | QSectorNumber => (8, 115, 101) | QDeviceNumber => (11, 109, 100) | QDeviceCount => (8, 32, 100)
  | QExt4BlockCount | QBlockCount => (7, 32, 98) | QInodeNumber => (7, 105, 110) | QInodeCount => (7, 32, 105) | QFileBlockNumber => (12, 102, 105)
  | QFsBlockNumber => (18, 102, 105) | QBlockNumber => (7, 98, 108) | QBlockSize => (6, 32, 98)
  end.
Proof. destruct q; vm_compute; reflexivity. Qed.
Lemma words_told q q' : name (words q) = name (words q') ->
  q = q' \/ (q = QExt4BlockCount /\ q' = QBlockCount) \/ (q = QBlockCount /\ q' = QExt4BlockCount).
Proof.
  intros E. apply (f_equal print) in E. rewrite !print_words in E.
  destruct q, q'; first [discriminate E|left; reflexivity|right; left; split; reflexivity|right; right; split; reflexivity].
Qed.

(** ** C119 *)

(** A UUID's text has two digits for each byte, can be read back, and tells UUIDs apart. *)
Theorem uuid_text : forall u u', uuid_made u -> uuid_made u' ->
  unhex (display_uuid u) = Some (uuid_bytes u) /\ len (display_uuid u) = 2 * len (uuid_bytes u) /\ (display_uuid u = display_uuid u' <-> u = u').
Proof.
  assert (R : forall u, unhex (display_uuid u) = Some (uuid_bytes u)) by (intros [b|b]; apply unhex_all).
  assert (L : forall u, len (display_uuid u) = 2 * len (uuid_bytes u)).
  { intros u. assert (E : display_uuid u = flat_map lower_hex_byte (uuid_bytes u)) by now destruct u. rewrite E. clear. induction (uuid_bytes u) as [|x b IH]; [reflexivity|].
    cbn [flat_map lower_hex_byte app]. rewrite !len_cons, IH. lia. }
  intros u u' M M'. split; [apply R|]. split; [apply L|]. split; [|now intros ->]. intros E.
  pose proof (R u) as H. rewrite E, R in H. injection H as H. destruct u as [b|b], u' as [b'|b']; cbn in *; subst; try reflexivity; congruence.
Qed.
Print Assumptions uuid_text.

(** The text of a quantity has the digits of its number and the words of its unit, so that it tells both; only the two kinds of
    block counts have the same words. *)
Theorem quantity_text : forall q n, horner 0 (digits_of (display_quantity q n)) = Some n /\ words_of (display_quantity q n) = name (words q).
Proof.
  intros q n. destruct (debug_uint_reads n) as (H & F & _). apply filter_all in F as [F1 F2]. unfold digits_of, words_of.
  destruct q; cbn [display_quantity]; generalize dependent (debug_uint n); intros d H F1 F2; rewrite !filter_app, F1, F2;
    (split; [match goal with |- context [filter decimal_digit (lit ?s)] => replace (filter decimal_digit (lit s)) with (@nil byte) by (vm_compute; reflexivity) end; rewrite ?app_nil_r; exact H|]);
    rewrite ?app_nil_r; vm_compute; reflexivity.
Qed.
Print Assumptions quantity_text.
Theorem quantity_told : forall q q' n n', display_quantity q n = display_quantity q' n' <->
  n = n' /\ (q = q' \/ (q = QExt4BlockCount /\ q' = QBlockCount) \/ (q = QBlockCount /\ q' = QExt4BlockCount)).
Proof.
  intros q q' n n'. split.
  - intros E. destruct (quantity_text q n) as [D W]. destruct (quantity_text q' n') as [D' W']. rewrite E in D, W. split; [congruence|].
    apply words_told. congruence.
  - intros [-> [->|[[-> ->]|[-> ->]]]]; reflexivity.
Qed.
Print Assumptions quantity_told.

(** Identifiers: equal ones are hashed alike and others are fed differently to the hasher; of two that are made one after the
    other none equals the other, even if they have the same path and therefore the same text. *)
Theorem device_id_same : forall i j, id_index i <= u64_max -> id_index j <= u64_max ->
  device_id_eq i j = true <-> device_id_hash i = device_id_hash j.
Proof.
  intros i j Hi Hj. unfold device_id_eq, device_id_hash. split; [intros E; apply N.eqb_eq in E; now rewrite E|]. intros E. apply N.eqb_eq.
  assert (F : forall n, n <= u64_max -> le (to_le 8 n) = n).
  { intros n L. apply le_to_le. change (256 ^ N.of_nat 8) with (u64_max + 1). lia. }
  rewrite <- (F _ Hi), <- (F _ Hj), E. reflexivity.
Qed.
Print Assumptions device_id_same.
Theorem device_id_new : forall quote counter counter' counter2 r r' i j, id_new counter r = (counter', Ok i) -> counter' <= counter2 -> counter2 <= u64_max ->
  snd (id_new counter2 r') = Ok j -> device_id_eq i j = false /\ (r = r' -> display_device_id quote i = display_device_id quote j).
Proof.
  intros quote c c' c2 r r' i j E L U E2. unfold id_new, next_index in E, E2. destruct (N.eqb_spec c u64_max); [discriminate E|].
  destruct (N.eqb_spec c2 u64_max); [discriminate E2|]. cbn in E, E2. injection E as <- <-. injection E2 as <-. split; [|now intros ->].
  unfold device_id_eq. cbn [id_index]. apply N.eqb_neq. intros ->.
  destruct (N.lt_ge_cases c2 u64_max) as [X|X]; [|lia]. rewrite N.mod_small in L; [lia|]. change (2 ^ 64) with (u64_max + 1). lia.
Qed.
Print Assumptions device_id_new.

(** However many are drawn: an identifier is drawn again only after a draw that panics (C58). *)
Lemma draw_nth : forall n c k r, c < 2 ^ 64 -> nth_error (draw c n) k = Some r ->
  let i := (c + N.of_nat k) mod 2 ^ 64 in r = if i =? u64_max then Panic else Ok i.
Proof.
  induction n as [|n IH]; intros c k r Hc E; [destruct k; discriminate E|]. cbn [draw next_index] in E. destruct k as [|k].
  - cbn in E. injection E as <-. rewrite N.add_0_r, N.mod_small by exact Hc. reflexivity.
  - cbn [nth_error] in E. specialize (IH _ k r (N.mod_lt (c + 1) (2 ^ 64) ltac:(discriminate)) E). cbv zeta in *. rewrite N.add_mod_idemp_l in IH by discriminate.
    replace (c + N.of_nat (S k)) with (c + 1 + N.of_nat k) by lia. exact IH.
Qed.
Lemma draw_length : forall n c, length (draw c n) = n.
Proof. induction n as [|n IH]; intros c; [reflexivity|]. cbn [draw next_index length]. now rewrite IH. Qed.

Theorem ids_repeat_panics : forall n j k i, (j < k)%nat -> nth_error (draw 0 n) j = Some (Ok i) -> nth_error (draw 0 n) k = Some (Ok i) ->
  exists m, (j < m < k)%nat /\ nth_error (draw 0 n) m = Some Panic.
Proof.
  intros n j k i L Ej Ek. pose proof (draw_nth n 0 j _ eq_refl Ej) as Hj. pose proof (draw_nth n 0 k _ eq_refl Ek) as Hk. cbv zeta in Hj, Hk. rewrite N.add_0_l in Hj, Hk.
  set (w := 2 ^ 64) in *. assert (Nw : w <> 0) by discriminate. assert (Uw : w = u64_max + 1) by reflexivity.
  pose proof (N.div_mod (N.of_nat j) w Nw) as Dj. pose proof (N.div_mod (N.of_nat k) w Nw) as Dk.
  destruct (N.eqb_spec (N.of_nat j mod w) u64_max) as [|Nj]; [discriminate Hj|]. injection Hj as ->.
  destruct (N.eqb_spec (N.of_nat k mod w) u64_max); [discriminate Hk|]. injection Hk as Eq.
  pose proof (N.mod_lt (N.of_nat j) w Nw) as Mj. rewrite <- Eq in Dk.
  set (a := N.of_nat j / w) in *. set (b := N.of_nat k / w) in *. set (r := N.of_nat j mod w) in *. clearbody a b r.
  assert (Lab : a < b) by (apply N.nle_gt; intros H; assert (w * b <= w * a) by (now apply N.mul_le_mono_l); lia).
  assert (w * (a + 1) <= w * b) by (apply N.mul_le_mono_l; lia).
  exists (N.to_nat (w * a + u64_max)). assert (Lm : (j < N.to_nat (w * a + u64_max) < k)%nat) by lia. split; [exact Lm|].
  destruct (nth_error (draw 0 n) (N.to_nat (w * a + u64_max))) as [x|] eqn:E.
  - apply draw_nth in E; [|reflexivity]. cbv zeta in E. fold w in E. rewrite N.add_0_l, N2Nat.id in E. rewrite E.
    rewrite <- (N.mod_unique (w * a + u64_max) w a u64_max) by lia. now rewrite N.eqb_refl.
  - apply nth_error_None in E. rewrite draw_length in E.
    assert (nth_error (draw 0 n) k = None) as X by (apply nth_error_None; rewrite draw_length; lia). rewrite X in Ek. discriminate Ek.
Qed.
Print Assumptions ids_repeat_panics.
(** There is such a repetition, after 2^64 draws. *)
Example ids_repeat_ex : exists n j k, (j < k)%nat /\ nth_error (draw 0 n) j = Some (Ok 0) /\ nth_error (draw 0 n) k = Some (Ok 0).
Proof.
  destruct (ex_intro (fun w => w = 2 ^ 64) (2 ^ 64) eq_refl) as [w W]. assert (Nw : 0 < w) by (rewrite W; reflexivity).
  assert (G : forall k, (k < S (N.to_nat w))%nat -> N.of_nat k mod 2 ^ 64 = 0 -> nth_error (draw 0 (S (N.to_nat w))) k = Some (Ok 0)).
  { intros k L M. destruct (nth_error (draw 0 (S (N.to_nat w))) k) as [x|] eqn:E.
    - apply draw_nth in E; [|reflexivity]. cbv zeta in E. rewrite N.add_0_l, M in E. rewrite E. reflexivity.
    - apply nth_error_None in E. rewrite draw_length in E. lia. }
  exists (S (N.to_nat w)), O, (N.to_nat w). split; [lia|]. split; apply G; [lia|reflexivity|lia|]. rewrite N2Nat.id, W. reflexivity.
Qed.

(** The product in the wider type is exact and does not overflow, for all operands. *)
Theorem long_mul_exact : forall bits a b, a < 2 ^ bits -> b < 2 ^ bits -> long_mul bits a b = Ok (a * b).
Proof.
  intros bits a b A B. unfold long_mul. assert (L : a * b < 2 ^ (2 * bits)).
  { replace (2 * bits) with (bits + bits) by lia. rewrite N.pow_add_r. apply N.mul_lt_mono; assumption. }
  destruct (N.ltb_spec (a * b) (2 ^ (2 * bits))); [reflexivity|lia].
Qed.
Print Assumptions long_mul_exact.
Theorem long_mul_signed_exact : forall bits a b, 0 < bits -> (- 2 ^ (Z.of_N bits - 1) <= a < 2 ^ (Z.of_N bits - 1))%Z ->
  (- 2 ^ (Z.of_N bits - 1) <= b < 2 ^ (Z.of_N bits - 1))%Z -> long_mul_signed bits a b = Ok (a * b)%Z.
Proof.
  intros bits a b P A B. unfold long_mul_signed. set (h := (Z.of_N bits - 1)%Z) in *.
  assert (H : (0 <= h)%Z) by (unfold h; lia). replace (2 * Z.of_N bits - 1)%Z with (1 + h + h)%Z by (unfold h; lia). rewrite !Z.pow_add_r by lia. change (2 ^ 1)%Z with 2%Z.
  assert (Hp : (0 < 2 ^ h)%Z) by (apply Z.pow_pos_nonneg; lia). set (p := (2 ^ h)%Z) in *. clearbody p.
  assert (L : (- (2 * p * p) <= a * b < 2 * p * p)%Z) by nia.
  destruct (Z.leb_spec (- (2 * p * p)) (a * b)); [|lia]. destruct (Z.ltb_spec (a * b) (2 * p * p)); [reflexivity|lia].
Qed.
Print Assumptions long_mul_signed_exact.

(** ** Examples *)

Example display_ex : display_uuid (uuid_from_u32 0x12ab5607) = name "0756ab12" /\ uuid_made (uuid_from_u32 0x12ab5607) /\
  uuid_made (uuid_from_u32_4 1 2 3 0xfedcba98) /\ display_uuid (uuid_from_u32_4 1 2 3 0xfedcba98) = name "01000000020000000300000098badcfe" /\
  display_quantity QFsBlockNumber 4097 = name "filesystem block #4097" /\ display_quantity QInodeCount 0 = name "0 inodes".
Proof. do 5 (split; [vm_compute; reflexivity|]). vm_compute. reflexivity. Qed.
Example device_id_ex : exists i j, id_new 7 (Some (name "/dev/sda")) = (8, Ok i) /\ snd (id_new 8 (Some (name "/dev/sda"))) = Ok j /\
  device_id_eq i j = false /\ display_device_id (fun p => p) i = display_device_id (fun p => p) j /\ display_device_id (fun p => p) (DeviceId 9 None) = name "[anonymous]".
Proof. eexists. eexists. repeat split. Qed.
Example long_mul_ex : long_mul 32 0xffffffff 0xffffffff = Ok 0xfffffffe00000001 /\ long_mul_signed 8 (-128) (-128) = Ok 16384%Z.
Proof. split; vm_compute; reflexivity. Qed.
