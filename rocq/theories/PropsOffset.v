(** Property C117: arrays whose data do not start at the beginning of the members, as with version 1.1 and 1.2 superblocks. *)

From Coq Require Import Strings.String Permutation.
From Verif Require Import Base BaseFacts Raid SpecRaid RaidFacts SpecParity ParityFacts PropsRaid Io SpecStream IoFacts Superblock Device Array ArrayIo
  SpecMd SpecArray ArrayFacts PropsArray PropsArrayRead PropsArrayIo SpecExt4 SpecExt4Inode Ext4Superblock Ext4Inode Ext4Fs SpecExt4Fs Ext4FsFacts PropsExt4Fs
  Ext4Extent Ext4File SpecExt4File PropsExt4File Ext4Dir PropsExt4Flat PropsExt4Array SpecExt4Open PropsExt4Open PropsExt4Recover SpecDamage PropsExt4Damage.

(** ** What an array looks like, whatever its members hold *)

(** Sector [t] of slot [i], or zeros where there is none. *)
Definition sector_or_zeros (C : contents) (i t : N) : bytes :=
  match C i with
  | Some (ct, _) => if t * 512 + 512 <=? len ct then window ct (t * 512) 512 else zeros 512
  | None => zeros 512
  end.
Definition column (C : contents) (n t : N) : list bytes := map (fun i => sector_or_zeros C (N.of_nat i) t) (seq 0 (N.to_nat n)).
(** The sector in the data slot of array sector [s], whether or not the row is consistent. *)
Definition seen_sector (C : contents) (f : md_format) (l : layout6) (s : N) : bytes :=
  match data_of l f s (column C (mf_device_count f) (member_sector s (mf_chunk_size f) (mf_device_count f - 2))) with Some b => b | None => zeros 512 end.
Definition view_sectors (f : md_format) : N := mf_sectors_per_device f * (mf_device_count f - 2).
Definition view (C : contents) (f : md_format) (l : layout6) : bytes := flat (view_sectors f) (seen_sector C f l).
(** Sector [s] can fail: its row is not consistent or not complete, or a member may fail there. *)
Definition sector_lost (C : contents) (f : md_format) (l : layout6) (s : N) : Prop := forall blks, row_in C l f s blks -> row_bad C f s.

Lemma sector_or_zeros_len C i t : len (sector_or_zeros C i t) = 512.
Proof.
  unfold sector_or_zeros. destruct (C i) as [[ct b]|]; [|apply len_zeros]. destruct (N.leb_spec (t * 512 + 512) (len ct)); [|apply len_zeros].
  now apply len_window_in.
Qed.
Lemma column_len C n t : len (column C n t) = n.
Proof. unfold column, len. rewrite map_length, seq_length. lia. Qed.
Lemma column_nth C n t i b : nth_N (column C n t) i = Some b -> i < n /\ b = sector_or_zeros C i t.
Proof.
  intros H. pose proof (nth_N_some_lt _ _ _ H) as L. rewrite column_len in L. split; [exact L|].
  unfold column in H. rewrite nth_N_spec, nth_error_map, (nth_error_nth' _ 0%nat) in H by (rewrite seq_length; lia).
  rewrite seq_nth in H by lia. cbn [option_map Nat.add] in H. rewrite N2Nat.id in H. congruence.
Qed.
Lemma column_at C n t i : i < n -> nth_N (column C n t) i = Some (sector_or_zeros C i t).
Proof.
  intros L. destruct (nth_N_lt_some (column C n t) i) as [b E]; [now rewrite column_len|]. destruct (column_nth _ _ _ _ _ E) as [_ ->]. exact E.
Qed.
Lemma row_is_column C f l s blks : row_in C l f s blks -> blks = column C (mf_device_count f) (member_sector s (mf_chunk_size f) (mf_device_count f - 2)).
Proof.
  intros (L & R & _). apply list_ext_N; [now rewrite column_len|]. intros i Hi. rewrite L in Hi. rewrite (column_at _ _ _ _ Hi).
  destruct (nth_N_lt_some blks i) as [b E]; [now rewrite L|]. rewrite E. destruct (R _ _ E) as (ct & bad & Ci & Lc & ->). unfold sector_or_zeros. rewrite Ci.
  destruct (N.leb_spec (member_sector s (mf_chunk_size f) (mf_device_count f - 2) * 512 + 512) (len ct)); [reflexivity|lia].
Qed.

Lemma data_slot_in f l s : geometry_ok f l ->
  In (SpecRaid.D (data_index_of s (mf_chunk_size f) (mf_device_count f - 2))) (row6 l (mf_device_count f) (stripe_of s (mf_chunk_size f) (mf_device_count f - 2))).
Proof.
  intros (code & ra & _ & _ & _ & _ & Hn & _). apply (Permutation_in _ (Permutation_sym (row6_perm l (mf_device_count f) (stripe_of s (mf_chunk_size f) (mf_device_count f - 2)) ltac:(lia)))). right. right. apply in_datas.
  eexists. split; [reflexivity|]. apply N.mod_lt. lia.
Qed.
Lemma data_of_at f l s blks i b : geometry_ok f l -> len blks = mf_device_count f ->
  nth_N (row6 l (mf_device_count f) (stripe_of s (mf_chunk_size f) (mf_device_count f - 2))) i =
    Some (SpecRaid.D (data_index_of s (mf_chunk_size f) (mf_device_count f - 2))) ->
  nth_N blks i = Some b -> data_of l f s blks = Some b.
Proof.
  intros (code & ra & _ & _ & _ & _ & Hn & _) L R B. unfold data_of. eapply slot_block_nth; [|apply row6_nodup; lia|exact R|exact B].
  pose proof (len_row6 l (mf_device_count f) (stripe_of s (mf_chunk_size f) (mf_device_count f - 2)) ltac:(lia)). unfold len in *. lia.
Qed.
Lemma seen_at f l s C : geometry_ok f l -> exists i, i < mf_device_count f /\
  nth_N (row6 l (mf_device_count f) (stripe_of s (mf_chunk_size f) (mf_device_count f - 2))) i =
    Some (SpecRaid.D (data_index_of s (mf_chunk_size f) (mf_device_count f - 2))) /\
  seen_sector C f l s = sector_or_zeros C i (member_sector s (mf_chunk_size f) (mf_device_count f - 2)).
Proof.
  intros G. pose proof (data_slot_in f l s G) as IN. apply In_nth_error in IN as [k K].
  assert (Ik : nth_N (row6 l (mf_device_count f) (stripe_of s (mf_chunk_size f) (mf_device_count f - 2))) (N.of_nat k) =
    Some (SpecRaid.D (data_index_of s (mf_chunk_size f) (mf_device_count f - 2)))) by (rewrite nth_N_spec, Nat2N.id; exact K).
  pose proof (nth_N_some_lt _ _ _ Ik) as L. assert (Hn : 3 <= mf_device_count f) by (destruct G as (? & ? & _ & _ & _ & _ & X & _); exact X).
  rewrite len_row6 in L by lia. exists (N.of_nat k). split; [exact L|]. split; [exact Ik|].
  unfold seen_sector. rewrite (data_of_at f l s _ _ _ G (column_len _ _ _) Ik (column_at _ _ _ _ L)). reflexivity.
Qed.
Lemma seen_len f l s C : geometry_ok f l -> len (seen_sector C f l s) = 512.
Proof. intros G. destruct (seen_at f l s C G) as (i & _ & _ & ->). apply sector_or_zeros_len. Qed.
Lemma view_len f l C : geometry_ok f l -> len (view C f l) = view_sectors f * 512.
Proof. intros G. apply len_flat. intros s _. now apply seen_len. Qed.
Lemma view_sector f l C s : geometry_ok f l -> s < view_sectors f -> image_sector (view C f l) s = seen_sector C f l s.
Proof.
  intros G L. unfold image_sector, view. pose proof (flat_window (view_sectors f) (seen_sector C f l) 512 s 0 512 (fun n _ => seen_len f l n C G) L ltac:(lia)) as W.
  rewrite N.add_0_r in W. rewrite W. rewrite <- (seen_len f l s C G) at 1. apply window_full.
Qed.

(** Every array is a device whose content is its view; lost sectors may fail, nothing else does. *)
Theorem view_block_ok {D} (ops : blockdev D) join C f l : joins join -> geometry_ok f l -> u64_ok (view_sectors f * 512) ->
  block_ok (array_block_io ops join) 512 (view_sectors f) (image_sector (view C f l)) (sector_lost C f l) (fun a => slots_hold ops a C /\ in_use a f).
Proof.
  intros J G U. apply (array_io_block_any ops join C f l (view C f l) J G).
  - now rewrite view_len.
  - now apply view_len.
  - intros s blks L R. rewrite (view_sector f l C s G L). rewrite (row_is_column _ _ _ _ _ R).
    destruct (seen_at f l s C G) as (i & Hi & Ri & ->). exact (data_of_at f l s _ _ _ G (column_len _ _ _) Ri (column_at _ _ _ _ Hi)).
Qed.
Lemma view_stream_ok {D} (ops : blockdev D) join C f l : joins join -> geometry_ok f l -> u64_ok (view_sectors f * 512) ->
  stream_ok (reader_stream (array_block_io ops join)) (view C f l) (fun p => sector_lost C f l (p / 512)) (reader_at 512 (fun a => slots_hold ops a C /\ in_use a f)).
Proof.
  intros J G U. pose proof (reader_stream_ok _ _ _ _ _ _ (view_block_ok ops join C f l J G U)) as S.
  rewrite flat_image in S by now apply view_len. exact S.
Qed.

(** ** Members with a blank head

    Where sectors 2 and 3 of the array are read, every member has zeros: with the chunks of at least four sectors that md makes
    these are sectors 2 and 3 of the members, in front of a version 1.2 superblock (sector 8) and behind a version 1.1
    superblock (sector 0). *)
Definition blank_heads (C : contents) (f : md_format) : Prop :=
  forall i ct bad s b, C i = Some (ct, bad) -> 2 <= s < 4 -> sector_at ct (member_sector s (mf_chunk_size f) (mf_device_count f - 2)) b -> b = zeros 512.

Lemma blank_view C f l s : geometry_ok f l -> blank_heads C f -> 2 <= s < 4 -> seen_sector C f l s = zeros 512.
Proof.
  intros G B L. destruct (seen_at f l s C G) as (i & Hi & _ & ->). unfold sector_or_zeros. destruct (C i) as [[ct bad]|] eqn:E; [|reflexivity].
  set (t := member_sector s (mf_chunk_size f) (mf_device_count f - 2)). destruct (N.leb_spec (t * 512 + 512) (len ct)) as [H|]; [|reflexivity].
  exact (B i ct bad s _ E L (conj H eq_refl)).
Qed.

Theorem blank_not_opened {D} (ops : blockdev D) join C f l a s' r : joins join -> geometry_ok f l -> u64_ok (view_sectors f * 512) ->
  slots_hold ops a C -> in_use a f -> blank_heads C f ->
  fs_open (reader_stream (array_block_io ops join)) (reader_new a) = (s', r) -> exists e, r = Err e.
Proof.
  intros J G U SH IU B E. pose proof (view_stream_ok ops join C f l J G U) as OK.
  assert (A : legal (reader_at 512 (fun a => slots_hold ops a C /\ in_use a f)) (reader_new a)).
  { exists 0. exact (reader_new_at _ _ _ _ _ _ (view_block_ok ops join C f l J G U) a (conj SH IU)). }
  destruct (fs_open_spec _ _ _ _ OK _ _ _ A E) as [_ X]. cbv zeta in X.
  assert (NA : 2048 <= len (view C f l) -> ~ sb4_acceptable (window (view C f l) 1024 1024)).
  { intros L AC. rewrite (view_len f l C G) in L.
    assert (W : forall p, 1024 <= p < 2048 -> nth_N (view C f l) p = Some x00).
    { intros p P. assert (P2 : 2 <= p / 512 < 4) by (split; [apply N.div_le_lower_bound|apply N.div_lt_upper_bound]; lia). pose proof (N.div_mod p 512 ltac:(lia)) as DM. pose proof (N.mod_lt p 512 ltac:(lia)) as ML.
      assert (PV : p / 512 < view_sectors f) by lia.
      pose proof (view_sector f l C (p / 512) G PV) as V. rewrite (blank_view C f l _ G B P2) in V. unfold image_sector in V.
      assert (Y : nth_N (window (view C f l) (p / 512 * 512) 512) (p mod 512) = Some x00).
      { rewrite V. unfold zeros. rewrite nth_N_spec. apply nth_error_repeat. change (N.to_nat 512) with 512%nat. lia. }
      rewrite nth_N_window in Y by exact ML. rewrite <- Y. f_equal. lia. }
    assert (Z : window (view C f l) 1024 1024 = zeros 1024).
    { apply list_ext_N; [rewrite len_zeros; apply len_window_in; rewrite (view_len f l C G); lia|]. intros k K.
      rewrite len_window_in in K by (rewrite (view_len f l C G); lia). rewrite nth_N_window by exact K. rewrite W by lia.
      symmetry. unfold zeros. rewrite nth_N_spec. apply nth_error_repeat. change (N.to_nat 1024) with 1024%nat. lia. }
    rewrite Z in AC. pose proof (sa_magic _ AC) as M. vm_compute in M. discriminate M. }
  destruct r as [F|e|]; [|eauto|].
  - destruct X as (O & _). exfalso. apply NA; [apply (op_len _ _ _ O)|]. rewrite <- (op_sb _ _ _ O). apply (op_acceptable _ _ _ O).
  - exfalso. destruct X as (L & AC & _). now apply NA.
Qed.

(** ** How often the rows repeat *)

Definition row_period (l : layout6) (n m : N) : Prop :=
  match l with
  | Md5 ParityFirst | Md5 ParityLast | Raid5PlusQ ParityFirst | Raid5PlusQ ParityLast => True
  | Raid5PlusQ _ => N.divide (n - 1) m
  | _ => N.divide n m
  end.

Lemma pos_add n k m : n <> 0 -> N.divide n m -> left_pos n (k + m) = left_pos n k /\ right_pos n (k + m) = right_pos n k.
Proof. intros Hn [z ->]. unfold left_pos, right_pos. now rewrite N.mod_add. Qed.
Lemma row_period_add l n k m : 3 <= n -> row_period l n m -> row6 l n (k + m) = row6 l n k.
Proof.
  intros Hn. destruct l as [r| | | |r]; [destruct r| | | |destruct r]; cbn [row_period row6 row5]; intros H; try reflexivity;
    try (destruct (pos_add n k m ltac:(lia) H) as [-> ->]; reflexivity);
    try (destruct (pos_add n k m ltac:(lia) H) as [E1 E2]; rewrite ?E1, ?E2; reflexivity);
    try (destruct (pos_add (n - 1) k m ltac:(lia) H) as [E1 E2]; rewrite ?E1, ?E2; reflexivity).
  replace (k + m + 1) with (k + 1 + m) by lia. destruct (pos_add n (k + 1) m ltac:(lia) H) as [-> _]. reflexivity.
Qed.

(** ** Rows of another stripe *)

Fixpoint all_xor (blks : list bytes) (j : N) : byte := match blks with [] => x00 | b :: bs => xor8 (byte_at b j) (all_xor bs j) end.
Definition is_p (sl : slot) : bool := match sl with P => true | _ => false end.
Definition is_q (sl : slot) : bool := match sl with Q => true | _ => false end.
Fixpoint some_xor (p : slot -> bool) (row : list slot) (blks : list bytes) (j : N) : byte :=
  match row, blks with
  | sl :: r, b :: bs => if p sl then xor8 (byte_at b j) (some_xor p r bs j) else some_xor p r bs j
  | _, _ => x00
  end.

Lemma xor8_self a : xor8 a a = x00.
Proof. destruct a; reflexivity. Qed.
Lemma xor8_0_r a : xor8 a x00 = a.
Proof. now rewrite xor8_comm, xor8_0_l. Qed.
Lemma xor8_swap a b c : xor8 a (xor8 b c) = xor8 b (xor8 a c).
Proof. now rewrite !xor8_assoc, (xor8_comm a). Qed.

Lemma all_xor_split row blks j : length row = length blks ->
  all_xor blks j = xor8 (data_xor row blks j) (xor8 (some_xor is_p row blks j) (some_xor is_q row blks j)).
Proof.
  revert blks. induction row as [|sl row IH]; intros [|b blks] L; try discriminate; [reflexivity|]. cbn [all_xor data_xor some_xor]. rewrite (IH blks) by (cbn in L; lia).
  destruct sl; cbn [is_p is_q].
  - now rewrite !xor8_assoc.
  - rewrite (xor8_swap (byte_at b j)). now rewrite (xor8_assoc (byte_at b j)).
  - rewrite (xor8_swap (byte_at b j)). now rewrite (xor8_swap (byte_at b j)).
Qed.
Lemma some_xor_none p row blks j : (forall sl, In sl row -> p sl = false) -> some_xor p row blks j = x00.
Proof.
  revert blks. induction row as [|sl row IH]; intros [|b blks] H; try reflexivity. cbn [some_xor]. rewrite (H sl (or_introl eq_refl)). apply IH. intros. apply H. now right.
Qed.
Lemma some_xor_one (p : slot -> bool) row blks i b x j : NoDup row -> (forall sl, p sl = true <-> sl = x) -> length row = length blks ->
  nth_N row i = Some x -> nth_N blks i = Some b -> some_xor p row blks j = byte_at b j.
Proof.
  intros ND Px. rewrite !nth_N_spec. generalize (N.to_nat i). clear i. intros i. revert blks i ND.
  induction row as [|sl row IH]; intros [|c blks] i ND L R B; try discriminate; [destruct i; discriminate|].
  inversion ND as [|? ? NI ND']; subst. destruct i as [|i]; cbn [nth_error] in *.
  - assert (sl = x) by congruence. assert (c = b) by congruence. subst. cbn [some_xor]. rewrite (proj2 (Px x) eq_refl), some_xor_none; [apply xor8_0_r|].
    intros y Y. destruct (p y) eqn:E; [|reflexivity]. apply Px in E. subst. contradiction.
  - cbn [some_xor]. destruct (p sl) eqn:E.
    + apply Px in E. subst. exfalso. apply NI. eapply nth_error_In, R.
    + apply (IH blks i ND'); auto.
Qed.

(** A row is consistent iff the exclusive or of all its sectors is the one in the Q slot. *)
Lemma consistent_by_q row n blks i b : 2 <= n -> Permutation row (P :: Q :: datas (n - 2)) -> NoDup row -> len blks = n ->
  nth_N row i = Some Q -> nth_N blks i = Some b -> p_consistent row blks <-> (forall j, j < 512 -> all_xor blks j = byte_at b j).
Proof.
  intros Hn Pm ND Lb Ri Bi. assert (LL : length row = length blks).
  { apply Permutation_length in Pm. cbn [Datatypes.length] in Pm. pose proof (len_datas (n - 2)). unfold len in *. lia. }
  assert (IP : In P row) by (apply (Permutation_in _ (Permutation_sym Pm)); now left). apply In_nth_error in IP as [k K].
  assert (K' : nth_N row (N.of_nat k) = Some P) by (rewrite nth_N_spec, Nat2N.id; exact K).
  destruct (nth_N_lt_some blks (N.of_nat k)) as [pb Ep]; [pose proof (nth_N_some_lt _ _ _ K'); unfold len in *; lia|].
  pose proof (slot_block_nth row blks P (N.of_nat k) pb LL ND K' Ep) as SP.
  assert (Dj : forall j, all_xor blks j = xor8 (data_xor row blks j) (xor8 (byte_at pb j) (byte_at b j))).
  { intros j. rewrite (all_xor_split row blks j LL). f_equal. f_equal.
    - apply (some_xor_one is_p row blks (N.of_nat k) pb P j ND); auto. intros []; cbn; split; congruence.
    - apply (some_xor_one is_q row blks i b Q j ND); auto. intros []; cbn; split; congruence. }
  split.
  - intros H j Hj. rewrite Dj, (H pb SP j Hj), xor8_assoc, xor8_self. apply xor8_0_l.
  - intros H pb' E j Hj. assert (pb' = pb) as -> by congruence. specialize (H j Hj). rewrite Dj, xor8_assoc in H. rewrite <- (xor8_0_l (byte_at b j)) in H at 2.
    apply xor8_cancel_r in H. rewrite <- (xor8_self (byte_at pb j)) in H. now apply xor8_cancel_r in H.
Qed.

Lemma bytes_at_eq (a b : bytes) : len a = 512 -> len b = 512 -> (forall j, j < 512 -> byte_at a j = byte_at b j) -> a = b.
Proof.
  intros La Lb H. apply (nth_ext a b x00 x00); [unfold len in *; lia|]. intros k Hk. specialize (H (N.of_nat k)). unfold byte_at in H. rewrite Nat2N.id in H.
  apply H. unfold len in *. lia.
Qed.

(** ** Data that start [m] chunks into the members *)

Section Moved.
  Context (C : contents) (f : md_format) (l : layout6) (image : bytes) (q : N -> bytes) (m : N).
  Let n := mf_device_count f.
  Let c := mf_chunk_size f.
  Let spd := mf_sectors_per_device f.
  Hypothesis G : geometry_ok f l.
  Hypothesis Li : len image = spd * (n - 2) * 512.
  (** The member in slot [i] holds its part of the image from its data offset on. *)
  Hypothesis H : forall i, i < n -> exists ct bad, C i = Some (ct, bad) /\ forall t, t < spd -> sector_at ct (m * c + t) (stored l n c image q i t).

  Section Sector.
    Context (s : N).
    Let k := stripe_of s c (n - 2).
    Let t := member_sector s c (n - 2).
    Hypothesis Ls : s < view_sectors f.
    Hypothesis Lk : m <= k.
    Let u := t - m * c.
    Let s' := s - m * c * (n - 2).

    Lemma moved_parts : 3 <= n /\ c <> 0 /\ t < spd /\ m * c <= t /\ m * c * (n - 2) <= s /\ stripe_of s' c (n - 2) = k - m /\
      data_index_of s' c (n - 2) = data_index_of s c (n - 2) /\ member_sector s' c (n - 2) = u /\ s' < view_sectors f /\ u < spd /\ u / c = k - m.
    Proof.
      destruct (geometry_facts f l G) as (Hn & Hc & Dz). fold n c spd in Hn, Hc, Dz.
      pose proof (sector_within f l image q G Li s Ls) as Lt. fold n c spd t in Lt.
      pose proof (sector_recompose s c (n - 2) Hc ltac:(lia)) as E. fold k in E.
      assert (Di : data_index_of s c (n - 2) < n - 2) by (apply N.mod_lt; lia). assert (Oi : s mod c < c) by now apply N.mod_lt.
      assert (Et : t = k * c + s mod c) by reflexivity.
      assert (Mt : m * c <= k * c) by now apply N.mul_le_mono_r.
      assert (Ms : m * c * (n - 2) <= k * (n - 2) * c) by nia.
      assert (Es : s' = ((k - m) * (n - 2) + data_index_of s c (n - 2)) * c + s mod c).
      { unfold s'. rewrite E at 1. rewrite N.mul_sub_distr_r. nia. }
      destruct (compose_parts (k - m) (data_index_of s c (n - 2)) (s mod c) c (n - 2) Di Oi) as (A1 & A2 & A3 & A4). rewrite <- Es in A1, A2, A3, A4.
      assert (Eu : (k - m) * c + s mod c = u) by (unfold u; rewrite Et, N.mul_sub_distr_r; lia).
      repeat split; auto; try lia; try (unfold s'; lia). rewrite <- Eu. symmetry. apply (N.div_unique _ _ _ (s mod c)); lia.
    Qed.

    Lemma moved_column : column C n t = md_row f l image q s'.
    Proof.
      destruct moved_parts as (Hn & Hc & Lt & Mt & _ & _ & _ & Eu & _ & Lu & _).
      apply list_ext_N; [rewrite column_len; symmetry; exact (md_row_len f l image q G Li s')|]. intros i Hi. rewrite column_len in Hi.
      rewrite (column_at _ _ _ _ Hi), (md_row_at f l image q G Li s' i Hi). fold n c. rewrite Eu. f_equal. unfold sector_or_zeros.
      destruct (H i Hi) as (ct & bad & -> & St). destruct (St u Lu) as [L W]. replace (m * c + u) with t in L, W by (unfold u; lia).
      destruct (N.leb_spec (t * 512 + 512) (len ct)); [|lia]. congruence.
    Qed.
    Lemma moved_stored i : i < n -> nth_N (column C n t) i = Some (stored l n c image q i u).
    Proof.
      intros Hi. destruct moved_parts as (Hn & Hc & Lt & Mt & _ & _ & _ & Eu & _ & Lu & _). rewrite moved_column, (md_row_at f l image q G Li s' i Hi). fold n c. now rewrite Eu.
    Qed.
    Lemma moved_len i : i < n -> len (stored l n c image q i u) = 512.
    Proof. intros Hi. pose proof (moved_stored i Hi) as E. rewrite (column_at _ _ _ _ Hi) in E. injection E as <-. apply sector_or_zeros_len. Qed.

    (** Of the row that md-recover takes for the one of [s], [i] is the member with Q; of the row that md has written there it is [j]. *)
    Lemma moved_row i j : nth_N (row6 l n k) i = Some Q -> nth_N (row6 l n (k - m)) j = Some Q ->
      (exists blks, row_in C l f s blks) <-> stored l n c image q i u = stored l n c image q j u.
    Proof.
      intros Ri Rj. destruct moved_parts as (Hn & Hc & Lt & Mt & _ & Ek & _ & Eu & _ & Lu & _).
      assert (Hi : i < n) by (apply nth_N_some_lt in Ri; rewrite len_row6 in Ri; lia). assert (Hj : j < n) by (apply nth_N_some_lt in Rj; rewrite len_row6 in Rj; lia).
      pose proof (consistent_by_q (row6 l n k) n (column C n t) i _ ltac:(lia) (row6_perm l n k ltac:(lia)) (row6_nodup l n k ltac:(lia)) (column_len _ _ _) Ri (moved_stored i Hi)) as Ci.
      pose proof (consistent_by_q (row6 l n (k - m)) n (column C n t) j _ ltac:(lia) (row6_perm l n (k - m) ltac:(lia)) (row6_nodup l n (k - m) ltac:(lia)) (column_len _ _ _) Rj (moved_stored j Hj)) as Cj.
      assert (Co : p_consistent (row6 l n (k - m)) (column C n t)).
      { rewrite moved_column, <- Ek. exact (md_row_consistent f l image q G Li s'). }
      split.
      - intros [blks R]. pose proof (row_is_column _ _ _ _ _ R) as E. fold n c t in E. destruct R as (_ & _ & R). fold n c k in R. rewrite E in R.
        apply bytes_at_eq; [now apply moved_len..|]. intros x Hx. rewrite <- (proj1 Ci R x Hx). exact (proj1 Cj Co x Hx).
      - intros E. exists (column C n t). unfold row_in. fold n c t k. split; [apply column_len|]. split; [|apply Ci; intros x Hx; rewrite E; exact (proj1 Cj Co x Hx)].
        intros p b B. destruct (column_nth _ _ _ _ _ B) as [Hp _]. destruct (H p Hp) as (ct & bad & Cp & St). exists ct, bad. split; [exact Cp|].
        rewrite (moved_stored p Hp) in B. injection B as <-. replace t with (m * c + u) by (unfold u; lia). now apply St.
    Qed.
    Lemma moved_seen d : nth_N (row6 l n k) d = Some (SpecRaid.D (data_index_of s c (n - 2))) -> seen_sector C f l s = stored l n c image q d u.
    Proof.
      intros Rd. destruct moved_parts as (Hn & _). assert (Hd : d < n) by (apply nth_N_some_lt in Rd; rewrite len_row6 in Rd; lia).
      pose proof (data_of_at f l s (column C n t) d _ G (column_len _ _ _) Rd (moved_stored d Hd)) as X. unfold seen_sector. fold n c t. now rewrite X.
    Qed.
    (** Where the two rows are alike, the sector is the one that is [m * c * (n - 2)] sectors further to the front in the image. *)
    Lemma moved_same : row6 l n k = row6 l n (k - m) -> (exists blks, row_in C l f s blks) /\ seen_sector C f l s = image_sector image s'.
    Proof.
      intros E. destruct moved_parts as (Hn & Hc & Lt & Mt & _ & Ek & Ed & Eu & _ & Lu & _). split.
      - assert (Iq : In Q (row6 l n k)) by (apply (Permutation_in _ (Permutation_sym (row6_perm l n k ltac:(lia)))); right; now left).
        apply In_nth_error in Iq as [i Ri]. assert (Ri' : nth_N (row6 l n k) (N.of_nat i) = Some Q) by (rewrite nth_N_spec, Nat2N.id; exact Ri).
        apply (moved_row (N.of_nat i) (N.of_nat i) Ri'); [now rewrite <- E|reflexivity].
      - pose proof (md_row_data f l image q G Li s') as Dd. unfold data_of in Dd. fold n c in Dd. rewrite Ek, Ed, <- E in Dd.
        unfold seen_sector, data_of. fold n c t k. rewrite moved_column, Dd. reflexivity.
    Qed.
  End Sector.

  Context {D : Type} (ops : blockdev D) (join : D -> D -> D).
  Hypothesis J : joins join.
  Hypothesis U : u64_ok (view_sectors f * 512).

  Lemma array_read_cases a s buf a' b r : slots_hold ops a C -> in_use a f -> s < view_sectors f -> len buf = 512 ->
    array_read_block_io ops join a s buf = (a', b, r) ->
    match r with
    | Ok x => x = 512 /\ b = seen_sector C f l s /\ exists blks, row_in C l f s blks
    | Err _ => b = buf /\ sector_lost C f l s
    | Panic => False
    end.
  Proof.
    intros SH IU Ls Lb E. pose proof G as (code & ra & Al & Hl & Ha & Uf & Hn & Hc & Dv).
    assert (Un : forall g, in_use a g -> g = f). { intros g Ig. apply in_use_current in Ig, IU. congruence. }
    destruct (array_io_sound ops join J C a s buf a' b r SH) as (_ & _ & O); auto.
    { unfold u64_ok in *. lia. }
    { intros g Ig. now rewrite (Un g Ig). }
    destruct r as [x|e|]; [| |exact O].
    - destruct O as (-> & g & l' & code' & ra' & blks & Ig & Al' & Hl' & Ha' & _ & _ & R' & D'). rewrite (Un g Ig) in *. split; [reflexivity|].
      assert (EL : forall i, row6 l n i = row6 l' n i).
      { intros i. apply raid6_of_row; [congruence..|]. pose proof (raid6_from_layout_code _ _ Hl). pose proof (raid6_from_layout_code _ _ Hl'). congruence. }
      assert (R : row_in C l f s blks).
      { destruct R' as (R1 & R2 & R3). split; [exact R1|]. split; [exact R2|]. fold n c. now rewrite EL. }
      split; [|eauto]. unfold seen_sector. rewrite <- (row_is_column _ _ _ _ _ R). unfold data_of in *. fold n c in D' |- *. now rewrite EL, D'.
    - destruct O as [-> O]. split; [reflexivity|]. intros blks R. exact (O f l code ra blks IU Al Hl Ha Hc Hn R).
  Qed.

  Theorem offset_read a s buf a' b r i j d : slots_hold ops a C -> in_use a f -> s < view_sectors f -> len buf = 512 ->
    let k := stripe_of s c (n - 2) in let t := member_sector s c (n - 2) in
    m <= k -> nth_N (row6 l n k) i = Some Q -> nth_N (row6 l n (k - m)) j = Some Q -> nth_N (row6 l n k) d = Some (SpecRaid.D (data_index_of s c (n - 2))) ->
    array_read_block_io ops join a s buf = (a', b, r) ->
    match r with
    | Ok x => x = 512 /\ b = stored l n c image q d (t - m * c) /\ stored l n c image q i (t - m * c) = stored l n c image q j (t - m * c)
    | Err _ => b = buf /\ (row_bad C f s \/ stored l n c image q i (t - m * c) <> stored l n c image q j (t - m * c))
    | Panic => False
    end.
  Proof.
    intros SH IU Ls Lb k t Lk Ri Rj Rd E. pose proof (array_read_cases a s buf a' b r SH IU Ls Lb E) as O.
    destruct (moved_row s Ls Lk i j Ri Rj) as [M1 M2]. destruct r as [x|e|]; [| |exact O].
    - destruct O as (-> & -> & R). split; [reflexivity|]. split; [now apply moved_seen|auto].
    - destruct O as [-> O]. split; [reflexivity|].
      destruct (list_eq_dec Byte.byte_eq_dec (stored l n c image q i (t - m * c)) (stored l n c image q j (t - m * c))) as [Y|Y]; [|now right].
      left. destruct (M2 Y) as [blks R]. exact (O blks R).
  Qed.

  Theorem offset_read_whole_turns a s buf a' b r : slots_hold ops a C -> in_use a f -> s < view_sectors f -> len buf = 512 ->
    row_period l n m -> m * c * (n - 2) <= s ->
    array_read_block_io ops join a s buf = (a', b, r) ->
    match r with
    | Ok x => x = 512 /\ b = image_sector image (s - m * c * (n - 2))
    | Err _ => b = buf /\ row_bad C f s
    | Panic => False
    end.
  Proof.
    intros SH IU Ls Lb Pm Lm E. pose proof (array_read_cases a s buf a' b r SH IU Ls Lb E) as O.
    destruct (geometry_facts f l G) as (Hn & Hc & _). fold n c in Hn, Hc.
    assert (Lk : m <= stripe_of s c (n - 2)). { unfold stripe_of. apply N.div_le_lower_bound; [lia|]. apply N.div_le_lower_bound; nia. }
    destruct (moved_same s Ls Lk) as [[blks R] V].
    { replace (stripe_of s c (n - 2)) with (stripe_of s c (n - 2) - m + m) at 1 by lia. now apply row_period_add. }
    destruct r as [x|e|]; [| |exact O].
    - destruct O as (-> & -> & _). auto.
    - destruct O as [-> O]. split; [reflexivity|]. exact (O blks R).
  Qed.
End Moved.
Print Assumptions view_block_ok.
Print Assumptions blank_not_opened.
Print Assumptions offset_read.
Print Assumptions offset_read_whole_turns.

(** ** Examples

    Four members with chunks of two sectors; the data, sixteen sectors of each member, start [m] chunks into them, behind zeros. *)
Section Late.
  Context (l : layout6) (ra : raid6_alg) (image : bytes) (m : N).
  Hypothesis Li : len image = 16384.
  Hypothesis Hm : m <= 16.

  Definition late_part (i : N) : bytes := zeros (m * 1024) ++ flat 16 (stored l 4 2 image (fun _ => zeros 512) i).
  Definition late_sb (i : N) : superblock := Superblock 1 2 (UuidLong []) None (AlgRaid6 ra) 16 2 4 None (m * 2) i 0 [0; 1; 2; 3].
  Definition late_member (i : N) : md_device memdev := MdDevice i (DsSuperblock (late_sb i)) (mem_new (late_part i) 512).
  Definition late_array : definition memdev := array_open (fun x => x) (map late_member [2; 0; 3; 1]).
  Definition late_contents : contents := fun i => if i <? 4 then Some (late_part i, fun _ => False) else None.
  Definition late_format : md_format := MdFormat (AlgRaid6 ra) 4 16 2.

  Lemma late_stored_len i u : i < 4 -> u < 16 -> len (stored l 4 2 image (fun _ => zeros 512) i u) = 512.
  Proof. intros Hi Hu. apply stored_len; rewrite ?Li; [lia|exact Hi|lia|exact Hu|intros; apply len_zeros|now exists 8]. Qed.
  Lemma late_part_len i : i < 4 -> len (late_part i) = (m * 2 + 16) * 512.
  Proof. intros Hi. unfold late_part. rewrite len_app, len_zeros, (len_flat 16 _ 512); [lia|]. intros t Ht. now apply late_stored_len. Qed.

  Lemma late_in_use : in_use late_array late_format.
  Proof. unfold late_array, late_member, late_sb, late_format. destruct ra; right; split; reflexivity. Qed.
  Lemma late_holds : slots_hold mem_block late_array late_contents.
  Proof.
    assert (Dv : ad_devices late_array = map (fun i => (i, late_member i)) [2; 0; 3; 1]) by (unfold late_array, late_member, late_sb; destruct ra; reflexivity).
    assert (In4 : forall i, i < 4 <-> In i [2; 0; 3; 1]). { intros i. cbn [In]. lia. }
    unfold slots_hold. rewrite Dv. split; [|split].
    - rewrite map_map. cbn [fst]. repeat constructor; cbn [In]; intuition discriminate.
    - intros i d X. apply in_map_iff in X as (j & E & Hj). apply In4 in Hj. injection E as <- <-. unfold late_contents. destruct (N.ltb_spec j 4); [|lia].
      eexists. eexists. split; [reflexivity|]. pose proof (late_part_len j Hj) as Sm.
      pose proof (mem_member_holds (late_member j) (late_part j) 512 eq_refl ltac:(lia)) as MH.
      rewrite flat_block_of in MH by lia. rewrite Sm in MH at 2. rewrite N.div_mul in MH by lia. rewrite <- Sm, window_full in MH. apply MH.
      unfold u64_ok. rewrite Sm. apply (N.le_trans _ ((16 * 2 + 16) * 512)); [lia|discriminate].
    - intros i ct bad E. unfold late_contents in E. destruct (N.ltb_spec i 4) as [Hi|]; [|discriminate]. apply In4 in Hi.
      eexists. apply in_map_iff. exists i. split; [reflexivity|exact Hi].
  Qed.
  Lemma late_data i : i < 4 -> exists ct bad, late_contents i = Some (ct, bad) /\
    forall t, t < 16 -> sector_at ct (m * 2 + t) (stored l 4 2 image (fun _ => zeros 512) i t).
  Proof.
    intros Hi. unfold late_contents. destruct (N.ltb_spec i 4); [|lia]. eexists. eexists. split; [reflexivity|]. intros t Ht.
    split; [rewrite late_part_len by assumption; lia|]. unfold late_part. replace ((m * 2 + t) * 512) with (len (zeros (m * 1024)) + t * 512) by (rewrite len_zeros; lia).
    rewrite window_app_r by lia. replace (len (zeros (m * 1024)) + t * 512 - len (zeros (m * 1024))) with (t * 512) by lia.
    pose proof (flat_window 16 (stored l 4 2 image (fun _ => zeros 512) i) 512 t 0 512 (fun u => late_stored_len i u Hi) Ht ltac:(lia)) as W.
    rewrite N.add_0_r in W. rewrite W, <- (late_stored_len i t Hi Ht) at 1. now rewrite window_full.
  Qed.
  Lemma late_not_bad s : ~ row_bad late_contents late_format s.
  Proof. intros (i & ct & bad & p & Hi & E & _ & B). unfold late_contents in E. destruct (i <? 4); [|discriminate]. injection E as _ <-. exact B. Qed.
  Lemma late_blank : 1 <= m -> blank_heads late_contents late_format.
  Proof.
    intros M i ct bad s b E S [L ->]. unfold late_contents in E. destruct (i <? 4); [|discriminate]. injection E as <- _.
    assert (T : member_sector s (mf_chunk_size late_format) (mf_device_count late_format - 2) < 2) by (assert (s = 2 \/ s = 3) as [-> | ->] by lia; reflexivity).
    set (t := member_sector s _ _) in *. clearbody t. unfold late_part. rewrite window_app_l by (rewrite len_zeros; lia).
    apply list_ext_N; [rewrite len_zeros; apply len_window_in; rewrite len_zeros; lia|]. intros k K. rewrite len_window_in in K by (rewrite len_zeros; lia).
    rewrite nth_N_window by exact K. unfold zeros. rewrite !nth_N_spec, !nth_error_repeat by lia. reflexivity.
  Qed.
End Late.

(** Four chunks, the number of members: the file system of [open_image] is not found, although every sector in its second half
    can be read and is a sector of the image. *)
Example late_ex : let a := late_array (Md5 LeftSymmetric) R6LeftSymmetric open_image 4 in
  (exists s' e, fs_open (reader_stream (array_block_io mem_block shared)) (reader_new a) = (s', Err e)) /\
  (forall s, 16 <= s < 32 -> exists a', array_read_block_io mem_block shared a s (zeros 512) = (a', image_sector open_image (s - 16), Ok 512)) /\
  image_sector open_image 2 <> zeros 512.
Proof.
  intros a. assert (G : geometry_ok (late_format R6LeftSymmetric) (Md5 LeftSymmetric)).
  { exists 2, R6LeftSymmetric. repeat split; try (vm_compute; congruence). now exists 8. }
  assert (Jn : joins (@shared memdev)) by (intros d d'; now right).
  pose proof (late_in_use (Md5 LeftSymmetric) R6LeftSymmetric open_image 4) as IU. fold a in IU.
  pose proof (late_holds (Md5 LeftSymmetric) R6LeftSymmetric open_image 4 open_image_len ltac:(lia)) as SH. fold a in SH.
  assert (U : u64_ok (view_sectors (late_format R6LeftSymmetric) * 512)) by (vm_compute; discriminate).
  split; [|split].
  - destruct (fs_open (reader_stream (array_block_io mem_block shared)) (reader_new a)) as [s' r] eqn:E.
    destruct (blank_not_opened mem_block shared _ _ _ a s' r Jn G U SH IU (late_blank (Md5 LeftSymmetric) R6LeftSymmetric open_image 4 open_image_len ltac:(lia) ltac:(lia)) E) as [e ->]. eauto.
  - intros s Ls. destruct (array_read_block_io mem_block shared a s (zeros 512)) as [[a' b] r] eqn:E.
    pose proof (offset_read_whole_turns (late_contents (Md5 LeftSymmetric) open_image 4) (late_format R6LeftSymmetric) (Md5 LeftSymmetric) open_image (fun _ => zeros 512) 4 G open_image_len
      (late_data (Md5 LeftSymmetric) open_image 4 open_image_len ltac:(lia)) mem_block shared Jn U a s (zeros 512) a' b r SH IU (proj2 Ls) (len_zeros 512)
      ltac:(now exists 1) (proj1 Ls) E) as R.
    destruct r as [x|e|]; [destruct R as [-> ->]; eauto|destruct R as [_ B]; now apply late_not_bad in B|destruct R].
  - vm_compute. discriminate.
Qed.

(** Image sector [s] filled with the byte [s + 1]. *)
Definition numbered : bytes := flat 32 (fun s => repeat (match Byte.of_N (s + 1) with Some b => b | None => x00 end) 512).
Lemma numbered_len : len numbered = 16384.
Proof. vm_compute. reflexivity. Qed.

Lemma late_read l code ra m s i j d a' b r : layout6_code l = Some code -> raid6_from_layout code = Some ra -> m <= 16 ->
  let a := late_array l ra numbered m in let k := stripe_of s 2 2 in let held p := stored l 4 2 numbered (fun _ => zeros 512) p (member_sector s 2 2 - m * 2) in
  s < 32 -> m <= k -> nth_N (row6 l 4 k) i = Some Q -> nth_N (row6 l 4 (k - m)) j = Some Q -> nth_N (row6 l 4 k) d = Some (SpecRaid.D (data_index_of s 2 2)) ->
  array_read_block_io mem_block shared a s (zeros 512) = (a', b, r) ->
  (held i = held j -> r = Ok 512 /\ b = held d) /\ (held i <> held j -> exists e, r = Err e).
Proof.
  intros Hl Ha Hm a k held Ls Lk Ri Rj Rd E. assert (G : geometry_ok (late_format ra) l).
  { exists code, ra. repeat split; auto; try (vm_compute; congruence). now exists 8. }
  assert (Jn : joins (@shared memdev)) by (intros x x'; now right).
  pose proof (offset_read (late_contents l numbered m) (late_format ra) l numbered (fun _ => zeros 512) m G numbered_len (late_data l numbered m numbered_len Hm) mem_block shared Jn
    ltac:(vm_compute; discriminate) a s (zeros 512) a' b r i j d (late_holds l ra numbered m numbered_len Hm) (late_in_use l ra numbered m) Ls (len_zeros 512) Lk Ri Rj Rd E) as R.
  destruct r as [x|e|]; [|split; [|eauto]|destruct R].
  - destruct R as (-> & -> & R). split; [auto|]. intros X. destruct (X R).
  - intros X. destruct R as [_ [B|B]]; [now apply late_not_bad in B|destruct (B X)].
Qed.

(** One chunk.  RAID-5 with Q on the last member: array sector 4 is read without an error and is the parity of image sectors 0
    and 2; array sector 6 is read as image sector 0, which belongs at array sector 4.  With P and Q turning: array sector 4 cannot
    be read. *)
Example late_silent_ex : let a := late_array (Raid5PlusQ LeftSymmetric) R6LeftSymmetric6 numbered 1 in
  (exists a', array_read_block_io mem_block shared a 4 (zeros 512) = (a', repeat x02 512, Ok 512)) /\
  (exists a', array_read_block_io mem_block shared a 6 (zeros 512) = (a', repeat x01 512, Ok 512)) /\
  image_sector numbered 0 = repeat x01 512 /\ image_sector numbered 2 = repeat x03 512 /\
  (exists a' b e, array_read_block_io mem_block shared (late_array (Md5 LeftSymmetric) R6LeftSymmetric numbered 1) 4 (zeros 512) = (a', b, Err e)).
Proof.
  intros a. split; [|split; [|split; [|split]]].
  - destruct (array_read_block_io mem_block shared a 4 (zeros 512)) as [[a' b] r] eqn:E. exists a'.
    destruct (late_read (Raid5PlusQ LeftSymmetric) 18 R6LeftSymmetric6 1 4 3 3 2 a' b r eq_refl eq_refl ltac:(discriminate) ltac:(reflexivity) ltac:(discriminate)
      eq_refl eq_refl eq_refl E) as [R _]. destruct (R eq_refl) as [-> ->]. do 2 f_equal; vm_compute; reflexivity.
  - destruct (array_read_block_io mem_block shared a 6 (zeros 512)) as [[a' b] r] eqn:E. exists a'.
    destruct (late_read (Raid5PlusQ LeftSymmetric) 18 R6LeftSymmetric6 1 6 3 3 0 a' b r eq_refl eq_refl ltac:(discriminate) ltac:(reflexivity) ltac:(discriminate)
      eq_refl eq_refl eq_refl E) as [R _]. destruct (R eq_refl) as [-> ->]. do 2 f_equal; vm_compute; reflexivity.
  - vm_compute. reflexivity.
  - vm_compute. reflexivity.
  - destruct (array_read_block_io mem_block shared (late_array (Md5 LeftSymmetric) R6LeftSymmetric numbered 1) 4 (zeros 512)) as [[a' b] r] eqn:E. exists a', b.
    destruct (late_read (Md5 LeftSymmetric) 2 R6LeftSymmetric 1 4 3 0 0 a' b r eq_refl eq_refl ltac:(discriminate) ltac:(reflexivity) ltac:(discriminate)
      eq_refl eq_refl eq_refl E) as [_ R]. destruct R as [e ->]; [vm_compute; discriminate|]. eauto.
Qed.
