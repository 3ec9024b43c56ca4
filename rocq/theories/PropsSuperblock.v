(** Properties C20-C22 and C58: superblock decoding, role codes, identifiers. *)

From Coq Require Import Strings.String FinFun.
From Verif Require Import Base BaseFacts Raid Io Superblock Device SpecMd SuperblockFacts.

(** ** C20 *)

Lemma fle_at lay name o w st : field lay name = Some (o, N.of_nat w) -> fle lay name st = uint_le st o w.
Proof. intros F. unfold fle, fbytes. now rewrite F, uint_le_window. Qed.

(** A field of a view nested at [b]. *)
Lemma fle_nested lay name o w lay' name' b n st :
  field lay name = Some (o, N.of_nat w) -> field lay' name' = Some (b, n) -> o + N.of_nat w <= n ->
  fle lay name (fbytes lay' name' st) = uint_le st (b + o) w.
Proof. intros F F' L. unfold fle, fbytes. rewrite F, F', window_window by assumption. now rewrite uint_le_window. Qed.

Lemma read_u16s_nth n b i : i < N.of_nat n -> nth_N (read_u16s n b) i = Some (uint_le b (2 * i) 2).
Proof.
  revert b i. induction n as [|n IH]; intros b i H; [lia|]. cbn [read_u16s]. rewrite nth_N_spec.
  destruct (N.eqb_spec i 0) as [->|I].
  - cbn [nth_error N.to_nat]. change (N.to_nat 0) with O. cbn [nth_error]. f_equal.
    rewrite uint_le_window. reflexivity.
  - replace (N.to_nat i) with (S (N.to_nat (i - 1))) by lia. cbn [nth_error]. rewrite <- nth_N_spec, IH by lia.
    f_equal. rewrite !uint_le_window. f_equal. unfold window. rewrite skipn_skipn'. f_equal. f_equal. lia.
Qed.

Lemma len_read_u16s n b : len (read_u16s n b) = N.of_nat n.
Proof. revert b. induction n as [|n IH]; intros b; [reflexivity|]. cbn [read_u16s]. rewrite len_cons, IH. lia. Qed.

(** Every accessor, for every image. *)
Theorem v1_accessors_published : forall st minor,
  len st = 4096 ->
  let sb := v1_superblock st minor in
  (v1_valid st = true <-> uint_le st 0 4 = 0xa92b4efc /\ uint_le st 4 4 = 1) /\
  sb_major sb = uint_le st 4 4 /\
  sb_minor sb = minor /\
  sb_uuid sb = UuidLong (firstn 16 (skipn 16 st)) /\
  sb_name sb = Some (firstn 32 (skipn 32 st)) /\
  sb_algorithm sb = from_level_and_layout (uint_le st 72 4) (uint_le st 76 4) /\
  sb_sectors_per_device sb = uint_le st 80 8 /\
  sb_chunk_size sb = uint_le st 88 4 /\
  sb_device_count sb = uint_le st 92 4 /\
  sb_reshape sb =
    (if has_bit (uint_le st 8 4) 2
     then Some (Reshape (from_level_and_layout (uint_le st 100 4) (uint_le st 116 4))
                        (uint_le st 104 8) (uint_le st 112 4) (uint_le st 120 4) (uint_le st 124 4))
     else None) /\
  sb_data_offset sb = uint_le st 128 8 /\
  sb_role_index sb = uint_le st 160 4 /\
  sb_event_count sb = uint_le st 200 8 /\
  len (sb_roles sb) = N.min (uint_le st 220 4) 1920 /\
  (forall i, i < len (sb_roles sb) -> nth_N (sb_roles sb) i = Some (uint_le st (256 + 2 * i) 2)).
Proof.
  intros st minor L sb. subst sb. unfold v1_superblock, v1_valid. cbn [sb_major sb_minor sb_uuid sb_name sb_algorithm
    sb_sectors_per_device sb_chunk_size sb_device_count sb_reshape sb_data_offset sb_role_index sb_event_count sb_roles].
  rewrite (fle_at v1_layout "magic" 0 4), (fle_at v1_layout "major_version" 4 4), (fle_at v1_layout "features" 8 4),
    (fle_at v1_layout "level" 72 4), (fle_at v1_layout "layout" 76 4), (fle_at v1_layout "sectors_per_device" 80 8),
    (fle_at v1_layout "chunk_size" 88 4), (fle_at v1_layout "raid_device_count" 92 4),
    (fle_at v1_layout "data_offset" 128 8), (fle_at v1_layout "device_role_index" 160 4),
    (fle_at v1_layout "event_count" 200 8) by reflexivity.
  split. { rewrite andb_true_iff, !N.eqb_eq. reflexivity. }
  split; [reflexivity|]. split; [reflexivity|]. split; [reflexivity|]. split; [reflexivity|].
  split; [reflexivity|]. split; [reflexivity|]. split; [reflexivity|]. split; [reflexivity|].
  split.
  { change feature_reshape_active with (2 ^ 2). rewrite contains_bit. destruct (has_bit _ 2); [|reflexivity].
    unfold v1_reshape.
    rewrite (fle_nested v1_reshape_layout "new_level" 0 4 v1_layout "reshape_status" 100 28),
      (fle_nested v1_reshape_layout "new_layout" 16 4 v1_layout "reshape_status" 100 28),
      (fle_nested v1_reshape_layout "reshape_position" 4 8 v1_layout "reshape_status" 100 28),
      (fle_nested v1_reshape_layout "delta_devices" 12 4 v1_layout "reshape_status" 100 28),
      (fle_nested v1_reshape_layout "new_chunk_size" 20 4 v1_layout "reshape_status" 100 28),
      (fle_nested v1_reshape_layout "new_offset" 24 4 v1_layout "reshape_status" 100 28) by (reflexivity || lia).
    reflexivity. }
  split; [reflexivity|]. split; [reflexivity|]. split; [reflexivity|].
  unfold v1_roles. rewrite (fle_at v1_layout "max_devices" 220 4) by reflexivity.
  change (layout_size v1_layout) with 256. rewrite len_read_u16s, len_skipn, L.
  change ((4096 - N.of_nat (N.to_nat 256)) / 2) with 1920. split; [lia|].
  intros i I. rewrite read_u16s_nth by lia. f_equal. rewrite !uint_le_window. f_equal.
  unfold window. rewrite skipn_skipn'. f_equal. f_equal. lia.
Qed.
Print Assumptions v1_accessors_published.

(** The accessors outside the [Superblock] trait. *)
Theorem v1_extra_accessors_published : forall st,
  v1_bitmap_offset st = (if has_bit (uint_le st 8 4) 0 then Some (uint_le st 96 4) else None) /\
  v1_recovery_offset st = (if has_bit (uint_le st 8 4) 1 then Some (uint_le st 152 8) else None) /\
  v1_journal_tail st = (if has_bit (uint_le st 8 4) 9 then Some (uint_le st 152 8) else None) /\
  v1_ppl_info st =
    (if has_bit (uint_le st 8 4) 10
     then let o := Z.of_N (uint_le st 96 2) in
          Some ((if (o <? 32768)%Z then o else o - 65536)%Z, uint_le st 98 2)
     else None).
Proof.
  intros st. unfold v1_bitmap_offset, v1_recovery_offset, v1_journal_tail, v1_ppl_info.
  change feature_bitmap_offset with (2 ^ 0). change feature_recovery_offset with (2 ^ 1).
  change feature_journal with (2 ^ 9). change feature_ppl with (2 ^ 10).
  rewrite !contains_bit, (fle_at v1_layout "features" 8 4), (fle_at v1_layout "bitmap_offset_or_ppl_info" 96 4),
    (fle_at v1_layout "recovery_offset_or_journal_tail" 152 8) by reflexivity.
  repeat split. destruct (has_bit _ 10); [|reflexivity].
  change (fbytes v1_layout "bitmap_offset_or_ppl_info" st) with (window st 96 4).
  rewrite !window_window by lia. cbv zeta. rewrite !uint_le_window. unfold to_signed.
  change (2 ^ (16 - 1)) with 32768. change (Z.of_N (2 ^ 16)) with 65536%Z. f_equal. f_equal.
  change (window st (96 + 0) 2) with (window st 96 (N.of_nat 2)).
  destruct (N.ltb_spec (le (window st 96 (N.of_nat 2))) 32768), (Z.ltb_spec (Z.of_N (le (window st 96 (N.of_nat 2)))) 32768);
    reflexivity || lia.
Qed.
Print Assumptions v1_extra_accessors_published.

Lemma v1_bytes_disjoint c : v1_ok c -> ForallOrdPairs disjoint (v1_bytes c).
Proof.
  intros (_ & U & Nm & _). unfold v1_bytes.
  repeat first [apply FOP_nil | apply FOP_cons];
    repeat first [apply Forall_nil | apply Forall_cons];
    unfold disjoint; cbn [fst snd]; rewrite ?len_to_le, ?U, ?Nm;
    first [left; vm_compute; discriminate | left; apply N.le_refl | left; lia | lia].
Qed.

(** Any contents can be stored. *)
Theorem v1_storable : forall c st, v1_ok c -> len st = 4096 ->
  Forall (holds (fold_left poke (v1_bytes c) st)) (v1_bytes c) /\ len (fold_left poke (v1_bytes c) st) = 4096.
Proof.
  intros c st OK L. pose proof OK as (_ & U & Nm & _ & _ & _ & _ & _ & _ & _ & _ & _ & _ & _ & _ & _ & _ & _ & R).
  destruct (fold_poke_holds (v1_bytes c) st) as (A & B & _).
  - now apply v1_bytes_disjoint.
  - unfold v1_bytes. rewrite L.
    repeat apply Forall_cons; try apply Forall_nil; cbn [fst snd];
      rewrite ?len_to_le, ?U, ?Nm, ?len_flat_map_le; try (vm_compute; discriminate); lia.
  - split; [exact A|lia].
Qed.
Print Assumptions v1_storable.

(** ... and is read back. *)
Theorem v1_round_trip : forall c st minor,
  v1_ok c -> len st = 4096 -> Forall (holds st) (v1_bytes c) ->
  v1_valid st = true /\ v1_superblock st minor = v1_meaning c minor.
Proof.
  intros c st minor OK L H. unfold v1_bytes in H.
  repeat match goal with H : Forall _ (_ :: _) |- _ => apply Forall_cons_iff in H as [? H] end.
  repeat match goal with H : holds _ _ |- _ => apply holds_window in H as [_ ?] end.
  destruct OK as (F1 & U & Nm & F2 & F3 & F4 & F5 & F6 & F7 & F8 & F9 & F10 & F11 & F12 & F13 & F14 & F15 & RF & RL).
  rewrite ?len_to_le in *. rewrite U, Nm in *. rewrite len_flat_map_le in *.
  destruct (v1_accessors_published st minor L) as (V & A).
  unfold fits in *.
  rewrite !uint_le_window in V. rewrite !uint_le_window in A.
  change (N.of_nat 4) with 4 in *. change (N.of_nat 8) with 8 in *.
  change (len [xfc; x4e; x2b; xa9]) with 4 in *. change (len [x01; x00; x00; x00]) with 4 in *.
  repeat match goal with E : window st ?o ?n = _ |- _ => try rewrite E in V; try rewrite E in A; revert E end.
  intros.
  rewrite ?le_to_le in A by first [assumption | change (256 ^ N.of_nat 4) with 4294967296; lia].
  split; [apply V; split; reflexivity|].
  destruct A as (A1 & A2 & A3 & A4 & A5 & A6 & A7 & A8 & A9 & A10 & A11 & A12 & A13 & A14).
  unfold v1_superblock in *. cbn [sb_major sb_minor sb_uuid sb_name sb_algorithm
    sb_sectors_per_device sb_chunk_size sb_device_count sb_reshape sb_data_offset sb_role_index sb_event_count
    sb_roles] in *.
  assert (A15 : v1_roles st = c1_roles c).
  { unfold v1_roles. rewrite (fle_at v1_layout "max_devices" 220 4), uint_le_window by reflexivity.
    change (N.of_nat 4) with 4.
    match goal with E : window st 220 4 = _ |- _ => rewrite E end.
    rewrite le_to_le by (change (256 ^ N.of_nat 4) with 4294967296; lia).
    change (layout_size v1_layout) with 256. rewrite len_skipn, L.
    change ((4096 - N.of_nat (N.to_nat 256)) / 2) with 1920. rewrite N.min_l by assumption.
    rewrite <- length_len.
    match goal with E : window st 256 _ = _ |- _ =>
      rewrite <- (firstn_skipn (N.to_nat (2 * len (c1_roles c))) (skipn (N.to_nat 256) st));
      unfold window in E; rewrite E end.
    now apply read_u16s_flat. }
  change (firstn 16 (skipn 16 st)) with (window st 16 16) in A3.
  change (firstn 32 (skipn 32 st)) with (window st 32 32) in A4.
  match goal with E : window st 16 16 = _ |- _ => rewrite E in A3 end.
  match goal with E : window st 32 32 = _ |- _ => rewrite E in A4 end.
  unfold v1_meaning. rewrite A1, A3, A4, A5, A6, A7, A8, A9, A10, A11, A12, A15. reflexivity.
Qed.
Print Assumptions v1_round_trip.

Definition v1_ex : v1_contents :=
  V1 4 (repeat xaa 16) (repeat x41 32) 6 2 0x123456789a 1024 5 6 77 1 8 512 0 0x800 3 42 [0; 1; 0xfffe; 2; 0xffff].
Example v1_round_trip_ex :
  v1_ok v1_ex /\
  let st := fold_left poke (v1_bytes v1_ex) (repeat xcc 4096) in
  sb_roles (v1_superblock st 2) = [0; 1; 0xfffe; 2; 0xffff] /\
  sb_algorithm (v1_superblock st 2) = AlgRaid6 R6LeftSymmetric /\
  option_map rs_algorithm (sb_reshape (v1_superblock st 2)) = Some (AlgRaid6 R6Rotating0Restart).
Proof.
  split.
  - unfold v1_ok. repeat match goal with |- _ /\ _ => split end; cbn [v1_ex c1_roles];
      repeat first [apply Forall_nil | apply Forall_cons]; vm_compute; first [reflexivity|discriminate].
  - vm_compute. auto.
Qed.

(** ** C21 *)

Lemma v0_bytes_disjoint e c : ForallOrdPairs disjoint (v0_bytes e c).
Proof.
  unfold v0_bytes. cbn [seq map app].
  repeat first [apply FOP_nil | apply FOP_cons];
    repeat first [apply Forall_nil | apply Forall_cons];
    unfold disjoint; cbn [fst snd]; rewrite ?len_enc;
    first [left; vm_compute; discriminate | right; vm_compute; discriminate].
Qed.

Theorem v0_storable : forall e c st, len st = 4096 ->
  Forall (holds (fold_left poke (v0_bytes e c) st)) (v0_bytes e c) /\ len (fold_left poke (v0_bytes e c) st) = 4096.
Proof.
  intros e c st L. destruct (fold_poke_holds (v0_bytes e c) st) as (A & B & _).
  - apply v0_bytes_disjoint.
  - rewrite L. unfold v0_bytes. cbn [seq map app].
    repeat apply Forall_cons; try apply Forall_nil; cbn [fst snd]; rewrite len_enc; vm_compute; discriminate.
  - split; [exact A|lia].
Qed.
Print Assumptions v0_storable.

Lemma fval_holds_enc e lay name o w v st :
  field lay name = Some (o, N.of_nat w) -> holds st (o, enc e w v) -> v < 256 ^ N.of_nat w -> fval e lay name st = v.
Proof.
  intros F H B. rewrite (fval_holds e lay name o (N.of_nat w) st (enc e w v)); auto using len_enc. now apply val_enc.
Qed.

Lemma holds_nested lay name o n st p b :
  field lay name = Some (o, n) -> holds st (o + p, b) -> p + len b <= n -> o + n <= len st ->
  holds (fbytes lay name st) (p, b).
Proof.
  intros F H L L'. apply holds_window in H as [_ H]. apply holds_window. unfold fbytes. rewrite F.
  rewrite len_window_in by assumption. split; [assumption|]. now rewrite window_window.
Qed.

Lemma nth_Forall_default {A} (P : A -> Prop) l i d : Forall P l -> (i < length l)%nat -> P (nth i l d).
Proof. intros F L. rewrite Forall_forall in F. apply F, nth_In, L. Qed.

Lemma v0_view e c st :
  v0_ok c -> len st = 4096 -> Forall (holds st) (v0_bytes e c) ->
  v0_superblock (v0_from_view e st) = v0_meaning c /\
  s0_magic (v0_from_view e st) = 0xa92b4efc /\ s0_major (v0_from_view e st) = 0 /\
  s0_total_devices (v0_from_view e st) = c0_nr_disks c /\ map dd_role (s0_devices (v0_from_view e st)) = c0_roles c.
Proof.
  intros (F & FE & FP & FR & LR) L H. unfold v0_bytes in H. apply Forall_app in H as [H HR].
  repeat match goal with H : Forall _ (_ :: _) |- _ => apply Forall_cons_iff in H as [? H] end.
  assert (Dev : map dd_role (s0_devices (v0_from_view e st)) = c0_roles c).
  { unfold v0_from_view. cbn [s0_devices]. rewrite map_map.
    change (N.to_nat v0_max_devices) with 27%nat.
    transitivity (map (fun i => nth i (c0_roles c) 0) (seq 0 27)).
    - apply map_ext_in. intros i I. apply in_seq in I.
      rewrite Forall_forall in HR. specialize (HR (word (128 + 32 * N.of_nat i + 3), enc e 4 (nth i (c0_roles c) 0))).
      assert (Hi : holds st (word (128 + 32 * N.of_nat i + 3), enc e 4 (nth i (c0_roles c) 0))).
      { apply HR. apply in_map_iff. exists i. split; [reflexivity|]. apply in_seq. lia. }
      unfold v0_descriptor. cbn [dd_role].
      change (layout_size v0_descriptor_layout) with 128.
      apply holds_window in Hi as [_ Hi]. rewrite len_enc in Hi. unfold fval, fbytes.
      change (field v0_descriptor_layout "role") with (Some (12, 4)).
      change (field v0_layout "devices") with (Some (512, 3456)). cbv iota.
      rewrite window_window by lia. rewrite window_window by lia.
      replace (512 + (N.of_nat i * 128 + 12)) with (word (128 + 32 * N.of_nat i + 3)) by (unfold word; lia).
      change 4 with (N.of_nat 4) at 1. rewrite Hi. apply val_enc.
      change (256 ^ N.of_nat 4) with (256 ^ 4). apply nth_Forall_default; [exact FR|]. rewrite length_len. lia.
    - apply nth_ext with (d := 0) (d' := 0); rewrite map_length, seq_length; [rewrite length_len; lia|].
      intros i I. rewrite (nth_indep _ 0 (nth 0 (c0_roles c) 0)) by (rewrite map_length, seq_length; exact I).
      rewrite (map_nth (fun i => nth i (c0_roles c) 0)). now rewrite seq_nth. }
  assert (T : s0_total_devices (v0_from_view e st) = c0_nr_disks c).
  { unfold v0_from_view. cbn [s0_total_devices]. now apply (fval_holds_enc e v0_layout _ (word 9) 4). }
  assert (M : s0_magic (v0_from_view e st) = 0xa92b4efc).
  { unfold v0_from_view. cbn [s0_magic]. now apply (fval_holds_enc e v0_layout _ (word 0) 4). }
  assert (Mj : s0_major (v0_from_view e st) = 0).
  { unfold v0_from_view. cbn [s0_major]. now apply (fval_holds_enc e v0_layout _ (word 1) 4). }
  split; [|auto].
  assert (R : sb_roles (v0_superblock (v0_from_view e st)) = firstn (N.to_nat (c0_nr_disks c)) (c0_roles c)).
  { unfold v0_superblock. cbn [sb_roles]. rewrite <- firstn_map, Dev, T. reflexivity. }
  unfold v0_meaning. rewrite <- R. unfold v0_superblock. rewrite Mj. unfold v0_uuid.
  assert (A1 : s0_minor (v0_from_view e st) = c0_minor c) by (now apply (fval_holds_enc e v0_layout "minor_version" (word 2) 4)).
  assert (A2 : s0_uuid0 (v0_from_view e st) = c0_uuid0 c) by (now apply (fval_holds_enc e v0_layout "array_uuid_0" (word 5) 4)).
  assert (A3 : s0_uuid1 (v0_from_view e st) = c0_uuid1 c) by (now apply (fval_holds_enc e v0_layout "array_uuid_1" (word 13) 4)).
  assert (A4 : s0_uuid2 (v0_from_view e st) = c0_uuid2 c) by (now apply (fval_holds_enc e v0_layout "array_uuid_2" (word 14) 4)).
  assert (A5 : s0_uuid3 (v0_from_view e st) = c0_uuid3 c) by (now apply (fval_holds_enc e v0_layout "array_uuid_3" (word 15) 4)).
  assert (A6 : s0_level (v0_from_view e st) = c0_level c) by (now apply (fval_holds_enc e v0_layout "level" (word 7) 4)).
  assert (A7 : s0_layout (v0_from_view e st) = c0_layout c) by (now apply (fval_holds_enc e v0_layout "layout" (word 64) 4)).
  assert (A8 : s0_sectors (v0_from_view e st) = c0_size c) by (now apply (fval_holds_enc e v0_layout "sectors_per_device" (word 8) 4)).
  assert (A9 : s0_raid_devices (v0_from_view e st) = c0_raid_disks c) by (now apply (fval_holds_enc e v0_layout "raid_device_count" (word 10) 4)).
  assert (A10 : s0_events (v0_from_view e st) = c0_events c) by (now apply (fval_holds_enc e v0_layout "event_count" (word 39) 8)).
  assert (A11 : s0_chunk (v0_from_view e st) = c0_chunk c) by (now apply (fval_holds_enc e v0_layout "chunk_size" (word 65) 4)).
  assert (A12 : dd_index (s0_this (v0_from_view e st)) = c0_this_number c).
  { unfold v0_from_view. cbn [s0_this]. unfold v0_descriptor. cbn [dd_index].
    apply (fval_holds_enc e v0_descriptor_layout "index" 0 4); [reflexivity| |assumption].
    eapply (holds_nested v0_layout "this_device" 3968 128); [reflexivity| | |]; rewrite ?len_enc; [assumption|vm_compute; discriminate|lia]. }
  assert (A13 : s0_reshape (v0_from_view e st) =
     Reshape (from_level_and_layout (c0_new_level c) (c0_new_layout c)) (c0_position c) (c0_delta c) (c0_new_chunk c) 0).
  { unfold v0_from_view. cbn [s0_reshape]. unfold v0_reshape.
    rewrite (fval_holds_enc e v0_reshape_layout "new_level" 8 4 (c0_new_level c)),
      (fval_holds_enc e v0_reshape_layout "new_layout" 16 4 (c0_new_layout c)),
      (fval_holds_enc e v0_reshape_layout "reshape_position" 0 8 (c0_position c)),
      (fval_holds_enc e v0_reshape_layout "delta_devices" 12 4 (c0_delta c)),
      (fval_holds_enc e v0_reshape_layout "new_chunk_size" 20 4 (c0_new_chunk c));
    first [reflexivity | assumption
      | eapply (holds_nested v0_layout "reshape_status" 176 24); [reflexivity| | |]; rewrite ?len_enc;
        first [assumption | vm_compute; discriminate | lia]]. }
  rewrite A1, A2, A3, A4, A5, A6, A7, A8, A9, A10, A11, A12, A13. reflexivity.
Qed.

Lemma forallb_map {A B} (f : A -> B) (p : B -> bool) l : forallb p (map f l) = forallb (fun x => p (f x)) l.
Proof. induction l; [reflexivity|]. cbn. now rewrite IHl. Qed.

(** In either byte order, any contents whose listed roles are legal are recognised and mean the same. *)
Theorem v0_round_trip : forall e c st,
  v0_ok c -> len st = 4096 -> Forall (holds st) (v0_bytes e c) ->
  Forall (fun r => ~ (0xfeff <= r < 0xfffd)) (firstn (N.to_nat (c0_nr_disks c)) (c0_roles c)) ->
  v0_decode st = Ok (v0_meaning c).
Proof.
  intros e c st OK L H V. destruct (v0_view e c st OK L H) as (S & M & Mj & T & Dv).
  assert (V' : v0_valid (v0_from_view e st) = true).
  { unfold v0_valid. rewrite M, Mj, T. cbn [N.eqb andb]. change (_ && _) with
      (forallb (fun d => is_valid (dd_role d)) (firstn (N.to_nat (c0_nr_disks c)) (s0_devices (v0_from_view e st)))).
    rewrite <- (forallb_map dd_role is_valid), <- firstn_map, Dv. apply forallb_forall. intros r R.
    rewrite Forall_forall in V. specialize (V r R). unfold is_valid, role_max_position, role_journal.
    destruct (N.leb_spec 0xfeff r), (N.ltb_spec r 0xfffd); cbn; lia. }
  unfold v0_decode. destruct e.
  - change (fle v0_layout "magic" st) with (s0_magic (v0_from_view Little st)). rewrite M, N.eqb_refl. now rewrite V', S.
  - replace (fle v0_layout "magic" st =? 0xa92b4efc) with false; [now rewrite V', S|].
    unfold v0_bytes in H. apply Forall_inv in H. apply holds_window in H as [_ H].
    unfold fle, fbytes. change (field v0_layout "magic") with (Some (0, 4)). cbv iota.
    change (len (enc Big 4 0xa92b4efc)) with 4 in H. change (word 0) with 0 in H. rewrite H. reflexivity.
Qed.
Print Assumptions v0_round_trip.

Lemma v0_valid_iff e st : len st = 4096 -> v0_valid (v0_from_view e st) = true <-> v0_present e st.
Proof.
  intros L.
  assert (U : forall e o w, o + N.of_nat w <= len st -> uint e st o w = val e (window st o (N.of_nat w))).
  { intros [] o w B; [apply uint_le_window|now apply uint_be_window]. }
  unfold v0_valid, v0_present. rewrite !andb_true_iff, !N.eqb_eq.
  rewrite !U by (rewrite L; vm_compute; discriminate).
  change (s0_magic (v0_from_view e st)) with (val e (window st 0 (N.of_nat 4))).
  change (s0_major (v0_from_view e st)) with (val e (window st 4 (N.of_nat 4))).
  rewrite and_assoc. apply and_iff_compat_l, and_iff_compat_l.
  change (s0_total_devices (v0_from_view e st)) with (val e (window st 36 (N.of_nat 4))).
  set (t := val e (window st 36 (N.of_nat 4))). clearbody t.
  assert (D : forall i, i < 27 -> nth_error (s0_devices (v0_from_view e st)) (N.to_nat i) =
                 Some (v0_descriptor e (window (fbytes v0_layout "devices" st) (i * 128) 128)) /\
                 dd_role (v0_descriptor e (window (fbytes v0_layout "devices" st) (i * 128) 128)) =
                 uint e st (512 + 128 * i + 12) 4).
  { intros i J. split.
    - unfold v0_from_view. cbn [s0_devices].
      change (N.to_nat v0_max_devices) with 27%nat. change (layout_size v0_descriptor_layout) with 128.
      assert (Si : nth_error (seq 0 27) (N.to_nat i) = Some (N.to_nat i)).
      { rewrite nth_error_nth' with (d := O) by (rewrite seq_length; lia). now rewrite seq_nth by lia. }
      rewrite (map_nth_error _ _ _ Si). now rewrite N2Nat.id.
    - rewrite U by (rewrite L; lia). unfold v0_descriptor. cbn [dd_role]. unfold fval, fbytes.
      change (field v0_descriptor_layout "role") with (Some (12, 4)).
      change (field v0_layout "devices") with (Some (512, 3456)). cbv iota.
      rewrite window_window by lia. rewrite window_window by lia.
      replace (512 + 128 * i + 12) with (512 + (i * 128 + 12)) by lia. reflexivity. }
  assert (IV : forall r, is_valid r = true <-> ~ (0xfeff <= r < 0xfffd)).
  { intros r. unfold is_valid, role_max_position, role_journal.
    destruct (N.leb_spec 0xfeff r), (N.ltb_spec r 0xfffd); cbn; split; intros; try discriminate; try reflexivity; lia. }
  rewrite forallb_forall. split.
  - intros V i I J. destruct (D i J) as (N1 & R). rewrite <- R. apply IV, V.
    apply nth_error_In with (n := N.to_nat i). rewrite nth_error_firstn' by lia. exact N1.
  - intros V d In. apply In_nth_error in In as (n & In).
    assert (n < N.to_nat t)%nat.
    { assert (nth_error (firstn (N.to_nat t) (s0_devices (v0_from_view e st))) n <> None) as Hn by congruence.
      apply nth_error_Some in Hn. rewrite firstn_length in Hn. lia. }
    rewrite nth_error_firstn' in In by lia.
    assert (n < 27)%nat.
    { assert (nth_error (s0_devices (v0_from_view e st)) n <> None) as Hn by congruence.
      apply nth_error_Some in Hn. unfold v0_from_view in Hn. cbn [s0_devices] in Hn. rewrite map_length, seq_length in Hn.
      exact Hn. }
    destruct (D (N.of_nat n) ltac:(lia)) as (N1 & R). rewrite Nat2N.id in N1. rewrite N1 in In. injection In as <-.
    apply IV. rewrite R. apply V; lia.
Qed.

(** Exactly the images with the magic number, major version 0 and no reserved role, in either byte order, are accepted,
    and are read in that byte order. *)
Theorem v0_accepted_iff : forall st sb, len st = 4096 ->
  v0_decode st = Ok sb <-> exists e, v0_present e st /\ sb = v0_superblock (v0_from_view e st).
Proof.
  intros st sb L. unfold v0_decode.
  assert (M : fle v0_layout "magic" st = uint Little st 0 4).
  { cbn [uint]. rewrite uint_le_window. reflexivity. }
  rewrite M. split.
  - set (e := if uint Little st 0 4 =? 0xa92b4efc then Little else Big).
    replace (if uint Little st 0 4 =? 0xa92b4efc then v0_from_view Little st else v0_from_view Big st)
      with (v0_from_view e st) by (unfold e; destruct (_ =? _); reflexivity).
    destruct (v0_valid (v0_from_view e st)) eqn:V; [|discriminate]. intros H. injection H as <-.
    exists e. split; [now apply v0_valid_iff|reflexivity].
  - intros (e & P & ->). pose proof P as (Mg & _). apply (v0_valid_iff e st L) in P.
    destruct e; [now rewrite Mg, N.eqb_refl, P|].
    destruct (N.eqb_spec (uint Little st 0 4) 0xa92b4efc) as [C|_]; [|now rewrite P].
    exfalso. cbn [uint] in C, Mg. rewrite uint_le_window in C. rewrite uint_be_window in Mg by (rewrite L; vm_compute; discriminate).
    set (w := window st 0 (N.of_nat 4)) in *. assert (Lw : len w = 4) by (unfold w; apply len_window_in; rewrite L; vm_compute; discriminate).
    assert (Cw : w = to_le 4 0xa92b4efc) by (apply le_inj; [exact Lw|exact C]).
    rewrite Cw in Mg. vm_compute in Mg. discriminate.
Qed.
Print Assumptions v0_accepted_iff.

Lemma v0_decoded e c st sb :
  v0_ok c -> len st = 4096 -> Forall (holds st) (v0_bytes e c) -> v0_decode st = Ok sb -> sb = v0_meaning c.
Proof.
  intros O L H E. destruct (v0_view e c st O L H) as (V & M & _).
  unfold v0_decode in E. destruct e.
  - change (fle v0_layout "magic" st) with (s0_magic (v0_from_view Little st)) in E. rewrite M, N.eqb_refl in E.
    destruct (v0_valid _); inv E. exact V.
  - replace (fle v0_layout "magic" st =? 0xa92b4efc) with false in E.
    + destruct (v0_valid _); inv E. exact V.
    + unfold v0_bytes in H. apply Forall_inv in H. apply holds_window in H as [_ H].
      unfold fle, fbytes. change (field v0_layout "magic") with (Some (0, 4)). cbv iota.
      change (len (enc Big 4 0xa92b4efc)) with 4 in H. change (word 0) with 0 in H. rewrite H. reflexivity.
Qed.

Definition v0_ex : v0_contents :=
  V0 90 1 2 3 4 6 0x1000 5 4 0x100000002 0 0 0 0 0 2 0x10000 ([0; 1; 2; 3; 0xfffe] ++ repeat 0 22) 2.
Example v0_round_trip_ex :
  v0_ok v0_ex /\
  v0_decode (fold_left poke (v0_bytes Little v0_ex) (repeat xcc 4096)) = Ok (v0_meaning v0_ex) /\
  v0_decode (fold_left poke (v0_bytes Big v0_ex) (repeat xcc 4096)) = Ok (v0_meaning v0_ex).
Proof.
  split; [|split; vm_compute; reflexivity]. unfold v0_ok.
  repeat match goal with |- _ /\ _ => split end; cbn [v0_ex c0_roles app repeat]; repeat first [apply Forall_nil | apply Forall_cons]; vm_compute; reflexivity.
Qed.

(** ** C22 *)

Definition meaning_of (r : N) : list role_meaning :=
  (match device_number r with Some n => [RolePosition n] | None => [] end) ++
  (if is_spare r then [RoleSpare] else []) ++ (if is_faulty r then [RoleFaulty] else []) ++
  (if is_journal r then [RoleJournal] else []) ++ (if is_invalid r then [RoleReserved] else []).

(** The classification predicates agree with the published codes, on all 16-bit codes. *)
Theorem role_classified : forall r, r <= 0xffff -> meaning_of r = [role_spec r].
Proof.
  intros r R. unfold meaning_of, role_spec, device_number, is_spare, is_faulty, is_journal, is_invalid,
    role_max_position, role_spare, role_faulty, role_journal.
  destruct (N.leb_spec r 0xfeff), (N.ltb_spec 0xfeff r), (N.ltb_spec r 0xfffd), (N.eqb_spec r 0xffff),
    (N.eqb_spec r 0xfffe), (N.eqb_spec r 0xfffd); cbn; reflexivity || lia.
Qed.
Print Assumptions role_classified.

(** Validity agrees with it, except on the largest position. *)
Theorem role_valid_partial : forall r, r <= 0xffff -> r <> 0xfeff ->
  is_valid r = negb (is_invalid r) /\ (is_valid r = true <-> role_spec r <> RoleReserved).
Proof.
  intros r R Ne. unfold role_spec, is_valid, is_invalid, role_max_position, role_journal.
  destruct (N.leb_spec r 0xfeff), (N.leb_spec 0xfeff r), (N.ltb_spec 0xfeff r), (N.ltb_spec r 0xfffd),
    (N.eqb_spec r 0xffff), (N.eqb_spec r 0xfffe), (N.eqb_spec r 0xfffd); cbn; try lia; split; try reflexivity;
    split; congruence.
Qed.
Print Assumptions role_valid_partial.

(** The largest position is a position, is not invalid, and yet is not valid. *)
Theorem role_valid_refuted :
  role_spec 0xfeff = RolePosition 0xfeff /\ device_number 0xfeff = Some 0xfeff /\
  is_invalid 0xfeff = false /\ is_valid 0xfeff = false.
Proof. repeat split. Qed.
Print Assumptions role_valid_refuted.

(** Version 0.90 roles have 32 bits; codes above 0xffff have no meaning at all but count as valid. *)
Theorem role_wide_unclassified : forall r, 0xffff < r -> meaning_of r = [] /\ is_valid r = true.
Proof.
  intros r R. unfold meaning_of, device_number, is_spare, is_faulty, is_journal, is_invalid, is_valid,
    role_max_position, role_spare, role_faulty, role_journal.
  destruct (N.leb_spec r 0xfeff), (N.leb_spec 0xfeff r), (N.ltb_spec 0xfeff r), (N.ltb_spec r 0xfffd),
    (N.eqb_spec r 0xffff), (N.eqb_spec r 0xfffe), (N.eqb_spec r 0xfffd); cbn; auto; lia.
Qed.
Print Assumptions role_wide_unclassified.

Example role_ex : map role_spec [7; 0xff00; 0xfffe] = [RolePosition 7; RoleReserved; RoleFaulty].
Proof. reflexivity. Qed.

(** ** C58 *)

Lemma to_le_inj w a b : a < 256 ^ N.of_nat w -> b < 256 ^ N.of_nat w -> to_le w a = to_le w b -> a = b.
Proof. intros A B H. rewrite <- (le_to_le w a A), <- (le_to_le w b B). now rewrite H. Qed.

Lemma v0_meaning_uuid_equal_iff : forall c c', v0_ok c -> v0_ok c' ->
  sb_uuid (v0_meaning c) = sb_uuid (v0_meaning c') <->
  (c0_minor c < 90 /\ c0_minor c' < 90 /\ c0_uuid0 c = c0_uuid0 c') \/
  (90 <= c0_minor c /\ 90 <= c0_minor c' /\ c0_uuid0 c = c0_uuid0 c' /\ c0_uuid1 c = c0_uuid1 c' /\
   c0_uuid2 c = c0_uuid2 c' /\ c0_uuid3 c = c0_uuid3 c').
Proof.
  intros c c' (F & _) (F' & _).
  repeat match goal with H : Forall _ (_ :: _) |- _ => apply Forall_cons_iff in H as [? H] end.
  unfold fits in *. change 4 with (N.of_nat 4) in *. cbn [sb_uuid v0_meaning].
  destruct (N.ltb_spec (c0_minor c) 90), (N.ltb_spec (c0_minor c') 90); split; intros E; try discriminate.
  - left. split; [assumption|]. split; [assumption|].
    apply (to_le_inj 4); [assumption|assumption|].
    exact (f_equal (fun u => match u with UuidShort b => b | UuidLong b => b end) E).
  - destruct E as [(_ & _ & ->)|E]; [reflexivity|lia].
  - lia.
  - lia.
  - right. split; [assumption|]. split; [assumption|].
    assert (E' : to_le 4 (c0_uuid0 c) ++ to_le 4 (c0_uuid1 c) ++ to_le 4 (c0_uuid2 c) ++ to_le 4 (c0_uuid3 c) =
                 to_le 4 (c0_uuid0 c') ++ to_le 4 (c0_uuid1 c') ++ to_le 4 (c0_uuid2 c') ++ to_le 4 (c0_uuid3 c'))
      by exact (f_equal (fun u => match u with UuidShort b => b | UuidLong b => b end) E).
    assert (S : forall a b x y, to_le 4 a ++ x = to_le 4 b ++ y -> to_le 4 a = to_le 4 b /\ x = y).
    { intros a b x y P. split; [apply (f_equal (firstn 4)) in P|apply (f_equal (skipn 4)) in P]; exact P. }
    apply S in E' as [E0 E']. apply S in E' as [E1 E']. apply S in E' as [E2 E3].
    repeat split; (apply (to_le_inj 4); assumption).
  - destruct E as [E|(_ & _ & -> & -> & -> & ->)]; [lia|reflexivity].
Qed.
Theorem v0_uuid_equal_iff : forall e e' c c' st st' sb sb', v0_ok c -> v0_ok c' ->
  len st = 4096 -> len st' = 4096 -> Forall (holds st) (v0_bytes e c) -> Forall (holds st') (v0_bytes e' c') ->
  v0_decode st = Ok sb -> v0_decode st' = Ok sb' ->
  (sb_uuid sb = sb_uuid sb' <->
   (c0_minor c < 90 /\ c0_minor c' < 90 /\ c0_uuid0 c = c0_uuid0 c') \/
   (90 <= c0_minor c /\ 90 <= c0_minor c' /\ c0_uuid0 c = c0_uuid0 c' /\ c0_uuid1 c = c0_uuid1 c' /\
    c0_uuid2 c = c0_uuid2 c' /\ c0_uuid3 c = c0_uuid3 c')).
Proof.
  intros e e' c c' st st' sb sb' O O' L L' H H' E E'.
  rewrite (v0_decoded e c st sb O L H E), (v0_decoded e' c' st' sb' O' L' H' E').
  now apply v0_meaning_uuid_equal_iff.
Qed.
Print Assumptions v0_uuid_equal_iff.

(** Identifiers drawn one after the other from the counter. *)
Fixpoint draw (counter : N) (n : nat) : list (res N) :=
  match n with
  | O => []
  | S n => let '(counter, r) := next_index counter in r :: draw counter n
  end.

(** The first 2^64 - 1 identifiers are all different; the next one panics. *)
Theorem ids_distinct : forall n, N.of_nat n <= u64_max ->
  draw 0 n = map (fun i => Ok (N.of_nat i)) (seq 0 n) /\ NoDup (draw 0 n).
Proof.
  intros n L.
  assert (G : forall n k, N.of_nat k + N.of_nat n <= u64_max ->
    draw (N.of_nat k) n = map (fun i => Ok (N.of_nat i)) (seq k n)).
  { clear n L. induction n as [|n IH]; intros k L; [reflexivity|]. cbn [draw seq map]. unfold next_index.
    destruct (N.eqb_spec (N.of_nat k) u64_max); [lia|]. f_equal.
    rewrite N.mod_small by (change (2 ^ 64) with (u64_max + 1); lia).
    replace (N.of_nat k + 1) with (N.of_nat (S k)) by lia. apply IH. lia. }
  pose proof (G n O ltac:(lia)) as G0. change (N.of_nat 0) with 0 in G0. rewrite G0. split; [reflexivity|].
  apply FinFun.Injective_map_NoDup; [|apply seq_NoDup]. intros a b E. injection E as E. lia.
Qed.
Print Assumptions ids_distinct.

Example ids_ex : draw 0 3 = [Ok 0; Ok 1; Ok 2] /\ draw u64_max 2 = [Panic; Ok 0].
Proof. split; vm_compute; reflexivity. Qed.
