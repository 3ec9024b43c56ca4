(** C41, C42, C43, C64: inodes and group descriptors. *)

From Coq Require Import Strings.String.
From Verif Require Import Base BaseFacts Io SpecMd SuperblockFacts Superblock Crc SpecCrc CrcFacts CrcPoly PropsCrc
  Ext4Superblock SpecExt4 TestData PropsExt4Superblock Ext4Inode SpecExt4Inode.

(** ** Zero-extended storage *)

Lemma byte_val_zeros a k o : byte_val (a ++ zeros k) o = byte_val a o.
Proof.
  unfold byte_val. destruct (Nat.lt_ge_cases (N.to_nat o) (length a)) as [L|L].
  - now rewrite nth_error_app1.
  - rewrite nth_error_app2 by exact L. rewrite (proj2 (nth_error_None a _)) by exact L.
    unfold zeros. destruct (nth_error (repeat x00 (N.to_nat k)) _) as [b|] eqn:E; [|reflexivity].
    apply nth_error_In, repeat_spec in E as ->. reflexivity.
Qed.

Lemma uint_le_zeros a k o w : uint_le (a ++ zeros k) o w = uint_le a o w.
Proof. revert o. induction w as [|w IH]; intros o; [reflexivity|]. cbn [uint_le]. now rewrite byte_val_zeros, IH. Qed.

Lemma uint_le_prefix a n o w : o + N.of_nat w <= n -> uint_le (window a 0 n) o w = uint_le a o w.
Proof. intros H. rewrite !uint_le_window, window_nested by exact H. now rewrite N.add_0_l. Qed.

(** ** C41 *)

Lemma inode_source_length_spec slot : inode_source_length slot = 128 + N.min (inode_extra slot) 160.
Proof.
  unfold inode_source_length, inode_extra. change (offset_of inode_layout "extra_isize") with 128.
  change (layout_size inode_layout) with 160. change (128 + 2) with 130.
  rewrite (fle_uint inode_layout "extra_isize" 128 2 slot) by reflexivity. reflexivity.
Qed.

Lemma checksum_seed_bound sb : e4_checksum_seed sb < 2 ^ 32.
Proof.
  unfold e4_checksum_seed. destruct contains.
  - s4_field. exact (uint_le_bound sb 0x270 4).
  - destruct contains; [|reflexivity]. now apply crc32c_bound.
Qed.

Lemma skipn_zeros n k : n <= k -> skipn (N.to_nat n) (zeros k) = zeros (k - n).
Proof.
  intros H. unfold zeros. replace (N.to_nat k) with (N.to_nat n + N.to_nat (k - n))%nat by lia.
  rewrite repeat_app. rewrite skipn_app, skipn_all2 by (rewrite repeat_length; lia).
  rewrite repeat_length, Nat.sub_diag. reflexivity.
Qed.

Lemma inode_new_spec sb n slot : inode_extra slot <= 32 -> 128 + inode_extra slot <= len slot ->
  exists seed, inode_new sb n slot = Ok (Inode (inode_visible slot ++ zeros (32 - inode_extra slot)) seed) /\
  inode_seed sb n slot seed.
Proof.
  intros E L. unfold inode_new. rewrite inode_source_length_spec, N.min_l by lia.
  change (layout_size inode_layout) with 160.
  rewrite slice_to_some by (rewrite len_zeros; lia). cbn [unwrap rbind].
  rewrite slice_to_some by exact L. cbn [unwrap rbind].
  rewrite skipn_zeros by lia. replace (160 - (128 + inode_extra slot)) with (32 - inode_extra slot) by lia.
  unfold inode_seed, e4_read_only_compatible_features. s4_field.
  change ro_metadata_checksums with (2 ^ 10). rewrite contains_bit.
  unfold inode_visible. rewrite window_firstn.
  destruct (has_bit (uint_le sb 100 4) 10) eqn:M.
  - change (offset_of inode_layout "generation") with 100. rewrite sub_some by lia. cbn [unwrap rbind].
    eexists. split; [reflexivity|]. exists (e4_checksum_seed sb). eexists. split; [reflexivity|].
    split; [now apply sb4_seed_published|].
    rewrite crc32c_is_remainder by apply checksum_seed_bound. symmetry. apply crc32c_append, checksum_seed_bound.
  - eexists. split; reflexivity.
Qed.

(** Decoding an inode slot panics exactly when the slot claims more than 32 extra bytes, or has fewer bytes than it
    claims. *)
Theorem inode_new_panics_iff sb n slot :
  inode_new sb n slot = Panic <-> 32 < inode_extra slot \/ len slot < 128 + inode_extra slot.
Proof.
  split.
  - intros P. destruct (N.ltb_spec 32 (inode_extra slot)) as [|E]; [now left|].
    destruct (N.ltb_spec (len slot) (128 + inode_extra slot)) as [|L]; [now right|].
    destruct (inode_new_spec sb n slot E L) as (seed & R & _). congruence.
  - intros D. unfold inode_new. rewrite inode_source_length_spec. change (layout_size inode_layout) with 160.
    destruct (slice_to (zeros 160) (128 + N.min (inode_extra slot) 160)) as [z|] eqn:Z; [|reflexivity].
    apply slice_to_inv in Z as [Z _]. rewrite len_zeros in Z. rewrite N.min_l by lia. cbn [unwrap rbind].
    unfold slice_to. destruct (N.leb_spec (128 + inode_extra slot) (len slot)); [lia|reflexivity].
Qed.
Print Assumptions inode_new_panics_iff.

(** It never reports an error; what it gives for all other slots: their fields, zero-extended, and the checksum seed. *)
Theorem inode_new_decodes sb n slot i : inode_new sb n slot = Ok i ->
  (forall o w, uint_le (in_storage i) o w = uint_le (inode_visible slot) o w) /\ len (in_storage i) = 160 /\
  inode_seed sb n slot (in_seed i).
Proof.
  intros E. assert (NP : inode_new sb n slot <> Panic) by congruence. rewrite inode_new_panics_iff in NP.
  destruct (inode_new_spec sb n slot) as (seed & R & S); [lia|lia|]. rewrite R in E. injection E as <-.
  split; [|split].
  - intros o w. apply uint_le_zeros.
  - cbn. unfold inode_visible. rewrite len_app, len_zeros, len_window. lia.
  - exact S.
Qed.
Print Assumptions inode_new_decodes.

Theorem inode_new_no_error sb n slot e : inode_new sb n slot <> Err e.
Proof.
  unfold inode_new. destruct slice_to; [|discriminate]. cbn [unwrap rbind]. destruct slice_to; [|discriminate].
  cbn [unwrap rbind]. destruct contains; [|discriminate]. destruct sub; discriminate.
Qed.
Print Assumptions inode_new_no_error.

Example inode_new_ex : exists i, inode_new root_inode_superblock 2 root_inode_slot = Ok i /\
  inode_extra root_inode_slot = 32 /\ in_file_size_bytes i = 4096 /\ in_links_count i = 3 /\
  in_file_type i = FtDirectory /\ in_seed i = Some 2224482676 /\ in_checksum i = 0xda6e700e.
Proof. eexists. split; [vm_compute; reflexivity|]. vm_compute. repeat split. Qed.

(** The claim itself is false: the superblock of the test image, an inode slot of 256 bytes as ext4 uses them, and an
    extra size that fits into the slot. *)
Theorem inode_new_total_refuted :
  ~ (forall sb n slot, e4_valid sb = Ok true -> len slot = e4_inode_size sb -> 128 + inode_extra slot <= len slot ->
     inode_new sb n slot <> Panic).
Proof.
  intros H. apply (H root_inode_superblock 2 (poke root_inode_slot (128, [x24]))); vm_compute; congruence.
Qed.
Print Assumptions inode_new_total_refuted.

(** Nor does it hold for small inode sizes, which the superblock check lets pass. *)
Theorem inode_new_small_refuted :
  ~ (forall sb n slot, e4_valid sb = Ok true -> len slot = e4_inode_size sb -> inode_extra slot = 0 ->
     inode_new sb n slot <> Panic).
Proof.
  intros H. apply (H (poke (poke root_inode_superblock (0x58, [x40; x00])) (0x175, [x00])) 2 (zeros 64));
    vm_compute; congruence.
Qed.
Print Assumptions inode_new_small_refuted.

(** ** C42 *)

Lemma decode_extra_time_value base extra : base < 2 ^ 32 -> extra < 2 ^ 32 ->
  decode_extra_time base extra =
  Ok ((as_i32 base + 2 ^ 32 * Z.of_N (extra mod 4)) * 10 ^ 9 + Z.of_N (extra / 4))%Z.
Proof.
  intros B E. unfold decode_extra_time. change 3 with (N.ones 2). rewrite N.land_ones, N.shiftr_div_pow2, N.shiftl_mul_pow2.
  change (2 ^ 2) with 4. change (2 ^ 32) with 4294967296 in *. change (2 ^ 32)%Z with 4294967296%Z.
  change (10 ^ 9)%Z with 1000000000%Z.
  assert (S : (-2147483648 <= as_i32 base < 2147483648)%Z) by (unfold as_i32; destruct (N.ltb_spec base 2147483648); lia).
  unfold datetime_add, nanos_per_sec, chrono_min, chrono_max.
  destruct ((_ <=? _) && (_ <? _))%Z eqn:A in |- *.
  - cbn [rbind]. destruct ((_ <=? _) && (_ <? _))%Z eqn:C in |- *; [f_equal; lia|]. exfalso. lia.
  - exfalso. lia.
Qed.

(** Every pair of fields decodes; the nanoseconds are added even when they are not below a second. *)
Theorem time_total base extra : base < 2 ^ 32 -> extra < 2 ^ 32 ->
  exists t, decode_extra_time base extra = Ok t /\
    (-(2 ^ 31) * 10 ^ 9 <= t < (2 ^ 34 - 2 ^ 31) * 10 ^ 9 + 2 ^ 30)%Z.
Proof.
  intros B E. eexists. split; [now apply decode_extra_time_value|].
  change (2 ^ 31)%Z with 2147483648%Z. change (2 ^ 32)%Z with 4294967296%Z. change (2 ^ 34)%Z with 17179869184%Z.
  change (10 ^ 9)%Z with 1000000000%Z. change (2 ^ 30)%Z with 1073741824%Z. change (2 ^ 32) with 4294967296 in *.
  assert (S : (-2147483648 <= as_i32 base < 2147483648)%Z) by (unfold as_i32; destruct (N.ltb_spec base 2147483648); lia).
  lia.
Qed.
Print Assumptions time_total.

(** Encoding a time and decoding it gives it back, over the whole range. *)
Theorem time_roundtrip sec nsec : (-(2 ^ 31) <= sec < 2 ^ 34 - 2 ^ 31)%Z -> (0 <= nsec < 10 ^ 9)%Z ->
  time_base sec < 2 ^ 32 /\ time_extra sec nsec < 2 ^ 32 /\
  decode_extra_time (time_base sec) (time_extra sec nsec) = Ok (time_nanos sec nsec).
Proof.
  change (2 ^ 31)%Z with 2147483648%Z. change (2 ^ 34)%Z with 17179869184%Z. change (10 ^ 9)%Z with 1000000000%Z.
  intros S NS.
  assert (B : time_base sec < 2 ^ 32) by (unfold time_base; change (2 ^ 32)%Z with 4294967296%Z; change (2 ^ 32) with 4294967296; lia).
  assert (E : time_extra sec nsec < 2 ^ 32).
  { unfold time_extra. change (2 ^ 32)%Z with 4294967296%Z. change (2 ^ 32) with 4294967296. change (2 ^ 31)%Z with 2147483648%Z. lia. }
  split; [exact B|]. split; [exact E|]. rewrite decode_extra_time_value by assumption. f_equal.
  unfold time_nanos, time_base, time_extra, as_i32 in *. change (2 ^ 31)%Z with 2147483648%Z in *.
  change (2 ^ 32)%Z with 4294967296%Z in *. change (10 ^ 9)%Z with 1000000000%Z. change (2 ^ 32) with 4294967296 in *.
  destruct (N.ltb_spec (Z.to_N (sec mod 4294967296)) 2147483648); lia.
Qed.
Print Assumptions time_roundtrip.

(** 2446-05-10 22:38:55.999999999, the last one; and nothing is lost, so different times have different encodings. *)
Example time_roundtrip_ex :
  time_base 15032385535 = 0x7fffffff /\ time_extra 15032385535 999999999 = 0xee6b27ff /\
  decode_extra_time 0x7fffffff 0xee6b27ff = Ok 15032385535999999999%Z /\
  decode_extra_time 0x80000000 0 = Ok (-2147483648000000000)%Z.
Proof. vm_compute. repeat split. Qed.

(** The accessors of an inode never panic on their timestamps. *)
Theorem inode_times_total i :
  Forall (fun accessor => exists t, accessor i = Ok t)
    [in_access_time; in_change_time; in_modified_time; in_delete_time; in_creation_time].
Proof.
  assert (F : forall name o, field inode_layout name = Some (o, 4) -> ino name i < 2 ^ 32).
  { intros name o H. unfold ino. rewrite (fle_uint _ _ _ _ _ H). exact (uint_le_bound _ o 4). }
  unfold in_access_time, in_change_time, in_modified_time, in_creation_time, in_delete_time.
  assert (T : forall n1 n2 o1 o2, field inode_layout n1 = Some (o1, 4) -> field inode_layout n2 = Some (o2, 4) ->
    exists t, decode_extra_time (ino n1 i) (ino n2 i) = Ok t).
  { intros n1 n2 o1 o2 H1 H2. destruct (time_total (ino n1 i) (ino n2 i)) as (t & H & _); eauto. }
  repeat (apply Forall_cons; [try (eapply T; reflexivity)|]); [|apply Forall_nil].
  unfold datetime_add. assert (B := F "delete_time"%string 20 eq_refl). eexists.
  change (2 ^ 32) with 4294967296 in B. unfold nanos_per_sec, chrono_min, chrono_max.
  destruct ((_ <=? _) && (_ <? _))%Z eqn:C in |- *; [reflexivity|]. exfalso. lia.
Qed.
Print Assumptions inode_times_total.

Example inode_times_ex : exists i, inode_new root_inode_superblock 2 root_inode_slot = Ok i /\
  in_access_time i = Ok 1762868061000000000%Z /\ in_delete_time i = Ok 0%Z.
Proof. eexists. split; [vm_compute; reflexivity|]. vm_compute. repeat split. Qed.

(** ** C43 *)

Lemma file_type_code_of v : file_type_code (file_type_of v) = v.
Proof.
  unfold file_type_of. repeat (match goal with |- context [?a =? ?b] => destruct (N.eqb_spec a b) end; [subst; reflexivity|]).
  reflexivity.
Qed.
Lemma inline_type_code_of v : inline_type_code (inline_type_of v) = v.
Proof.
  unfold inline_type_of. repeat (match goal with |- context [?a =? ?b] => destruct (N.eqb_spec a b) end; [subst; reflexivity|]).
  reflexivity.
Qed.

Lemma mode_from_value v p : v < 16 -> mode_from (file_type_of v) p = p mod 4096 + 4096 * v.
Proof.
  intros V. unfold mode_from. rewrite file_type_code_of.
  change permissions_all with (N.ones 12). rewrite N.land_ones. change (2 ^ 12) with 4096.
  rewrite N.mod_small by (rewrite N.shiftl_mul_pow2; change (2 ^ 12) with 4096; lia).
  rewrite N.lor_comm. apply lor_shift. change (2 ^ 12) with 4096. lia.
Qed.

(** A mode is its type and permissions. *)
Theorem mode_split m : m < 2 ^ 16 -> mode_from (mode_file_type m) (mode_permissions m) = m.
Proof.
  change (2 ^ 16) with 65536. intros M. unfold mode_file_type. rewrite N.shiftr_div_pow2. change (2 ^ 12) with 4096.
  rewrite N.mod_small by lia. rewrite mode_from_value by lia. unfold mode_permissions.
  change permissions_all with (N.ones 12). rewrite N.land_ones. change (2 ^ 12) with 4096. lia.
Qed.
Print Assumptions mode_split.

(** The permissions are the twelve low bits, and the type is given by the upper four. *)
Theorem mode_fields m k : m < 2 ^ 16 ->
  file_type_code (mode_file_type m) = m / 4096 /\ has_bit (mode_permissions m) k = (k <? 12) && has_bit m k.
Proof.
  change (2 ^ 16) with 65536. intros M. unfold mode_file_type, mode_permissions, has_bit. split.
  - rewrite file_type_code_of, N.shiftr_div_pow2. change (2 ^ 12) with 4096. apply N.mod_small. lia.
  - change permissions_all with (N.ones 12). rewrite N.land_spec, andb_comm. f_equal. destruct (N.ltb_spec k 12) as [H|H]; [now apply N.ones_spec_low|now apply N.ones_spec_high].
Qed.

(** Joining a type with permissions and splitting the mode gives the type and the permissions. *)
Theorem mode_join v p : v < 16 ->
  mode_file_type (mode_from (file_type_of v) p) = file_type_of v /\
  mode_permissions (mode_from (file_type_of v) p) = p mod 4096 /\ mode_from (file_type_of v) p < 2 ^ 16.
Proof.
  change (2 ^ 16) with 65536. intros V. rewrite mode_from_value by exact V. unfold mode_file_type, mode_permissions.
  rewrite N.shiftr_div_pow2. change permissions_all with (N.ones 12). rewrite N.land_ones. change (2 ^ 12) with 4096.
  split; [f_equal; lia|]. lia.
Qed.
Print Assumptions mode_join.

Example mode_ex : mode_file_type 0x81a4 = FtRegularFile /\ mode_permissions 0x81a4 = 0x1a4 /\
  mode_from FtDirectory 0xf1ed = 0x41ed /\ mode_file_type 0x3000 = FtUnknown 3.
Proof. vm_compute. repeat split. Qed.

(** The two enumerations of file types correspond as ext4 numbers them, and converting one into the other and back
    changes nothing, for unknown codes neither. *)
Theorem file_types_correspond :
  Forall (fun '(i, d) => inline_from_file_type (file_type_of i) = inline_type_of d /\
                         file_type_from_inline (inline_type_of d) = file_type_of i) file_type_codes /\
  (forall t, file_type_from_inline (inline_from_file_type t) = t) /\
  (forall t, inline_from_file_type (file_type_from_inline t) = t) /\
  (forall v, file_type_code (file_type_of v) = v) /\ (forall v, inline_type_code (inline_type_of v) = v).
Proof.
  split; [repeat constructor|]. split; [now intros []|]. split; [now intros []|].
  split; [apply file_type_code_of|apply inline_type_code_of].
Qed.
Print Assumptions file_types_correspond.

(** What the codes mean: those of modes (S_IFMT of Linux), and those of directory entries (EXT4_FT_...). *)
Theorem file_types_published :
  (forall m, m < 2 ^ 16 -> Forall (fun '(t, code) => mode_file_type m = t <-> m / 4096 = code)
    [(FtFifo, 1); (FtCharacterDevice, 2); (FtDirectory, 4); (FtBlockDevice, 6); (FtRegularFile, 8); (FtSymbolicLink, 10); (FtSocket, 12)]) /\
  (forall d, Forall (fun '(t, code) => inline_type_of d = t <-> d = code)
    [(ItRegularFile, 1); (ItDirectory, 2); (ItCharacterDevice, 3); (ItBlockDevice, 4); (ItFifo, 5); (ItSocket, 6); (ItSymbolicLink, 7)]) /\
  (forall d c, inline_type_of d = ItUnknown c <-> d = c /\ (d = 0 \/ 7 < d)).
Proof.
  split; [|split].
  - change (2 ^ 16) with 65536. intros m M. unfold mode_file_type. rewrite N.shiftr_div_pow2. change (2 ^ 12) with 4096. rewrite (N.mod_small (m / 4096) 256) by lia.
    generalize (m / 4096). clear m M. intros v. unfold file_type_of.
    repeat (apply Forall_cons; [|]); [..|apply Forall_nil];
      (split; [repeat match goal with |- context [v =? ?b] => destruct (N.eqb_spec v b) end; congruence|intros ->; reflexivity]).
  - intros v. unfold inline_type_of. repeat (apply Forall_cons; [|]); [..|apply Forall_nil];
      (split; [repeat match goal with |- context [v =? ?b] => destruct (N.eqb_spec v b) end; congruence|intros ->; reflexivity]).
  - intros v c. unfold inline_type_of. repeat match goal with |- context [v =? ?b] => destruct (N.eqb_spec v b) end;
      (split; [intros H; try discriminate H; injection H as <-; (split; [reflexivity|lia])|intros [<- H]; try reflexivity; lia]).
Qed.
Print Assumptions file_types_published.

Example file_types_ex : mode_file_type 0x41ed = FtDirectory /\ inline_type_of 2 = ItDirectory /\ inline_type_of 0xde = ItUnknown 0xde.
Proof. vm_compute. repeat split. Qed.

(** But an unknown code of one numbering is kept as the same code of the other, where it may mean something: a directory
    entry of the unknown type 8 turns into the mode of a regular file. *)
Theorem unknown_type_confused_refuted :
  ~ (forall d p, d < 256 -> let t := file_type_from_inline (inline_type_of d) in mode_file_type (mode_from t p) = t).
Proof. intros H. specialize (H 8 0 eq_refl). discriminate H. Qed.
Print Assumptions unknown_type_confused_refuted.

(** ** C64 *)

Ltac named_field view lay :=
  match goal with |- context [view ?n ?st] =>
    let f := eval vm_compute in (field lay n) in
    match f with Some (?o, ?w) =>
      let k := eval vm_compute in (N.to_nat w) in
      replace (view n st) with (uint_le st o k) by (symmetry; apply (fle_uint lay n o w st); reflexivity)
    end
  end.

Lemma bg_new_uint buffer o w : o + N.of_nat w <= 60 -> uint_le (bg_new buffer) o w = uint_le buffer o w.
Proof.
  intros H. unfold bg_new. change (layout_size bg_layout) with 60. rewrite uint_le_zeros.
  destruct (N.ltb_spec (len buffer) 60) as [L|L].
  - rewrite N.min_l by lia. now rewrite firstn_to_nat_all by lia.
  - rewrite N.min_r by lia. rewrite <- window_firstn. now apply uint_le_prefix.
Qed.

(** The fields of a group descriptor of any size, as stored on disk; the upper halves of a short one count as zero. *)
Theorem group_descriptor_published buffer :
  Forall (fun '(accessor, lo, hi, w) => accessor (bg_new buffer) = uint_le buffer lo w + 256 ^ N.of_nat w * uint_le buffer hi w)
   [(bg_block_bitmap_block, 0x0, 0x20, 4%nat); (bg_inode_bitmap_block, 0x4, 0x24, 4%nat);
    (bg_inode_table_block, 0x8, 0x28, 4%nat); (bg_free_block_count, 0xc, 0x2c, 2%nat);
    (bg_free_inode_count, 0xe, 0x2e, 2%nat); (bg_used_directories_count, 0x10, 0x30, 2%nat);
    (bg_exclude_bitmap_block, 0x14, 0x34, 4%nat); (bg_block_bitmap_checksum, 0x18, 0x38, 2%nat);
    (bg_inode_bitmap_checksum, 0x1a, 0x3a, 2%nat); (bg_unused_inode_count, 0x1c, 0x32, 2%nat)] /\
  bg_flags (bg_new buffer) = uint_le buffer 0x12 2 /\ bg_checksum (bg_new buffer) = uint_le buffer 0x1e 2 /\
  len (bg_new buffer) = 60.
Proof.
  unfold bg_block_bitmap_block, bg_inode_bitmap_block, bg_inode_table_block, bg_free_block_count, bg_free_inode_count,
    bg_used_directories_count, bg_exclude_bitmap_block, bg_block_bitmap_checksum, bg_inode_bitmap_checksum,
    bg_unused_inode_count, bg_flags, bg_checksum.
  split; [|split; [|split]].
  - repeat (apply Forall_cons; [repeat named_field bg bg_layout; rewrite !bg_new_uint by (vm_compute; congruence);
      apply lor_shift, uint_le_bound|]). apply Forall_nil.
  - repeat named_field bg bg_layout. apply bg_new_uint. vm_compute. congruence.
  - repeat named_field bg bg_layout. apply bg_new_uint. vm_compute. congruence.
  - unfold bg_new. change (layout_size bg_layout) with 60. rewrite len_app, len_zeros, len_firstn. lia.
Qed.
Print Assumptions group_descriptor_published.

Example group_descriptor_ex :
  bg_inode_table_block (bg_new group_descriptor_bytes) = 0x2e /\
  bg_block_bitmap_checksum (bg_new group_descriptor_bytes) = 0x30609723 /\
  bg_block_bitmap_checksum (bg_new (window group_descriptor_bytes 0 32)) = 0x9723.
Proof. vm_compute. repeat split. Qed.

(** The fields of an inode. *)
Theorem inode_published sb n slot i : inode_new sb n slot = Ok i -> let v := inode_visible slot in
  Forall (fun '(accessor, o, w) => accessor i = uint_le v o w)
   [(in_file_mode, 0x0, 2%nat); (in_links_count, 0x1a, 2%nat); (in_flags, 0x20, 4%nat); (in_generation, 0x64, 4%nat);
    (in_project_id, 0x9c, 4%nat)] /\
  Forall (fun '(accessor, lo, wl, hi, wh) => accessor i = uint_le v lo wl + 256 ^ N.of_nat wl * uint_le v hi wh)
   [(in_owner_user_id, 0x2, 2%nat, 0x78, 2%nat); (in_file_size_bytes, 0x4, 4%nat, 0x6c, 4%nat);
    (in_group_id, 0x18, 2%nat, 0x7a, 2%nat); (in_block_count, 0x1c, 4%nat, 0x74, 2%nat);
    (in_version, 0x24, 4%nat, 0x98, 4%nat); (in_file_acl, 0x68, 4%nat, 0x76, 2%nat);
    (in_checksum, 0x7c, 2%nat, 0x82, 2%nat)] /\
  Forall (fun '(accessor, base, extra) => accessor i = decode_extra_time (uint_le v base 4) (uint_le v extra 4))
   [(in_access_time, 0x8, 0x8c); (in_change_time, 0xc, 0x84); (in_modified_time, 0x10, 0x88);
    (in_creation_time, 0x90, 0x94)] /\
  in_delete_time i = Ok (Z.of_N (uint_le v 0x14 4) * 10 ^ 9)%Z /\ in_blocks_buffer i = window slot 0x28 60.
Proof.
  intros E v. destruct (inode_new_decodes _ _ _ _ E) as (U & _ & _).
  assert (NP : inode_new sb n slot <> Panic) by congruence. rewrite inode_new_panics_iff in NP.
  destruct (inode_new_spec sb n slot) as (seed & R & _); [lia|lia|]. rewrite R in E. injection E as E.
  assert (F : forall name o w, field inode_layout name = Some (o, w) -> ino name i = uint_le v o (N.to_nat w)).
  { intros name o w H. unfold ino. rewrite (fle_uint _ _ _ _ _ H). apply U. }
  unfold in_file_mode, in_links_count, in_flags, in_generation, in_project_id, in_owner_user_id, in_file_size_bytes,
    in_group_id, in_block_count, in_version, in_file_acl, in_checksum, in_access_time, in_change_time, in_modified_time,
    in_creation_time.
  split; [|split; [|split; [|split]]].
  - repeat (apply Forall_cons; [etransitivity; [apply F; reflexivity|reflexivity]|]). apply Forall_nil.
  - repeat (apply Forall_cons; [cbv beta iota; erewrite !F by reflexivity; apply lor_shift, uint_le_bound|]). apply Forall_nil.
  - repeat (apply Forall_cons; [cbv beta iota; erewrite !F by reflexivity; reflexivity|]). apply Forall_nil.
  - destruct (proj1 (Forall_forall _ _) (inode_times_total i) in_delete_time) as [t T]; [cbn; tauto|].
    rewrite T. unfold in_delete_time, datetime_add in T. erewrite F in T by reflexivity.
    destruct ((_ <=? _) && (_ <? _))%Z in T; [|discriminate]. injection T as <-. f_equal.
  - unfold in_blocks_buffer, fbytes. change (field inode_layout "blocks") with (Some (40, 60)). cbv iota beta.
    rewrite <- E. cbn [in_storage]. unfold inode_visible. rewrite window_app_l by (rewrite len_window_in; lia).
    now rewrite window_nested by lia.
Qed.
Print Assumptions inode_published.

Example inode_published_ex : exists i, inode_new root_inode_superblock 2 root_inode_slot = Ok i /\
  in_file_mode i = 0x41ed /\ in_block_count i = 8 /\ in_flags i = 0x80000 /\ in_owner_user_id i = 0 /\
  in_blocks_buffer i = window root_inode_slot 40 60.
Proof. eexists. split; [vm_compute; reflexivity|]. vm_compute. repeat split. Qed.
