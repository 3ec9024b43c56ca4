(** Property C105: members that are being rebuilt, and what of a superblock of version 1 is looked at. *)

From Coq Require Import Strings.String Permutation.
From Verif Require Import Base BaseFacts Raid SpecRaid RaidFacts SpecParity ParityFacts PropsRaid Io SpecStream IoFacts Superblock Device Array SuperblockFacts
  PropsSuperblock ArrayIo SpecMd SpecArray ArrayFacts PropsArray PropsArrayRead PropsArrayIo PropsExt4Array PropsExt4Recover SpecStale PropsArrayStale.

(** ** Specification *)

(** The bytes of a superblock of version 1 that hold the magic number, the version, the identifier and the name of the array,
    level, layout, size, chunk size, number of devices, reshape, data offset, index, event count, and the table of roles with
    its size.  Not among them: the features (bytes 8 to 11; see below), the time stamps, the bitmap, the size of the data
    area (136), the location of the superblock (144), the recovery offset or the tail of the journal (152), the number of
    corrected errors (164), the identifier of the device (168), its flags (184), the list of bad blocks (185 to 191), the
    offset of a resync (208) and the checksum (216). *)
Definition looked_at (p : N) : Prop :=
  p < 8 \/ 16 <= p < 64 \/ 72 <= p < 96 \/ 100 <= p < 136 \/ 160 <= p < 164 \/ 200 <= p < 208 \/ 220 <= p < 224 \/ 256 <= p.

(** What the superblock [st] says of sector [t] of the data area of its member: only what lies before the recovery offset,
    if there is one (feature bit 1), has been rebuilt. *)
Definition rebuilt (st : bytes) (t : N) : Prop := has_bit (uint_le st 8 4) 1 = true -> t < uint_le st 152 8.

(** ** What is looked at *)

Lemma uint_le_same st st' w : forall o, (forall p, o <= p < o + N.of_nat w -> byte_val st p = byte_val st' p) -> uint_le st o w = uint_le st' o w.
Proof.
  induction w as [|w IH]; intros o H; [reflexivity|]. cbn [uint_le]. rewrite (H o) by lia. rewrite (IH (o + 1)); [reflexivity|].
  intros p P. apply H. lia.
Qed.
Lemma byte_val_same st st' p : len st = len st' -> byte_val st p = byte_val st' p -> nth_N st p = nth_N st' p.
Proof.
  intros L. rewrite !byte_val_nth.
  assert (Nn : forall x : bytes, nth_N x p = None <-> len x <= p) by (intros x; rewrite nth_N_spec, nth_error_None; unfold len; lia).
  destruct (nth_N st p) as [a|] eqn:E, (nth_N st' p) as [b|] eqn:E'; intros H.
  - unfold bval in H. f_equal. assert (X : Byte.of_N (Byte.to_N a) = Byte.of_N (Byte.to_N b)) by congruence. rewrite !Byte.of_to_N in X. congruence.
  - apply Nn in E'. assert (nth_N st p = None) by (apply Nn; lia). congruence.
  - apply Nn in E. assert (nth_N st' p = None) by (apply Nn; lia). congruence.
  - reflexivity.
Qed.
Lemma window_same st st' o n : len st = len st' -> o + n <= len st -> (forall p, o <= p < o + n -> byte_val st p = byte_val st' p) ->
  window st o n = window st' o n.
Proof.
  intros L B H. apply list_ext_N; [rewrite !len_window_in by lia; reflexivity|]. intros i Hi. rewrite len_window_in in Hi by exact B.
  rewrite !nth_N_window by exact Hi. apply byte_val_same; [exact L|]. apply H. lia.
Qed.

(** C105: nothing else of a superblock is looked at, and of the features only bit 2. *)
Theorem v1_looks_at : forall st st' minor, len st = 4096 -> len st' = 4096 ->
  (forall p, looked_at p -> byte_val st p = byte_val st' p) -> has_bit (uint_le st 8 4) 2 = has_bit (uint_le st' 8 4) 2 ->
  v1_valid st = v1_valid st' /\ v1_superblock st minor = v1_superblock st' minor.
Proof.
  intros st st' minor L L' H F.
  assert (U : forall o w, (forall p, o <= p < o + N.of_nat w -> looked_at p) -> uint_le st o w = uint_le st' o w).
  { intros o w X. apply uint_le_same. intros p P. apply H, X, P. }
  destruct (v1_accessors_published st minor L) as (V & A1 & A2 & A3 & A4 & A5 & A6 & A7 & A8 & A9 & A10 & A11 & A12 & A13 & A14).
  destruct (v1_accessors_published st' minor L') as (V' & B1 & B2 & B3 & B4 & B5 & B6 & B7 & B8 & B9 & B10 & B11 & B12 & B13 & B14).
  cbv zeta in *. unfold looked_at in *. split.
  - rewrite (U 0 4%nat), (U 4 4%nat) in V by (intros; lia). destruct (v1_valid st), (v1_valid st'); try reflexivity.
    + symmetry. apply V', V. reflexivity.
    + apply V, V'. reflexivity.
  - set (x := v1_superblock st minor) in *. set (x' := v1_superblock st' minor) in *. clearbody x x'.
    assert (R : sb_roles x = sb_roles x').
    { assert (Lr : len (sb_roles x) = len (sb_roles x')) by (rewrite A13, B13, (U 220 4%nat) by (intros; lia); reflexivity).
      apply list_ext_N; [exact Lr|]. intros i Hi. rewrite A14 by exact Hi. rewrite Lr in Hi. rewrite B14 by exact Hi.
      f_equal. apply U. intros; lia. }
    assert (W : forall o n, o + n <= 4096 -> (forall p, o <= p < o + n -> looked_at p) -> firstn (N.to_nat n) (skipn (N.to_nat o) st) = firstn (N.to_nat n) (skipn (N.to_nat o) st')).
    { intros o n Bd X. apply (window_same st st' o n); [congruence|lia|]. intros p P. apply H. exact (X p P). }
    destruct x as [x1 x2 x3 x4 x5 x6 x7 x8 x9 x10 x11 x12 x13], x' as [y1 y2 y3 y4 y5 y6 y7 y8 y9 y10 y11 y12 y13].
    cbn [sb_major sb_minor sb_uuid sb_name sb_algorithm sb_sectors_per_device sb_chunk_size sb_device_count sb_reshape sb_data_offset sb_role_index
      sb_event_count sb_roles] in *.
    rewrite F in A9. specialize (W 16 16 ltac:(lia)) as W1. specialize (W 32 32 ltac:(lia)) as W2. unfold looked_at in W1, W2.
    change (N.to_nat 16) with 16%nat in W1. change (N.to_nat 32) with 32%nat in W2.
    rewrite (U 4 4%nat) in A1 by (intros; lia). rewrite W1 in A3 by (intros; lia). rewrite W2 in A4 by (intros; lia).
    rewrite (U 72 4%nat), (U 76 4%nat) in A5 by (intros; lia). rewrite (U 80 8%nat) in A6 by (intros; lia). rewrite (U 88 4%nat) in A7 by (intros; lia).
    rewrite (U 92 4%nat) in A8 by (intros; lia).
    rewrite (U 100 4%nat), (U 116 4%nat), (U 104 8%nat), (U 112 4%nat), (U 120 4%nat), (U 124 4%nat) in A9 by (intros; lia).
    rewrite (U 128 8%nat) in A10 by (intros; lia). rewrite (U 160 4%nat) in A11 by (intros; lia). rewrite (U 200 8%nat) in A12 by (intros; lia).
    congruence.
Qed.
Print Assumptions v1_looks_at.

(** ** Members that are being rebuilt *)

(** Members 1 and 3 were replaced; nothing of them has been rebuilt yet.  Rows [Q D0 D1 P]. *)
Definition rebuild_sb (features offset index : N) : bytes :=
  fold_left poke [(0, to_le 4 0xa92b4efc); (4, to_le 4 1); (8, to_le 4 features); (72, to_le 4 6); (76, to_le 4 2); (80, to_le 8 1); (88, to_le 4 1);
    (92, to_le 4 4); (152, to_le 8 offset); (160, to_le 4 index); (200, to_le 8 9); (220, to_le 4 4);
    (256, to_le 2 0); (258, to_le 2 1); (260, to_le 2 2); (262, to_le 2 3)] (zeros 4096).
Definition rebuild_sbs : list (N * bytes * byte) :=
  [(0, rebuild_sb 0 0 0, x00); (1, rebuild_sb 2 0 1, x31); (2, rebuild_sb 0 0 2, x42); (3, rebuild_sb 2 0 3, x73)].
Definition rebuild_members : list (md_device memdev) :=
  map (fun '(i, st, b) => MdDevice i (DsSuperblock (v1_superblock st 2)) (mem_new (sec b) 512)) rebuild_sbs.

(** False of the code: members are read where their superblocks say that they have not been rebuilt.  Whatever has been
    rebuilt is part of the image; the sector that is returned is not. *)
Theorem rebuilding_not_read_refuted : exists (sbs : list (N * bytes * byte)) f l image q s,
  let ds := map (fun '(i, st, b) => MdDevice i (DsSuperblock (v1_superblock st 2)) (mem_new (sec b) 512)) sbs in
  let a := array_open (fun x => x) ds in
  geometry_ok f l /\ in_use a f /\ s < mf_sectors_per_device f * (mf_device_count f - 2) /\
  len image = mf_sectors_per_device f * (mf_device_count f - 2) * 512 /\
  (forall i st b, In (i, st, b) sbs -> len st = 4096 /\ v1_valid st = true /\
     forall t, t < mf_sectors_per_device f -> rebuilt st t -> sector_at (sec b) t (stored l (mf_device_count f) (mf_chunk_size f) image q i t)) /\
  exists a' buf', array_read_block_io mem_block shared a s (zeros 512) = (a', buf', Ok 512) /\ buf' <> image_sector image s.
Proof.
  exists rebuild_sbs, stale_format, (Md5 LeftSymmetric), stale_new, (fun _ => sec x00), 0. cbv zeta.
  split; [|split; [right; split; vm_compute; reflexivity|split; [reflexivity|split; [reflexivity|split; [|]]]]].
  - exists 2, R6LeftSymmetric. repeat split; try (vm_compute; congruence). now exists 1.
  - intros i st b I. cbn [In rebuild_sbs] in I.
    assert (Zt : forall t, t < mf_sectors_per_device stale_format -> t = 0) by (intros t Ht; cbn in Ht; lia).
    destruct I as [I|[I|[I|[I|[]]]]]; injection I as <- <- <-; (split; [vm_compute; reflexivity|]); (split; [vm_compute; reflexivity|]); intros t Ht R;
      rewrite (Zt t Ht) in *.
    + split; [vm_compute; discriminate|vm_compute; reflexivity].
    + exfalso. specialize (R ltac:(vm_compute; reflexivity)). vm_compute in R. discriminate R.
    + split; [vm_compute; discriminate|vm_compute; reflexivity].
    + exfalso. specialize (R ltac:(vm_compute; reflexivity)). vm_compute in R. discriminate R.
  - assert (X : snd (fst (array_read_block_io mem_block shared (array_open (fun x => x) rebuild_members) 0 (zeros 512))) = sec x31 /\
        snd (array_read_block_io mem_block shared (array_open (fun x => x) rebuild_members) 0 (zeros 512)) = Ok 512) by (split; vm_compute; reflexivity).
    change (map _ rebuild_sbs) with rebuild_members.
    destruct (array_read_block_io mem_block shared (array_open (fun x => x) rebuild_members) 0 (zeros 512)) as [[a' buf'] r]. cbn [fst snd] in X.
    destruct X as [-> ->]. eexists. eexists. split; [reflexivity|]. intros E. apply (f_equal (fun b => window b 0 1)) in E. vm_compute in E. discriminate E.
Qed.
Print Assumptions rebuilding_not_read_refuted.

(** A superblock that says that nothing has been rebuilt, and has a list of bad blocks and a wrong checksum, is taken like
    one that does not. *)
Example v1_looks_at_ex : let st := rebuild_sb 0 0 1 in let st' := fold_left poke [(8, to_le 4 (2 + 8)); (185, [x09; x08; x00]); (188, to_le 4 8); (216, to_le 4 77)] st in
  len st = 4096 /\ len st' = 4096 /\ st <> st' /\ (forall p, looked_at p -> byte_val st p = byte_val st' p) /\
  has_bit (uint_le st 8 4) 2 = has_bit (uint_le st' 8 4) 2 /\ v1_valid st = true.
Proof.
  cbv zeta. split; [vm_compute; reflexivity|]. split; [vm_compute; reflexivity|]. split.
  - intros E. apply (f_equal (fun b => window b 8 1)) in E. vm_compute in E. discriminate E.
  - split; [|split; vm_compute; reflexivity]. intros p P.
    assert (Out : forall x o b, o + len b <= len x -> p < o \/ o + len b <= p -> byte_val (poke x (o, b)) p = byte_val x p).
    { intros x o b L D. rewrite !byte_val_nth, nth_poke by exact L. destruct (N.leb_spec o p), (N.ltb_spec p (o + len b)); cbn [andb]; try reflexivity; lia. }
    assert (Ls : len (rebuild_sb 0 0 1) = 4096) by (vm_compute; reflexivity). set (st := rebuild_sb 0 0 1) in *. clearbody st.
    assert (L2 : forall x, len (to_le 4 x) = 4) by (intros x; now rewrite len_to_le).
    unfold looked_at in P. cbn [fold_left].
    set (x1 := poke st _). assert (E1 : len x1 = 4096) by (unfold x1; rewrite len_poke; rewrite ?L2; lia).
    set (x2 := poke x1 _). assert (E2 : len x2 = 4096) by (unfold x2; rewrite len_poke; change (len [x09; x08; x00]) with 3; lia).
    set (x3 := poke x2 _). assert (E3 : len x3 = 4096) by (unfold x3; rewrite len_poke; rewrite ?L2; lia).
    rewrite Out by (rewrite ?L2; lia). unfold x3. rewrite Out by (rewrite ?L2; lia).
    unfold x2. rewrite Out by (change (len [x09; x08; x00]) with 3; lia). unfold x1. rewrite Out by (rewrite ?L2; lia). reflexivity.
Qed.
