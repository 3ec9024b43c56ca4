(** Properties C109, C110: what of a superblock of version 0.90 is used, and the places that members with such superblocks get. *)

From Coq Require Import Strings.String Permutation.
From Verif Require Import Base BaseFacts Raid Io Superblock Device Array SuperblockFacts PropsSuperblock SpecMd SpecMd90 SpecArray ArrayFacts PropsArray
  PropsArrayRebuild.

(** ** C109 *)

Section Same.
Variables (st st' : bytes).
Hypotheses (L : len st = 4096) (L' : len st' = 4096) (H : forall p, looked_at_90 p -> byte_val st p = byte_val st' p).

Lemma same_window o n : o + n <= 4096 -> (forall p, o <= p < o + n -> looked_at_90 p) -> window st o n = window st' o n.
Proof using L L' H. intros B P. apply window_same; [congruence|lia|]. intros p Hp. apply H, P, Hp. Qed.

Lemma same_fval e name o w : field v0_layout name = Some (o, w) -> o + w <= 4096 -> (forall p, o <= p < o + w -> looked_at_90 p) ->
  fval e v0_layout name st = fval e v0_layout name st'.
Proof using L L' H. intros F B P. unfold fval, fbytes. rewrite F. now rewrite same_window. Qed.

Lemma same_nested e outer o n lay name p w : field v0_layout outer = Some (o, n) -> field lay name = Some (p, w) -> p + w <= n -> o + n <= 4096 ->
  (forall x, o + p <= x < o + p + w -> looked_at_90 x) ->
  fval e lay name (fbytes v0_layout outer st) = fval e lay name (fbytes v0_layout outer st').
Proof using L L' H.
  intros F1 F2 B1 B2 P. unfold fval, fbytes. rewrite F1, F2, !window_nested by exact B1. rewrite same_window; [reflexivity|lia|exact P].
Qed.

Lemma same_roles e : map dd_role (s0_devices (v0_from_view e st)) = map dd_role (s0_devices (v0_from_view e st')).
Proof using L L' H.
  unfold v0_from_view. cbn [s0_devices]. rewrite !map_map. apply map_ext_in. intros i Hi. apply in_seq in Hi.
  change (N.to_nat v0_max_devices) with 27%nat in Hi. change (layout_size v0_descriptor_layout) with 128. unfold v0_descriptor. cbn [dd_role].
  unfold fval, fbytes. change (field v0_descriptor_layout "role") with (Some (12, 4)). change (field v0_layout "devices") with (Some (512, 3456)). cbv iota.
  rewrite !window_nested by lia. rewrite same_window; [reflexivity|lia|]. intros p P. unfold looked_at_90. do 7 right. left. exists (N.of_nat i). lia.
Qed.

Lemma same_view e : v0_valid (v0_from_view e st) = v0_valid (v0_from_view e st') /\
  v0_superblock (v0_from_view e st) = v0_superblock (v0_from_view e st').
Proof using L L' H.
  assert (F : forall name o w, field v0_layout name = Some (o, w) -> o + w <= 4096 -> (forall p, o <= p < o + w -> looked_at_90 p) ->
    fval e v0_layout name st = fval e v0_layout name st') by (intros; eapply same_fval; eauto).
  pose proof (same_roles e) as R.
  assert (T : s0_total_devices (v0_from_view e st) = s0_total_devices (v0_from_view e st')).
  { apply (F "total_device_count"%string 36 4); [reflexivity|lia|unfold looked_at_90; lia]. }
  assert (M : s0_magic (v0_from_view e st) = s0_magic (v0_from_view e st')).
  { apply (F "magic"%string 0 4); [reflexivity|lia|unfold looked_at_90; lia]. }
  assert (Mj : s0_major (v0_from_view e st) = s0_major (v0_from_view e st')).
  { apply (F "major_version"%string 4 4); [reflexivity|lia|unfold looked_at_90; lia]. }
  split.
  - unfold v0_valid. rewrite M, Mj, T, <- !(forallb_map dd_role is_valid), <- !firstn_map, R. reflexivity.
  - unfold v0_superblock. rewrite <- !firstn_map, R, T, Mj. unfold v0_uuid.
    assert (E1 : s0_minor (v0_from_view e st) = s0_minor (v0_from_view e st')) by (apply (F "minor_version"%string 8 4); [reflexivity|lia|unfold looked_at_90; lia]).
    assert (E2 : s0_uuid0 (v0_from_view e st) = s0_uuid0 (v0_from_view e st')) by (apply (F "array_uuid_0"%string 20 4); [reflexivity|lia|unfold looked_at_90; lia]).
    assert (E3 : s0_uuid1 (v0_from_view e st) = s0_uuid1 (v0_from_view e st')) by (apply (F "array_uuid_1"%string 52 4); [reflexivity|lia|unfold looked_at_90; lia]).
    assert (E4 : s0_uuid2 (v0_from_view e st) = s0_uuid2 (v0_from_view e st')) by (apply (F "array_uuid_2"%string 56 4); [reflexivity|lia|unfold looked_at_90; lia]).
    assert (E5 : s0_uuid3 (v0_from_view e st) = s0_uuid3 (v0_from_view e st')) by (apply (F "array_uuid_3"%string 60 4); [reflexivity|lia|unfold looked_at_90; lia]).
    assert (E6 : s0_level (v0_from_view e st) = s0_level (v0_from_view e st')) by (apply (F "level"%string 28 4); [reflexivity|lia|unfold looked_at_90; lia]).
    assert (E7 : s0_layout (v0_from_view e st) = s0_layout (v0_from_view e st')) by (apply (F "layout"%string 256 4); [reflexivity|lia|unfold looked_at_90; lia]).
    assert (E8 : s0_sectors (v0_from_view e st) = s0_sectors (v0_from_view e st')) by (apply (F "sectors_per_device"%string 32 4); [reflexivity|lia|unfold looked_at_90; lia]).
    assert (E9 : s0_raid_devices (v0_from_view e st) = s0_raid_devices (v0_from_view e st')) by (apply (F "raid_device_count"%string 40 4); [reflexivity|lia|unfold looked_at_90; lia]).
    assert (E10 : s0_events (v0_from_view e st) = s0_events (v0_from_view e st')) by (apply (F "event_count"%string 156 8); [reflexivity|lia|unfold looked_at_90; lia]).
    assert (E11 : s0_chunk (v0_from_view e st) = s0_chunk (v0_from_view e st')) by (apply (F "chunk_size"%string 260 4); [reflexivity|lia|unfold looked_at_90; lia]).
    assert (E12 : dd_index (s0_this (v0_from_view e st)) = dd_index (s0_this (v0_from_view e st'))).
    { apply (same_nested e "this_device" 3968 128 v0_descriptor_layout "index" 0 4); try reflexivity; try lia; unfold looked_at_90; lia. }
    assert (E13 : s0_reshape (v0_from_view e st) = s0_reshape (v0_from_view e st')).
    { unfold v0_from_view. cbn [s0_reshape]. unfold v0_reshape.
      rewrite (same_nested e "reshape_status" 176 24 v0_reshape_layout "new_level" 8 4),
        (same_nested e "reshape_status" 176 24 v0_reshape_layout "new_layout" 16 4),
        (same_nested e "reshape_status" 176 24 v0_reshape_layout "reshape_position" 0 8),
        (same_nested e "reshape_status" 176 24 v0_reshape_layout "delta_devices" 12 4),
        (same_nested e "reshape_status" 176 24 v0_reshape_layout "new_chunk_size" 20 4); try reflexivity; try lia; unfold looked_at_90; lia. }
    now rewrite E1, E2, E3, E4, E5, E6, E7, E8, E9, E10, E11, E12, E13.
Qed.
End Same.

(** C109: nothing else of a superblock of version 0.90 is looked at. *)
Theorem v0_looks_at : forall st st', len st = 4096 -> len st' = 4096 -> (forall p, looked_at_90 p -> byte_val st p = byte_val st' p) ->
  v0_decode st = v0_decode st'.
Proof.
  intros st st' L L' H. unfold v0_decode.
  assert (M : fle v0_layout "magic" st = fle v0_layout "magic" st').
  { apply (same_fval st st' L L' H Little "magic" 0 4); [reflexivity|lia|unfold looked_at_90; lia]. }
  rewrite M. destruct (same_view st st' L L' H Little) as [V S], (same_view st st' L L' H Big) as [V' S'].
  destruct (_ =? _); [now rewrite V, S|now rewrite V', S'].
Qed.
Print Assumptions v0_looks_at.

(** The superblock of member [n] of four, of which those in [sync] are there; a RAID-6 array. *)
Definition sb90 (e : endian) (sync : list N) (n : N) : bytes :=
  fold_left poke
    ([(word 0, enc e 4 0xa92b4efc); (word 2, enc e 4 90); (word 5, enc e 4 7); (word 7, enc e 4 6); (word 8, enc e 4 64);
      (word 9, enc e 4 (len sync)); (word 10, enc e 4 4); (word 64, enc e 4 2); (word 65, enc e 4 65536); (word 992, enc e 4 n)]
     ++ flat_map (fun i => [(word (128 + 32 * i), enc e 4 i); (word (128 + 32 * i + 3), enc e 4 i);
          (word (128 + 32 * i + 4), enc e 4 (if existsb (N.eqb i) sync then 6 else 9))]) [0; 1; 2; 3]) (zeros 4096).
(** With a checksum. *)
Definition sealed (e : endian) (st : bytes) : bytes := poke st (152, enc e 4 (csum90 e st)).

(** False of the code: superblocks with a wrong checksum are accepted. *)
Theorem v0_checksum_refuted : forall e, exists st sb, len st = 4096 /\ ~ csum90_ok e st /\ v0_decode st = Ok sb.
Proof.
  assert (X : forall e, uint e (sb90 e [0; 1; 2; 3] 1) 152 4 <> csum90 e (sb90 e [0; 1; 2; 3] 1)) by (intros []; vm_compute; discriminate).
  intros e. exists (sb90 e [0; 1; 2; 3] 1). eexists. split; [destruct e; vm_compute; reflexivity|]. split; [exact (X e)|].
  destruct e; vm_compute; reflexivity.
Qed.
Print Assumptions v0_checksum_refuted.

(** A superblock with the right checksum, and the same with a wrong one and a member marked faulty. *)
Example v0_looks_at_ex : let st := sealed Little (sb90 Little [0; 1; 2; 3] 1) in
  let st' := fold_left poke [(152, [x01; x02]); (512 + 128 + 16, [x01])] st in
  len st = 4096 /\ len st' = 4096 /\ csum90_ok Little st /\ ~ csum90_ok Little st' /\ in_sync Little st 1 = true /\ in_sync Little st' 1 = false /\
  (forall p, looked_at_90 p -> byte_val st p = byte_val st' p) /\ exists sb, v0_decode st = Ok sb.
Proof.
  cbv zeta. set (st := sealed Little (sb90 Little [0; 1; 2; 3] 1)).
  assert (Ls : len st = 4096) by (vm_compute; reflexivity).
  split; [exact Ls|]. split; [vm_compute; reflexivity|]. split; [vm_compute; reflexivity|]. split; [vm_compute; discriminate|].
  split; [vm_compute; reflexivity|]. split; [vm_compute; reflexivity|]. split.
  - intros p P. cbn [fold_left].
    assert (Out : forall x o b, o + len b <= len x -> p < o \/ o + len b <= p -> byte_val (poke x (o, b)) p = byte_val x p).
    { intros x o b Lx Dx. rewrite !byte_val_nth, nth_poke by exact Lx. destruct (N.leb_spec o p), (N.ltb_spec p (o + len b)); cbn [andb]; try reflexivity; lia. }
    clearbody st. assert (P' : ~ 152 <= p < 154 /\ p <> 656).
    { unfold looked_at_90 in P. destruct P as [P|[P|[P|[P|[P|[P|[P|[(i & I & P)|P]]]]]]]]; lia. }
    assert (B1 : len [x01; x02] = 2) by reflexivity. assert (B2 : len [x01] = 1) by reflexivity.
    assert (L2 : len (poke st (152, [x01; x02])) = 4096) by (rewrite len_poke, Ls; [reflexivity|rewrite Ls, B1; lia]).
    rewrite (Out (poke st _)), (Out st); [reflexivity|rewrite Ls, B1; lia|rewrite B1; lia|rewrite L2, B2; lia|rewrite B2; lia].
  - eexists. vm_compute. reflexivity.
Qed.

(** ** C110 *)

Lemma sb90_fields {D} (d : md_device D) e st : has_sb90 d e st -> exists sb, md_superblock d = DsSuperblock sb /\
  sb_role_index sb = this_number e st /\
  (forall i r, nth_error (sb_roles sb) (N.to_nat i) = Some r <-> i < nr_disks e st /\ i < 27 /\ r = d90_raid_disk e st i).
Proof.
  intros (L & P & sb & Dc & S). exists sb. split; [exact S|].
  assert (sb = v0_superblock (v0_from_view e st)) as ->.
  { apply (v0_accepted_iff st sb L) in Dc as (e' & P' & ->). destruct P as (M & _), P' as (M' & _).
    assert (e' = e) as ->; [|reflexivity].
    assert (A : uint_le st 0 4 = byte_val st 0 + 256 * (byte_val st 1 + 256 * (byte_val st 2 + 256 * (byte_val st 3 + 256 * 0)))) by reflexivity.
    assert (B : uint_be st 0 4 = 256 * (256 * (256 * (256 * 0 + byte_val st 0) + byte_val st 1) + byte_val st 2) + byte_val st 3) by reflexivity.
    assert (Bd : forall o, byte_val st o < 256) by (intros o; rewrite byte_val_nth; destruct (nth_N st o) as [x|]; [apply bval_bound|lia]).
    pose proof (Bd 0). pose proof (Bd 1). pose proof (Bd 2). pose proof (Bd 3). clear Bd.
    destruct e, e'; try reflexivity; exfalso; cbn [uint] in M, M'; lia. }
  assert (U : forall o w, o + N.of_nat w <= 4096 -> uint e st o w = val e (window st o (N.of_nat w))).
  { intros o w B. destruct e; [apply uint_le_window|apply uint_be_window; lia]. }
  split.
  - unfold this_number. rewrite U by lia. cbn [v0_superblock sb_role_index v0_from_view s0_this v0_descriptor dd_index]. unfold fval, fbytes.
    change (field v0_descriptor_layout "index") with (Some (0, 4)). change (field v0_layout "this_device") with (Some (3968, 128)). cbv iota.
    rewrite window_nested by lia. reflexivity.
  - intros i r. cbn [v0_superblock sb_roles].
    assert (T : s0_total_devices (v0_from_view e st) = nr_disks e st) by (unfold nr_disks; rewrite U by lia; reflexivity).
    rewrite <- firstn_map, T.
    assert (Nth : nth_error (map dd_role (s0_devices (v0_from_view e st))) (N.to_nat i) = if i <? 27 then Some (d90_raid_disk e st i) else None).
    { unfold v0_from_view. cbn [s0_devices]. rewrite map_map. change (N.to_nat v0_max_devices) with 27%nat.
      destruct (N.ltb_spec i 27) as [I|I].
      - assert (Si : nth_error (seq 0 27) (N.to_nat i) = Some (N.to_nat i)).
        { rewrite nth_error_nth' with (d := O) by (rewrite seq_length; lia). now rewrite seq_nth by lia. }
        rewrite (map_nth_error _ _ _ Si). f_equal. unfold d90_raid_disk. rewrite U by lia. unfold v0_descriptor. cbn [dd_role]. unfold fval, fbytes.
        change (layout_size v0_descriptor_layout) with 128.
        change (field v0_descriptor_layout "role") with (Some (12, 4)). change (field v0_layout "devices") with (Some (512, 3456)). cbv iota.
        rewrite !window_nested by lia. rewrite N2Nat.id. do 2 f_equal. lia.
      - apply nth_error_None. rewrite map_length, seq_length. lia. }
    destruct (N.ltb_spec i (nr_disks e st)) as [J|J].
    + rewrite nth_error_firstn' by lia. rewrite Nth. destruct (N.ltb_spec i 27); split; try discriminate; try lia.
      * intros Q. injection Q as <-. auto.
      * intros (_ & _ & ->). reflexivity.
    + split; [|lia]. intros Q. assert (Q' : nth_error (firstn (N.to_nat (nr_disks e st)) (map dd_role (s0_devices (v0_from_view e st)))) (N.to_nat i) <> None) by congruence.
      apply nth_error_Some in Q'. rewrite firstn_length in Q'. lia.
Qed.

Lemma count_below (p : N -> bool) k : k <= 27 -> (forall i, i < 27 -> p i = true -> i < k) -> (forall i, i < k -> p i = true) ->
  len (filter p (map N.of_nat (seq 0 27))) = k.
Proof.
  intros K A B.
  assert (G : forall n m, len (filter p (map N.of_nat (seq m n))) = N.of_nat (Nat.min (m + n) (N.to_nat k)) - N.of_nat (Nat.min m (N.to_nat k)) \/ (27 < m + n)%nat).
  { induction n as [|n IH]; intros m; [left; rewrite Nat.add_0_r; cbn [seq map filter]; unfold len; cbn [length]; lia|]. cbn [seq map filter].
    destruct (IH (Datatypes.S m)) as [I|I]; [|right; lia]. destruct (Nat.le_gt_cases (m + Datatypes.S n) 27) as [X|X]; [|right; lia]. left.
    destruct (p (N.of_nat m)) eqn:E.
    - apply A in E; [|lia]. rewrite len_cons, I. lia.
    - assert (~ N.of_nat m < k) by (intros Q; apply B in Q; congruence). rewrite I. lia. }
  destruct (G 27%nat O) as [I|I]; [|lia]. rewrite I. lia.
Qed.

Lemma md_counts e st : as_md_writes e st -> complete_90 e st ->
  nr_disks e st <= 27 /\ this_number e st < nr_disks e st /\ (forall i, i < nr_disks e st -> d90_raid_disk e st i = i) /\
  raid_disks e st <= nr_disks e st.
Proof.
  intros (o & B & T & P & S & _ & _ & Nr) C.
  rewrite (count_below (in_sync e st) (raid_disks e st)) in Nr by (auto; lia).
  rewrite Nr. repeat split; try lia. exact P.
Qed.

(** C110 for arrays no place of which is vacant: a member is put at its number.  That is the place that md gives it, if it is
    in sync; and one that does not exist, and so is never read, if it is faulty, a spare or being rebuilt. *)
Theorem v0_placed_partial : forall {D} order (ds : list (md_device D)) pre d post e st,
  (forall l, Permutation (order l) l) -> ds = pre ++ d :: post -> has_sb90 d e st ->
  (forall d', In d' ds -> exists e' st', has_sb90 d' e' st' /\ as_md_writes e' st' /\ complete_90 e' st') ->
  (forall d' e' st', In d' (pre ++ post) -> has_sb90 d' e' st' -> this_number e' st' <> this_number e st) ->
  as_md_writes e st -> complete_90 e st ->
  In (this_number e st, d) (ad_devices (array_open order ds)) /\
  (forall k, md_place e st = Some k <-> k = this_number e st /\ k < raid_disks e st).
Proof.
  intros D order ds pre d post e st O E Hd Hs Al W C.
  destruct (sb90_fields d e st Hd) as (sb & S & Ix & Ro). destruct (md_counts e st W C) as (N27 & Tn & Pos & Rn).
  assert (Cl : forall i r, claimed ds i r -> r = i /\ i < 27).
  { intros i r (d' & sb' & I' & S' & N'). destruct (Hs d' I') as (e' & st' & H' & W' & C').
    destruct (sb90_fields d' e' st' H') as (sb'' & S'' & _ & Ro'). destruct (md_counts e' st' W' C') as (M27 & _ & Pos' & _).
    assert (sb'' = sb') as -> by congruence. destruct (proj1 (Ro' i r) N') as (Q1 & Q2 & Q3). rewrite Q3. split; [apply Pos', Q1|exact Q2]. }
  split.
  - destruct (array_members_partition order ds O) as (_ & _ & X). apply X. exists pre, post. split; [exact E|].
    assert (Id : In d ds) by (rewrite E; apply in_elt).
    destruct (array_roles ds) as [tbl|] eqn:T.
    2: { exfalso. destruct (roles_fail ds T ltac:(rewrite E; destruct pre; discriminate)) as [(d' & I' & N)|(i & r & r' & Ne & D1 & D2 & C1 & C2)].
         - destruct (Hs d' I') as (e' & st' & H' & _ & _). destruct (sb90_fields d' e' st' H') as (sb' & S' & _). now apply (N sb').
         - apply Ne. apply Cl in C1 as [-> _]. now apply Cl in C2 as [-> _]. }
    assert (K : this_number e st <= 0xfeff) by lia. split.
    + exists sb, tbl. split; [exact S|]. split; [reflexivity|]. split; [|exact K]. rewrite Ix.
      apply (roles_merged_value ds tbl _ _ T K). split; [|split].
      * exists d, sb. split; [exact Id|]. split; [exact S|]. apply Ro. repeat split; try lia. symmetry. now apply Pos.
      * intros r _ Cr. apply (Cl _ _ Cr).
      * intros v Rv Cv. destruct (Cl _ _ Cv) as [-> Lt]. unfold reserved in Rv. lia.
    + apply Forall_forall. intros d' I' (sb' & tbl' & S' & T' & N' & _). injection T' as <-.
      apply (roles_merged_value ds tbl _ _ T K) in N' as (C' & _). apply Cl in C' as [Q _].
      assert (I2 : In d' ds) by (rewrite E; apply in_app_iff; apply in_app_iff in I' as [I'|I']; [now left|right; now right]).
      destruct (Hs d' I2) as (e' & st' & H' & _ & _). destruct (sb90_fields d' e' st' H') as (sb'' & S'' & Ix' & _).
      assert (sb'' = sb') as -> by congruence. apply (Al d' e' st' I' H'). congruence.
  - intros k. unfold md_place. destruct W as (o & B & T & P & Sy & _ & _ & _).
    destruct (in_sync e st (this_number e st)) eqn:Is.
    + rewrite P by exact T. split; [|intros [-> _]; reflexivity]. intros Q. injection Q as <-. split; [reflexivity|]. apply Sy; [lia|exact Is].
    + split; [discriminate|]. intros [-> Lt]. rewrite (C _ Lt) in Is. discriminate.
Qed.
Print Assumptions v0_placed_partial.

Definition member90 (e : endian) (sync : list N) (n : N) : md_device unit :=
  MdDevice n (match v0_decode (sb90 e sync n) with Ok sb => DsSuperblock sb | _ => DsMissing end) tt.

Lemma sb90_has e sync n : len (sb90 e sync n) = 4096 -> (exists sb, v0_decode (sb90 e sync n) = Ok sb) -> v0_present e (sb90 e sync n) ->
  has_sb90 (member90 e sync n) e (sb90 e sync n).
Proof. intros L (sb & S) P. split; [exact L|]. split; [exact P|]. exists sb. split; [exact S|]. unfold member90. now rewrite S. Qed.

(** Decidable versions, for concrete superblocks. *)
Definition below (n : N) : list N := map N.of_nat (seq 0 (N.to_nat n)).
Lemma in_below n i : In i (below n) <-> i < n.
Proof.
  unfold below. rewrite in_map_iff. split.
  - intros (x & <- & I). apply in_seq in I. lia.
  - intros I. exists (N.to_nat i). split; [lia|]. apply in_seq. lia.
Qed.
Lemma all_below p n : forallb p (below n) = true -> forall i, i < n -> p i = true.
Proof. intros F i I. rewrite forallb_forall in F. apply F. now apply in_below. Qed.

Definition written_check (e : endian) (st : bytes) (o : N) : bool :=
  (raid_disks e st + o <=? 27) && (this_number e st <? raid_disks e st + o) &&
  forallb (fun i => d90_raid_disk e st i =? i) (below (raid_disks e st + o)) &&
  forallb (fun i => implb (in_sync e st i) (i <? raid_disks e st)) (below 27) &&
  forallb (fun i => in_sync e st i || (d90_state e st i =? 9)) (below (raid_disks e st)) &&
  implb (this_number e st <? raid_disks e st) (in_sync e st (this_number e st)) &&
  (nr_disks e st =? len (filter (in_sync e st) (map N.of_nat (seq 0 27))) + o).
Lemma written_check_ok e st o : written_check e st o = true -> as_md_writes e st.
Proof.
  unfold written_check. rewrite !andb_true_iff. intros ((((((A & B) & C) & D) & E) & F) & G). exists o.
  apply N.leb_le in A. apply N.ltb_lt in B. apply N.eqb_eq in G.
  split; [exact A|]. split; [exact B|]. split; [|split; [|split; [|split; [|exact G]]]].
  - intros i I. apply N.eqb_eq. exact (all_below _ _ C i I).
  - intros i I Y. pose proof (all_below _ _ D i I) as Q. cbn beta in Q. rewrite Y in Q. now apply N.ltb_lt.
  - intros i I Y. pose proof (all_below _ _ E i I) as Q. cbn beta in Q. rewrite Y in Q. now apply N.eqb_eq.
  - intros Y. apply N.ltb_lt in Y. now rewrite Y in F.
Qed.
Definition present_check (e : endian) (st : bytes) : bool :=
  (uint e st 0 4 =? 0xa92b4efc) && (uint e st 4 4 =? 0) &&
  forallb (fun i => negb ((0xfeff <=? uint e st (512 + 128 * i + 12) 4) && (uint e st (512 + 128 * i + 12) 4 <? 0xfffd))) (below 27).
Lemma present_check_ok e st : present_check e st = true -> v0_present e st.
Proof.
  unfold present_check. rewrite !andb_true_iff, !N.eqb_eq. intros ((A & B) & C). split; [exact A|]. split; [exact B|].
  intros i _ I [X Y]. pose proof (all_below _ _ C i I) as Q. cbn beta in Q. apply N.leb_le in X. apply N.ltb_lt in Y. rewrite X, Y in Q. discriminate.
Qed.

Definition good90 (e : endian) (sync : list N) (n : N) : bool :=
  (len (sb90 e sync n) =? 4096) && present_check e (sb90 e sync n) && written_check e (sb90 e sync n) 0 &&
  match v0_decode (sb90 e sync n) with Ok _ => true | _ => false end.
Lemma good90_ok e sync n : good90 e sync n = true -> has_sb90 (member90 e sync n) e (sb90 e sync n) /\ as_md_writes e (sb90 e sync n).
Proof.
  unfold good90. rewrite !andb_true_iff, N.eqb_eq. intros (((L & P) & W) & V). split; [|exact (written_check_ok _ _ _ W)].
  apply sb90_has; [exact L| |now apply present_check_ok]. destruct (v0_decode _) as [sb| |]; try discriminate. now exists sb.
Qed.

Lemma inactive_in {D} (ds : list (md_device D)) d : In d (ad_inactive (array_open (fun x => x) ds)) -> In d ds.
Proof.
  intros I. destruct (array_members_partition (fun x => x) ds ltac:(reflexivity)) as (P & _). eapply Permutation_in; [exact P|].
  apply in_app_iff. now right.
Qed.
Lemma member90_id e sync n : md_id (member90 e sync n) = n.
Proof. reflexivity. Qed.

(** False of the code for arrays with a vacant place: only as many descriptors are looked at as there are devices, so the
    last members are taken not to belong to the array.  Here member 1 of four is gone and with it, for the program, member 3. *)
Theorem v0_placed_refuted : exists (ds : list (md_device unit)) d e st,
  (forall d', In d' ds -> exists e' st', has_sb90 d' e' st' /\ as_md_writes e' st') /\
  In d ds /\ has_sb90 d e st /\ md_place e st = Some 3 /\ raid_disks e st = 4 /\
  (forall d' st', In d' ds -> has_sb90 d' e st' -> md_place e st' = Some 3 -> d' = d) /\
  In d (ad_inactive (array_open (fun x => x) ds)) /\ ~ In 3 (map fst (ad_devices (array_open (fun x => x) ds))).
Proof.
  set (s := [0; 2; 3]). exists (map (member90 Little s) s), (member90 Little s 3), Little, (sb90 Little s 3).
  assert (G : forallb (good90 Little s) s = true) by (vm_compute; reflexivity).
  rewrite forallb_forall in G.
  split; [|split; [|split; [|split; [|split; [|split; [|split]]]]]].
  - intros d' I. apply in_map_iff in I as (n & <- & I). exists Little, (sb90 Little s n). apply good90_ok, G, I.
  - apply in_map. unfold s. cbn. auto.
  - apply good90_ok, G. unfold s. cbn. auto.
  - vm_compute. reflexivity.
  - vm_compute. reflexivity.
  - intros d' st' I (L & P & sb & Dc & S) Pl. apply in_map_iff in I as (n & <- & I).
    assert (Ix : sb_role_index sb = this_number Little st').
    { destruct (sb90_fields (member90 Little s n) Little st') as (sb' & S' & Ix' & _); [split; [exact L|]; split; [exact P|]; eauto|].
      assert (sb' = sb) as -> by congruence. exact Ix'. }
    assert (Ro : nth_error (sb_roles sb) (N.to_nat (this_number Little st')) = Some 3 \/ nr_disks Little st' <= this_number Little st' \/ 27 <= this_number Little st').
    { unfold md_place in Pl. destruct (in_sync Little st' (this_number Little st')); [|discriminate]. injection Pl as Pl.
      destruct (sb90_fields (member90 Little s n) Little st') as (sb' & S' & _ & Ro'); [split; [exact L|]; split; [exact P|]; eauto|].
      assert (sb' = sb) as -> by congruence.
      destruct (N.lt_ge_cases (this_number Little st') (nr_disks Little st')); [|auto]. destruct (N.lt_ge_cases (this_number Little st') 27); [|auto].
      left. apply Ro'. auto. }
    rewrite <- Ix in Ro.
    assert (Nr : forall k, nr_disks Little st' <= k \/ 27 <= k -> nth_error (sb_roles sb) (N.to_nat k) = None).
    { intros k K. destruct (sb90_fields (member90 Little s n) Little st') as (sb' & S' & _ & Ro'); [split; [exact L|]; split; [exact P|]; eauto|].
      assert (sb' = sb) as -> by congruence. destruct (nth_error (sb_roles sb) (N.to_nat k)) as [r|] eqn:Q; [|reflexivity]. apply Ro' in Q. lia. }
    assert (F : forallb (fun n => match md_superblock (member90 Little s n) with DsSuperblock sb => sb_role_index sb =? n | _ => false end &&
        match md_superblock (member90 Little s n) with DsSuperblock sb => if list_eq_dec N.eq_dec (sb_roles sb) [0; 1; 2] then true else false | _ => false end) s = true)
      by (vm_compute; reflexivity).
    rewrite forallb_forall in F. specialize (F n I). rewrite S in F. apply andb_true_iff in F as [F1 F2]. apply N.eqb_eq in F1.
    destruct (list_eq_dec N.eq_dec (sb_roles sb) [0; 1; 2]) as [R|]; [|discriminate]. rewrite R in *. rewrite F1 in Ro.
    cbn in I. destruct I as [<-|[<-|[<-|[]]]]; [| |reflexivity]; exfalso.
    + destruct Ro as [Ro|Ro]; [discriminate Ro|]. now specialize (Nr 0 Ro).
    + destruct Ro as [Ro|Ro]; [discriminate Ro|]. now specialize (Nr 2 Ro).
  - assert (X : map md_id (ad_inactive (array_open (fun x => x) (map (member90 Little s) s))) = [3]) by (vm_compute; reflexivity).
    assert (Y : Forall (fun d => d = member90 Little s (md_id d)) (ad_inactive (array_open (fun x => x) (map (member90 Little s) s)))).
    { apply Forall_forall. intros d I. apply inactive_in in I. apply in_map_iff in I as (n & <- & _). now rewrite member90_id. }
    destruct (ad_inactive _) as [|d0 [|]]; try discriminate X. injection X as X. apply Forall_inv in Y. rewrite X in Y. left. exact Y.
  - assert (X : map fst (ad_devices (array_open (fun x => x) (map (member90 Little s) s))) = [0; 2]) by (vm_compute; reflexivity).
    rewrite X. cbn. intuition discriminate.
Qed.
Print Assumptions v0_placed_refuted.

(** A complete array: four members with superblocks in both byte orders. *)
Example v0_placed_ex : let s := [0; 1; 2; 3] in let ds := [member90 Little s 2; member90 Big s 0; member90 Little s 1; member90 Big s 3] in
  (forall d', In d' ds -> exists e' st', has_sb90 d' e' st' /\ as_md_writes e' st' /\ complete_90 e' st') /\
  map fst (ad_devices (array_open (fun x => x) ds)) = [2; 0; 1; 3] /\ ad_inactive (array_open (fun x => x) ds) = [].
Proof.
  cbv zeta. split; [|split; vm_compute; reflexivity].
  assert (G : forall e n, In n [0; 1; 2; 3] -> exists e' st', has_sb90 (member90 e [0; 1; 2; 3] n) e' st' /\ as_md_writes e' st' /\ complete_90 e' st').
  { intros e n I. exists e, (sb90 e [0; 1; 2; 3] n).
    assert (F : forallb (fun n => good90 e [0; 1; 2; 3] n && (raid_disks e (sb90 e [0; 1; 2; 3] n) =? 4) &&
        forallb (in_sync e (sb90 e [0; 1; 2; 3] n)) (below 4)) [0; 1; 2; 3] = true) by (destruct e; vm_compute; reflexivity).
    rewrite forallb_forall in F. specialize (F n I). apply andb_true_iff in F as [F F3]. apply andb_true_iff in F as [F1 F2]. apply N.eqb_eq in F2.
    destruct (good90_ok e _ n F1) as [A B]. split; [exact A|]. split; [exact B|]. intros i J. rewrite F2 in J. exact (all_below _ _ F3 i J). }
  intros d' I. cbn [In] in I. destruct I as [<-|[<-|[<-|[<-|[]]]]]; apply G; cbn; auto.
Qed.
