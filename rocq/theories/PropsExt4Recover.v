(** Property C71: a file recovered from the members of a RAID-6 array. *)

From Coq Require Import Strings.String Permutation.
From Verif Require Import Base BaseFacts Raid SpecRaid RaidFacts SpecParity ParityFacts PropsRaid Io SpecStream IoFacts Superblock Device Array ArrayIo
  SpecMd SpecArray ArrayFacts PropsArray PropsArrayRead PropsArrayIo SpecExt4 SpecExt4Inode Ext4Superblock Ext4Inode Ext4Fs SpecExt4Fs Ext4FsFacts PropsExt4Fs
  Ext4Extent Ext4File SpecExt4File PropsExt4File Ext4String Ext4Dir SpecExt4Dir PropsExt4Dir PropsExt4Listing PropsExt4Flat PropsExt4Array SpecExt4Open PropsExt4Open.

(** The slots hold the flat [image]: what [stored] says, from sector [off i] of slot [i] on.  A slot may have positions at
    which reads fail. *)
Definition contents_image (C : contents) (off : N -> N) (f : md_format) (l : layout6) (image : bytes) : Prop :=
  let n := mf_device_count f in
  len image = mf_sectors_per_device f * (n - 2) * 512 /\
  exists q, forall i, i < n -> exists ct bad, C i = Some (ct, bad) /\
    forall t, t < mf_sectors_per_device f -> sector_at ct (off i + t) (stored l n (mf_chunk_size f) image q i t).

(** The geometry of the array is one that md-recover reads. *)
Definition geometry_ok (f : md_format) (l : layout6) : Prop :=
  exists code ra, mf_algorithm f = AlgRaid6 ra /\ layout6_code l = Some code /\ raid6_from_layout code = Some ra /\
    u32_ok (mf_device_count f) /\ 3 <= mf_device_count f /\ mf_chunk_size f <> 0 /\ N.divide (mf_chunk_size f) (mf_sectors_per_device f).

Lemma array_io_block_ok {D} (ops : blockdev D) join C f l image :
  joins join -> geometry_ok f l -> u64_ok (len image) -> contents_image C (fun _ => 0) f l image ->
  block_ok (array_block_io ops join) 512 (mf_sectors_per_device f * (mf_device_count f - 2)) (image_sector image) (row_bad C f)
    (fun a => slots_hold ops a C /\ in_use a f).
Proof.
  intros J (code & ra & Al & Hl & Ha & Uf & Hn & Hc & [z Dv]) U (Li & q & Hs).
  set (n := mf_device_count f) in *. set (c := mf_chunk_size f) in *. set (spd := mf_sectors_per_device f) in *.
  unfold u64_ok in U. constructor; unfold u64_ok; try lia; auto.
  - intros s Ls. apply len_window_in. lia.
  - intros a [_ Iu]. cbn [bd_count array_block_io]. unfold array_block_count. rewrite (proj1 (in_use_current a f) Iu). cbn [rbind].
    unfold data_sector_count, data_device_count. rewrite Al. cbn [parity_device_count obind]. unfold csub32. fold n.
    destruct (N.leb_spec 2 n); [|lia]. cbn [obind]. fold spd. rewrite cmul64_some by lia. reflexivity.
  - intros a s buf a' buf' r [H Iu] Ls Lb E. cbn [bd_read array_block_io] in E.
    set (t := member_sector s c (n - 2)).
    assert (Lt : t < spd). { rewrite Dv, (N.mul_comm z c) in *. apply sector_below; lia. }
    destruct (member_sector_split s c (n - 2) Hc) as [Tk To]. fold t in Tk, To.
    set (blks := map (stored_slot n c image q t) (row6 l n (t / c))).
    assert (St : forall i b, nth_N blks i = Some b -> i < n /\ b = stored l n c image q i t).
    { intros i b Hb. unfold blks in Hb. rewrite nth_N_spec, nth_error_map in Hb. unfold stored. rewrite nth_N_spec.
      destruct (nth_error (row6 l n (t / c)) (N.to_nat i)) as [sl|] eqn:E1; [|discriminate]. cbn in Hb. split; [|congruence].
      assert (nth_error (row6 l n (t / c)) (N.to_nat i) <> None) as X by congruence. apply nth_error_Some in X.
      pose proof (len_row6 l n (t / c) ltac:(lia)) as Y. unfold len in Y. lia. }
    assert (Row : row_in C l f s blks).
    { unfold row_in. fold n c t. rewrite <- Tk. split; [|split].
      - unfold blks. pose proof (len_row6 l n (t / c) ltac:(lia)) as Y. unfold len in *. now rewrite map_length.
      - intros i b Hb. destruct (St i b Hb) as [Hi ->]. destruct (Hs i Hi) as (ct & bad & Ci & Sec). exists ct, bad. split; [exact Ci|].
        exact (Sec t Lt).
      - apply stored_consistent. lia. }
    assert (Dat : data_of l f s blks = Some (image_sector image s)).
    { unfold data_of. fold n c. rewrite <- Tk. unfold blks. rewrite slot_block_map.
      - cbn [stored_slot]. rewrite To, Tk. do 2 apply f_equal. symmetry. apply sector_recompose; lia.
      - apply (Permutation_in _ (Permutation_sym (row6_perm l n (t / c) ltac:(lia)))). right. right. apply in_datas.
        eexists. split; [reflexivity|]. apply N.mod_lt. lia. }
    assert (Un : forall g, in_use a g -> g = f). { intros g Ig. apply in_use_current in Ig, Iu. congruence. }
    destruct (array_io_sound ops join J C a s buf a' buf' r H) as (H' & [F1 F2] & O); auto.
    { unfold u64_ok. lia. }
    { intros g Ig. rewrite (Un g Ig). exact Uf. }
    split; [split; [exact H'|unfold in_use in *; now rewrite F1, F2]|].
    destruct r as [k|e|]; [| |destruct O].
    + destruct O as (-> & g & l' & code' & ra' & blks' & Ig & Al' & Hl' & Ha' & Hc' & Hn' & R' & D'). rewrite (Un g Ig) in *.
      assert (buf' = image_sector image s) as ->.
      { apply (array_sector_unique C f s); [exists l', code', ra', blks'; auto 8|exists l, code, ra, blks; auto 8]. }
      split; [|auto]. rewrite Lb. apply len_window_in. lia.
    + destruct O as [-> O]. split; [reflexivity|]. exact (O f l code ra blks Iu Al Hl Ha Hc Hn Row).
  - intros a H. exists a. auto.
Qed.

(** Byte position [p] of the array may fail. *)
Definition array_bad (C : contents) (f : md_format) (p : N) : Prop := row_bad C f (p / 512).

Section Recover.
  Context {D : Type} (ops : blockdev D) (join : D -> D -> D) (J : joins join) (C : contents) (f : md_format) (l : layout6) (image : bytes).
  Hypothesis G : geometry_ok f l.
  Hypothesis U : u64_ok (len image).
  Hypothesis I : contents_image C (fun _ => 0) f l image.

  Let st := reader_stream (array_block_io ops join).
  Let clone := reader_clone (array_block_io ops join).
  Let holds := fun a : definition D => slots_hold ops a C /\ in_use a f.

  Lemma recover_stream_ok : stream_ok st image (array_bad C f) (reader_at 512 holds).
  Proof.
    pose proof (array_io_block_ok ops join C f l image J G U I) as OK. pose proof (reader_stream_ok _ _ _ _ _ _ OK) as S.
    rewrite flat_image in S by apply (proj1 I). exact S.
  Qed.
  Lemma recover_start a : holds a -> legal (reader_at 512 holds) (reader_new a).
  Proof. intros H. exists 0. apply (reader_new_at _ _ _ _ _ _ (array_io_block_ok ops join C f l image J G U I) a H). Qed.
  Lemma recover_clone s s' r : legal (reader_at 512 holds) s -> clone s = (s', r) ->
    legal (reader_at 512 holds) s' /\ r <> Panic /\ (forall t, r = Ok t -> legal (reader_at 512 holds) t).
  Proof.
    intros A E. unfold clone, reader_clone in E.
    destruct (bo_clone _ _ _ _ _ _ (reader_block_ok _ _ _ _ _ _ (array_io_block_ok ops join C f l image J G U I)) s A) as (t & E1 & T).
    rewrite E1 in E. injection E as <- <-. split; [exact A|]. split; [discriminate|]. intros u [= <-]. exact T.
  Qed.
  Lemma recover_clone_there s : legal (reader_at 512 holds) s -> exists s' t, clone s = (s', Ok t).
  Proof.
    intros A. unfold clone, reader_clone.
    destruct (bo_clone _ _ _ _ _ _ (reader_block_ok _ _ _ _ _ _ (array_io_block_ok ops join C f l image J G U I)) s A) as (t & -> & _). eauto.
  Qed.

  (** From the members to the content of the file: the array on whose members md has stored the [image] of a file system
      delivers the file with the given inode number, byte for byte, whatever the members' devices do between two reads, and
      even if parts of the members that are not needed cannot be read.  (Partial: the data areas start at offset 0, see
      [data_offset_refuted], and the file is mapped as in C68.) *)
  Theorem recover_file_partial a k number ext bufs : holds a ->
    device_supported image k -> device_inode image k number -> metadata_good image (array_bad C f) k number ->
    let slot := device_slot image number in
    let bs := sb4_block_size (device_sb image) in
    slot_kind slot = 8 -> slot_by_extents slot = true ->
    maps image bs 32767 (block_good image (array_bad C f) bs) (slot_root slot) 0 ext ->
    Forall (block_good image (array_bad C f) bs) ext -> len ext <= u32_max -> slot_size slot <= len ext * bs < slot_size slot + bs ->
    (length ext <= length bufs)%nat -> Forall (fun buf => len buf = bs) bufs ->
    exists s1 F s2 own g fuel s' g' calls,
      fs_open st (reader_new a) = (s1, Ok F) /\ open_file st clone F number s1 = (s2, Ok (own, AnyRegular g)) /\
      run_file st fuel own g bufs = Some (s', g', calls) /\
      delivered calls = file_content image bs (slot_size slot) ext /\ len (delivered calls) = slot_size slot /\
      Forall (fun '(_, _, r) => exists n, r = Ok n) calls.
  Proof.
    intros H. apply (read_file_partial st image (array_bad C f) (reader_at 512 holds) recover_stream_ok clone recover_clone
      (reader_new a) k number ext bufs (recover_start a H) recover_clone_there).
  Qed.

  (** The same for the listing of a directory. *)
  Theorem recover_directory_partial a k number seed ext ess n : holds a ->
    device_supported image k -> device_inode image k number -> metadata_good image (array_bad C f) k number ->
    let slot := device_slot image number in
    let bs := sb4_block_size (device_sb image) in
    slot_kind slot = 4 -> slot_by_extents slot = true -> slot_indexed slot = false -> inode_seed (device_sb image) number slot seed ->
    maps image bs 32767 (block_good image (array_bad C f) bs) (slot_root slot) 0 ext ->
    Forall (block_good image (array_bad C f) bs) ext -> len ext <= u32_max -> slot_size slot = len ext * bs ->
    Forall2 (fun q es => dir_tail_ok seed (device_block image bs q) /\
               records (device_block image bs q) (dir_limit seed (device_block image bs q)) 0 es) ext ess ->
    exists s1 F s2 own d fuel s' d',
      fs_open st (reader_new a) = (s1, Ok F) /\ open_file st clone F number s1 = (s2, Ok (own, AnyDirectory d)) /\
      run_dir st fuel n own d = Some (s', d', firstn n (map (fun e => Ok (Some e)) (concat ess) ++ repeat (Ok None) n)).
  Proof.
    intros H. apply (list_directory_partial st image (array_bad C f) (reader_at 512 holds) recover_stream_ok clone recover_clone
      (reader_new a) k number seed ext ess n (recover_start a H) recover_clone_there).
  Qed.

  (** Every session through the array, with its members changing state, gives what it gives on the flat image in memory, if
      nothing fails. *)
  Theorem recover_session_partial a bs qs : holds a -> (forall s, ~ row_bad C f s) ->
    session st clone (reader_new a) qs = session mem_stream mem_clone (mem_new image bs) qs.
  Proof.
    intros H NB. pose proof (array_io_block_ok ops join C f l image J G U I) as OK.
    set (count := mf_sectors_per_device f * (mf_device_count f - 2)) in *.
    assert (FI : flat count (image_sector image) = image) by (apply flat_image; apply (proj1 I)).
    assert (K1 : forall s p o s' r, reader_at 512 holds s p -> len image < o -> u64_ok o ->
      st_seek st s (SeekStart o) = (s', r) -> (let? _ := r in Ok tt) = Ok tt).
    { intros s p o s' r A L. rewrite <- FI in L. exact (reader_seeks _ _ _ _ _ _ OK s p o s' r A L). }
    eapply (session_alike _ _ (both (reader_at 512 holds) (mem_at image bs)) (level image (reader_at 512 holds) (mem_at image bs))).
    - apply (contents_alike _ _ image (array_bad C f) (fun _ => False) _ _ (fun _ => Ok tt) recover_stream_ok (mem_stream_ok image bs U)).
      + intros p X. exact (NB _ X).
      + intros p [].
      + exact K1.
      + intros s p o s' r. apply mem_seeks.
    - eapply reader_clones; [exact OK|]. intros s p A. exists s, s, p, p. auto.
    - split; [apply recover_start, H|]. exists 0. repeat split. lia.
  Qed.
End Recover.
Print Assumptions recover_file_partial.
Print Assumptions recover_directory_partial.
Print Assumptions recover_session_partial.

(** ** Example

    The file system of [open_image] on four files with chunks of two sectors.  The operating system transfers at most 100
    bytes at a time, and cannot read bytes 3072 to 4095 of any of the files: with four members, all of them needed for every
    sector, blocks 6 and 7 of the file system are lost.  File 5 does not need them. *)
Definition torn_policy : io_policy := fun _ pos _ => if (3072 <=? pos) && (pos <? 4096) then IoFail 5 else IoXfer 100.
Definition torn_part (i : N) : bytes := flat 16 (stored (Md5 LeftSymmetric) 4 2 open_image (fun _ => zeros 512) i).
Definition torn_member (i : N) : md_device filedev :=
  MdDevice i (DsSuperblock (ex_part_sb i)) (FileDev (OsFile (torn_part i) 0 0 false (Ok 512) (Ok 8192)) 512).
Definition torn_array : definition filedev := array_open (fun x => x) (map torn_member [2; 0; 3; 1]).
Definition torn_contents (pol : io_policy) : contents := fun i => if i <? 4 then Some (torn_part i, fun p => pol_bad_block pol 512 (p / 512)) else None.
Definition torn_format : md_format := MdFormat (AlgRaid6 R6LeftSymmetric) 4 16 2.

Lemma torn_stored_len i u : i < 4 -> u < 16 -> len (stored (Md5 LeftSymmetric) 4 2 open_image (fun _ => zeros 512) i u) = 512.
Proof.
  intros Hi Hu. apply stored_len; try lia; rewrite ?open_image_len; [exact Hu|intros; apply len_zeros|now exists 8].
Qed.
Lemma torn_part_len i : i < 4 -> len (torn_part i) = 8192.
Proof. intros Hi. unfold torn_part. rewrite (len_flat 16 _ 512); [reflexivity|]. intros t Ht. now apply torn_stored_len. Qed.

Lemma torn_geometry : geometry_ok torn_format (Md5 LeftSymmetric).
Proof. exists 2, R6LeftSymmetric. repeat split; try (vm_compute; congruence). now exists 8. Qed.

Lemma torn_image pol : contents_image (torn_contents pol) (fun _ => 0) torn_format (Md5 LeftSymmetric) open_image.
Proof.
  split; [rewrite open_image_len; reflexivity|]. exists (fun _ => zeros 512). intros i Hi. change (mf_device_count torn_format) with 4 in *.
  unfold torn_contents. destruct (N.ltb_spec i 4); [|lia]. eexists. eexists. split; [reflexivity|]. intros t Ht.
  change (mf_sectors_per_device torn_format) with 16 in *. change (mf_chunk_size torn_format) with 2. rewrite N.add_0_l.
  split; [rewrite torn_part_len by assumption; lia|]. unfold torn_part.
  pose proof (flat_window 16 (stored (Md5 LeftSymmetric) 4 2 open_image (fun _ => zeros 512) i) 512 t 0 512 (fun u => torn_stored_len i u Hi) Ht ltac:(lia)) as W.
  rewrite N.add_0_r in W. rewrite W, <- (torn_stored_len i t Hi Ht) at 1. now rewrite window_full.
Qed.

Lemma torn_holds pol : slots_hold (filedev_block pol) torn_array (torn_contents pol).
Proof.
  assert (Dv : ad_devices torn_array = map (fun i => (i, torn_member i)) [2; 0; 3; 1]) by reflexivity.
  assert (In4 : forall i, i < 4 <-> In i [2; 0; 3; 1]). { intros i. cbn [In]. lia. }
  unfold slots_hold. rewrite Dv. split; [|split].
  - rewrite map_map. cbn [fst]. repeat constructor; cbn [In]; intuition discriminate.
  - intros i m X. apply in_map_iff in X as (j & E & Hj). apply In4 in Hj. injection E as <- <-. unfold torn_contents. destruct (N.ltb_spec j 4); [|lia].
    eexists. eexists. split; [reflexivity|]. pose proof (torn_part_len j Hj) as Sm.
    exists 512, (len (torn_part j) / 512), (block_of (torn_part j) 512), (pol_bad_block pol 512).
    eexists. split; [eapply (filedev_block_ok pol (torn_part j) false (Ok 512) (Ok 8192) 512); [rewrite Sm; discriminate|discriminate]|].
    split; [split; [reflexivity|]; exists 0; repeat split; discriminate|]. split; [|intros p; reflexivity].
    rewrite flat_block_of by lia. rewrite Sm. change (8192 / 512 * 512) with 8192. rewrite <- Sm. symmetry. apply window_full.
  - intros i ct bad E. unfold torn_contents in E. destruct (N.ltb_spec i 4) as [Hi|]; [|discriminate]. apply In4 in Hi.
    eexists. apply in_map_iff. exists i. split; [reflexivity|exact Hi].
Qed.

(** What is lost. *)
Lemma torn_bad p : array_bad (torn_contents torn_policy) torn_format p -> 6144 <= p < 8192.
Proof.
  intros (i & ct & bad & q & Hi & Ci & Q & B). unfold torn_contents in Ci. destruct (i <? 4); [|discriminate]. injection Ci as _ <-.
  change (mf_chunk_size torn_format) with 2 in Q. change (mf_device_count torn_format - 2) with 2 in Q. unfold member_sector, stripe_of in Q.
  destruct B as (q' & Q' & t & n & e & F). unfold torn_policy in F.
  destruct (N.leb_spec 3072 q') as [L1|L1]; [|discriminate]. destruct (N.ltb_spec q' 4096) as [L2|L2]; [|discriminate]. clear F.
  pose proof (N.div_mod p 512 ltac:(lia)) as E1. pose proof (N.mod_lt p 512 ltac:(lia)) as E2.
  pose proof (N.div_mod q 512 ltac:(lia)) as E3. pose proof (N.mod_lt q 512 ltac:(lia)) as E4.
  set (s := p / 512) in *. pose proof (N.div_mod s 2 ltac:(lia)) as E5. pose proof (N.mod_lt s 2 ltac:(lia)) as E6.
  pose proof (N.div_mod (s / 2) 2 ltac:(lia)) as E7. pose proof (N.mod_lt (s / 2) 2 ltac:(lia)) as E8. lia.
Qed.
Lemma torn_on_image q : q < 16 -> q <> 6 -> q <> 7 -> block_good open_image (array_bad (torn_contents torn_policy) torn_format) 1024 q.
Proof. intros Q N6 N7. split; [rewrite open_image_len; lia|]. intros p P B. apply torn_bad in B. lia. Qed.

Example recover_file_ex : exists s1 F s2 own g fuel s' g' calls,
  let st := reader_stream (array_block_io (filedev_block torn_policy) shared) in
  fs_open st (reader_new torn_array) = (s1, Ok F) /\
  open_file st (reader_clone (array_block_io (filedev_block torn_policy) shared)) F 5 s1 = (s2, Ok (own, AnyRegular g)) /\
  run_file st fuel own g (repeat (zeros 1024) 5) = Some (s', g', calls) /\
  delivered calls = repeat x12 1024 ++ repeat x14 1024 ++ repeat x08 1024 ++ repeat x09 428.
Proof.
  pose proof open_image_sb as SB. pose proof open_image_supported as SU. pose proof (open_image_inode 5 ltac:(cbn; auto)) as DI.
  assert (IU : in_use torn_array torn_format) by (right; split; reflexivity).
  assert (Jn : joins (@shared filedev)) by (intros d d'; now right).
  pose proof (recover_file_partial (filedev_block torn_policy) shared Jn (torn_contents torn_policy) torn_format (Md5 LeftSymmetric) open_image torn_geometry
    open_image_u64 (torn_image _) torn_array 1 5 [12; 14; 8; 9] (repeat (zeros 1024) 5) (conj (torn_holds _) IU) SU DI) as R.
  cbv zeta in R. assert (BS : sb4_block_size (device_sb open_image) = 1024) by (vm_compute; reflexivity). rewrite BS in R.
  assert (SZ : slot_size (device_slot open_image 5) = 3500) by (vm_compute; reflexivity). rewrite SZ in R.
  assert (RT : slot_root (device_slot open_image 5) = in_blocks_buffer ex_file) by (vm_compute; reflexivity). rewrite RT in R.
  destruct R as (s1 & F & s2 & own & f & fuel & s' & f' & calls & R1 & R2 & R3 & R4 & _).
  - intros q Q B. apply torn_bad in B.
    assert (D0 : sb4_desc_offset (device_sb open_image) 1 <= 6144) by (vm_compute; discriminate).
    assert (S0 : device_slot_offset open_image 5 + sb4_inode_size (device_sb open_image) <= 6144) by (vm_compute; discriminate).
    lia.
  - vm_compute. reflexivity.
  - vm_compute. reflexivity.
  - apply maps_branch; [vm_compute; congruence|vm_compute; congruence|].
    replace (entries_of (in_blocks_buffer ex_file)) with [ex_index 0 10; ex_index 2 11] by (vm_compute; reflexivity).
    apply (children_cons _ _ _ _ _ _ 0 [12; 14] [8; 9]); [reflexivity|apply torn_on_image; vm_compute; congruence| |].
    + apply maps_leaf; [vm_compute; congruence|vm_compute; congruence|].
      replace (entries_of _) with [ex_extent 0 1 12; ex_extent 1 1 14] by (vm_compute; reflexivity).
      cbn [extents_map]. split; [reflexivity|]. split; [vm_compute; congruence|]. split; [vm_compute; congruence|].
      exists [14]. split; [reflexivity|]. split; [reflexivity|]. split; [vm_compute; congruence|]. split; [vm_compute; congruence|].
      exists []. split; reflexivity.
    + apply (children_cons _ _ _ _ _ _ (0 + len [12; 14]) [8; 9] []); [reflexivity|apply torn_on_image; vm_compute; congruence| |constructor].
      apply maps_leaf; [vm_compute; congruence|vm_compute; congruence|].
      replace (entries_of _) with [ex_extent 2 2 8] by (vm_compute; reflexivity).
      cbn [extents_map]. split; [reflexivity|]. split; [vm_compute; congruence|]. split; [vm_compute; congruence|].
      exists []. split; reflexivity.
  - repeat constructor; apply torn_on_image; vm_compute; congruence.
  - discriminate.
  - split; [discriminate|reflexivity].
  - cbn. lia.
  - apply Forall_forall. intros b Hb. apply repeat_spec in Hb as ->. apply len_zeros.
  - exists s1, F, s2, own, f, fuel, s', f', calls. do 3 (split; [assumption|]). rewrite R4. vm_compute. reflexivity.
Qed.

Example recover_directory_ex : exists s1 F s2 own d fuel s' d',
  let st := reader_stream (array_block_io (filedev_block torn_policy) shared) in
  fs_open st (reader_new torn_array) = (s1, Ok F) /\
  open_file st (reader_clone (array_block_io (filedev_block torn_policy) shared)) F 6 s1 = (s2, Ok (own, AnyDirectory d)) /\
  run_dir st fuel 5 own d = Some (s', d', map (fun e => Ok (Some e)) (map encode_record plain_block) ++ [Ok None; Ok None]).
Proof.
  pose proof open_image_supported as SU. pose proof (open_image_inode 6 ltac:(cbn; auto)) as DI.
  assert (IU : in_use torn_array torn_format) by (right; split; reflexivity).
  assert (Jn : joins (@shared filedev)) by (intros d d'; now right).
  pose proof (recover_directory_partial (filedev_block torn_policy) shared Jn (torn_contents torn_policy) torn_format (Md5 LeftSymmetric) open_image torn_geometry
    open_image_u64 (torn_image _) torn_array 1 6 None [15] [map encode_record plain_block] 5 (conj (torn_holds _) IU) SU DI) as R.
  cbv zeta in R. assert (BS : sb4_block_size (device_sb open_image) = 1024) by (vm_compute; reflexivity). rewrite BS in R.
  assert (B : device_block open_image 1024 15 = ex_plain_block plain_block) by (vm_compute; reflexivity).
  destruct R as (s1 & F & s2 & own & d & fuel & s' & d' & R1 & R2 & R3).
  - intros q Q X. apply torn_bad in X.
    assert (D0 : sb4_desc_offset (device_sb open_image) 1 <= 6144) by (vm_compute; discriminate).
    assert (S0 : device_slot_offset open_image 6 + sb4_inode_size (device_sb open_image) <= 6144) by (vm_compute; discriminate).
    lia.
  - vm_compute. reflexivity.
  - vm_compute. reflexivity.
  - vm_compute. reflexivity.
  - unfold inode_seed. replace (has_bit _ 10) with false by (vm_compute; reflexivity). reflexivity.
  - apply maps_leaf; [vm_compute; congruence|vm_compute; congruence|].
    replace (entries_of _) with [ex_extent 0 1 15] by (vm_compute; reflexivity).
    cbn [extents_map]. split; [reflexivity|]. split; [vm_compute; congruence|]. split; [vm_compute; congruence|].
    exists []. split; reflexivity.
  - repeat constructor; apply torn_on_image; vm_compute; congruence.
  - discriminate.
  - vm_compute. reflexivity.
  - constructor; [|constructor]. rewrite B. split; [exact Logic.I|].
    pose proof (encoded_records plain_block [] [] plain_block_ok) as ER. cbn [app] in ER. rewrite app_nil_r in ER.
    replace (ex_plain_block plain_block) with (concat (map encode_record plain_block)) by (vm_compute; reflexivity).
    exact ER.
  - exists s1, F, s2, own, d, fuel, s', d'. do 2 (split; [assumption|]). rewrite R3. reflexivity.
Qed.

(** Short reads only: nothing is lost, and every session is as in memory. *)
Definition short_policy : io_policy := fun clock pos n => IoXfer (clock mod 7).
Example recover_session_short_ex : (forall s, ~ row_bad (torn_contents short_policy) torn_format s) /\
  session (reader_stream (array_block_io (filedev_block short_policy) shared)) (reader_clone (array_block_io (filedev_block short_policy) shared))
    (reader_new torn_array) [RqBlock 9 (zeros 1024)] = Ok [OcBlock (Ok tt) (repeat x09 1024)].
Proof.
  assert (NB : forall s, ~ row_bad (torn_contents short_policy) torn_format s).
  { intros s (i & ct & bad & q & _ & Ci & _ & B). unfold torn_contents in Ci. destruct (i <? 4); [|discriminate]. injection Ci as _ <-.
    destruct B as (q' & _ & t & n & e & F). discriminate. }
  split; [exact NB|]. assert (IU : in_use torn_array torn_format) by (right; split; reflexivity).
  assert (Jn : joins (@shared filedev)) by (intros d d'; now right).
  pose proof (recover_session_partial (filedev_block short_policy) shared Jn (torn_contents short_policy) torn_format
    (Md5 LeftSymmetric) open_image torn_geometry open_image_u64 (torn_image _) torn_array 512 [RqBlock 9 (zeros 1024)] (conj (torn_holds _) IU) NB) as R.
  cbv zeta in R. refine (eq_trans R _). clear. vm_compute. reflexivity.
Qed.

(** The lost blocks fail, and their neighbours do not. *)
Example recover_session_ex :
  session (reader_stream (array_block_io (filedev_block torn_policy) shared)) (reader_clone (array_block_io (filedev_block torn_policy) shared))
    (reader_new torn_array) [RqBlock 6 (zeros 1024); RqBlock 9 (zeros 1024)] =
  Ok [OcBlock (Err (OsError 5)) (zeros 1024); OcBlock (Ok tt) (repeat x09 1024)].
Proof. vm_compute. reflexivity. Qed.
