(** Property C114: from the paths given to the program to the files on an array of which a member is missing or holds wrong data. *)

From Coq Require Import Strings.String Permutation.
From Verif Require Import Base BaseFacts Raid SpecRaid RaidFacts SpecParity ParityFacts PropsRaid Io SpecStream IoFacts Superblock SpecMd SuperblockFacts PropsSuperblock
  Device SpecDevice PropsDevice Array ArrayIo SpecArray ArrayFacts PropsArray PropsArrayRead PropsArrayIo SpecExt4 SpecExt4Inode Ext4Superblock Ext4Inode Ext4Fs
  SpecExt4Fs Ext4FsFacts PropsExt4Fs Ext4Extent Ext4File SpecExt4File PropsExt4File Ext4String Ext4Dir SpecExt4Dir PropsExt4Dir PropsExt4Listing PropsExt4Flat
  PropsExt4Array SpecExt4Open PropsExt4Open PropsExt4Recover SpecExt4Linux PropsExt4Linux SpecExt4Walk PropsExt4Walk SpecExt4Content PropsExt4Content
  SpecExt4LinuxDir PropsExt4LinuxDir PropsExt4Features SpecExt4Frame PropsExt4Frame SpecDamage PropsExt4Damage Main PropsMain SpecMembers PropsMembers PropsPaths.

Section Wrong.
  Context (pol : bytes -> io_policy) (open : opener) (paths : list bytes) (ws : list member_written) (x : md_array) (image : bytes) (q : N -> bytes).
  Context (order : list (option N * list (md_device (bytes * osfile))) -> list (option N * list (md_device (bytes * osfile)))).
  Hypothesis Ord : forall l, Permutation (order l) l.
  Hypothesis X : array_ok x.
  Hypothesis U : u64_ok (len image).
  Hypothesis Po : positions_some x (map w_position ws).
  Hypothesis La : Forall (labelled x) ws.
  Hypothesis Ph : Forall2 (path_holds pol open) paths ws.

  Notation C := (written_contents ws).
  Notation f := (array_format_of x).
  Notation l := (x_layout x).
  Let assembled (devices : list (device_id * md_device osfile)) (d : definition (bytes * osfile)) : Prop :=
    open_paths pol open 0 paths = Ok (devices, []) /\ d = array_open order (map at_path devices).

  (** However the paths are ordered, all are opened, and the members are put where they belong, all of them; the places of
      those that are not given stay empty. *)
  Theorem wrong_paths_assembled : exists devices d, assembled devices d /\ map (fun d => id_reference (fst d)) devices = map Some paths /\
    in_use d f /\ geometry_ok f l /\ slots_hold (path_block pol) d C /\ ad_inactive d = [].
  Proof.
    assert (Lp : len paths <= x_devices x).
    { assert (len paths = len ws) as -> by (unfold len; now rewrite (both_long Ph)). rewrite <- (len_map w_position).
      destruct Po as (_ & Nd & Co). pose proof (NoDup_incl_length Nd (l' := map N.of_nat (seq 0 (N.to_nat (x_devices x))))) as H.
      rewrite (map_length N.of_nat), seq_length in H. enough (incl (map w_position ws) (map N.of_nat (seq 0 (N.to_nat (x_devices x))))) by (specialize (H H0); unfold len; lia).
      intros i I. apply Co in I. apply in_map_iff. exists (N.to_nat i). split; [lia|]. apply in_seq. lia. }
    assert (Hn : x_devices x <= 0xff00) by apply X.
    destruct (paths_opened pol open paths ws Ph 0) as (devices & E & R & O).
    { assert (0xff00 <= u64_max) by (vm_compute; discriminate). lia. }
    exists devices, (array_open order (map at_path devices)). split; [split; [exact E|reflexivity]|]. split; [exact R|].
    exact (members_placed (path_block pol) order (map at_path devices) ws x Ord X Po La O).
  Qed.

  Lemma wrong_holds_all devices d : assembled devices d -> slots_hold (path_block pol) d C /\ in_use d f.
  Proof.
    intros [E ->]. destruct wrong_paths_assembled as (devices' & d' & [E' ->] & _ & H1 & _ & H2 & _). rewrite E in E'. injection E' as <-. auto.
  Qed.
  Lemma wrong_geometry : geometry_ok f l.
  Proof. now destruct wrong_paths_assembled as (_ & _ & _ & _ & _ & G & _). Qed.

  Context (join : bytes * osfile -> bytes * osfile -> bytes * osfile) (J : joins join).
  Let st := reader_stream (array_block_io (path_block pol) join).
  Let clone := reader_clone (array_block_io (path_block pol) join).
  Notation bad := (damaged C f l image q).
  Notation bs := (sb4_block_size (device_sb image)).

  (** If in every row of the array at most one sector is missing, cannot be read, or is not as md has written it, then what is
      read from a file is what Linux would read from the file of that number on the intact array, but for unwritten extents.
      (Partial as [recover_paths_linux_partial] is.) *)
  Theorem wrong_paths_linux_partial devices d s1 F number a s2 own g fuel bufs s' g' calls hi :
    one_wrong C f l image q ->
    assembled devices d -> fs_open st (reader_new d) = (s1, Ok F) -> linux_usual (device_sb image) -> linux_inode_at image number a ->
    let slot := window image a (linux_inode_size (device_sb image)) in
    ordered image bs (slot_root slot) 0 hi ->
    open_file st clone F number s1 = (s2, Ok (own, AnyRegular g)) -> run_file st fuel own g bufs = Some (s', g', calls) ->
    slot_kind slot = 8 /\ len (delivered calls) <= slot_size slot /\
    forall o y, nth_N (delivered calls) o = Some y -> linux_file_byte image number o y \/ in_unwritten image bs (slot_root slot) o.
  Proof.
    intros HB A. exact (one_wrong_linux_partial (path_block pol) join J C f l image q wrong_geometry U HB
      d s1 F number a s2 own g fuel bufs s' g' calls hi (wrong_holds_all devices d A)).
  Qed.

  (** And it is read to its end if Linux finds all of its blocks, written, and they and the metadata are in whole rows. *)
  Theorem wrong_paths_complete_partial k number a bufs hi : one_wrong C f l image q ->
    device_supported image k -> device_inode image k number -> metadata_good image bad k number ->
    linux_usual (device_sb image) -> linux_inode_at image number a ->
    let slot := window image a (linux_inode_size (device_sb image)) in
    slot_kind slot = 8 -> slot_by_extents slot = true -> ordered image bs (slot_root slot) 0 hi ->
    slot_size slot <= hi * bs < slot_size slot + bs -> hi <= u32_max -> nodes_readable image bs (block_good image bad bs) (slot_root slot) ->
    (forall p, p < hi -> exists e, linux_finds image bs (slot_root slot) p (Some e) /\ extent_value e < 32768 /\
       block_good image bad bs (extent_start e + (p - extent_first e))) ->
    hi <= len bufs -> Forall (fun buf => len buf = bs) bufs ->
    exists devices d s1 F s2 own g fuel s' g' calls, assembled devices d /\
      fs_open st (reader_new d) = (s1, Ok F) /\ open_file st clone F number s1 = (s2, Ok (own, AnyRegular g)) /\
      run_file st fuel own g bufs = Some (s', g', calls) /\ Forall (fun '(_, _, r) => is_ok r) calls /\
      len (delivered calls) = slot_size slot /\ forall o y, nth_N (delivered calls) o = Some y -> linux_file_byte image number o y.
  Proof.
    intros HB H1 H2 H3 H4 H5 slot H6 H7 H8 H9 H10 H11 H12 H13 H14.
    destruct wrong_paths_assembled as (devices & d & A & _). exists devices, d.
    destruct (one_wrong_complete_partial (path_block pol) join J C f l image q wrong_geometry U HB
      d k number a bufs hi (wrong_holds_all devices d A) H1 H2 H3 H4 H5 H6 H7 H8 H9 H10 H11 H12 H13 H14) as (s1 & F & s2 & own & g & fuel & s' & g' & calls & R).
    exists s1, F, s2, own, g, fuel, s', g', calls. split; [exact A|exact R].
  Qed.

  (** Likewise of directories: no entry is listed that Linux does not find in the directory. *)
  Theorem wrong_paths_listing_partial devices d s1 F number a s2 own g fuel n s' g' rs hi e : one_wrong C f l image q ->
    assembled devices d -> fs_open st (reader_new d) = (s1, Ok F) -> linux_usual (device_sb image) -> linux_inode_at image number a ->
    let slot := window image a (linux_inode_size (device_sb image)) in
    ordered image bs (slot_root slot) 0 hi ->
    open_file st clone F number s1 = (s2, Ok (own, AnyDirectory g)) -> run_dir st fuel n own g = Some (s', g', rs) -> In (Ok (Some e)) rs ->
    slot_kind slot = 4 /\ exists seed p b, inode_seed (device_sb image) number slot seed /\ p * bs < slot_size slot /\
      linux_dir_block image bs (slot_root slot) p b /\ dir_tail_ok seed b /\
      (exists es, records b (dir_limit seed b) 0 es /\ In e es) /\
      forall es, linux_whole (sb4_inodes (device_sb image)) seed b -> linux_records (sb4_inodes (device_sb image)) b 0 es -> In e es.
  Proof.
    intros HB A. exact (one_wrong_listing_partial (path_block pol) join J C f l image q wrong_geometry U HB
      d s1 F number a s2 own g fuel n s' g' rs hi e (wrong_holds_all devices d A)).
  Qed.

  (** And whatever is wrong with however many members, an inode all of whose rows are whole is served as from an intact device
      that holds the array. *)
  Theorem wrong_paths_elsewhere {S} (st0 : stream S) at0 clone0 s k number : image_fills x image -> stream_ok st0 image no_bad at0 ->
    (forall s s' r, legal at0 s -> clone0 s = (s', r) -> legal at0 s' /\ r <> Panic /\ (forall t, r = Ok t -> legal at0 t)) ->
    (forall s, legal at0 s -> exists s1 t, clone0 s = (s1, Ok t)) -> legal at0 s ->
    device_supported image k -> device_inode image k number -> whole_footprint C f l image q k number ->
    exists devices d s1 F s2 r s1' F' s2' r', assembled devices d /\
      fs_open st0 s = (s1, Ok F) /\ open_file st0 clone0 F number s1 = (s2, r) /\
      fs_open st (reader_new d) = (s1', Ok F') /\ open_file st clone F' number s1' = (s2', r') /\
      same_results st0 image st r r'.
  Proof.
    intros Fi H1 H2 H3 H4 H5 H6 H7. destruct wrong_paths_assembled as (devices & d & A & _). exists devices, d.
    destruct (damage_elsewhere (path_block pol) join J C f l image q wrong_geometry U Fi st0 at0 clone0 s d k number H1 H2 H3 H4
      (wrong_holds_all devices d A) H5 H6 H7) as (s1 & F & s2 & r & s1' & F' & s2' & r' & R).
    exists s1, F, s2, r, s1', F', s2', r'. split; [exact A|exact R].
  Qed.
End Wrong.

(** One member is missing, or holds anything; the others are as md has written them. *)
Theorem but_one_written : forall ws x image q j, array_ok x -> image_fills x image -> NoDup (map w_position ws) ->
  (forall i, i < x_devices x -> i <> j -> exists w, In w ws /\ w_position w = i /\ written x image q w) ->
  one_wrong (written_contents ws) (array_format_of x) (x_layout x) image q.
Proof.
  intros ws x image q j (_ & Hn & Hc & Dv) Fi Nd H. split; [exact Fi|]. intros s Ls. exists j. intros i Hi Ne.
  cbn [array_format_of mf_device_count mf_sectors_per_device mf_chunk_size] in *.
  destruct (H i Hi Ne) as (w & Iw & <- & [_ W] & _). exists (w_bytes w), (w_bad w). cbv zeta. split.
  - unfold written_contents. now rewrite (find_position ws w Nd Iw).
  - apply W. destruct Dv as [k Dv]. rewrite N.mul_comm in Dv. rewrite Dv in Ls |- *. apply (proj1 (sector_below s (x_chunk x) k (x_devices x - 2) ltac:(lia) ltac:(lia))). exact Ls.
Qed.
Print Assumptions wrong_paths_assembled.
Print Assumptions wrong_paths_linux_partial.
Print Assumptions wrong_paths_complete_partial.
Print Assumptions wrong_paths_listing_partial.
Print Assumptions wrong_paths_elsewhere.
Print Assumptions but_one_written.

(** ** Examples: the devices of [raw_open] *)

(** Three of the four members are given. *)
Definition three_ws : list member_written := map raw_written [3; 1; 0].
Example missing_ex : array_ok raw_array /\ positions_some raw_array (map w_position three_ws) /\ Forall (labelled raw_array) three_ws /\
  Forall2 (path_holds raw_pol raw_open) (map raw_path [3; 1; 0]) three_ws /\
  one_wrong (written_contents three_ws) (array_format_of raw_array) (Md5 LeftSymmetric) open_image (fun _ => zeros 512) /\
  ~ one_wrong (written_contents (map raw_written [3; 1])) (array_format_of raw_array) (Md5 LeftSymmetric) open_image (fun _ => zeros 512).
Proof.
  destruct raw_assembled_ex as (H1 & H2 & H3 & H4 & H5). rewrite Forall_forall in H4.
  assert (Wr : forall i, In i [3; 1; 0] -> written raw_array open_image (fun _ => zeros 512) (raw_written i)).
  { intros i I. apply H4. apply in_map. cbn [In] in I |- *. tauto. }
  split; [exact H1|]. split; [|split; [|split; [|split]]].
  - split; [discriminate|]. split; [repeat constructor; cbn [map w_position raw_written three_ws In]; intuition discriminate|].
    intros i. cbn [map w_position raw_written three_ws In]. change (x_devices raw_array) with 4. lia.
  - apply (written_labelled _ open_image (fun _ => zeros 512)), Forall_forall. intros w I. apply in_map_iff in I as (i & <- & I). now apply Wr.
  - cbn [map three_ws]. repeat (constructor; [apply raw_path_holds; reflexivity|]). constructor.
  - apply (but_one_written three_ws raw_array open_image (fun _ => zeros 512) 2 H1 H2).
    + repeat constructor; cbn [map w_position raw_written three_ws In]; intuition discriminate.
    + intros i Hi Ne. change (x_devices raw_array) with 4 in Hi. assert (I : In i [3; 1; 0]) by (cbn [In]; lia).
      exists (raw_written i). split; [now apply in_map|]. split; [reflexivity|now apply Wr].
  - intros [_ H]. destruct (H 0 ltac:(reflexivity)) as (j & O).
    assert (Gone : forall i, i < 4 -> i <> 3 -> i <> 1 -> i = j).
    { intros i Hi N3 N1. destruct (N.eq_dec i j) as [|Ne]; [assumption|]. destruct (O i Hi Ne) as (ct & b & E & _).
      unfold written_contents in E. cbn [map List.find w_position raw_written] in E.
      destruct (N.eqb_spec 3 i); [congruence|]. destruct (N.eqb_spec 1 i); [congruence|discriminate E]. }
    pose proof (Gone 0 ltac:(lia) ltac:(lia) ltac:(lia)). pose proof (Gone 2 ltac:(lia) ltac:(lia) ltac:(lia)). lia.
Qed.

(** Member 2 has garbage where it should have the block 6 of the file system. *)
Definition hurt_bytes (i : N) : bytes := if i =? 2 then poke (raw_bytes 2) (3072, repeat xa5 1024) else raw_bytes i.
Definition hurt_pol : bytes -> io_policy := fun _ => short_policy.
Definition hurt_written (i : N) : member_written :=
  MemberWritten i 8192 (hurt_bytes i) (pol_bad short_policy) (fun p => pol_bad_block short_policy (raw_bs i) (p / raw_bs i)).
Definition hurt_ws : list member_written := map hurt_written [3; 1; 2; 0].
Definition hurt_open : opener := fun path =>
  match path with [_; _; _; x32] => Ok (OsFile (hurt_bytes 2) 0 0 true (Ok 512) (Ok 16384)) | _ => raw_open path end.

Lemma hurt_len i : i < 4 -> len (hurt_bytes i) = 16384.
Proof.
  intros Hi. unfold hurt_bytes. destruct (i =? 2); [|now apply raw_len]. rewrite len_poke; rewrite raw_len; try reflexivity. vm_compute. discriminate.
Qed.
Lemma hurt_window i o n : i < 4 -> o + n <= 16384 -> i <> 2 \/ o + n <= 3072 \/ 4096 <= o -> window (hurt_bytes i) o n = window (raw_bytes i) o n.
Proof.
  intros Hi L D. unfold hurt_bytes. destruct (N.eqb_spec i 2) as [->|]; [|reflexivity].
  apply window_poke; rewrite ?raw_len by reflexivity; change (len (repeat xa5 1024)) with 1024; lia.
Qed.

Lemma hurt_labelled i : i < 4 -> labelled raw_array (hurt_written i).
Proof.
  intros Hi. destruct (raw_member i Hi) as [(A1 & A2 & A3 & A4 & A5) _]. rewrite raw_len in A1, A2 by exact Hi.
  split; cbn [hurt_written w_position w_place w_bytes w_sbad]; [|intros p _; apply short_fails].
  unfold labelled_member. rewrite hurt_len, !(hurt_window i) with (o := 4096) by lia. rewrite (hurt_window i 8192) by lia.
  split; [exact A1|]. split; [exact A2|]. split; [exact A3|]. split; [exact A4|].
  destruct (N.eq_dec i 2) as [->|Ne]; [intros [H _]; vm_compute in H; discriminate H|]. now rewrite hurt_window by lia.
Qed.
Lemma hurt_stored i t : i < 4 -> t < 16 -> i <> 2 \/ t < 6 \/ 8 <= t ->
  sector_at (hurt_bytes i) t (stored (Md5 LeftSymmetric) 4 2 open_image (fun _ => zeros 512) i t).
Proof.
  intros Hi Ht D. destruct (raw_member i Hi) as [_ W]. destruct (W t Ht) as [W1 W2]. split; [rewrite hurt_len by exact Hi; lia|].
  rewrite hurt_window by lia. exact W2.
Qed.
Lemma hurt_find i : i < 4 -> written_contents hurt_ws i = Some (hurt_bytes i, fun p => pol_bad_block short_policy (raw_bs i) (p / raw_bs i)).
Proof. intros Hi. assert (i = 0 \/ i = 1 \/ i = 2 \/ i = 3) as [->|[->|[->| ->]]] by lia; reflexivity. Qed.
Lemma hurt_as_stored s i : s < 32 -> i < 4 -> i <> 2 \/ s / 4 <> 3 ->
  as_stored (written_contents hurt_ws) (array_format_of raw_array) (Md5 LeftSymmetric) open_image (fun _ => zeros 512) s i.
Proof.
  intros Ls Hi D. unfold as_stored. cbv zeta. change (mf_device_count (array_format_of raw_array)) with 4. change (mf_chunk_size (array_format_of raw_array)) with 2.
  change (4 - 2) with 2. destruct (row_sector s Ls) as [T R]. eexists. eexists. split; [now apply hurt_find|]. apply hurt_stored; [exact Hi|exact T|].
  set (t := member_sector s 2 2) in *. clearbody t. pose proof (N.div_mod t 2 ltac:(lia)). pose proof (N.mod_lt t 2 ltac:(lia)). lia.
Qed.
Lemma hurt_whole s : s < 32 -> s / 4 <> 3 ->
  whole (written_contents hurt_ws) (array_format_of raw_array) (Md5 LeftSymmetric) open_image (fun _ => zeros 512) s.
Proof.
  intros Ls D. split; [intros i Hi; left; apply hurt_as_stored; auto|]. intros (i & ct & b & p & Hi & Ci & _ & B).
  change (mf_device_count (array_format_of raw_array)) with 4 in Hi. rewrite hurt_find in Ci by exact Hi. injection Ci as _ <-.
  destruct B as (p' & _ & B). now apply (short_fails p').
Qed.
Lemma hurt_path_holds i : i < 4 -> path_holds hurt_pol hurt_open (raw_path i) (hurt_written i).
Proof.
  intros Hi. exists (hurt_bytes i), (raw_bs i).
  assert (E : hurt_open (raw_path i) = Ok (OsFile (hurt_bytes i) 0 0 true (Ok (raw_bs i)) (Ok 16384)) /\ len (hurt_bytes i) / raw_bs i * raw_bs i = 16384 /\ raw_bs i <> 0).
  { rewrite hurt_len by exact Hi. assert (i = 0 \/ i = 1 \/ i = 2 \/ i = 3) as [->|[->|[->| ->]]] by lia; repeat split; discriminate. }
  destruct E as (E1 & E2 & E3). split; [|split; [|split; [now intros p|now intros p]]].
  - eexists. split; [exact E1|]. cbn [os_content os_pbsz os_size64]. rewrite hurt_len by exact Hi. repeat split; [exact E3|discriminate].
  - rewrite E2. cbn [w_bytes hurt_written]. rewrite <- (hurt_len i Hi). symmetry. apply window_full.
Qed.

Example hurt_ex : array_ok raw_array /\ positions_some raw_array (map w_position hurt_ws) /\ Forall (labelled raw_array) hurt_ws /\
  Forall2 (path_holds hurt_pol hurt_open) (map raw_path [3; 1; 2; 0]) hurt_ws /\
  one_wrong (written_contents hurt_ws) (array_format_of raw_array) (Md5 LeftSymmetric) open_image (fun _ => zeros 512) /\
  ~ whole (written_contents hurt_ws) (array_format_of raw_array) (Md5 LeftSymmetric) open_image (fun _ => zeros 512) 12.
Proof.
  destruct raw_assembled_ex as (H1 & H2 & H3 & _ & _). split; [exact H1|]. split; [exact (filled_some _ _ H1 H3)|]. split; [|split; [|split]].
  - apply Forall_forall. intros w I. apply in_map_iff in I as (i & <- & I). apply hurt_labelled. cbn [In] in I. lia.
  - cbn [map hurt_ws]. repeat (constructor; [apply hurt_path_holds; reflexivity|]). constructor.
  - split; [exact H2|]. intros s Ls. exists 2. intros i Hi Ne. apply hurt_as_stored; [exact Ls|exact Hi|now left].
  - intros [W _]. destruct (W 2 ltac:(reflexivity)) as [(ct & b & E & _ & X)|[X _]]; [|discriminate X]. rewrite hurt_find in E by reflexivity. injection E as <- _.
    apply (f_equal (fun b => window b 0 1)) in X. vm_compute in X. discriminate X.
Qed.

Example wrong_paths_ex : exists devices d s1 F s2 own g fuel s' g' calls,
  let st := reader_stream (array_block_io (path_block hurt_pol) shared) in
  open_paths hurt_pol hurt_open 0 (map raw_path [3; 1; 2; 0]) = Ok (devices, []) /\ d = array_open (@rev _) (map at_path devices) /\
  fs_open st (reader_new d) = (s1, Ok F) /\
  open_file st (reader_clone (array_block_io (path_block hurt_pol) shared)) F 5 s1 = (s2, Ok (own, AnyRegular g)) /\
  run_file st fuel own g (repeat (zeros 1024) 5) = Some (s', g', calls) /\ len (delivered calls) = 3500 /\
  forall o y, nth_N (delivered calls) o = Some y -> linux_file_byte open_image 5 o y.
Proof.
  pose proof open_image_supported as SU. pose proof (open_image_inode 5 ltac:(cbn; auto)) as DI.
  assert (Jn : joins (@shared (bytes * osfile))) by (intros d d'; now right). destruct hurt_ex as (H1 & H3 & H4 & H5 & H6 & _).
  pose proof (wrong_paths_complete_partial hurt_pol hurt_open (map raw_path [3; 1; 2; 0]) hurt_ws raw_array open_image (fun _ => zeros 512) (@rev _)
    ltac:(intros l; apply Permutation_sym, Permutation_rev) H1 open_image_u64 H3 H4 H5 shared Jn 1 5 4096 (repeat (zeros 1024) 5) 4 H6 SU DI) as R.
  cbv zeta in R. rewrite open_slot in R.
  assert (BS : sb4_block_size (device_sb open_image) = 1024) by (vm_compute; reflexivity). rewrite BS in R.
  assert (SZ : slot_size (device_slot open_image 5) = 3500) by (vm_compute; reflexivity). rewrite SZ in R.
  assert (RT : slot_root (device_slot open_image 5) = in_blocks_buffer ex_file) by (vm_compute; reflexivity). rewrite RT in R.
  assert (Wh : forall p, p < 16384 -> p < 6144 \/ 8192 <= p -> ~ damaged (written_contents hurt_ws) (array_format_of raw_array) (Md5 LeftSymmetric) open_image (fun _ => zeros 512) p).
  { intros p L D B. apply B, hurt_whole; [apply N.div_lt_upper_bound; lia|]. rewrite N.div_div by lia. intros E.
    pose proof (N.div_mod p (512 * 4) ltac:(lia)). pose proof (N.mod_lt p (512 * 4) ltac:(lia)). lia. }
  assert (Im : forall b, b < 16 -> b <> 6 -> b <> 7 -> block_good open_image
    (damaged (written_contents hurt_ws) (array_format_of raw_array) (Md5 LeftSymmetric) open_image (fun _ => zeros 512)) 1024 b).
  { intros b L N6 N7. split; [rewrite open_image_len; lia|]. intros p P. apply Wh; lia. }
  destruct R as (devices & d & s1 & F & s2 & own & f & fuel & s' & f' & calls & [R0 R0'] & R1 & R2 & R3 & _ & R4 & R5).
  - intros p P.
    assert (D0 : sb4_desc_offset (device_sb open_image) 1 <= 6144) by (vm_compute; discriminate).
    assert (S0 : device_slot_offset open_image 5 + sb4_inode_size (device_sb open_image) <= 6144) by (vm_compute; discriminate).
    apply Wh; lia.
  - exact open_usual.
  - exact open_inode_at.
  - vm_compute. reflexivity.
  - vm_compute. reflexivity.
  - exact open_ordered.
  - split; [discriminate|reflexivity].
  - discriminate.
  - apply open_nodes; apply Im; vm_compute; congruence.
  - intros p P. apply open_finds; try exact P; apply Im; vm_compute; congruence.
  - discriminate.
  - apply Forall_forall. intros b Hb. apply repeat_spec in Hb as ->. apply len_zeros.
  - exists devices, d, s1, F, s2, own, f, fuel, s', f', calls. auto 10.
Qed.
