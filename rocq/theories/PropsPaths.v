(** Property C112: from the paths given to the program to the files on the array. *)

From Coq Require Import Strings.String Permutation.
From Verif Require Import Base BaseFacts Raid SpecRaid RaidFacts SpecParity ParityFacts PropsRaid Io SpecStream IoFacts Superblock SpecMd SuperblockFacts PropsSuperblock
  Device SpecDevice PropsDevice Array ArrayIo SpecArray ArrayFacts PropsArray PropsArrayRead PropsArrayIo SpecExt4 SpecExt4Inode Ext4Superblock Ext4Inode Ext4Fs
  SpecExt4Fs Ext4FsFacts PropsExt4Fs Ext4Extent Ext4File SpecExt4File PropsExt4File Ext4String Ext4Dir SpecExt4Dir PropsExt4Dir PropsExt4Listing PropsExt4Flat
  PropsExt4Array SpecExt4Open PropsExt4Open PropsExt4Recover SpecExt4Linux PropsExt4Linux SpecExt4Walk PropsExt4Walk SpecExt4Content PropsExt4Content
  SpecExt4LinuxDir PropsExt4LinuxDir Main PropsMain SpecMembers PropsMembers.

(** ** Open files with what the operating system does with them *)

(** A file together with the path it was opened from: [pol] is what the operating system does with the files at the paths. *)
Definition path_block (pol : bytes -> io_policy) : blockdev (bytes * osfile) := {|
  bd_size d := bd_size (native_block (pol (fst d))) (snd d);
  bd_count d := bd_count (native_block (pol (fst d))) (snd d);
  bd_read d n buf := let '(f, b, r) := bd_read (native_block (pol (fst d))) (snd d) n buf in (fst d, f, b, r);
  bd_clone d := let? f := bd_clone (native_block (pol (fst d))) (snd d) in Ok (fst d, f)
|}.

Definition at_path (d : device_id * md_device osfile) : md_device (bytes * osfile) :=
  MdDevice (md_id (snd d)) (md_superblock (snd d)) (match id_reference (fst d) with Some p => p | None => [] end, md_dev (snd d)).

Lemma path_block_ok pol path bs count blk bad inv : block_ok (native_block (pol path)) bs count blk bad inv ->
  block_ok (path_block pol) bs count blk bad (fun d => fst d = path /\ inv (snd d)).
Proof.
  intros [H1 H2 H3 H4 H5 H6 H7]. constructor; try assumption.
  - intros [p f] [E A]. cbn in E. subst p. cbn. now apply H4.
  - intros [p f] [E A]. cbn in E. subst p. cbn [bd_count path_block fst snd]. now apply H5.
  - intros [p f] n buf d' buf' r [E A] L Lb R. cbn in E. subst p. cbn [bd_read path_block fst snd] in R.
    destruct (bd_read (native_block (pol path)) f n buf) as [[f1 b1] r1] eqn:B. injection R as <- <- <-.
    destruct (H6 _ _ _ _ _ _ A L Lb B) as (I & X). split; [split; [reflexivity|exact I]|exact X].
  - intros [p f] [E A]. cbn in E. subst p. cbn [bd_clone path_block fst snd]. destruct (H7 f A) as (f' & E & A'). cbn [bd_clone native_block] in *.
    injection E as <-. cbn. eauto.
Qed.

(** At [path] there is a block device with the bytes of the member [w], which can be read where [w] says. *)
Definition path_holds (pol : bytes -> io_policy) (open : opener) (path : bytes) (w : member_written) : Prop :=
  exists c bs, is_device open path c bs /\ w_bytes w = window c 0 (len c / bs * bs) /\
    (forall p, w_sbad w p <-> pol_bad (pol path) p) /\ (forall p, w_bad w p <-> pol_bad_block (pol path) bs (p / bs)).

Lemma path_opened pol open counter path w : path_holds pol open path w -> counter < u64_max ->
  exists d, open_path (pol path) open counter path = (counter + 1, Ok d) /\ id_reference (fst d) = Some path /\
    member_opened (path_block pol) (at_path d) (w_bytes w) (w_sbad w) (w_bad w).
Proof.
  intros (c & bs & (f & E & C & B & Z & Nb & U) & Wb & Ws & Wd) L.
  set (size := len c / bs * bs) in *.
  assert (M : size <= len c) by (unfold size; rewrite N.mul_comm; apply N.mul_div_le; exact Nb).
  assert (Lw : len (w_bytes w) = size) by (rewrite Wb; apply len_window_in; lia).
  assert (Sz : device_size (native_block (pol path)) f = Ok size).
  { unfold device_size. cbn [bd_count bd_size native_block]. rewrite Z, B. cbn [rbind]. unfold cdiv64. destruct (N.eqb_spec bs 0); [contradiction|].
    cbn [unwrap rbind]. unfold size_bytes. rewrite cmul64_some; [reflexivity|]. fold size. change u64_max with (2 * i64_max + 1). lia. }
  assert (At : os_at c (os_fixed f) (Ok bs) (Ok (len c)) f (os_pos f)) by now repeat split.
  pose proof (os_stream_ok (pol path) c (os_fixed f) (Ok bs) (Ok (len c)) U) as SO.
  destruct (classify_ok (native_stream (pol path)) c (pol_bad (pol path)) (os_at c (os_fixed f) (Ok bs) (Ok (len c))) SO (native_block (pol path)) size f (os_pos f) At Sz M)
    as (f' & cls & Cl & A' & _).
  exists (DeviceId counter (Some path), MdDevice counter cls f'). split; [|split; [reflexivity|]].
  - unfold open_path, id_new, next_index. rewrite E, Sz. destruct (N.eqb_spec counter u64_max); [lia|]. cbn [rbind]. rewrite Cl. cbn [rbind id_index].
    rewrite N.mod_small; [reflexivity|]. change (2 ^ 64) with (u64_max + 1). lia.
  - split.
    + exists bs, (len c / bs), (block_of c bs), (pol_bad_block (pol path) bs). eexists.
      split; [apply (path_block_ok pol path); exact (native_block_ok (pol path) c (os_fixed f) bs U Nb)|].
      split; [split; [reflexivity|exact A']|]. split; [rewrite flat_block_of by exact Nb; exact Wb|exact Wd].
    + exists osfile, (native_stream (pol path)), (native_block (pol path)), c, (os_at c (os_fixed f) (Ok bs) (Ok (len c))), f, (os_pos f), f'.
      split; [|split; [exact At|split; [now rewrite Lw|split; [now rewrite Lw|exact Cl]]]].
      destruct SO as [S1 S2 S3]. constructor; [|exact S2|exact S3]. intros s p buf s' buf' r A R. destruct (S1 _ _ _ _ _ _ A R) as (p' & F & A2 & Bd).
      exists p'. split; [exact F|]. split; [exact A2|]. intros e X. apply Ws. exact (Bd e X).
Qed.

Lemma paths_opened pol open paths ws : Forall2 (path_holds pol open) paths ws -> forall counter, counter + len paths <= u64_max ->
  exists devices, open_paths pol open counter paths = Ok (devices, []) /\ map (fun d => id_reference (fst d)) devices = map Some paths /\
    Forall2 (fun d w => member_opened (path_block pol) d (w_bytes w) (w_sbad w) (w_bad w)) (map at_path devices) ws.
Proof.
  induction 1 as [|path w paths ws P F IH]; intros counter L.
  - exists []. repeat split. constructor.
  - rewrite len_cons in L. destruct (path_opened pol open counter path w P ltac:(lia)) as (d & E & R & O).
    destruct (IH (counter + 1) ltac:(lia)) as (ds & E2 & R2 & O2). exists (d :: ds). cbn [open_paths]. rewrite E, E2. cbn [rbind map].
    split; [reflexivity|]. split; [now rewrite R, R2|]. constructor; assumption.
Qed.

Lemma both_long {A B} {R : A -> B -> Prop} {l m} : Forall2 R l m -> length l = length m.
Proof. induction 1; cbn; congruence. Qed.

(** ** C112 *)

Section Paths.
  Context (pol : bytes -> io_policy) (open : opener) (paths : list bytes) (ws : list member_written) (x : md_array) (image : bytes) (q : N -> bytes).
  Context (order : list (option N * list (md_device (bytes * osfile))) -> list (option N * list (md_device (bytes * osfile)))).
  Hypothesis Ord : forall l, Permutation (order l) l.
  Hypothesis X : array_ok x.
  Hypothesis Fi : image_fills x image.
  Hypothesis U : u64_ok (len image).
  Hypothesis Po : positions_filled x (map w_position ws).
  Hypothesis Wr : Forall (written x image q) ws.
  Hypothesis Ph : Forall2 (path_holds pol open) paths ws.

  Let assembled (devices : list (device_id * md_device osfile)) (d : definition (bytes * osfile)) : Prop :=
    open_paths pol open 0 paths = Ok (devices, []) /\ d = array_open order (map at_path devices).

  (** However the paths are ordered, all are opened, and the members are put where they belong, all of them. *)
  Theorem paths_assembled : exists devices d, assembled devices d /\ map (fun d => id_reference (fst d)) devices = map Some paths /\
    in_use d (array_format_of x) /\ geometry_ok (array_format_of x) (x_layout x) /\ slots_hold (path_block pol) d (written_contents ws) /\
    contents_image (written_contents ws) (fun _ => 0) (array_format_of x) (x_layout x) image /\ ad_inactive d = [].
  Proof.
    assert (Lp : len paths <= x_devices x).
    { assert (len paths = len ws) as -> by (unfold len; now rewrite (both_long Ph)). rewrite <- (len_map w_position).
      destruct Po as [Nd Co]. pose proof (NoDup_incl_length Nd (l' := map N.of_nat (seq 0 (N.to_nat (x_devices x))))) as H.
      rewrite (map_length N.of_nat), seq_length in H. enough (incl (map w_position ws) (map N.of_nat (seq 0 (N.to_nat (x_devices x))))) by (specialize (H H0); unfold len; lia).
      intros i I. apply Co in I. apply in_map_iff. exists (N.to_nat i). split; [lia|]. apply in_seq. lia. }
    assert (Hn : x_devices x <= 0xff00) by apply X.
    destruct (paths_opened pol open paths ws Ph 0) as (devices & E & R & O).
    { assert (0xff00 <= u64_max) by (vm_compute; discriminate). lia. }
    exists devices, (array_open order (map at_path devices)). split; [split; [exact E|reflexivity]|]. split; [exact R|].
    exact (members_assembled_partial (path_block pol) order (map at_path devices) ws x image q Ord X Fi Po Wr O).
  Qed.

  Context (join : bytes * osfile -> bytes * osfile -> bytes * osfile) (J : joins join).
  Let st := reader_stream (array_block_io (path_block pol) join).
  Let clone := reader_clone (array_block_io (path_block pol) join).
  Notation bad := (array_bad (written_contents ws) (array_format_of x)).
  Notation bs := (sb4_block_size (device_sb image)).

  Lemma assembled_holds devices d : assembled devices d -> slots_hold (path_block pol) d (written_contents ws) /\ in_use d (array_format_of x).
  Proof.
    intros [E ->]. destruct paths_assembled as (devices' & d' & [E' ->] & _ & H1 & _ & H2 & _). rewrite E in E'. injection E' as <-. auto.
  Qed.
  Lemma assembled_geometry : geometry_ok (array_format_of x) (x_layout x).
  Proof. now destruct paths_assembled as (_ & _ & _ & _ & _ & G & _). Qed.
  Lemma assembled_image : contents_image (written_contents ws) (fun _ => 0) (array_format_of x) (x_layout x) image.
  Proof. now destruct paths_assembled as (_ & _ & _ & _ & _ & _ & _ & I & _). Qed.

  (** What is read from a file is what Linux would read from the file of that number on the running array, but for unwritten
      extents; whatever of the members cannot be read.  (Partial: version 1.0 superblocks and data that start at the first
      sector, see [data_offset_refuted]; unwritten extents, see [file_zeros_refuted].) *)
  Theorem recover_paths_linux_partial devices d s1 F number a s2 own g fuel bufs s' g' calls hi :
    assembled devices d -> fs_open st (reader_new d) = (s1, Ok F) -> linux_usual (device_sb image) -> linux_inode_at image number a ->
    let slot := window image a (linux_inode_size (device_sb image)) in
    ordered image bs (slot_root slot) 0 hi ->
    open_file st clone F number s1 = (s2, Ok (own, AnyRegular g)) -> run_file st fuel own g bufs = Some (s', g', calls) ->
    slot_kind slot = 8 /\ len (delivered calls) <= slot_size slot /\
    forall o y, nth_N (delivered calls) o = Some y -> linux_file_byte image number o y \/ in_unwritten image bs (slot_root slot) o.
  Proof.
    intros A. exact (recover_linux_partial (path_block pol) join J (written_contents ws) (array_format_of x) (x_layout x) image assembled_geometry U assembled_image
      d s1 F number a s2 own g fuel bufs s' g' calls hi (assembled_holds devices d A)).
  Qed.

  (** And it is read to its end if Linux finds all of its blocks, written, and they and the metadata can be read. *)
  Theorem recover_paths_complete_partial k number a bufs hi :
    device_supported image k -> device_inode image k number -> metadata_good image bad k number ->
    linux_usual (device_sb image) -> linux_inode_at image number a ->
    let slot := window image a (linux_inode_size (device_sb image)) in
    slot_kind slot = 8 -> slot_by_extents slot = true -> ordered image bs (slot_root slot) 0 hi ->
    slot_size slot <= hi * bs < slot_size slot + bs -> hi <= u32_max -> nodes_readable image bs (block_good image bad bs) (slot_root slot) ->
    (forall p, p < hi -> exists e, linux_finds image bs (slot_root slot) p (Some e) /\ extent_value e < 32768 /\
       block_good image bad bs (extent_start e + (p - extent_first e))) ->
    hi <= len bufs -> Forall (fun buf => len buf = bs) bufs ->
    exists devices d s1 F s2 own g fuel s' g' calls, assembled devices d /\
      fs_open st (reader_new d) = (s1, Ok F) /\ open_file st clone F number s1 = (s2, Ok (own, AnyRegular g)) /\
      run_file st fuel own g bufs = Some (s', g', calls) /\ Forall (fun '(_, _, r) => is_ok r) calls /\
      len (delivered calls) = slot_size slot /\ forall o y, nth_N (delivered calls) o = Some y -> linux_file_byte image number o y.
  Proof.
    intros H1 H2 H3 H4 H5 slot H6 H7 H8 H9 H10 H11 H12 H13 H14.
    destruct paths_assembled as (devices & d & A & _). exists devices, d.
    destruct (recover_linux_complete_partial (path_block pol) join J (written_contents ws) (array_format_of x) (x_layout x) image assembled_geometry U assembled_image
      d k number a bufs hi (assembled_holds devices d A) H1 H2 H3 H4 H5 H6 H7 H8 H9 H10 H11 H12 H13 H14) as (s1 & F & s2 & own & g & fuel & s' & g' & calls & R).
    exists s1, F, s2, own, g, fuel, s', g', calls. split; [exact A|exact R].
  Qed.

  (** Likewise of directories: no entry is listed that Linux does not find in the directory; *)
  Theorem recover_paths_listing_partial devices d s1 F number a s2 own g fuel n s' g' rs hi e :
    assembled devices d -> fs_open st (reader_new d) = (s1, Ok F) -> linux_usual (device_sb image) -> linux_inode_at image number a ->
    let slot := window image a (linux_inode_size (device_sb image)) in
    ordered image bs (slot_root slot) 0 hi ->
    open_file st clone F number s1 = (s2, Ok (own, AnyDirectory g)) -> run_dir st fuel n own g = Some (s', g', rs) -> In (Ok (Some e)) rs ->
    slot_kind slot = 4 /\ exists seed p b, inode_seed (device_sb image) number slot seed /\ p * bs < slot_size slot /\
      linux_dir_block image bs (slot_root slot) p b /\ dir_tail_ok seed b /\
      (exists es, records b (dir_limit seed b) 0 es /\ In e es) /\
      forall es, linux_whole (sb4_inodes (device_sb image)) seed b -> linux_records (sb4_inodes (device_sb image)) b 0 es -> In e es.
  Proof.
    intros A. exact (recover_listing_partial (path_block pol) join J (written_contents ws) (array_format_of x) (x_layout x) image assembled_geometry U assembled_image
      d s1 F number a s2 own g fuel n s' g' rs hi e (assembled_holds devices d A)).
  Qed.

  (** and a directory that Linux reads whole is listed as Linux lists it. *)
  Theorem recover_paths_listing_complete_partial k number a es n hi :
    device_supported image k -> device_inode image k number -> metadata_good image bad k number ->
    linux_usual (device_sb image) -> linux_inode_at image number a ->
    let slot := window image a (linux_inode_size (device_sb image)) in
    slot_kind slot = 4 -> slot_by_extents slot = true -> slot_indexed slot = false -> ordered image bs (slot_root slot) 0 hi ->
    slot_size slot = hi * bs -> hi <= u32_max -> nodes_readable image bs (block_good image bad bs) (slot_root slot) ->
    (forall p, p < hi -> exists e, linux_finds image bs (slot_root slot) p (Some e) /\ extent_value e < 32768 /\
       block_good image bad bs (extent_start e + (p - extent_first e))) ->
    (forall seed p b, inode_seed (device_sb image) number slot seed -> p < hi -> linux_dir_block image bs (slot_root slot) p b ->
       dir_tail_ok seed b /\ linux_whole (sb4_inodes (device_sb image)) seed b) ->
    linux_directory image number es ->
    exists devices d s1 F s2 own g fuel s' g' rs, assembled devices d /\
      fs_open st (reader_new d) = (s1, Ok F) /\ open_file st clone F number s1 = (s2, Ok (own, AnyDirectory g)) /\
      run_dir st fuel n own g = Some (s', g', rs) /\ lists_as (linux_filetype (device_sb image)) n rs es.
  Proof.
    intros H1 H2 H3 H4 H5 slot H6 H7 H8 H9 H10 H11 H12 H13 H14 H15.
    destruct paths_assembled as (devices & d & A & _). exists devices, d.
    destruct (recover_listing_complete_partial (path_block pol) join J (written_contents ws) (array_format_of x) (x_layout x) image assembled_geometry U assembled_image
      d k number a es n hi (assembled_holds devices d A) H1 H2 H3 H4 H5 H6 H7 H8 H9 H10 H11 H12 H13 H14 H15) as (s1 & F & s2 & own & g & fuel & s' & g' & rs & R).
    exists s1, F, s2, own, g, fuel, s', g', rs. split; [exact A|exact R].
  Qed.
End Paths.
Print Assumptions paths_assembled.
Print Assumptions recover_paths_linux_partial.
Print Assumptions recover_paths_complete_partial.
Print Assumptions recover_paths_listing_partial.
Print Assumptions recover_paths_listing_complete_partial.

(** ** Example

    Four block devices of 16384 bytes and physical blocks of 512 or 1024 bytes: the parts of the example's file system, a
    version 1.0 superblock, and rest.  The numbers of the devices differ from their positions, and the paths are not in order.
    One device cannot be read from 3072 to 4095. *)
Definition raw_roles : list N := [2; 0xffff; 0; 1; 0xfffe; 3].
Definition raw_number (i : N) : N := match i with 0 => 2 | 1 => 3 | 2 => 0 | _ => 5 end.
Definition raw_sb (i : N) : bytes :=
  fold_left poke [(0, to_le 4 0xa92b4efc); (4, to_le 4 1); (72, to_le 4 6); (76, to_le 4 2); (80, to_le 8 16); (88, to_le 4 2);
    (92, to_le 4 4); (144, to_le 8 16); (160, to_le 4 (raw_number i)); (200, to_le 8 (20 + i)); (220, to_le 4 6); (256, flat_map (to_le 2) raw_roles)] (zeros 4096).
Definition raw_bytes (i : N) : bytes := torn_part i ++ raw_sb i ++ zeros 4096.
Definition raw_array : md_array := MdArr (Md5 LeftSymmetric) 4 16 2 raw_roles.
Definition raw_path (i : N) : bytes := [x2f; x64; Byte.x61; nth (N.to_nat i) [x30; x31; x32; x33] x00].
Definition raw_open : opener := fun path =>
  match path with
  | [_; _; _; k] =>
      let dev i bs := Ok (OsFile (raw_bytes i) 0 0 true (Ok bs) (Ok 16384)) in
      if Byte.eqb k x30 then dev 0 512 else if Byte.eqb k x31 then dev 1 1024 else if Byte.eqb k x32 then dev 2 512 else dev 3 1024
  | _ => Err (OsError 2)
  end.
Definition raw_pol : bytes -> io_policy := fun path => match path with [_; _; _; x32] => torn_policy | _ => short_policy end.
Definition raw_bs (i : N) : N := if i mod 2 =? 0 then 512 else 1024.
Definition raw_written (i : N) : member_written :=
  MemberWritten i 8192 (raw_bytes i) (pol_bad (raw_pol (raw_path i))) (fun p => pol_bad_block (raw_pol (raw_path i)) (raw_bs i) (p / raw_bs i)).

Lemma raw_len i : i < 4 -> len (raw_bytes i) = 16384.
Proof.
  intros Hi. unfold raw_bytes. rewrite !len_app, torn_part_len, len_zeros by exact Hi.
  assert (E : len (raw_sb i) = 4096) by (assert (i = 0 \/ i = 1 \/ i = 2 \/ i = 3) as [->|[->|[->| ->]]] by lia; vm_compute; reflexivity). rewrite E. reflexivity.
Qed.

Lemma raw_window i : i < 4 -> window (raw_bytes i) 8192 4096 = raw_sb i.
Proof.
  intros Hi. pose proof (torn_part_len i Hi) as L. unfold raw_bytes, window.
  assert (E : len (raw_sb i) = 4096) by (assert (i = 0 \/ i = 1 \/ i = 2 \/ i = 3) as [->|[->|[->| ->]]] by lia; vm_compute; reflexivity).
  assert (Lt : length (torn_part i) = N.to_nat 8192) by (unfold len in L; lia). assert (Ls : length (raw_sb i) = N.to_nat 4096) by (unfold len in E; lia).
  generalize dependent (torn_part i). generalize dependent (raw_sb i). intros b _ Lb t _ Lt.
  rewrite skipn_app, <- Lt, skipn_all, Nat.sub_diag. cbn [List.app skipn]. now rewrite firstn_app, <- Lb, firstn_all, Nat.sub_diag, firstn_O, app_nil_r.
Qed.

Lemma raw_member i : i < 4 -> written_member raw_array open_image (fun _ => zeros 512) i 8192 (raw_bytes i).
Proof.
  intros Hi. unfold written_member, labelled_member. rewrite raw_window, raw_len by exact Hi.
  assert (CS : i = 0 \/ i = 1 \/ i = 2 \/ i = 3) by lia. split; [split; [discriminate|split; [now split|split; [|split]]]|].
  - repeat split; try (destruct CS as [->|[->|[->| ->]]]; vm_compute; reflexivity).
    + vm_compute. discriminate.
    + intros k r E. pose proof (nth_N_some_lt _ _ _ E) as Lk. change (len (x_roles raw_array)) with 6 in Lk.
      assert (Ck : k = 0 \/ k = 1 \/ k = 2 \/ k = 3 \/ k = 4 \/ k = 5) by lia.
      assert (Er : r = nth (N.to_nat k) raw_roles 0) by (destruct Ck as [->|[->|[->|[->|[->| ->]]]]]; injection E as <-; reflexivity). rewrite Er. clear E Er.
      destruct CS as [->|[->|[->| ->]]]; destruct Ck as [->|[->|[->|[->|[->| ->]]]]]; vm_compute; reflexivity.
  - intros [H _]. destruct CS as [->|[->|[->| ->]]]; vm_compute in H; discriminate H.
  - intros [H _]. destruct CS as [->|[->|[->| ->]]]; vm_compute in H; discriminate H.
  - intros t Ht. change (x_size raw_array) with 16 in Ht. cbn [x_layout x_devices x_chunk raw_array].
    pose proof (torn_image torn_policy) as (_ & q & T). destruct (torn_image torn_policy) as (_ & _). clear q T.
    split; [rewrite raw_len by exact Hi; lia|].
    pose proof (flat_window 16 (stored (Md5 LeftSymmetric) 4 2 open_image (fun _ => zeros 512) i) 512 t 0 512 (fun u => torn_stored_len i u Hi) Ht ltac:(lia)) as W.
    rewrite N.add_0_r in W. fold (torn_part i) in W. pose proof (torn_stored_len i t Hi Ht) as Ls. pose proof (torn_part_len i Hi) as Lt.
    assert (W2 : window (raw_bytes i) (t * 512) 512 = window (torn_part i) (t * 512) 512).
    { unfold raw_bytes, window. rewrite skipn_app, firstn_app, skipn_length. unfold len in Lt.
      replace (N.to_nat 512 - (length (torn_part i) - N.to_nat (t * 512)))%nat with 0%nat by lia. now rewrite firstn_O, app_nil_r. }
    rewrite W2, W, <- Ls at 1. now rewrite window_full.
Qed.

Definition raw_ws : list member_written := map raw_written [3; 1; 2; 0].

Lemma short_fails p : ~ pol_bad short_policy p.
Proof. intros (t & n & e & H). discriminate H. Qed.
Lemma raw_fails i : i < 4 -> pol_bad (raw_pol (raw_path i)) = pol_bad torn_policy \/ pol_bad (raw_pol (raw_path i)) = pol_bad short_policy.
Proof. intros Hi. assert (i = 0 \/ i = 1 \/ i = 2 \/ i = 3) as [->|[->|[->| ->]]] by lia; auto. Qed.
Lemma raw_ws_in w : In w raw_ws -> exists i, i < 4 /\ w = raw_written i.
Proof. intros I. apply in_map_iff in I as (i & <- & I). exists i. split; [|reflexivity]. cbn [In] in I. lia. Qed.

Lemma raw_path_holds i : i < 4 -> path_holds raw_pol raw_open (raw_path i) (raw_written i).
Proof.
  intros Hi. exists (raw_bytes i), (raw_bs i).
  assert (E : raw_open (raw_path i) = Ok (OsFile (raw_bytes i) 0 0 true (Ok (raw_bs i)) (Ok 16384)) /\ len (raw_bytes i) / raw_bs i * raw_bs i = 16384 /\ raw_bs i <> 0).
  { rewrite raw_len by exact Hi. assert (i = 0 \/ i = 1 \/ i = 2 \/ i = 3) as [->|[->|[->| ->]]] by lia; repeat split; discriminate. }
  destruct E as (E1 & E2 & E3). split; [|split; [|split; [now intros p|now intros p]]].
  - eexists. split; [exact E1|]. cbn [os_content os_pbsz os_size64]. rewrite raw_len by exact Hi. repeat split; [exact E3|discriminate].
  - rewrite E2. cbn [w_bytes raw_written]. rewrite <- (raw_len i Hi). symmetry. apply window_full.
Qed.

(** The hypotheses of [members_assembled_partial] and of [paths_assembled]. *)
Example raw_assembled_ex : array_ok raw_array /\ image_fills raw_array open_image /\ positions_filled raw_array (map w_position raw_ws) /\
  Forall (written raw_array open_image (fun _ => zeros 512)) raw_ws /\ Forall2 (path_holds raw_pol raw_open) (map raw_path [3; 1; 2; 0]) raw_ws.
Proof.
  split; [split; [now exists 2|]; split; [split; vm_compute; discriminate|]; split; [discriminate|now exists 8]|].
  split; [unfold image_fills; rewrite open_image_len; reflexivity|]. split.
  { split; [repeat constructor; cbn [map w_position raw_written raw_ws In]; intuition discriminate|].
    intros i. cbn [map w_position raw_written raw_ws In]. change (x_devices raw_array) with 4. lia. }
  split.
  - apply Forall_forall. intros w I. destruct (raw_ws_in w I) as (i & Hi & ->). split; [now apply raw_member|]. cbn [w_place w_sbad raw_written]. intros p P B.
    destruct (raw_fails i Hi) as [E|E]; rewrite E in B; [|now apply (short_fails p)]. destruct B as (t & n & e & H). unfold torn_policy in H.
    destruct (N.leb_spec 3072 p), (N.ltb_spec p 4096); cbn [andb] in H; try discriminate H. lia.
  - unfold raw_ws. cbn [map]. repeat (constructor; [apply raw_path_holds; reflexivity|]). constructor.
Qed.

Lemma raw_bad p : array_bad (written_contents raw_ws) (array_format_of raw_array) p -> array_bad (torn_contents torn_policy) torn_format p.
Proof.
  assert (Pl : forall i, raw_bs i = 512 \/ raw_pol (raw_path i) = short_policy \/ 4 <= i).
  { intros i. destruct (N.leb_spec 4 i); [auto|]. assert (i = 0 \/ i = 1 \/ i = 2 \/ i = 3) as [->|[->|[->| ->]]] by lia; auto. }
  intros (i & ct & bad & r & Hi & Ci & Q & B). change (mf_device_count (array_format_of raw_array)) with 4 in *. exists i, (torn_part i). eexists. exists r.
  split; [exact Hi|]. unfold torn_contents. destruct (N.ltb_spec i 4); [|lia]. split; [reflexivity|]. split; [exact Q|].
  unfold written_contents in Ci. destruct (List.find _ raw_ws) as [w|] eqn:Fw; [|discriminate Ci]. apply find_some in Fw as [Iw Eq]. apply N.eqb_eq in Eq.
  destruct (raw_ws_in w Iw) as (j & Hj & ->). cbn [w_position raw_written] in Eq. subst j.
  assert (bad = w_bad (raw_written i)) as -> by (cbn [option_map] in Ci; congruence). cbn [w_bad raw_written] in B.
  destruct (Pl i) as [Pb|[Ps|]]; [rewrite Pb in B|rewrite Ps in B; destruct B as (b & _ & Bb); destruct (short_fails b Bb)|lia].
  destruct B as (b & Q' & Bb). change (pol_bad (raw_pol (raw_path i)) b) in Bb.
  destruct (raw_fails i Hi) as [E|E]; rewrite E in Bb; [exists b; split; [exact Q'|exact Bb]|destruct (short_fails b Bb)].
Qed.

Example recover_paths_ex : exists devices d s1 F s2 own g fuel s' g' calls,
  let st := reader_stream (array_block_io (path_block raw_pol) shared) in
  open_paths raw_pol raw_open 0 (map raw_path [3; 1; 2; 0]) = Ok (devices, []) /\ d = array_open (@rev _) (map at_path devices) /\
  fs_open st (reader_new d) = (s1, Ok F) /\
  open_file st (reader_clone (array_block_io (path_block raw_pol) shared)) F 5 s1 = (s2, Ok (own, AnyRegular g)) /\
  run_file st fuel own g (repeat (zeros 1024) 5) = Some (s', g', calls) /\ len (delivered calls) = 3500 /\
  forall o y, nth_N (delivered calls) o = Some y -> linux_file_byte open_image 5 o y.
Proof.
  pose proof open_image_supported as SU. pose proof (open_image_inode 5 ltac:(cbn; auto)) as DI.
  assert (Jn : joins (@shared (bytes * osfile))) by (intros d d'; now right). destruct raw_assembled_ex as (H1 & H2 & H3 & H4 & H5).
  pose proof (recover_paths_complete_partial raw_pol raw_open (map raw_path [3; 1; 2; 0]) raw_ws raw_array open_image (fun _ => zeros 512) (@rev _)
    ltac:(intros l; apply Permutation_sym, Permutation_rev) H1 H2 open_image_u64 H3 H4 H5 shared Jn 1 5 4096 (repeat (zeros 1024) 5) 4 SU DI) as R.
  cbv zeta in R. rewrite open_slot in R.
  assert (BS : sb4_block_size (device_sb open_image) = 1024) by (vm_compute; reflexivity). rewrite BS in R.
  assert (SZ : slot_size (device_slot open_image 5) = 3500) by (vm_compute; reflexivity). rewrite SZ in R.
  assert (RT : slot_root (device_slot open_image 5) = in_blocks_buffer ex_file) by (vm_compute; reflexivity). rewrite RT in R.
  assert (Im : forall b, b < 16 -> b <> 6 -> b <> 7 -> block_good open_image (array_bad (written_contents raw_ws) (array_format_of raw_array)) 1024 b).
  { intros b L N6 N7. destruct (torn_on_image b L N6 N7) as [G1 G2]. split; [exact G1|]. intros p P B. exact (G2 p P (raw_bad p B)). }
  destruct R as (devices & d & s1 & F & s2 & own & f & fuel & s' & f' & calls & [R0 R0'] & R1 & R2 & R3 & _ & R4 & R5).
  - intros p P B. apply raw_bad, torn_bad in B.
    assert (D0 : sb4_desc_offset (device_sb open_image) 1 <= 6144) by (vm_compute; discriminate).
    assert (S0 : device_slot_offset open_image 5 + sb4_inode_size (device_sb open_image) <= 6144) by (vm_compute; discriminate).
    lia.
  - exact open_usual.
  - exact open_inode_at.
  - vm_compute. reflexivity.
  - vm_compute. reflexivity.
  - exact open_ordered.
  - split; [discriminate|reflexivity].
  - discriminate.
  - apply open_nodes; apply Im; vm_compute; congruence.
  - intros p P. apply open_finds; try exact P; apply Im; vm_compute; congruence.
  - discriminate.
  - apply Forall_forall. intros b Hb. apply repeat_spec in Hb as ->. apply len_zeros.
  - exists devices, d, s1, F, s2, own, f, fuel, s', f', calls. auto 10.
Qed.

(** ** Data that look like a superblock

    Without the condition that they do not, the claim is false: of an array that itself holds a member of another array, or
    an old one, a member may be taken for a member of that one. *)
Definition nested_image : bytes := poke (zeros 16384) (8192, to_le 4 0xa92b4efc ++ to_le 4 1).
Definition nested_stored (i t : N) : bytes := stored (Md5 LeftSymmetric) 4 2 nested_image (fun _ => zeros 512) i t.
Definition nested_bytes : bytes := flat 16 (nested_stored 1) ++ raw_sb 1 ++ zeros 4096.

Theorem data_taken_for_superblock_refuted : exists x image q i o c, array_ok x /\ image_fills x image /\ i < x_devices x /\ 12288 <= len c /\ v10_offset (len c) o /\
  written_superblock x i (window c o 4096) /\ ~ v1_present (window c 0 4096) /\
  (forall t, t < x_size x -> sector_at c t (stored (x_layout x) (x_devices x) (x_chunk x) image q i t)) /\
  exists sb, snd (classify mem_block mem_stream (mem_new c 512)) = Ok (DsSuperblock sb) /\ sb_device_count sb <> x_devices x.
Proof.
  exists raw_array, nested_image, (fun _ => zeros 512), 1, 8192, nested_bytes.
  assert (Li : len nested_image = 16384) by (vm_compute; reflexivity).
  assert (St : forall t, t < 16 -> len (nested_stored 1 t) = 512).
  { intros t Ht. unfold nested_stored. apply stored_len; rewrite ?Li; first [lia|intros; apply len_zeros|now exists 8]. }
  assert (Lf : len (flat 16 (nested_stored 1)) = 8192) by (rewrite (len_flat 16 _ 512) by exact St; reflexivity).
  assert (Lc : len nested_bytes = 16384) by (vm_compute; reflexivity). rewrite Lc.
  split; [split; [now exists 2|]; split; [split; vm_compute; discriminate|]; split; [discriminate|now exists 8]|].
  split; [unfold image_fills; rewrite Li; reflexivity|]. split; [reflexivity|]. split; [discriminate|]. split; [split; [reflexivity|split; [discriminate|reflexivity]]|].
  replace (window nested_bytes 8192 4096) with (raw_sb 1) by (vm_compute; reflexivity).
  split; [pose proof (raw_member 1 ltac:(reflexivity)) as ((_ & _ & W & _) & _); rewrite raw_window in W by reflexivity; exact W|].
  split; [intros [H _]; vm_compute in H; discriminate H|]. split.
  - intros t Ht. change (x_size raw_array) with 16 in Ht. cbn [x_layout x_devices x_chunk raw_array]. fold (nested_stored 1 t).
    split; [rewrite Lc; lia|]. pose proof (flat_window 16 (nested_stored 1) 512 t 0 512 St Ht ltac:(lia)) as W.
    rewrite N.add_0_r in W. pose proof (St t Ht) as Ls.
    assert (W2 : window nested_bytes (t * 512) 512 = window (flat 16 (nested_stored 1)) (t * 512) 512).
    { unfold nested_bytes, window. rewrite skipn_app, firstn_app, skipn_length. unfold len in Lf.
      replace (N.to_nat 512 - (length (flat 16 (nested_stored 1)) - N.to_nat (t * 512)))%nat with 0%nat by lia. now rewrite firstn_O, app_nil_r. }
    rewrite W2, W, <- Ls at 1. now rewrite window_full.
  - assert (K : match snd (classify mem_block mem_stream (mem_new nested_bytes 512)) with Ok (DsSuperblock sb) => sb_device_count sb =? 0 | _ => false end = true)
      by (vm_compute; reflexivity).
    destruct (snd (classify mem_block mem_stream (mem_new nested_bytes 512))) as [[sb| |]|e|]; try discriminate K.
    exists sb. split; [reflexivity|]. apply N.eqb_eq in K. rewrite K. discriminate.
Qed.
Print Assumptions data_taken_for_superblock_refuted.
