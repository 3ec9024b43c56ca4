(** Properties C95 and C96: features that md-recover does not handle; the journal. *)

From Coq Require Import Strings.String.
From Verif Require Import Base BaseFacts Io SpecStream IoFacts SpecMd SuperblockFacts Superblock Ext4Superblock SpecExt4 PropsExt4Superblock
  Ext4Inode SpecExt4Inode Ext4Fs SpecExt4Fs Ext4FsFacts PropsExt4Fs Ext4Extent SpecExt4File Ext4File Ext4FileFacts PropsExt4File
  Ext4Dir SpecExt4Dir PropsExt4Listing PropsExt4Flat PropsExt4Array SpecExt4Open PropsExt4Open SpecExt4Walk PropsExt4Walk SpecExt4Frame PropsExt4Frame SpecExt4Features.

Section Features.
  Context {S : Type} (st : stream S) (c : bytes) (bad : N -> Prop) (at_ : S -> N -> Prop).
  Hypothesis OK : stream_ok st c bad at_.

  (** C95: what is opened has the features that Linux supports, but for three that Linux refuses, and but for a readable
      superblock of a file system that Linux also takes nothing else is refused because of its features than casefold.
      (Partial: those three are not refused.) *)
  Theorem features_linux_partial s s' r : legal at_ s -> 2048 <= len c -> (forall q, 1024 <= q < 2048 -> ~ bad q) ->
    sb4_acceptable (device_sb c) -> sb4_blocks_per_group (device_sb c) <> 0 -> fs_open st s = (s', r) ->
    let features := uint_le (device_sb c) 0x60 4 in
    (forall F, r = Ok F -> has_bit features 6 = true /\ forall k, has_bit features k = true -> In k (linux_incompat ++ not_in_linux) /\ k <> casefold) /\
    ((exists k, has_bit features k = true /\ ~ In k (linux_incompat ++ not_in_linux) \/ has_bit features casefold = true) -> r = Err Unsupported) /\
    ((forall k, has_bit features k = true -> In k linux_incompat /\ k <> casefold) -> has_bit features 6 = true ->
     sb4_desc_size (device_sb c) <> 0 -> sb4_inodes_per_group (device_sb c) <> 0 -> uint_le (device_sb c) 0x48 4 = 0 ->
     sb4_supported (device_sb c)).
  Proof.
    intros A L NB AC B0 E features.
    assert (KN : forall k, In k sb4_known_features <-> In k (linux_incompat ++ not_in_linux) /\ k <> casefold).
    { intros k. unfold sb4_known_features, linux_incompat, not_in_linux, casefold. cbn [app In]. lia. }
    split; [|split].
    - intros F ->. destruct (fs_open_sound st c bad at_ OK _ _ _ A E) as [_ OP]. pose proof (op_supported _ _ _ OP) as SU.
      assert (SB : fs_sb F = device_sb c) by apply (op_sb _ _ _ OP). rewrite SB in SU. split; [apply (su_extents _ SU)|].
      intros k K. apply KN. now apply (su_known _ SU).
    - intros (k & K). apply (fs_open_refuses st c bad at_ OK s s' r A L NB AC); [|exact B0|exact E]. intros SU. fold (device_sb c) in SU.
      destruct K as [[K N]|K].
      + apply N. apply KN. now apply (su_known _ SU).
      + apply (su_known _ SU) in K. apply KN in K. now destruct K.
    - intros K X D I O. constructor; auto. intros k H. apply KN. apply K in H. split; [apply in_app_iff; now left|apply H].
  Qed.
End Features.
Print Assumptions features_linux_partial.

(** ** The journal *)
Lemma window_poke c o b p n : o + len b <= len c -> p + n <= len c -> p + n <= o \/ o + len b <= p -> window (poke c (o, b)) p n = window c p n.
Proof.
  intros L P D. apply list_ext_N.
  - rewrite !len_window_in; rewrite ?len_poke; auto.
  - intros i I. rewrite len_window_in in I by (rewrite len_poke; auto). rewrite !nth_N_window by exact I. rewrite nth_poke by exact L.
    destruct (N.leb_spec o (p + i)), (N.ltb_spec (p + i) (o + len b)); cbn [andb]; try reflexivity. lia.
Qed.

Lemma replayed_window bs ws : forall c p n, Forall (fun '(q, b) => len b = bs /\ (q + 1) * bs <= len c) ws -> p + n <= len c -> untouched bs ws p n ->
  len (replayed bs c ws) = len c /\ window (replayed bs c ws) p n = window c p n.
Proof.
  induction ws as [|[q b] ws IH]; intros c p n W P U; [split; reflexivity|].
  pose proof (Forall_inv W) as [W1 W2]. pose proof (Forall_inv_tail W) as W3. pose proof (Forall_inv U) as U1. pose proof (Forall_inv_tail U) as U2. cbv beta iota in U1. cbn [replayed fold_left]. fold (replayed bs (poke c (q * bs, b)) ws).
  assert (L : q * bs + len b <= len c) by lia. pose proof (len_poke c (q * bs) b L) as LP.
  destruct (IH (poke c (q * bs, b)) p n) as [I1 I2]; rewrite ?LP; auto.
  rewrite I1, I2, LP. split; [reflexivity|]. apply window_poke; [exact L|exact P|]. lia.
Qed.

Section Journal.
  Context {S S' : Type} (st : stream S) (c : bytes) (bad : N -> Prop) (at_ : S -> N -> Prop)
    (ws : list (N * bytes)) (st' : stream S') (at_' : S' -> N -> Prop).
  Notation bs := (sb4_block_size (device_sb c)).
  Hypothesis OK : stream_ok st c bad at_.
  Hypothesis OK' : stream_ok st' (replayed bs c ws) bad at_'.
  Context (clone : S -> S * res S) (clone' : S' -> S' * res S').
  Hypothesis CL : forall s s' r, legal at_ s -> clone s = (s', r) -> legal at_ s' /\ r <> Panic /\ (forall t, r = Ok t -> legal at_ t).
  Hypothesis CL' : forall s s' r, legal at_' s -> clone' s = (s', r) -> legal at_' s' /\ r <> Panic /\ (forall t, r = Ok t -> legal at_' t).

  (** C96: whatever the journal still has to write, a file that it does not touch is served as after the writes. *)
  Theorem journal_untouched_partial s s' k number : legal at_ s -> legal at_' s' ->
    (forall s, legal at_ s -> exists s1 t, clone s = (s1, Ok t)) -> (forall s, legal at_' s -> exists s1 t, clone' s = (s1, Ok t)) ->
    device_supported c k -> device_inode c k number -> Forall (fun '(q, b) => len b = bs /\ (q + 1) * bs <= len c) ws -> kept c bad ws k number ->
    exists s1 F s2 r s1' F' s2' r',
      fs_open st s = (s1, Ok F) /\ open_file st clone F number s1 = (s2, r) /\
      fs_open st' s' = (s1', Ok F') /\ open_file st' clone' F' number s1' = (s2', r') /\ same_results st c st' r r'.
  Proof.
    intros A A' CT CT' SU DI W [MG K1 K2 K3 K4]. set (c' := replayed bs c ws) in *.
    assert (LC : len c' = len c).
    { apply (replayed_window bs ws c 0 0 W); [lia|]. clear - W. unfold untouched. induction W as [|[q b] l H W IH]; constructor; [lia|exact IH]. }
    assert (AL : forall o n, o + n <= len c -> untouched bs ws o n -> (forall q, o <= q < o + n -> ~ bad q) -> alike c bad c' bad o n).
    { intros o n L UT NB. unfold alike. rewrite LC. split; [exact L|]. split; [exact L|]. split.
      - symmetry. now apply (replayed_window bs ws c o n W L UT).
      - intros q Q. split; now apply NB. }
    pose proof SU as (L & U & _ & _ & _ & TB & _). pose proof DI as (_ & _ & IN & _).
    assert (OFF : sb4_desc_offset (device_sb c) k = sb4_desc_offset (device_sb c) 0 + k * sb4_desc_size (device_sb c)).
    { unfold sb4_desc_offset. lia. }
    apply (served_elsewhere st c bad at_ st' c' bad at_' OK OK' clone clone' CL CL' s s' k number A A' CT CT'); auto.
    - now rewrite LC.
    - constructor.
      + apply AL; [lia|exact K1|]. intros q Q. apply MG. lia.
      + apply AL; [lia|exact K2|]. intros q Q. apply MG. rewrite OFF. lia.
      + apply AL; [lia|exact K3|]. intros q Q. apply MG. lia.
      + cbv zeta in *. intros BE. destruct (K4 BE) as (l & Wk & H). exists l. split; [exact Wk|]. intros q Q. destruct (H q Q) as [[G1 G2] G3].
        apply AL; [lia| |].
        * unfold untouched. apply Forall_forall. intros [x b] IN'.
          assert (x <> q). { intros ->. apply G3. apply in_map_iff. now exists (q, b). }
          destruct (N.lt_ge_cases x q) as [X|X]; [right|left].
          { apply N.mul_le_mono_r. lia. }
          { pose proof (N.mul_le_mono_r (q + 1) x bs ltac:(lia)). lia. }
        * intros p P. apply G2. lia.
  Qed.
End Journal.
Print Assumptions journal_untouched_partial.

(** ** Examples and refutations *)

(** C95: a file system that claims to be an external journal, and to have compressed files and Lustre's directory data, is opened. *)
Definition foreign_image : bytes := poke open_image (1120, to_le 4 (0xc0 + 1 + 8 + 0x1000)).
Theorem features_linux_refuted : exists s F,
  fs_open mem_stream (mem_new foreign_image 512) = (s, Ok F) /\
  Forall (fun k => has_bit (uint_le (device_sb foreign_image) 0x60 4) k = true /\ ~ In k linux_incompat) not_in_linux.
Proof.
  eexists. eexists. split; [vm_compute; reflexivity|].
  repeat constructor; try (vm_compute; reflexivity); unfold linux_incompat; cbn [In]; lia.
Qed.
Print Assumptions features_linux_refuted.

(** A feature that nobody knows, and casefold. *)
Example features_linux_ex :
  snd (fs_open mem_stream (mem_new (poke open_image (1120, to_le 4 (0xc0 + 2 ^ 25))) 512)) = Err Unsupported /\
  snd (fs_open mem_stream (mem_new (poke open_image (1120, to_le 4 (0xc0 + 2 ^ casefold))) 512)) = Err Unsupported /\
  exists F, snd (fs_open mem_stream (mem_new open_image 512)) = Ok F /\ sb4_acceptable (device_sb open_image) /\
    sb4_blocks_per_group (device_sb open_image) <> 0 /\ (forall k, In k [6; 7] <-> has_bit (uint_le (device_sb open_image) 0x60 4) k = true).
Proof.
  split; [vm_compute; reflexivity|]. split; [vm_compute; reflexivity|]. eexists. split; [vm_compute; reflexivity|].
  split; [apply open_image_supported|]. split; [vm_compute; congruence|].
  intros k. replace (uint_le (device_sb open_image) 0x60 4) with 192 by (vm_compute; reflexivity). unfold has_bit. split.
  - intros [<-|[<-|[]]]; reflexivity.
  - intros H. assert (K : k < 8).
    { destruct (N.lt_ge_cases k 8) as [K|K]; [exact K|]. rewrite N.bits_above_log2 in H; [discriminate H|]. change (N.log2 192) with 7. lia. }
    assert (X : k = 0 \/ k = 1 \/ k = 2 \/ k = 3 \/ k = 4 \/ k = 5 \/ k = 6 \/ k = 7) by lia.
    cbn [In]. repeat (destruct X as [->|X]; [try discriminate H; auto|]). subst k. auto.
Qed.

(** C94, C95: an image with the feature for encryption; as inode 9 the file that the first image has as inode 5, but
    encrypted, with other permissions, owner, times and attributes. *)
Definition sealed_image : bytes :=
  fold_left poke [(1120, to_le 4 0x100c0);
    (5120, fold_left poke [(2, to_le 2 1000); (8, to_le 4 7); (12, to_le 4 9); (0x20, to_le 4 (0x80000 + 0x800)); (0xa0, repeat xee 96)]
             (ex_slot 0x8180 3500 0 (in_blocks_buffer ex_file)))] open_image.

Lemma sealed_image_len : len sealed_image = 16384.
Proof. vm_compute. reflexivity. Qed.
Lemma sealed_image_ok : stream_ok mem_stream sealed_image no_bad (mem_at sealed_image 512).
Proof. apply mem_stream_ok. rewrite sealed_image_len. discriminate. Qed.
Lemma sealed_image_start : legal (mem_at sealed_image 512) (mem_new sealed_image 512).
Proof. exists 0. repeat split. rewrite sealed_image_len. discriminate. Qed.
Lemma supported_by_computation c k s F : u64_ok (len c) -> fs_open mem_stream (mem_new c 512) = (s, Ok F) -> len (fs_groups F) = k -> k <> 0 ->
  k * 60 <= i64_max -> device_supported c k.
Proof.
  intros U E K K0 AL. pose proof (opened_by_computation c s F U E) as O. unfold device_supported.
  assert (SB : fs_sb F = device_sb c) by apply (op_sb _ _ _ O). rewrite <- SB.
  split; [apply (op_len _ _ _ O)|]. split; [exact U|]. split; [apply (op_acceptable _ _ _ O)|]. split; [apply (op_supported _ _ _ O)|].
  split; [rewrite <- K; apply (op_count _ _ _ O)|]. split; [|exact AL]. rewrite <- K. apply (op_table _ _ _ O). now rewrite K.
Qed.
Lemma sealed_image_supported : device_supported sealed_image 1.
Proof. eapply supported_by_computation; [rewrite sealed_image_len; discriminate|vm_compute; reflexivity|reflexivity|discriminate|discriminate]. Qed.
Lemma sealed_image_inode : device_inode sealed_image 1 9.
Proof. vm_compute. repeat split; discriminate. Qed.

Lemma sealed_same_file : same_file open_image no_bad 5 sealed_image no_bad 9.
Proof.
  constructor; try (vm_compute; reflexivity).
  - intros seed. unfold inode_seed. replace (has_bit (uint_le (device_sb sealed_image) 0x64 4) 10) with false by (vm_compute; reflexivity).
    replace (has_bit (uint_le (device_sb open_image) 0x64 4) 10) with false by (vm_compute; reflexivity). auto.
  - intros bs _. replace bs with 1024 by (vm_compute; reflexivity). exists ex_steps. split; [exact ex_steps_walk|].
    intros q (k & Q). assert (In q [8; 9; 10; 11; 12; 14]) as H.
    { cbn [In ex_steps] in Q. repeat (destruct Q as [Q|Q]); try discriminate Q; try contradiction; injection Q as <- _; cbn; tauto. }
    clear Q k. unfold alike. rewrite open_image_len, sealed_image_len. cbn [In] in H.
    repeat (destruct H as [<-|H]); try contradiction; (split; [discriminate|]; split; [discriminate|]; split; [vm_compute; reflexivity|]; auto).
Qed.

Example served_alike_ex : same_file open_image no_bad 5 sealed_image no_bad 9 /\ device_slot open_image 5 <> device_slot sealed_image 9 /\
  device_sb open_image <> device_sb sealed_image /\
  device_supported open_image 1 /\ device_inode open_image 1 5 /\ device_supported sealed_image 1 /\ device_inode sealed_image 1 9 /\
  forall s1 F s2 own f s1' F' s2' own' f', fs_open mem_stream (mem_new open_image 512) = (s1, Ok F) ->
    open_file mem_stream mem_clone F 5 s1 = (s2, Ok (own, AnyRegular f)) ->
    fs_open mem_stream (mem_new sealed_image 512) = (s1', Ok F') -> open_file mem_stream mem_clone F' 9 s1' = (s2', Ok (own', AnyRegular f')) ->
    forall fuel bufs x f1 calls x' f1' calls', Forall (fun buf => len buf <= 1024) bufs ->
      run_file mem_stream fuel own f bufs = Some (x, f1, calls) -> run_file mem_stream fuel own' f' bufs = Some (x', f1', calls') -> calls = calls'.
Proof.
  split; [exact sealed_same_file|].
  split. { intros E. apply (f_equal (fun b => window b 0 1)) in E. vm_compute in E. discriminate E. }
  split. { intros E. apply (f_equal (fun b => window b 0x62 1)) in E. vm_compute in E. discriminate E. }
  split; [exact open_image_supported|]. split; [apply open_image_inode; cbn; auto|]. split; [exact sealed_image_supported|]. split; [exact sealed_image_inode|].
  intros s1 F s2 own f s1' F' s2' own' f' FO OF FO' OF' fuel bufs x f1 calls x' f1' calls' LB R R'.
  destruct (served_alike mem_stream open_image no_bad (mem_at open_image 512) mem_stream sealed_image no_bad (mem_at sealed_image 512)
    open_image_ok sealed_image_ok mem_clone mem_clone (mem_clone_ok open_image 512) (mem_clone_ok sealed_image 512)
    (mem_new open_image 512) (mem_new sealed_image 512) 1 1 5 9 open_image_start sealed_image_start (mem_clone_there _ _) (mem_clone_there _ _)
    open_image_supported (open_image_inode 5 ltac:(cbn; auto)) (fun _ _ H => H) sealed_image_supported sealed_image_inode (fun _ _ H => H) sealed_same_file)
    as (t1 & G & t2 & r & t1' & G' & t2' & r' & H1 & H2 & H3 & H4 & H).
  rewrite FO in H1. injection H1 as <- <-. rewrite OF in H2. injection H2 as <- <-.
  rewrite FO' in H3. injection H3 as <- <-. rewrite OF' in H4. injection H4 as <- <-.
  eapply H; [|exact R|exact R'].
  replace (sb4_block_size (device_sb open_image)) with 1024 by (vm_compute; reflexivity). exact LB.
Qed.

(** C95: encrypted files are read as if they were not. *)
Theorem encrypted_refuted : exists s1 F s2 own f s' f' calls,
  has_bit (uint_le (device_sb sealed_image) 0x60 4) 16 = true /\ slot_encrypted (device_slot sealed_image 9) = true /\
  fs_open mem_stream (mem_new sealed_image 512) = (s1, Ok F) /\ open_file mem_stream mem_clone F 9 s1 = (s2, Ok (own, AnyRegular f)) /\
  run_file mem_stream 10 own f (repeat (zeros 1024) 5) = Some (s', f', calls) /\
  delivered calls = file_content sealed_image 1024 3500 [12; 14; 8; 9] /\ Forall (fun '(_, _, r) => is_ok r) calls.
Proof.
  do 8 eexists. split; [vm_compute; reflexivity|]. split; [vm_compute; reflexivity|]. split; [vm_compute; reflexivity|].
  split; [vm_compute; reflexivity|]. split; [vm_compute; reflexivity|]. split; [vm_compute; reflexivity|].
  repeat constructor.
Qed.
Print Assumptions encrypted_refuted.

(** C96: the image with a journal of four blocks as inode 8, and in it a committed write to block 12, which is the first one
    of inode 5. *)
Definition to_be (w : nat) (v : N) : bytes := rev (to_le w v).
Definition jbd_block (type seq : N) (rest : bytes) : bytes :=
  let b := to_be 4 jbd_magic ++ to_be 4 type ++ to_be 4 seq ++ rest in b ++ zeros (1024 - len b).
Definition journal_blocks : list bytes :=
  [jbd_block 4 0 (to_be 4 1024 ++ to_be 4 4 ++ to_be 4 1 ++ to_be 4 7 ++ to_be 4 1);
   jbd_block 1 7 (to_be 4 12 ++ to_be 2 0 ++ to_be 2 8 ++ repeat x55 16);
   repeat xaa 1024;
   jbd_block 2 7 []].
Definition journal_image : bytes :=
  fold_left poke [(1028, to_le 4 20); (1120, to_le 4 0xc4); (4864, ex_slot 0x8180 4096 0x80000 (ex_root (ex_header 1 4 0 ++ ex_extent 0 4 16)))] open_image ++
  concat journal_blocks.

Lemma journal_image_len : len journal_image = 20480.
Proof. vm_compute. reflexivity. Qed.
Lemma journal_image_supported : device_supported journal_image 1.
Proof. eapply supported_by_computation; [rewrite journal_image_len; discriminate|vm_compute; reflexivity|reflexivity|discriminate|discriminate]. Qed.
Lemma journal_good q : q < 20 -> block_good journal_image no_bad 1024 q.
Proof. intros Q. split; [rewrite journal_image_len; lia|auto]. Qed.

(** The writes of the journal of a device: those of the content of inode 8. *)
Definition pending_writes (c : bytes) (ws : list (N * bytes)) : Prop :=
  let bs := sb4_block_size (device_sb c) in
  exists l, maps c bs 32767 (block_good c no_bad bs) (slot_root (device_slot c 8)) 0 l /\ ws = journal_writes (map (device_block c bs) l).

Lemma journal_image_writes : pending_writes journal_image [(12, repeat xaa 1024)].
Proof.
  exists [16; 17; 18; 19]. replace (sb4_block_size (device_sb journal_image)) with 1024 by (vm_compute; reflexivity). split.
  - apply maps_leaf; [vm_compute; congruence|vm_compute; congruence|].
    replace (entries_of _) with [ex_extent 0 4 16] by (vm_compute; reflexivity).
    cbn [extents_map]. split; [reflexivity|]. split; [vm_compute; congruence|]. split; [vm_compute; congruence|].
    exists []. split; reflexivity.
  - vm_compute. reflexivity.
Qed.

(** C96: files are not read as after the recovery of the journal: the journal is ignored, also if it is needed. *)
Theorem journal_refuted : exists ws s1 F s2 own f s' f' calls,
  needs_recovery (device_sb journal_image) = true /\ pending_writes journal_image ws /\
  fs_open mem_stream (mem_new journal_image 512) = (s1, Ok F) /\ open_file mem_stream mem_clone F 5 s1 = (s2, Ok (own, AnyRegular f)) /\
  run_file mem_stream 10 own f (repeat (zeros 1024) 5) = Some (s', f', calls) /\ Forall (fun '(_, _, r) => is_ok r) calls /\
  device_slot (replayed 1024 journal_image ws) 5 = device_slot journal_image 5 /\
  delivered calls <> file_content (replayed 1024 journal_image ws) 1024 3500 [12; 14; 8; 9].
Proof.
  exists [(12, repeat xaa 1024)]. do 8 eexists. split; [vm_compute; reflexivity|]. split; [exact journal_image_writes|].
  split; [vm_compute; reflexivity|]. split; [vm_compute; reflexivity|]. split; [vm_compute; reflexivity|]. split; [repeat constructor|].
  split; [vm_compute; reflexivity|]. intros E. apply (f_equal (fun b => window b 0 1)) in E. vm_compute in E. discriminate E.
Qed.
Print Assumptions journal_refuted.

(** Inode 6, a directory, is not touched by that write. *)
Lemma journal_kept : kept journal_image no_bad [(12, repeat xaa 1024)] 1 6.
Proof.
  constructor.
  - intros q _ H. exact H.
  - constructor; [left; vm_compute; congruence|constructor].
  - constructor; [left; vm_compute; congruence|constructor].
  - constructor; [left; vm_compute; congruence|constructor].
  - cbv zeta. intros _. replace (sb4_block_size (device_sb journal_image)) with 1024 by (vm_compute; reflexivity). exists [Expect 0 1; Data 15 0]. split.
    + replace [Expect 0 1; Data 15 0] with (leaf_steps (entries_of (slot_root (device_slot journal_image 6)))) by (vm_compute; reflexivity).
      apply walk_leaf; vm_compute; congruence.
    + intros q (k & Q). assert (q = 15) as ->.
      { cbn [In] in Q. repeat (destruct Q as [Q|Q]); try discriminate Q; try contradiction; injection Q as <- _; reflexivity. }
      split; [now apply journal_good|]. cbn. intros [H|[]]. discriminate H.
Qed.

Example journal_untouched_ex : pending_writes journal_image [(12, repeat xaa 1024)] /\ kept journal_image no_bad [(12, repeat xaa 1024)] 1 6 /\
  device_supported journal_image 1 /\ device_inode journal_image 1 6 /\
  Forall (fun '(q, b) => len b = 1024 /\ (q + 1) * 1024 <= len journal_image) [(12, repeat xaa 1024)] /\
  sb4_block_size (device_sb journal_image) = 1024.
Proof.
  split; [exact journal_image_writes|]. split; [exact journal_kept|]. split; [exact journal_image_supported|].
  split; [vm_compute; repeat split; discriminate|]. split; [|vm_compute; reflexivity].
  constructor; [|constructor]. rewrite journal_image_len. split; [vm_compute; reflexivity|discriminate].
Qed.
