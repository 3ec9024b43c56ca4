(** C49 to C55, C66: extents, and reading files. *)

From Coq Require Import Strings.String.
From Verif Require Import Base BaseFacts Io SpecStream IoFacts SpecMd SuperblockFacts Superblock Crc SpecCrc CrcFacts PropsCrc
  Ext4Superblock SpecExt4 PropsExt4Superblock Ext4Inode SpecExt4Inode PropsExt4Inode Ext4Fs SpecExt4Fs Ext4FsFacts
  PropsExt4Fs Ext4Extent Ext4File SpecExt4File Ext4FileFacts.

Local Opaque read_exact.

(** ** C49: entries *)

(** Every entry is decoded as published, but for extents of exactly 32768 blocks. *)
Theorem extent_decoded_partial e :
  ex_first_file_block e = extent_first e /\ ex_first_fs_block e = extent_start e /\
  ix_block e = index_first e /\ ix_leaf e = index_child e /\
  (extent_value e <> 32768 ->
   ex_length e = extent_blocks e /\ (ex_initialized e = true <-> extent_written e)).
Proof.
  split; [apply ex_first_spec|]. split; [apply ex_start_spec|]. split; [apply ix_first_spec|]. split; [apply ix_child_spec|].
  intros V. split; [now apply ex_length_blocks|]. unfold ex_initialized, extent_written. fle_field. fold (extent_value e).
  pose proof (extent_value_bound e) as B. set (v := extent_value e) in *. clearbody v.
  assert (L : N.land v 0x8000 = if v <? 32768 then 0 else 32768).
  { apply N.bits_inj. intros k. rewrite N.land_spec. change 0x8000 with (2 ^ 15). rewrite N.pow2_bits_eqb.
    destruct (N.ltb_spec v (2 ^ 15)) as [H|H].
    - rewrite N.bits_0. destruct (N.eqb_spec 15 k) as [<-|]; [|apply andb_false_r].
      rewrite (proj1 (CrcFacts.bits_bound v 15)); [reflexivity|exact H|lia].
    - rewrite N.pow2_bits_eqb. destruct (N.eqb_spec 15 k) as [<-|]; [|apply andb_false_r]. rewrite andb_true_r.
      rewrite N.testbit_true. assert (v / 2 ^ 15 = 1) as ->; [|reflexivity].
      symmetry. apply (N.div_unique v (2 ^ 15) 1 (v - 2 ^ 15)); change (2 ^ 15) with 32768 in *; lia. }
  rewrite L. destruct (N.ltb_spec v 32768); cbn [N.eqb negb]; [split; [lia|reflexivity]|].
  split; [discriminate|]. lia.
Qed.
Print Assumptions extent_decoded_partial.

Example extent_decoded_ex :
  let e := to_le 4 7 ++ to_le 2 32770 ++ to_le 2 1 ++ to_le 4 0x30 in
  extent_value e <> 32768 /\ ex_first_file_block e = 7 /\ ex_length e = 2 /\ ex_initialized e = false /\
  ex_first_fs_block e = 0x100000030.
Proof. vm_compute. repeat split. congruence. Qed.

(** An initialised extent of the maximal length counts as an unwritten one of no blocks. *)
Theorem extent_max_length_refuted :
  ~ (forall e, len e = 12 -> ex_length e = extent_blocks e) /\
  ~ (forall e, len e = 12 -> extent_written e -> ex_initialized e = true).
Proof.
  set (e := to_le 4 0 ++ to_le 2 32768 ++ to_le 2 0 ++ to_le 4 100).
  split; intros H; specialize (H e eq_refl).
  - vm_compute in H. discriminate.
  - assert (W : extent_written e) by (vm_compute; congruence). specialize (H W). vm_compute in H. discriminate.
Qed.
Print Assumptions extent_max_length_refuted.

(** ** C55: verification of extent blocks *)

(** What it accepts: the checksum is expected behind the last entry that is in use. *)
Theorem extent_valid_iff b seed : exists v, nd_valid (Node b seed) = Ok v /\
  (v = true <-> 12 <= len b /\ uint_le b 0 2 = 0xf30a /\
   match seed with
   | None => 12 + 12 * node_entries b <= len b
   | Some s => 12 + 12 * node_entries b + 4 <= len b /\
       uint_le b (12 + 12 * node_entries b) 4 = ext4_crc32c s (window b 0 (12 + 12 * node_entries b))
   end).
Proof.
  unfold nd_valid. cbn [nd_storage nd_seed]. change (layout_size header_layout) with 12. change (layout_size tail_layout) with 4.
  destruct (N.ltb_spec (len b) 12) as [L|L]; [exists false; split; [reflexivity|split; [discriminate|lia]]|].
  fle_field. destruct (N.eqb_spec (uint_le b 0 2) 0xf30a) as [M|M]; cbn [negb];
    [|exists false; split; [reflexivity|split; [discriminate|tauto]]].
  unfold nd_entries_size. rewrite nd_count_spec. change (layout_size index_layout) with 12.
  unfold slice_from at 1. destruct (N.leb_spec 12 (len b)); [|lia]. cbn [unwrap rbind]. rewrite len_skipn.
  change (N.of_nat (N.to_nat 12)) with 12. set (k := node_entries b).
  destruct (N.ltb_spec (len b - 12) (k * 12 + match seed with Some _ => 4 | None => 0 end)) as [S|S].
  { exists false. split; [reflexivity|]. split; [discriminate|]. destruct seed; lia. }
  destruct seed as [s|].
  - unfold slice_to. destruct (N.leb_spec (12 + k * 12) (len b)); [|lia]. cbn [unwrap rbind].
    unfold slice_from. rewrite len_skipn. change (N.of_nat (N.to_nat 12)) with 12.
    destruct (N.leb_spec (k * 12) (len b - 12)); [|lia]. cbn [unwrap rbind]. eexists. split; [reflexivity|].
    fle_field. rewrite N.eqb_eq. rewrite uint_le_window.
    assert (W : window (skipn (N.to_nat (k * 12)) (skipn (N.to_nat 12) b)) 0 (N.of_nat 4) = window b (12 + 12 * k) (N.of_nat 4)).
    { unfold window. cbn [N.to_nat skipn]. rewrite !skipn_skipn'. f_equal. f_equal. lia. }
    rewrite W, <- uint_le_window. change (firstn (N.to_nat (12 + k * 12)) b) with (window b 0 (12 + k * 12)).
    rewrite (N.mul_comm k). intuition lia.
  - exists true. split; [reflexivity|]. split; [lia|reflexivity].
Qed.
Print Assumptions extent_valid_iff.

(** Full blocks are accepted just when ext4 accepts them. *)
Theorem extent_valid_full_partial b seed : match seed with Some s => s < 2 ^ 32 | None => True end ->
  node_entries b = node_max b ->
  (nd_valid (Node b seed) = Ok true <-> extent_block_ok seed b).
Proof.
  intros SB E. destruct (extent_valid_iff b seed) as (v & V & H). rewrite V.
  assert (T : Ok v = Ok true <-> v = true) by (split; [now injection 1|now intros ->]). rewrite T, H. clear T H V v.
  unfold extent_block_ok. rewrite E. destruct seed as [s|].
  - rewrite crc32c_is_remainder by exact SB. intuition lia.
  - intuition lia.
Qed.
Print Assumptions extent_valid_full_partial.

(** ** Parts of file systems for the examples *)
Definition ex_header (entries max depth : N) : bytes :=
  to_le 2 0xf30a ++ to_le 2 entries ++ to_le 2 max ++ to_le 2 depth ++ zeros 4.
Definition ex_extent (first length start : N) : bytes := to_le 4 first ++ to_le 2 length ++ to_le 2 0 ++ to_le 4 start.
Definition ex_index (first leaf : N) : bytes := to_le 4 first ++ to_le 4 leaf ++ zeros 4.
Definition ex_inode (root : bytes) (size : N) : inode :=
  Inode (fold_left poke [(0x4, to_le 4 size); (0x20, to_le 4 0x80000); (0x28, root)] (zeros 160)) None.
Definition ex_root (b : bytes) : bytes := b ++ zeros (60 - len b).
Definition ex_fs : fs := Fs small_sb [bg_new small_desc].

(** A leaf block of blocks of 1024 bytes has room for 84 entries; two in use, and the checksum where ext4 puts it. *)
Definition ex_leaf_block : bytes :=
  let b := ex_header 2 84 0 ++ ex_extent 0 1 12 ++ ex_extent 1 1 14 ++ zeros 984 in
  b ++ to_le 4 (ext4_crc32c 5 b).

Example extent_valid_ex : exists b, len b = 1024 /\ node_entries b = node_max b /\ nd_valid (Node b (Some 5)) = Ok true.
Proof.
  exists (let b := ex_header 2 2 0 ++ ex_extent 0 1 12 ++ ex_extent 1 1 14 in b ++ to_le 4 (ext4_crc32c 5 b) ++ zeros 984).
  vm_compute. repeat split.
Qed.

(** C55: the claim itself is false: a block that is not full is rejected, although ext4 accepts it. *)
Theorem extent_valid_refuted : ~ (forall b seed, seed < 2 ^ 32 -> len b = 1024 -> extent_block_ok (Some seed) b ->
  nd_valid (Node b (Some seed)) = Ok true).
Proof.
  intros H. specialize (H ex_leaf_block 5 eq_refl eq_refl).
  assert (O : extent_block_ok (Some 5) ex_leaf_block).
  { split; [vm_compute; reflexivity|]. split; [vm_compute; congruence|]. split; [vm_compute; congruence|].
    apply crc32c_is_remainder; vm_compute; reflexivity. }
  specialize (H O). vm_compute in H. discriminate.
Qed.
Print Assumptions extent_valid_refuted.

(** ** C50 to C54: files *)

Lemma in_root_len I : len (in_storage I) = 160 -> len (in_blocks_buffer I) = 60.
Proof. intros L. unfold in_blocks_buffer, fbytes. cbn. apply len_window_in. rewrite L. vm_compute. congruence. Qed.

Section File.
  Context {S : Type} (st : stream S) (c : bytes) (bad : N -> Prop) (at_ : S -> N -> Prop).
  Hypothesis OK : stream_ok st c bad at_.
  Notation legal := (legal at_).
  Context (F : fs) (I : inode).
  Hypothesis OP : opened c (fs_sb F) (fs_groups F).
  Hypothesis IL : len (in_storage I) = 160.
  Notation bs := (sb4_block_size (fs_sb F)).
  Notation root := (in_blocks_buffer I).
  Notation size := (in_file_size_bytes I).
  Notation file_ok := (file_ok c F I).

  Lemma open_ok f : file_open F I = Ok f ->
    f = File F I [STree (from_internal (Node root None)) 0] 0 0 /\ file_ok f.
  Proof.
    unfold file_open, tree_from_inode. destruct (contains _ _ && _); [|discriminate]. cbn [ok_or rbind]. intros E.
    injection E as <-. split; [reflexivity|]. constructor; try reflexivity; cbn [fl_stack fl_block fl_byte].
    - cbn [stack_ok]. constructor; [|constructor]. exists root, None. split; [reflexivity|]. split; [apply reach_root|].
      rewrite (in_root_len I IL). discriminate.
    - lia.
    - discriminate.
  Qed.

  Lemma read_call_ok fuel s f buf s' f' buf' r : legal s -> file_ok f -> read_next_block st fuel s f buf = Some (s', f', buf', r) ->
    legal s' /\ ((r = Err InvalidInput /\ f' = f /\ buf' = buf /\ len buf < bs) \/ (bs <= len buf /\ outcome c F I f buf f' buf' r)).
  Proof.
    intros A FO E. unfold read_next_block, file_block_size in E. rewrite (fo_fs _ _ _ _ FO), (fs_block_size_ok c F OP) in E.
    destruct (N.ltb_spec (len buf) bs) as [L|L].
    - injection E as <- <- <- <-. split; [exact A|]. left. auto.
    - destruct (loop_ok st c bad at_ OK F I OP _ _ _ _ _ _ _ _ A FO L E) as [Lg O]. auto.
  Qed.

  (** C51: in every history of calls, whatever the tree and whatever read errors there are, blocks are those mapped for
      the next position, and there is never more than the size of the file. *)
  Theorem file_sound fuel s f bufs s' f' calls : legal s -> file_open F I = Ok f ->
    run_file st fuel s f bufs = Some (s', f', calls) -> answers c bs root size 0 0 calls.
  Proof.
    intros A FO E. apply open_ok in FO as [FE FO]. 
    assert (X : forall s f, legal s -> file_ok f -> run_file st fuel s f bufs = Some (s', f', calls) ->
                answers c bs root size (fl_block f) (fl_byte f) calls).
    { clear s f A FE FO E. revert calls. induction bufs as [|buf bufs IH]; intros calls s f A FO E; cbn [run_file] in E.
      - injection E as <- <- <-. constructor.
      - destruct (read_next_block st fuel s f buf) as [[[[s1 f1] buf1] r1]|] eqn:R; [|discriminate].
        destruct (read_call_ok _ _ _ _ _ _ _ _ A FO R) as [Lg O].
        assert (Y : forall r, r1 = r -> r <> Panic -> file_ok f1 -> exists calls', calls = (buf, buf1, r) :: calls' /\
                      answers c bs root size (fl_block f1) (fl_byte f1) calls').
        { intros r -> NP FO1. destruct r as [k|e|]; [| |congruence];
            (destruct (run_file st fuel s1 f1 bufs) as [[[s2 f2] calls2]|] eqn:R2; [|discriminate];
             injection E as -> -> <-; exists calls2; split; [reflexivity|]; now apply (IH calls2 s1 f1)). }
        destruct O as [(-> & -> & -> & L)|[L O]].
        + destruct (Y _ eq_refl ltac:(discriminate) FO) as (calls' & -> & AN). now apply answers_error.
        + unfold outcome in O. destruct r1 as [k|e|].
          * destruct O as [FO1 O]. destruct (Y _ eq_refl ltac:(discriminate) FO1) as (calls' & -> & AN).
            destruct O as [(-> & B & T & -> & Z & _)|(q & M & IN & -> & LT & -> & B & T)].
            { rewrite B, T in AN. now apply answers_end. }
            { rewrite B, T in AN. eapply answers_block; eauto. }
          * destruct O as (FO1 & B & T & LB). destruct (Y _ eq_refl ltac:(discriminate) FO1) as (calls' & -> & AN).
            rewrite B, T in AN. now apply answers_error.
          * injection E as <- <- <-. now apply answers_panic. }
    specialize (X s f A FO E). rewrite FE in X. exact X.
  Qed.

  (** C52: on a finite tree every call returns, in every history, whatever the tree and whatever read errors there are. *)
  Theorem file_terminates_partial s f bufs : legal s -> file_open F I = Ok f -> Acc (child c bs) root ->
    exists fuel s' f' calls, run_file st fuel s f bufs = Some (s', f', calls).
  Proof.
    intros A FO AC. apply open_ok in FO as [FE FO]. clear FE. revert s f A FO.
    assert (MONO : forall bufs fuel fuel' s f x, (fuel <= fuel')%nat -> run_file st fuel s f bufs = Some x ->
                   run_file st fuel' s f bufs = Some x).
    { clear - OP IL. induction bufs as [|buf bufs IH]; intros fuel fuel' s f x L E; [exact E|]. cbn [run_file] in *.
      destruct (read_next_block st fuel s f buf) as [[[[s1 f1] buf1] r1]|] eqn:R; [|discriminate].
      assert (R' : read_next_block st fuel' s f buf = Some (s1, f1, buf1, r1)).
      { unfold read_next_block in *. destruct (file_block_size f); try exact R. destruct (_ <? _); [exact R|]. 
        now apply (loop_mono st fuel). }
      rewrite R'. destruct r1 as [k|e|]; [| |exact E];
        (destruct (run_file st fuel s1 f1 bufs) as [[[s2 f2] calls2]|] eqn:R2; [|discriminate];
         rewrite (IH fuel fuel' s1 f1 _ L R2); exact E). }
    induction bufs as [|buf bufs IH]; intros s f A FO; [exists O, s, f, []; reflexivity|].
    assert (R : exists fuel s1 f1 buf1 r1, read_next_block st fuel s f buf = Some (s1, f1, buf1, r1)).
    { unfold read_next_block, file_block_size. rewrite (fo_fs _ _ _ _ FO), (fs_block_size_ok c F OP).
      destruct (N.ltb_spec (len buf) bs) as [L|L]; [exists O; eauto 6|].
      destruct (loop_returns st c bad at_ OK F I OP buf L AC s f A FO) as (fuel & [[[s1 f1] buf1] r1] & E). exists fuel. eauto 6. }
    destruct R as (fuel & s1 & f1 & buf1 & r1 & R). destruct (read_call_ok _ _ _ _ _ _ _ _ A FO R) as [Lg O].
    destruct r1 as [k|e|].
    - assert (FO1 : file_ok f1). { destruct O as [(E & _)|(_ & O)]; [discriminate|]. apply O. }
      destruct (IH s1 f1 Lg FO1) as (fuel' & s2 & f2 & calls & R2). exists (fuel + fuel')%nat. cbn [run_file].
      assert (R' : read_next_block st (fuel + fuel') s f buf = Some (s1, f1, buf1, Ok k)).
      { unfold read_next_block in *. destruct (file_block_size f); try exact R. destruct (_ <? _); [exact R|]. 
        apply (loop_mono st fuel); [lia|exact R]. }
      rewrite R', (MONO bufs fuel' (fuel + fuel')%nat s1 f1 _ ltac:(lia) R2). eauto 6.
    - assert (FO1 : file_ok f1). { destruct O as [(_ & -> & _)|(_ & O)]; [exact FO|]. apply O. }
      destruct (IH s1 f1 Lg FO1) as (fuel' & s2 & f2 & calls & R2). exists (fuel + fuel')%nat. cbn [run_file].
      assert (R' : read_next_block st (fuel + fuel') s f buf = Some (s1, f1, buf1, Err e)).
      { unfold read_next_block in *. destruct (file_block_size f); try exact R. destruct (_ <? _); [exact R|]. 
        apply (loop_mono st fuel); [lia|exact R]. }
      rewrite R', (MONO bufs fuel' (fuel + fuel')%nat s1 f1 _ ltac:(lia) R2). eauto 6.
    - exists fuel. cbn [run_file]. rewrite R. eauto 6.
  Qed.
  (** In particular when, as ext4 demands, depths decrease towards the leaves. *)
  Theorem file_terminates_depth_partial s f bufs : legal s -> file_open F I = Ok f ->
    (forall a b, reachable c bs root b -> child c bs a b -> node_depth a < node_depth b) ->
    exists fuel s' f' calls, run_file st fuel s f bufs = Some (s', f', calls).
  Proof.
    intros A FO D. apply file_terminates_partial; [exact A|exact FO|].
    assert (X : forall k b, N.to_nat (node_depth b) = k -> reachable c bs root b -> Acc (child c bs) b).
    { induction k as [k IH] using lt_wf_ind. intros b K R. constructor. intros a C.
      apply (IH (N.to_nat (node_depth a))); [specialize (D a b R C); lia|reflexivity|]. now apply reach_child with b. }
    now apply (X _ root eq_refl), reach_root.
  Qed.

  (** C50: a file whose tree maps all of its blocks without gap is read as a whole, and then its end is reported. *)
  Theorem file_complete_partial s f l bufs : legal s -> file_open F I = Ok f -> u64_ok (len c) ->
    maps c bs 32767 (readable c bad F) root 0 l -> Forall (readable c bad F) l -> len l <= u32_max ->
    size <= len l * bs < size + bs -> Forall (fun buf => len buf = bs) bufs ->
    exists fuel s' f', run_file st fuel s f bufs = Some (s', f', file_calls c bs size l 0 bufs).
  Proof.
    intros A FO U M RD LL SZ LB.
    destruct (file_terminates_partial s f bufs A FO (maps_acc _ _ _ _ _ _ _ M)) as (fuel & s' & f' & calls & E).
    exists fuel, s', f'. rewrite E. f_equal. f_equal. apply open_ok in FO as [FE FO].
    pose proof (bs_ge F) as B1.
    assert (SM : stack_maps c bad F 32767 (fl_stack f) (fl_block f) l).
    { rewrite FE. cbn [fl_stack fl_block]. rewrite <- (app_nil_r l). apply sm_tree; [now inversion M| | |constructor].
      - rewrite (in_root_len I IL). discriminate.
      - unfold node_rest. inversion M as [b p l0 F3 D3 M3|b p l0 F3 D3 M3]; subst.
        + rewrite D3. exact M3.
        + destruct (N.eqb_spec (node_depth root) 0); [contradiction|exact M3]. }
    assert (INV : fl_byte f = N.min (fl_block f * bs) size /\ size <= (fl_block f + len l) * bs < size + bs /\ fl_block f + len l <= u32_max).
    { rewrite FE. cbn [fl_byte fl_block]. rewrite N.mul_0_l, N.add_0_l. lia. }
    replace (file_calls c bs size l 0 bufs) with (file_calls c bs size l (fl_byte f) bufs) by (rewrite FE; reflexivity).
    clear M LL SZ FE. revert s f l calls A FO RD SM INV E. induction bufs as [|buf bufs IH]; intros s f l calls A FO RD SM INV E.
    { cbn [run_file] in E. now injection E as <- <- <-. }
    inversion LB as [|? ? LB1 LB2]; subst. specialize (IH LB2). cbn [run_file] in E.
    destruct (read_next_block st fuel s f buf) as [[[[s1 f1] buf1] r1]|] eqn:R; [|discriminate].
    destruct (read_call_ok _ _ _ _ _ _ _ _ A FO R) as [Lg O].
    unfold read_next_block, file_block_size in R. rewrite (fo_fs _ _ _ _ FO), (fs_block_size_ok c F OP) in R.
    destruct (N.ltb_spec (len buf) bs) as [L|L]; [lia|].
    destruct INV as (IB & I1 & I2). set (blk := fl_block f) in *. set (byt := fl_byte f) in *.
    assert (PR : l <> [] -> byt < size /\ blk < u32_max).
    { intros NE. assert (L1 : 1 <= len l). { destruct l; [congruence|]. rewrite len_cons. lia. }
      assert (blk * bs < size).
      { pose proof (N.mul_le_mono_r (blk + 1) (blk + len l) bs ltac:(lia)) as Q. lia. }
      split; lia. }
    pose proof (maps_loop st c bad at_ OK F I OP 32767 ltac:(lia) fuel _ _ _ l _ _ _ _ A FO U LB1 SM RD PR R) as X.
    destruct O as [(_ & _ & _ & O)|(_ & O)]; [lia|].
    destruct l as [|x l].
    - destruct X as (-> & -> & ST). fold byt in O, E. change (len (@nil N)) with 0 in *.
      assert (Z : byt = size). { rewrite N.add_0_r in I1. lia. }
      rewrite Z, N.eqb_refl in E, O. cbn [outcome] in O. destruct O as [FO1 [(_ & B & T & _)|(q & O)]].
      2:{ exfalso. destruct O as (_ & _ & _ & O & _). fold byt in O. lia. }
      destruct (run_file st fuel s1 f1 bufs) as [[[s2 f2] calls2]|] eqn:R2; [|discriminate].
      injection E as -> -> <-. cbn [file_calls]. f_equal. fold byt in T. rewrite <- T.
      assert (SM1 : stack_maps c bad F 32767 (fl_stack f1) (fl_block f1) []) by (rewrite ST; constructor).
      assert (INV1 : fl_byte f1 = N.min (fl_block f1 * bs) size /\ size <= (fl_block f1 + len (@nil N)) * bs < size + bs
                     /\ fl_block f1 + len (@nil N) <= u32_max).
      { rewrite B, T. fold blk. change (len (@nil N)) with 0. auto. }
      exact (IH s1 f1 [] calls2 Lg FO1 RD SM1 INV1 R2).
    - destruct X as (-> & -> & SM1). fold byt in O, E. fold blk in SM1. destruct (PR ltac:(discriminate)) as [P1 P2].
      set (k := N.min bs (size - byt)) in *. cbn [outcome] in O. destruct O as [FO1 [(K0 & _)|(q & O)]].
      { exfalso. unfold k in K0. lia. }
      destruct O as (_ & _ & _ & _ & _ & B & T). fold byt in T. fold blk in B.
      destruct (run_file st fuel s1 f1 bufs) as [[[s2 f2] calls2]|] eqn:R2; [|discriminate].
      injection E as -> -> <-. cbn [file_calls]. fold k. f_equal. rewrite <- T. rewrite <- B in SM1.
      inversion RD as [|? ? RX RL]; subst.
      assert (INV1 : fl_byte f1 = N.min (fl_block f1 * bs) size /\ size <= (fl_block f1 + len l) * bs < size + bs
                     /\ fl_block f1 + len l <= u32_max).
      { rewrite B, T. rewrite len_cons in I1, I2. replace (blk + 1 + len l) with (blk + (1 + len l)) by lia.
        split; [|split; [exact I1|lia]]. unfold k. rewrite IB. rewrite N.mul_add_distr_r, N.mul_1_l. lia. }
      exact (IH s1 f1 l calls2 Lg FO1 RL SM1 INV1 R2).
  Qed.

  (** C52: and on a tree that contains itself a call never returns. *)
  Theorem file_cycle_never_returns s f q seed rest buf : legal s -> file_ok f -> u64_ok (len c) -> bs <= len buf ->
    let b := device_block c bs q in
    fl_stack f = STree (from_internal (Node b seed)) 0 :: rest ->
    readable c bad F q -> node_depth b <> 0 -> node_fits b -> 0 < node_entries b ->
    index_first (node_entry b 0) = fl_block f -> index_child (node_entry b 0) = q ->
    forall fuel, file_loop st fuel s f buf = None.
  Proof.
    intros A FO U LB b ST RD D FT NE E1 E2 fuel. revert s f seed rest A FO ST E1.
    induction fuel as [|fuel IH]; [reflexivity|]. intros s f seed rest A FO ST E1. cbn [file_loop].
    pose proof (turn_ok st c bad at_ OK F I OP s f buf A FO LB) as T. cbv zeta in T.
    destruct (nd_entry_at_spec b seed 0) as [EF _].
    { unfold b, device_block. rewrite len_window_in by (destruct RD; lia). pose proof (bs_ge F). lia. }
    { exact NE. }
    assert (BR : from_internal (Node b seed) = Branch (Node b seed)).
    { unfold from_internal. rewrite nd_depth_spec. destruct (N.eqb_spec (node_depth b) 0); [contradiction|reflexivity]. }
    assert (X : exists s', file_turn st s f buf =
                Again s' (set_stack f (STree (from_internal (Node b (in_seed I))) 0 :: STree (Branch (Node b seed)) (0 + 1) :: rest))).
    { unfold file_turn. rewrite ST, BR. unfold tree_entry_count. cbn [tree_node]. rewrite nd_count_spec.
      destruct (N.ltb_spec 0 (node_entries b)); [|lia]. unfold branch_turn. rewrite (EF FT).
      cbn [set_stack fl_block fl_fs fl_inode fl_stack]. rewrite ix_first_spec, E1, N.eqb_refl. cbn [negb].
      rewrite (fo_fs _ _ _ _ FO), (fo_inode _ _ _ _ FO), (fs_block_size_ok c F OP), ix_child_spec, E2.
      destruct (read_good_block st c bad at_ OK F OP s q (zeros bs) A U RD (len_zeros _)) as (s' & RB & _). rewrite RB.
      exists s'. unfold set_stack. cbn [fl_block fl_fs fl_inode fl_stack fl_byte].
      rewrite (fo_fs _ _ _ _ FO), (fo_inode _ _ _ _ FO). reflexivity. }
    destruct X as (s' & X). rewrite X in *. cbn [turn_state] in T. destruct T as (Lg & FO' & B & _).
    apply (IH s' _ (in_seed I) (STree (Branch (Node b seed)) (0 + 1) :: rest)); [exact Lg|exact FO'|reflexivity|exact E1].
  Qed.
End File.
Print Assumptions file_sound.
Print Assumptions file_terminates_partial.
Print Assumptions file_terminates_depth_partial.
Print Assumptions file_complete_partial.
Print Assumptions file_cycle_never_returns.

(** C50: what has then been delivered is the content of the file. *)
Theorem file_calls_deliver c bs size l bufs : (length l <= length bufs)%nat -> size <= len l * bs ->
  Forall (fun q => (q + 1) * bs <= len c) l ->
  delivered (file_calls c bs size l 0 bufs) = file_content c bs size l /\ len (file_content c bs size l) = size.
Proof.
  intros LB SZ IN. unfold file_content.
  assert (LD : Forall (fun q => len (device_block c bs q) = bs) l).
  { eapply Forall_impl; [|exact IN]. intros q Q. cbv beta in Q. unfold device_block. apply len_window_in. lia. }
  assert (LC : len (concat (map (device_block c bs) l)) = len l * bs).
  { clear - LD. induction LD as [|q l Q LD IH]; [reflexivity|]. cbn [map concat]. rewrite len_app, len_cons, IH, Q. lia. }
  split; [|apply len_window_in; lia].
  assert (X : forall t, t <= size -> size - t <= len l * bs ->
              delivered (file_calls c bs size l t bufs) = window (concat (map (device_block c bs) l)) 0 (size - t)).
  2:{ rewrite (X 0) by lia. now rewrite N.sub_0_r. }
  clear SZ IN LC. revert bufs LB. induction LD as [|q l Q LD IH]; intros bufs LB t T SZ.
  - change (len (@nil N)) with 0 in SZ. replace (size - t) with 0 by lia. rewrite window_0. cbn [map concat].
    clear LB. induction bufs as [|buf bufs IHb]; [reflexivity|]. cbn [file_calls]. unfold delivered in *. cbn [map concat]. now rewrite window_0.
  - destruct bufs as [|buf bufs]; [cbn in LB; lia|]. cbn [file_calls]. unfold delivered in *. cbn [map concat].
    set (k := N.min bs (size - t)). rewrite (IH bufs).
    + rewrite len_cons in SZ. destruct (N.leb_spec bs (size - t)) as [L|L].
      * assert (K : k = bs) by (unfold k; lia). rewrite K.
        replace (size - t) with (bs + (size - (t + bs))) by lia. rewrite window_app_split, N.add_0_l.
        rewrite window_app_l by lia. rewrite window_app_r by lia. rewrite Q, N.sub_diag. reflexivity.
      * assert (K : k = size - t) by (unfold k; lia). rewrite K. replace (size - (t + (size - t))) with 0 by lia.
        rewrite window_0, app_nil_r. symmetry. apply window_app_l. lia.
    + cbn in LB. lia.
    + unfold k. lia.
    + rewrite len_cons in SZ. unfold k. lia.
Qed.
Print Assumptions file_calls_deliver.

(** ** Examples: a file of 3500 bytes with a tree of two levels *)
Definition ex_image : bytes :=
  fold_left poke [(8192, repeat x08 1024); (9216, repeat x09 1024); (12288, repeat x12 1024); (14336, repeat x14 1024);
    (10240, ex_header 2 84 0 ++ ex_extent 0 1 12 ++ ex_extent 1 1 14); (11264, ex_header 1 84 0 ++ ex_extent 2 2 8);
    (13312, ex_header 1 84 1 ++ ex_index 0 13)] small_image.
Definition ex_file : inode := ex_inode (ex_root (ex_header 2 4 1 ++ ex_index 0 10 ++ ex_index 2 11)) 3500.

Lemma opened_by_computation c s F : u64_ok (len c) -> fs_open mem_stream (mem_new c 512) = (s, Ok F) ->
  opened c (fs_sb F) (fs_groups F).
Proof.
  intros U E. apply (fs_open_sound mem_stream c (fun _ => False) (mem_at c 512) (mem_stream_ok c 512 U) _ _ _) in E; [tauto|].
  exists 0. repeat split. lia.
Qed.

Lemma ex_image_len : len ex_image = 16384.
Proof. vm_compute. reflexivity. Qed.
Lemma ex_image_u64 : u64_ok (len ex_image).
Proof. rewrite ex_image_len. discriminate. Qed.
Lemma ex_image_opened : opened ex_image (fs_sb ex_fs) (fs_groups ex_fs).
Proof. eapply (opened_by_computation ex_image); [exact ex_image_u64|]. vm_compute. reflexivity. Qed.
Lemma ex_image_start : legal (mem_at ex_image 512) (mem_new ex_image 512).
Proof. exists 0. repeat split. rewrite ex_image_len. discriminate. Qed.
Notation ex_readable := (readable ex_image (fun _ => False) ex_fs).
Lemma ex_readable_ok q : q < 16 -> ex_readable q.
Proof.
  intros Q. split; [|auto]. rewrite ex_image_len. change (sb4_block_size (fs_sb ex_fs)) with 1024. lia.
Qed.

Example file_maps_ex : maps ex_image (sb4_block_size (fs_sb ex_fs)) 32767 ex_readable (in_blocks_buffer ex_file) 0 [12; 14; 8; 9].
Proof.
  apply maps_branch; [vm_compute; congruence|vm_compute; congruence|].
  replace (entries_of (in_blocks_buffer ex_file)) with [ex_index 0 10; ex_index 2 11] by (vm_compute; reflexivity).
  apply (children_cons _ _ _ _ _ _ 0 [12; 14] [8; 9]); [reflexivity|apply ex_readable_ok; vm_compute; reflexivity| |].
  - apply maps_leaf; [vm_compute; congruence|vm_compute; congruence|].
    replace (entries_of _) with [ex_extent 0 1 12; ex_extent 1 1 14] by (vm_compute; reflexivity).
    cbn [extents_map]. split; [reflexivity|]. split; [vm_compute; congruence|]. split; [vm_compute; congruence|].
    exists [14]. split; [reflexivity|]. split; [reflexivity|]. split; [vm_compute; congruence|]. split; [vm_compute; congruence|].
    exists []. split; reflexivity.
  - apply (children_cons _ _ _ _ _ _ (0 + len [12; 14]) [8; 9] []); [reflexivity|apply ex_readable_ok; vm_compute; reflexivity| |constructor].
    apply maps_leaf; [vm_compute; congruence|vm_compute; congruence|].
    replace (entries_of _) with [ex_extent 2 2 8] by (vm_compute; reflexivity).
    cbn [extents_map]. split; [reflexivity|]. split; [vm_compute; congruence|]. split; [vm_compute; congruence|].
    exists []. split; reflexivity.
Qed.

Example file_complete_ex : exists f s' f', file_open ex_fs ex_file = Ok f /\ len (in_storage ex_file) = 160 /\
  in_file_size_bytes ex_file = 3500 /\
  run_file mem_stream 20 (mem_new ex_image 512) f (repeat (zeros 1024) 5) =
    Some (s', f', [(zeros 1024, repeat x12 1024, Ok 1024); (zeros 1024, repeat x14 1024, Ok 1024);
                   (zeros 1024, repeat x08 1024, Ok 1024); (zeros 1024, repeat x09 1024, Ok 428); (zeros 1024, zeros 1024, Ok 0)]).
Proof.
  eexists. eexists. eexists. split; [vm_compute; reflexivity|]. split; [reflexivity|]. split; [vm_compute; reflexivity|].
  vm_compute. reflexivity.
Qed.

(** ** Refutations *)

Notation ex_reads I n := (fun r => exists f s' f' calls, file_open ex_fs I = Ok f /\
  run_file mem_stream 20 (mem_new ex_image 512) f (repeat (zeros 1024) n) = Some (s', f', calls) /\ r calls).

(** C52: a tree that contains itself: block 13 is a node that refers to block 13. *)
Definition cyclic_file : inode := ex_inode (ex_root (ex_header 1 4 1 ++ ex_index 0 13)) 3500.
Theorem file_terminates_refuted :
  ~ (forall c F I f buf, opened c (fs_sb F) (fs_groups F) -> len (in_storage I) = 160 -> file_open F I = Ok f -> u64_ok (len c) ->
       exists fuel, read_next_block mem_stream fuel (mem_new c 512) f buf <> None).
Proof.
  intros H.
  assert (X : exists f, file_open ex_fs cyclic_file = Ok f) by (eexists; vm_compute; reflexivity). destruct X as (f & FO).
  destruct (H ex_image ex_fs cyclic_file f (zeros 1024) ex_image_opened eq_refl FO ex_image_u64) as (fuel & E).
  apply E. clear H E.
  unfold read_next_block. destruct (open_ok ex_image ex_fs cyclic_file eq_refl f FO) as [FE FK].
  unfold file_block_size. rewrite (fo_fs _ _ _ _ FK), (fs_block_size_ok ex_image ex_fs ex_image_opened).
  change (sb4_block_size (fs_sb ex_fs)) with 1024. rewrite len_zeros. cbn [N.ltb N.compare Pos.compare Pos.compare_cont].
  destruct fuel as [|fuel]; [reflexivity|]. cbn [file_loop].
  pose proof (turn_ok mem_stream ex_image _ _ (mem_stream_ok ex_image 512 ex_image_u64) ex_fs cyclic_file ex_image_opened
                (mem_new ex_image 512) f (zeros 1024) ex_image_start FK) as T.
  assert (X : exists s', file_turn mem_stream (mem_new ex_image 512) f (zeros 1024) =
     Again s' (set_stack f (STree (from_internal (Node (device_block ex_image 1024 13) None)) 0 ::
                            [STree (from_internal (Node (in_blocks_buffer cyclic_file) None)) 1]))).
  { rewrite FE. eexists. vm_compute. reflexivity. }
  destruct X as (s' & X). rewrite X in *. cbn [turn_state] in T.
  destruct T as (Lg & FO' & _). { vm_compute. congruence. }
  refine (file_cycle_never_returns mem_stream ex_image _ _ (mem_stream_ok ex_image 512 ex_image_u64) ex_fs cyclic_file ex_image_opened eq_refl
    s' _ 13 None _ (zeros 1024) Lg FO' ex_image_u64 _ _ _ _ _ _ _ _ fuel).
  - vm_compute. congruence.
  - reflexivity.
  - apply ex_readable_ok. reflexivity.
  - vm_compute. congruence.
  - vm_compute. congruence.
  - vm_compute. reflexivity.
  - rewrite FE. vm_compute. reflexivity.
  - vm_compute. reflexivity.
Qed.
Print Assumptions file_terminates_refuted.

(** C53: a file with an unwritten extent gives what happens to be in its blocks; one with a hole cannot be read. *)
Definition unwritten_file : inode := ex_inode (ex_root (ex_header 1 4 0 ++ ex_extent 0 32769 12)) 1024.
Definition hole_file : inode := ex_inode (ex_root (ex_header 1 4 0 ++ ex_extent 1 1 12)) 2048.
Definition empty_tree_file : inode := ex_inode (ex_root (ex_header 0 4 0)) 1024.

Lemma leaf_root_reach c bs root b : node_depth root = 0 -> reachable c bs root b -> b = root.
Proof. intros D R. induction R as [|a b R IH [N _]]; [reflexivity|]. subst. contradiction. Qed.

Theorem file_zeros_refuted :
  ~ (forall c F I f fuel s' f' buf' r, opened c (fs_sb F) (fs_groups F) -> len (in_storage I) = 160 -> u64_ok (len c) ->
       let bs := sb4_block_size (fs_sb F) in
       (forall q, ~ mapped_written c bs (in_blocks_buffer I) 0 q) -> bs <= in_file_size_bytes I -> file_open F I = Ok f ->
       read_next_block mem_stream fuel (mem_new c 512) f (zeros bs) = Some (s', f', buf', r) ->
       (forall k, r = Ok k -> buf' = zeros bs)) /\
  ~ (forall c F I f fuel s' f' buf' r, opened c (fs_sb F) (fs_groups F) -> len (in_storage I) = 160 -> u64_ok (len c) ->
       let bs := sb4_block_size (fs_sb F) in
       (forall q, ~ mapped c bs (in_blocks_buffer I) 0 q) -> bs <= in_file_size_bytes I -> file_open F I = Ok f ->
       read_next_block mem_stream fuel (mem_new c 512) f (zeros bs) = Some (s', f', buf', r) -> r = Ok bs).
Proof.
  split; intros H.
  - assert (X : exists f s' f', file_open ex_fs unwritten_file = Ok f /\
       read_next_block mem_stream 20 (mem_new ex_image 512) f (zeros 1024) = Some (s', f', repeat x12 1024, Ok 1024)).
    { eexists. eexists. eexists. split; [vm_compute; reflexivity|]. vm_compute. reflexivity. }
    destruct X as (f & s' & f' & FO & R).
    specialize (H ex_image ex_fs unwritten_file f 20%nat s' f' (repeat x12 1024) (Ok 1024) ex_image_opened eq_refl ex_image_u64).
    cbv zeta in H. change (sb4_block_size (fs_sb ex_fs)) with 1024 in H.
    assert (Z : repeat x12 1024 = zeros 1024); [|vm_compute in Z; discriminate].
    apply (H) with (k := 1024); [|vm_compute; congruence|exact FO|exact R|reflexivity].
    intros q (b & i & RE & _ & Hi & W & _). apply leaf_root_reach in RE; [|vm_compute; reflexivity]. subst b.
    assert (i = 0) as ->. { change (node_entries (in_blocks_buffer unwritten_file)) with 1 in Hi. lia. }
    vm_compute in W. congruence.
  - assert (X : exists f s' f' buf', file_open ex_fs hole_file = Ok f /\
       read_next_block mem_stream 20 (mem_new ex_image 512) f (zeros 1024) = Some (s', f', buf', Err InvalidData)).
    { eexists. eexists. eexists. eexists. split; [vm_compute; reflexivity|]. vm_compute. reflexivity. }
    destruct X as (f & s' & f' & buf' & FO & R).
    specialize (H ex_image ex_fs hole_file f 20%nat s' f' buf' (Err InvalidData) ex_image_opened eq_refl ex_image_u64).
    cbv zeta in H. change (sb4_block_size (fs_sb ex_fs)) with 1024 in H.
    assert (Z : Err InvalidData = Ok 1024); [|discriminate].
    apply H; [|vm_compute; congruence|exact FO|exact R].
    intros q (b & i & RE & _ & Hi & W1 & _). apply leaf_root_reach in RE; [|vm_compute; reflexivity]. subst b.
    assert (i = 0) as ->. { change (node_entries (in_blocks_buffer hole_file)) with 1 in Hi. lia. }
    vm_compute in W1. congruence.
Qed.
Print Assumptions file_zeros_refuted.

(** A hole at the end of a file ends in an error too. *)
Example file_hole_at_end_ex : exists f s' f' buf', file_open ex_fs empty_tree_file = Ok f /\
  read_next_block mem_stream 20 (mem_new ex_image 512) f (zeros 1024) = Some (s', f', buf', Err UnexpectedEof).
Proof. eexists. eexists. eexists. eexists. split; [vm_compute; reflexivity|]. vm_compute. reflexivity. Qed.

(** C54: a file with a block allocated beyond its end: after its 1024 bytes comes an error. *)
Definition preallocated_file : inode := ex_inode (ex_root (ex_header 1 4 0 ++ ex_extent 0 2 8)) 1024.
Theorem file_end_refuted :
  ~ (forall c F I f fuel bufs s' f' calls buf buf' r, opened c (fs_sb F) (fs_groups F) -> len (in_storage I) = 160 -> u64_ok (len c) ->
       file_open F I = Ok f ->
       run_file mem_stream fuel (mem_new c 512) f (bufs ++ [buf]) = Some (s', f', calls ++ [(buf, buf', r)]) ->
       sb4_block_size (fs_sb F) <= len buf -> len (delivered calls) = in_file_size_bytes I -> r = Ok 0).
Proof.
  intros H.
  assert (X : exists f s' f' calls buf', file_open ex_fs preallocated_file = Ok f /\
     run_file mem_stream 20 (mem_new ex_image 512) f ([zeros 1024] ++ [zeros 1024]) =
       Some (s', f', calls ++ [(zeros 1024, buf', Err InvalidData)]) /\ len (delivered calls) = 1024).
  { eexists. eexists. eexists. exists [(zeros 1024, repeat x08 1024, Ok 1024)], (zeros 1024).
    split; [vm_compute; reflexivity|]. split; [vm_compute; reflexivity|]. vm_compute. reflexivity. }
  destruct X as (f & s' & f' & calls & buf' & FO & R & D).
  assert (Z : Err InvalidData = Ok 0); [|discriminate].
  apply (H ex_image ex_fs preallocated_file f 20%nat [zeros 1024] s' f' calls (zeros 1024) buf' _ ex_image_opened eq_refl ex_image_u64 FO R).
  - vm_compute. congruence.
  - rewrite D. vm_compute. reflexivity.
Qed.
Print Assumptions file_end_refuted.

(** C66: a node that claims more entries than there is room for makes reading panic. *)
Definition overfull_file : inode := ex_inode (ex_root (ex_header 5 4 0 ++ ex_extent 0 1 8)) 1024.
Theorem file_never_panics_refuted :
  ~ (forall c F I f fuel buf s' f' buf' r, opened c (fs_sb F) (fs_groups F) -> len (in_storage I) = 160 -> u64_ok (len c) ->
       file_open F I = Ok f -> read_next_block mem_stream fuel (mem_new c 512) f buf = Some (s', f', buf', r) -> r <> Panic).
Proof.
  intros H.
  assert (X : exists f s' f' buf', file_open ex_fs overfull_file = Ok f /\
     read_next_block mem_stream 20 (mem_new ex_image 512) f (zeros 1024) = Some (s', f', buf', Panic)).
  { eexists. eexists. eexists. eexists. split; [vm_compute; reflexivity|]. vm_compute. reflexivity. }
  destruct X as (f & s' & f' & buf' & FO & R).
  now apply (H ex_image ex_fs overfull_file f 20%nat (zeros 1024) s' f' buf' _ ex_image_opened eq_refl ex_image_u64 FO R).
Qed.
Print Assumptions file_never_panics_refuted.

(** C50 without the limit on the extents: a file with an extent of 32768 blocks, which is the largest there is, cannot be
    read. *)
Lemma opened_app c x sb gs : opened c sb gs -> opened (c ++ x) sb gs.
Proof.
  intros [S L A SU C T G]. constructor; auto.
  - rewrite window_app_l by lia. exact S.
  - rewrite len_app. lia.
  - intros N. specialize (T N). rewrite len_app. lia.
  - intros i g E o w LE. rewrite window_app_l; [now apply G|]. pose proof (nth_N_some_lt _ _ _ E) as Hi.
    assert (sb4_desc_offset sb (i + 1) <= sb4_desc_offset sb (len gs)).
    { unfold sb4_desc_offset. pose proof (N.mul_le_mono_r (i + 1) (len gs) (sb4_desc_size sb)). lia. }
    unfold sb4_desc_offset in *. specialize (T ltac:(lia)). lia.
Qed.

Definition long_file : inode := ex_inode (ex_root (ex_header 1 4 0 ++ ex_extent 0 32768 0)) 33554432.
Theorem file_complete_refuted :
  ~ (forall c F I f l buf, opened c (fs_sb F) (fs_groups F) -> len (in_storage I) = 160 -> u64_ok (len c) ->
       let bs := sb4_block_size (fs_sb F) in
       let size := in_file_size_bytes I in
       file_open F I = Ok f -> maps c bs 32768 (readable c (fun _ => False) F) (in_blocks_buffer I) 0 l ->
       Forall (readable c (fun _ => False) F) l -> len l <= u32_max -> size <= len l * bs < size + bs -> len buf = bs ->
       exists fuel s' f', run_file mem_stream fuel (mem_new c 512) f [buf] = Some (s', f', file_calls c bs size l 0 [buf])).
Proof.
  intros H. remember (ex_image ++ zeros 33554432) as c eqn:Ec.
  assert (LC : len c = 33570816) by (rewrite Ec, len_app, ex_image_len, len_zeros; reflexivity).
  assert (OP : opened c (fs_sb ex_fs) (fs_groups ex_fs)) by (rewrite Ec; apply opened_app, ex_image_opened). clear Ec.
  assert (U : u64_ok (len c)) by (rewrite LC; discriminate).
  assert (X : exists f f', file_open ex_fs long_file = Ok f /\
    (forall fuel s, run_file mem_stream (4 + fuel) s f [zeros 1024] = Some (s, f', [(zeros 1024, zeros 1024, Err UnexpectedEof)])) /\
    (forall s, run_file mem_stream 0 s f [zeros 1024] = None) /\ (forall s, run_file mem_stream 1 s f [zeros 1024] = None) /\
    (forall s, run_file mem_stream 2 s f [zeros 1024] = None) /\ (forall s, run_file mem_stream 3 s f [zeros 1024] = None)).
  { eexists. eexists. split; [vm_compute; reflexivity|].
    split; [intros fuel s; vm_compute; reflexivity|]. repeat split; intros s; vm_compute; reflexivity. }
  destruct X as (f & f' & FO & R & R0 & R1 & R2 & R3).
  set (l := map (fun j => 0 + N.of_nat j) (seq 0 (N.to_nat 32768)) ++ []).
  assert (LL : len l = 32768).
  { unfold l, len. rewrite app_nil_r, map_length, seq_length. apply N2Nat.id. }
  specialize (H c ex_fs long_file f l (zeros 1024) OP eq_refl U). cbv zeta in H.
  change (sb4_block_size (fs_sb ex_fs)) with 1024 in H.
  assert (SZ : in_file_size_bytes long_file = 33554432) by (vm_compute; reflexivity).
  rewrite SZ, LL in H.
  destruct H as (fuel & s' & f'' & H); auto.
  - apply maps_leaf; [vm_compute; congruence|vm_compute; congruence|].
    replace (entries_of _) with [ex_extent 0 32768 0] by (vm_compute; reflexivity).
    cbn [extents_map]. split; [reflexivity|]. split; [vm_compute; congruence|]. split; [vm_compute; congruence|].
    exists []. split; [|reflexivity]. unfold l.
    replace (extent_start (ex_extent 0 32768 0)) with 0 by (vm_compute; reflexivity).
    replace (extent_blocks (ex_extent 0 32768 0)) with 32768 by (vm_compute; reflexivity). reflexivity.
  - apply Forall_forall. intros q Q. unfold l in Q. rewrite app_nil_r in Q. apply in_map_iff in Q as (j & <- & J).
    apply in_seq in J. split; [|auto]. change (sb4_block_size (fs_sb ex_fs)) with 1024. rewrite LC. lia.
  - discriminate.
  - split; reflexivity || discriminate.
  - destruct fuel as [|[|[|[|fuel]]]]; [rewrite R0 in H; discriminate H|rewrite R1 in H; discriminate H|rewrite R2 in H; discriminate H|
      rewrite R3 in H; discriminate H|].
    change (Datatypes.S _) with (4 + fuel)%nat in H. rewrite R in H.
    clearbody l. destruct l as [|q l]; [discriminate LL|]. discriminate H.
Qed.
Print Assumptions file_complete_refuted.
