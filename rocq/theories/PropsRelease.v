(** Properties C83-C86: the build profile.  Where arithmetic that overflows wraps around instead of panicking, everything is
    as in the checked profile, but for descriptor tables beyond 2^64 bytes and files of more than 2^32 - 1 blocks. *)

From Coq Require Import Strings.String.
From Verif Require Import Base BaseFacts Raid SpecRaid Io SpecStream IoFacts PropsIo SpecMd SuperblockFacts Superblock SpecCrc CrcFacts Crc PropsCrc Ext4Superblock SpecExt4 PropsExt4Superblock
  Ext4Inode SpecExt4Inode PropsExt4Inode Ext4Fs SpecExt4Fs Ext4FsFacts PropsExt4Fs Ext4Extent SpecExt4File Ext4File Ext4FileFacts PropsExt4File
  Ext4Dir SpecExt4Dir PropsExt4Dir PropsExt4Listing PropsExt4Flat PropsExt4Array SpecExt4Open PropsExt4Open
  Array SpecArray ArrayIo PropsArrayIo PropsExt4Recover Release.

(** ** C83: streams over block devices *)

Section Reader.
  Context {D : Type} (ops : blockdev D) (bs count : N) (blk : N -> bytes) (bad : N -> Prop) (inv : D -> Prop).
  Hypothesis OK : block_ok ops bs count blk bad inv.

  Lemma reader_read_same r p buf : reader_at bs inv r p -> reader_read_wrap ops r buf = reader_read ops r buf.
  Proof.
    destruct OK as [Hb Fit Len Size Count Read _]. unfold u64_ok in Fit. intros (I & Lb & Ep & U).
    unfold reader_read_wrap, reader_read. rewrite Count, Size by assumption. destruct r as [d b y]. cbn [r_dev r_block r_byte] in *.
    destruct (N.leb_spec count b) as [End|In]; [reflexivity|].
    destruct (bd_read ops d b (zeros bs)) as [[d' block] x]. destruct x as [k|e|]; [|reflexivity..].
    assert (B : bs <= u64_max) by nia. assert (B1 : b + 1 <= u64_max).
    { assert (count * 1 <= count * bs) by (apply N.mul_le_mono_l; lia). lia. }
    unfold wsub64, csub64. destruct (N.leb_spec y bs) as [Y|Y]; [|lia].
    destruct (sub block y (N.min (len buf) (bs - y))) as [src|]; [|reflexivity].
    unfold wadd64, cadd64. rewrite !N.mod_small by (unfold u64_max in *; lia).
    destruct (N.leb_spec (b + 1) u64_max); [reflexivity|lia].
  Qed.

  Lemma release_reader_ok : stream_ok (reader_stream_wrap ops) (flat count blk) (bad_pos bs bad) (reader_at bs inv).
  Proof.
    destruct (reader_stream_ok ops bs count blk bad inv OK) as [R Q1 Q2]. constructor; [|exact Q1|exact Q2].
    intros s p buf s' buf' r A E. cbn [st_read reader_stream_wrap] in E. rewrite (reader_read_same _ _ _ A) in E. exact (R _ _ _ _ _ _ A E).
  Qed.

  (** Every history of calls gives the same answers, which by C01 are those of a cursor over the content of the device. *)
  Theorem release_reader d cs : inv d -> Forall call_ok cs ->
    run_calls (reader_stream_wrap ops) (reader_new d) cs = run_calls (reader_stream ops) (reader_new d) cs.
  Proof.
    intros I F. pose proof (reader_new_at ops bs count blk bad inv OK d I) as A. revert A. generalize (reader_new d) 0.
    induction F as [|x cs Fx F IH]; intros r p A; [reflexivity|].
    destruct x as [buf|s]; cbn [run_calls reader_stream reader_stream_wrap st_read st_seek].
    - rewrite (reader_read_same _ _ _ A). destruct (reader_read ops r buf) as [[r1 b1] x1] eqn:E.
      destruct (reader_read_spec ops bs count blk bad inv OK _ _ _ _ _ _ A E) as (p1 & _ & A1 & _). now rewrite (IH _ _ A1).
    - destruct (reader_seek ops r s) as [r1 x1] eqn:E.
      destruct (reader_seek_spec ops bs count blk bad inv OK _ _ _ _ _ A Fx E) as (p1 & _ & A1). now rewrite (IH _ _ A1).
  Qed.
End Reader.
Print Assumptions release_reader.

Example release_reader_ex :
  let mem := [x01; x02; x03; x04; x05; x06; x07; x08] in
  snd (run_calls (reader_stream_wrap mem_block) (reader_new (mem_new mem 4)) [CSeek (SeekStart 2); CRead (zeros 4); CRead (zeros 4); CRead (zeros 4)]) =
    [ASeek (Ok 2); ARead (Ok 2) [x03; x04; x00; x00]; ARead (Ok 4) [x05; x06; x07; x08]; ARead (Ok 0) [x00; x00; x00; x00]].
Proof. vm_compute. reflexivity. Qed.

(** ** Superblocks *)

Lemma shl_same log n : shl_10_plus log = Ok n -> shl_10_plus_wrap log = n.
Proof.
  unfold shl_10_plus, shl_10_plus_wrap, cadd32, wadd32. destruct (N.leb_spec (10 + log) u32_max) as [L|L]; [|discriminate].
  intros [= <-]. rewrite N.mod_small; [reflexivity|unfold u32_max in L; lia].
Qed.
Lemma shl_small log : log < 53 -> shl_10_plus log = Ok (shl_10_plus_wrap log).
Proof.
  intros L. unfold shl_10_plus, shl_10_plus_wrap, cadd32, wadd32. rewrite N.mod_small by lia.
  destruct (N.leb_spec (10 + log) u32_max) as [L'|L']; [reflexivity|unfold u32_max in L'; lia].
Qed.

Lemma valid_same sb : e4_valid_wrap sb = e4_valid sb.
Proof.
  unfold e4_valid_wrap, e4_valid. destruct (e4_valid_magic sb); [|reflexivity]. cbn [and_then].
  destruct (e4_valid_block_size sb) eqn:B; [|reflexivity]. cbn [and_then]. unfold e4_valid_block_size in B. apply N.ltb_lt in B.
  f_equal. unfold e4_valid_cluster_size, e4_valid_cluster_size_wrap, e4_cluster_size_blocks, e4_block_size_bytes, e4_block_size_wrap.
  destruct (N.ltb_spec (s4 "log_cluster_size" sb) 53) as [C|C]; [|reflexivity].
  rewrite (shl_small _ B), (shl_small _ C). cbn [rbind]. now destruct (contains _ _).
Qed.

Lemma e4_read_same {S} (st : stream S) s : e4_read_wrap st s = e4_read st s.
Proof. unfold e4_read_wrap, e4_read, io_bind. destruct (io_read_exact st _ s) as [s1 [b|e|]]; [|reflexivity..]. unfold io_lift. now rewrite valid_same. Qed.

(** A superblock that was accepted has a small block size. *)
Definition sized (sb : bytes) : Prop := s4 "log_block_size" sb < 53.
Lemma valid_sized sb : e4_valid sb = Ok true -> sized sb.
Proof.
  unfold e4_valid. destruct (e4_valid_magic sb); [|discriminate]. cbn [and_then]. destruct (e4_valid_block_size sb) eqn:B; [|discriminate].
  intros _. now apply N.ltb_lt.
Qed.
Lemma sized_block sb : sized sb -> e4_block_size_bytes sb = Ok (e4_block_size_wrap sb).
Proof. apply shl_small. Qed.
Lemma sized_pos sb : sized sb -> e4_block_size_wrap sb <> 0.
Proof.
  unfold sized, e4_block_size_wrap, shl_10_plus_wrap, unbounded_shl1, wadd32. intros L. rewrite N.mod_small by lia.
  destruct (N.ltb_spec (10 + s4 "log_block_size" sb) 64); [|lia]. now apply N.pow_nonzero.
Qed.

(** ** Reading blocks and inodes *)

Section Same.
  Context {S : Type} (st : stream S) (F : fs).
  Hypothesis SZ : sized (fs_sb F).
  Let bs := e4_block_size_wrap (fs_sb F).

  Lemma block_size_same : fs_block_size F = Ok bs.
  Proof. now apply sized_block. Qed.

  Lemma read_block_same n s buf : fs_read_block_wrap st F n s buf = fs_read_block st F n s buf.
  Proof. unfold fs_read_block_wrap, fs_read_block. rewrite block_size_same. reflexivity. Qed.

  Lemma read_inode_same number s : fs_read_inode_wrap st F number s = fs_read_inode st F number s.
  Proof.
    unfold fs_read_inode_wrap, fs_read_inode. destruct (_ || _); [reflexivity|]. rewrite (sized_block _ SZ).
    unfold io_bind, io_lift. destruct (unwrap (cdiv64 _ _)); [|reflexivity..]. destruct (unwrap (crem64 _ _)); [|reflexivity..].
    destruct (ok_or (nth_N _ _) _); reflexivity.
  Qed.

  Lemma open_file_same clone number s : open_file_wrap st clone F number s = open_file st clone F number s.
  Proof. unfold open_file_wrap, open_file. destruct (clone s) as [s1 [t|e|]]; [|reflexivity..]. now rewrite read_inode_same. Qed.

  (** Files of at most 2^32 - 1 blocks: the counter of blocks agrees with that of bytes, and so does not overflow. *)
  Context (I : inode).
  Hypothesis SM : in_file_size_bytes I <= u32_max * bs.
  Definition counted (f : file) : Prop :=
    fl_fs f = F /\ fl_inode f = I /\ fl_byte f = N.min (in_file_size_bytes I) (fl_block f * bs).

  Lemma counted_set f stack : counted f -> counted (set_stack f stack).
  Proof. intros (A & B & C). repeat split; assumption. Qed.

  Lemma device_block_small e pos : pos < ex_length e -> cadd64 (ex_first_fs_block e) pos = Some (ex_first_fs_block e + pos) /\
    wadd64 (ex_first_fs_block e) pos = ex_first_fs_block e + pos.
  Proof.
    intros P. rewrite ex_length_spec in P. pose proof (N.mod_lt (extent_value e) 32768 ltac:(discriminate)) as M.
    rewrite ex_start_spec. pose proof (uint_le_bound e 8 4) as B1. pose proof (uint_le_bound e 6 2) as B2. unfold extent_start.
    change (2 ^ (8 * N.of_nat 4)) with 4294967296 in B1. change (2 ^ (8 * N.of_nat 2)) with 65536 in B2.
    set (u := uint_le e 8 4) in *. set (v := uint_le e 6 2) in *. set (w := extent_value e mod 32768) in *. clearbody u v w.
    unfold cadd64, wadd64, u64_max. destruct (N.leb_spec (u + 2 ^ 32 * v + pos) 18446744073709551615) as [L|L]; [|lia].
    split; [reflexivity|]. apply N.mod_small. lia.
  Qed.

  Definition turn_counted (t : turn S) : Prop := match t with Return _ f _ Panic => True | Return _ f _ _ | Again _ f => counted f end.

  Lemma file_turn_same s f buf : counted f -> file_turn_wrap st s f buf = file_turn st s f buf /\ turn_counted (file_turn st s f buf).
  Proof.
    intros C. pose proof C as (CF & CI & CB). unfold file_turn_wrap, file_turn. destruct (fl_stack f) as [|[t pos|e pos] stack].
    { split; [reflexivity|]. cbn. now destruct (_ =? _). }
    { pose proof (counted_set f stack C) as C'. set (g := set_stack f stack) in *. destruct (pos <? tree_entry_count t); [|now split].
      destruct t as [n|n].
      - unfold branch_turn_wrap, branch_turn. destruct (nd_entry_at n pos) as [[ix|]|e|]; [|now split..].
        destruct (negb _); [now split|]. pose proof C' as (GF & GI & GB). rewrite GF, block_size_same, read_block_same. change (fs_block_size_wrap F) with bs.
        destruct (fs_read_block st F (ix_leaf ix) s (zeros bs)) as [[s1 b] [u|e|]]; [|now split..].
        split; [reflexivity|]. apply counted_set, C'.
      - split; [reflexivity|]. unfold leaf_turn. destruct (nd_entry_at n pos) as [[ex|]|e|]; [|exact C' || exact Logic.I..].
        destruct (negb _); [exact C'|]. apply counted_set, C'. }
    pose proof (counted_set f stack C) as C'. set (g := set_stack f stack) in *. unfold extent_turn_wrap, extent_turn.
    destruct (N.ltb_spec pos (ex_length e)) as [P|P]; [|now split].
    destruct (N.leb_spec (file_size_bytes g) (fl_byte g)) as [Q|Q]; [now split|].
    destruct (device_block_small e pos P) as [-> ->]. cbn [unwrap]. pose proof C' as (GF & GI & GB). rewrite GF, read_block_same.
    destruct (fs_read_block st F _ s buf) as [[s1 b] [u|err|]]; [|now split..].
    rewrite block_size_same. change (fs_block_size_wrap F) with bs. unfold file_size_bytes in *. rewrite GI in *.
    assert (B : fl_block g * bs < u32_max * bs) by lia. assert (fl_block g < u32_max) as B' by nia.
    unfold cadd32, wadd32. destruct (N.leb_spec (fl_block g + 1) u32_max) as [L|L]; [|lia]. cbn [unwrap].
    rewrite N.mod_small by (unfold u32_max in B'; lia). split; [reflexivity|]. split; [reflexivity|]. split; [reflexivity|]. cbn [fl_byte fl_block].
    rewrite GB. lia.
  Qed.

  Lemma loop_same fuel s f buf : counted f -> file_loop_wrap st fuel s f buf = file_loop st fuel s f buf /\
    forall s' f' b r, file_loop st fuel s f buf = Some (s', f', b, r) -> r <> Panic -> counted f'.
  Proof.
    revert s f. induction fuel as [|fuel IH]; intros s f C; [split; [reflexivity|discriminate]|].
    cbn [file_loop file_loop_wrap]. destruct (file_turn_same s f buf C) as [-> T]. destruct (file_turn st s f buf) as [s1 f1 b1 r1|s1 f1].
    - split; [reflexivity|]. intros s' f' b r [= <- <- <- <-] NP. destruct r1; [exact T|exact T|congruence].
    - now apply IH.
  Qed.

  Lemma next_block_same fuel s f buf : counted f -> read_next_block_wrap st fuel s f buf = read_next_block st fuel s f buf /\
    forall s' f' b r, read_next_block st fuel s f buf = Some (s', f', b, r) -> r <> Panic -> counted f'.
  Proof.
    intros C. unfold read_next_block_wrap, read_next_block, file_block_size. rewrite (proj1 C), block_size_same. change (fs_block_size_wrap F) with bs.
    destruct (len buf <? bs); [|now apply loop_same]. split; [reflexivity|]. now intros s' f' b r [= <- <- <- <-] _.
  Qed.

  Lemma run_file_same fuel bufs s f : counted f -> run_file_wrap st fuel s f bufs = run_file st fuel s f bufs.
  Proof.
    revert s f. induction bufs as [|buf bufs IH]; intros s f C; [reflexivity|]. cbn [run_file run_file_wrap].
    destruct (next_block_same fuel s f buf C) as [-> N]. destruct (read_next_block st fuel s f buf) as [[[[s1 f1] b1] r1]|]; [|reflexivity].
    specialize (N _ _ _ _ eq_refl). destruct r1; [rewrite IH by (apply N; discriminate); reflexivity..|reflexivity].
  Qed.

  Lemma dir_block_new_same b seed : dir_block_new_wrap b seed = dir_block_new b seed.
  Proof.
    unfold dir_block_new_wrap, dir_block_new. destruct seed as [sd|]; [|reflexivity]. change (layout_size entry_tail_layout) with 12.
    unfold wsub64, csub64. destruct (N.leb_spec 12 (len b)) as [L|L]; cbn [unwrap rbind]; [reflexivity|].
    unfold slice_from. destruct (N.leb_spec (len b + 2 ^ 64 - 12) (len b)) as [L'|L']; [lia|reflexivity].
  Qed.

  Lemma dir_block_same fuel s f : counted f -> dir_next_block_wrap st fuel s f = dir_next_block st fuel s f /\
    forall s' f' r, dir_next_block st fuel s f = Some (s', f', r) -> r <> Panic -> counted f'.
  Proof.
    intros C. unfold dir_next_block_wrap, dir_next_block, file_block_size. rewrite (proj1 C), block_size_same. change (fs_block_size_wrap F) with bs.
    cbv zeta. destruct (next_block_same fuel s f (zeros bs) C) as [-> N]. destruct (read_next_block st fuel s f (zeros bs)) as [[[[s1 f1] b1] r1]|]; [|split; [reflexivity|discriminate]].
    specialize (N _ _ _ _ eq_refl). destruct r1 as [n|e|].
    - rewrite dir_block_new_same. split; [reflexivity|]. intros s' f' r [= <- <- <-] _. apply N. discriminate.
    - split; [reflexivity|]. intros s' f' r [= <- <- <-] _. apply N. discriminate.
    - split; [reflexivity|]. now intros s' f' r [= <- <- <-].
  Qed.

  Lemma advance_same fuel s d : counted (dr_file d) -> dir_advance_wrap st fuel s d = dir_advance st fuel s d /\
    forall s' d' r, dir_advance st fuel s d = Some (s', d', r) -> r <> Panic -> counted (dr_file d').
  Proof.
    intros C. unfold dir_advance_wrap, dir_advance. destruct (dir_block_same fuel s (dr_file d) C) as [-> N].
    destruct (dir_next_block st fuel s (dr_file d)) as [[[s1 f1] r1]|]; [|split; [reflexivity|discriminate]]. specialize (N _ _ _ eq_refl).
    split; [now destruct r1|]. intros s' d' r E NP. destruct r1 as [[b|]|e|]; injection E as <- <- <-; [apply N; discriminate..|congruence].
  Qed.

  Lemma dir_loop_same fuel turns s d : counted (dr_file d) -> dir_loop_wrap st fuel turns s d = dir_loop st fuel turns s d /\
    forall s' d' r, dir_loop st fuel turns s d = Some (s', d', r) -> r <> Panic -> counted (dr_file d').
  Proof.
    revert s d. induction turns as [|turns IH]; intros s d C; [split; [reflexivity|discriminate]|]. cbn [dir_loop dir_loop_wrap].
    destruct (dr_current d) as [|b|]; [split; [reflexivity|intros s' d' r [= <- <- <-] _; exact C]| |split; [reflexivity|intros s' d' r [= <- <- <-] _; exact C]].
    destruct (dir_block_next b) as [b' [[e|]|e|]]; try (split; [reflexivity|intros s' d' r [= <- <- <-] _; exact C]).
    destruct (advance_same fuel s (Directory (dr_file d) (CbBlock b')) C) as [-> N].
    destruct (dir_advance st fuel s _) as [[[s1 d1] r1]|]; [|split; [reflexivity|discriminate]]. specialize (N _ _ _ eq_refl).
    destruct r1 as [u|e|]; [apply IH, N; discriminate| |].
    - split; [reflexivity|]. intros s' d' r [= <- <- <-] _. apply N. discriminate.
    - split; [reflexivity|]. now intros s' d' r [= <- <- <-].
  Qed.

  Lemma dir_next_same fuel s d : counted (dr_file d) -> dir_next_wrap st fuel s d = dir_next st fuel s d /\
    forall s' d' r, dir_next st fuel s d = Some (s', d', r) -> r <> Panic -> counted (dr_file d').
  Proof.
    intros C. unfold dir_next_wrap, dir_next. destruct (dr_current d) as [|b|]; [|now apply dir_loop_same..].
    destruct (advance_same fuel s d C) as [-> N]. destruct (dir_advance st fuel s d) as [[[s1 d1] r1]|]; [|split; [reflexivity|discriminate]].
    specialize (N _ _ _ eq_refl). destruct r1 as [u|e|]; [apply dir_loop_same, N; discriminate| |].
    - split; [reflexivity|]. intros s' d' r [= <- <- <-] _. apply N. discriminate.
    - split; [reflexivity|]. now intros s' d' r [= <- <- <-].
  Qed.

  Lemma run_dir_same fuel n s d : counted (dr_file d) -> run_dir_wrap st fuel n s d = run_dir st fuel n s d.
  Proof.
    revert s d. induction n as [|n IH]; intros s d C; [reflexivity|]. cbn [run_dir run_dir_wrap].
    destruct (dir_next_same fuel s d C) as [-> N]. destruct (dir_next st fuel s d) as [[[s1 d1] r1]|]; [|reflexivity].
    specialize (N _ _ _ eq_refl). destruct r1; [rewrite IH by (apply N; discriminate); reflexivity..|reflexivity].
  Qed.

  Lemma file_open_counted f : file_open F I = Ok f -> counted f.
  Proof.
    unfold file_open. destruct (tree_from_inode I); [|discriminate]. intros [= <-]. split; [reflexivity|]. split; [reflexivity|]. cbn. lia.
  Qed.
  Lemma dir_open_counted d : dir_open F I = Ok d -> counted (dr_file d).
  Proof.
    unfold dir_open. destruct (contains _ _); [discriminate|]. destruct (file_open F I) as [f|e|] eqn:E; [|discriminate..].
    intros [= <-]. now apply file_open_counted.
  Qed.
End Same.

(** ** C84: opening *)

Section Release.
  Context {S : Type} (st : stream S) (c : bytes) (bad : N -> Prop) (at_ : S -> N -> Prop).
  Hypothesis OK : stream_ok st c bad at_.
  Notation legal := (legal at_).

  (** The offset that a release build computes. *)
  Lemma wrap_offset sb : len sb = 1024 -> e4_valid sb = Ok true ->
    wmul64 (wadd64 (e4_first_data_block sb) 1) (e4_block_size_wrap sb) = sb4_desc_offset sb 0 mod 2 ^ 64.
  Proof.
    intros L V. pose proof (block_size_ok sb L V) as B. rewrite (sized_block _ (valid_sized _ V)) in B. injection B as ->.
    unfold wmul64, wadd64, sb4_desc_offset, e4_first_data_block. s4_field.
    rewrite (N.mod_small (uint_le sb 20 4 + 1)); [f_equal; lia|]. pose proof (uint_le_bound sb 20 4) as U. change (2 ^ (8 * N.of_nat 4)) with 4294967296 in U. lia.
  Qed.

  Lemma open_cases s : legal s ->
    (fs_open_wrap st s = fs_open st s /\ (snd (fs_open st s) = Panic -> sb4_blocks_per_group (device_sb c) = 0 \/ table_fits (device_sb c))) \/
    (2048 <= len c /\ sb4_acceptable (device_sb c) /\ sb4_supported (device_sb c) /\ ~ table_fits (device_sb c) /\ snd (fs_open st s) = Panic /\
     (snd (fs_open_wrap st s) = Panic -> ~ table_allocatable (device_sb c))).
  Proof.
    intros A. unfold fs_open_wrap, fs_open. destruct (io_seek st 1024 s) as [s1 r1] eqn:Q.
    assert (U1024 : u64_ok 1024) by discriminate.
    pose proof (io_seek_spec st c bad at_ OK _ _ _ _ A U1024 Q) as X.
    destruct r1 as [u|e|]; [|left; unfold io_bind; rewrite Q; split; [reflexivity|discriminate]|destruct X].
    rewrite !(io_bind_ok _ _ _ _ _ Q).
    destruct X as (p & A1 & P). destruct (e4_read st s1) as [s2 r2] eqn:R. pose proof R as R'. rewrite <- e4_read_same in R'.
    pose proof (e4_read_spec st c bad at_ OK _ _ _ _ A1 R) as [Lg X].
    destruct r2 as [sb|e|]; [|left; unfold io_bind; rewrite R, R'; split; [reflexivity|discriminate]|destruct X].
    rewrite (io_bind_ok _ _ _ _ _ R), (io_bind_ok _ _ _ _ _ R').
    destruct X as (L & -> & V). destruct P as [->|[P1 P2]]; [|lia]. change (window c 1024 1024) with (device_sb c) in *. set (sb := device_sb c) in *.
    assert (L2 : 2048 <= len c) by exact L.
    assert (Lsb : len sb = 1024) by (apply len_window_in; exact L).
    destruct (N.eq_dec (sb4_blocks_per_group sb) 0) as [B0|B0].
    { left. assert (D : div_ceil (e4_blocks_count sb) (e4_blocks_per_group sb) = Panic); [|unfold io_bind; rewrite D; auto].
      unfold div_ceil, e4_blocks_per_group. s4_field. fold (sb4_blocks_per_group sb). now rewrite B0. }
    destruct (div_ceil_spec sb B0) as (k & D & K). rewrite D, !(io_bind_ok _ _ _ s2 k eq_refl). cbv zeta. fold (refused sb).
    destruct (refused sb) eqn:RF; [left; split; [reflexivity|discriminate]|]. apply refused_iff in RF.
    rewrite (sized_block _ (valid_sized _ V)), (io_bind_ok _ _ _ s2 _ eq_refl).
    rewrite (wrap_offset sb Lsb V). unfold cmul64.
    assert (FO : (e4_first_data_block sb + 1) * e4_block_size_wrap sb = sb4_desc_offset sb 0).
    { pose proof (block_size_ok sb Lsb V) as B. rewrite (sized_block _ (valid_sized _ V)) in B. injection B as ->.
      unfold sb4_desc_offset, e4_first_data_block. s4_field. lia. }
    rewrite FO. destruct (N.leb_spec (sb4_desc_offset sb 0) u64_max) as [TF|TF]; cbn [unwrap].
    { left. rewrite (io_bind_ok _ _ _ s2 _ eq_refl). rewrite N.mod_small by (unfold u64_max in TF; lia). auto. }
    right. split; [exact L2|]. split; [now apply acceptable_by_computation|]. split; [exact RF|]. split; [unfold table_fits, u64_ok; lia|].
    split; [reflexivity|]. unfold io_bind at 1. destruct (io_seek st _ s2) as [s3 r3] eqn:Q3.
    assert (UO : u64_ok (sb4_desc_offset sb 0 mod 2 ^ 64)).
    { assert (Z : 2 ^ 64 <> 0) by discriminate. pose proof (N.mod_lt (sb4_desc_offset sb 0) (2 ^ 64) Z). unfold u64_ok, u64_max. lia. }
    pose proof (io_seek_spec st c bad at_ OK _ _ _ _ Lg UO Q3) as X.
    destruct r3 as [u3|e|]; [|discriminate|destruct X]. destruct X as (p3 & A3 & _).
    change (layout_size bg_layout) with 60. destruct (N.ltb_spec i64_max (k * 60)) as [AL|AL].
    { intros _ H. specialize (H k K). lia. }
    unfold io_bind. destruct (read_groups st _ _ s3) as [s4' r4] eqn:R4. intros H. exfalso.
    assert (DS : e4_group_descriptor_size sb = sb4_desc_size sb) by (unfold e4_group_descriptor_size; s4_field; reflexivity).
    rewrite DS in R4. pose proof (read_groups_spec st c bad at_ OK _ _ _ _ _ _ (su_desc sb RF) A3 R4) as [_ X].
    destruct r4; [discriminate..|exact X].
  Qed.

  (** With a descriptor table that starts below 2^64, a release build opens as the checked one does. *)
  Theorem release_open s : legal s -> (sb4_acceptable (device_sb c) -> sb4_supported (device_sb c) -> table_fits (device_sb c)) ->
    fs_open_wrap st s = fs_open st s.
  Proof. intros A T. destruct (open_cases s A) as [[E _]|(_ & AC & SU & NF & _)]; [exact E|]. elim NF. auto. Qed.

  (** And it panics in two of the three cases in which the checked one does (C38), and only then. *)
  Theorem release_open_panics_only s : legal s -> snd (fs_open_wrap st s) = Panic ->
    let sb := device_sb c in
    2048 <= len c /\ sb4_acceptable sb /\ (sb4_blocks_per_group sb = 0 \/ (sb4_supported sb /\ ~ table_allocatable sb)).
  Proof.
    intros A P. cbv zeta. destruct (open_cases s A) as [[E T]|(L & AC & SU & NF & _ & NA)]; [|specialize (NA P); tauto].
    rewrite E in P. specialize (T P). destruct (fs_open_panics_only st c bad at_ OK s A P) as (L & AC & X). cbv zeta in X.
    change (window c 1024 1024) with (device_sb c) in *. pose proof (su_bpg (device_sb c)). tauto.
  Qed.

  (** ** C85: everything a client can ask

      [small]: at most 2^32 - 1 blocks, the limit of ext4. *)
  Context (clone : S -> S * res S).
  Hypothesis CL : forall s s' r, legal s -> clone s = (s', r) -> legal s' /\ r <> Panic /\ (forall t, r = Ok t -> legal t).
  Definition small (number : N) : Prop := slot_size (device_slot c number) <= u32_max * sb4_block_size (device_sb c).

  Lemma opened_sized F : opened c (fs_sb F) (fs_groups F) -> sized (fs_sb F) /\ e4_block_size_wrap (fs_sb F) = sb4_block_size (device_sb c).
  Proof.
    intros OP. pose proof (op_acceptable _ _ _ OP) as AC. pose proof (op_sb _ _ _ OP) as SB. pose proof (op_len _ _ _ OP) as Lc.
    assert (Lsb : len (fs_sb F) = 1024) by (rewrite SB; apply len_window_in; exact Lc).
    destruct (sb4_valid_iff _ Lsb) as (v & V & I). apply I in AC. subst v. split; [now apply valid_sized|].
    pose proof (block_size_ok _ Lsb V) as B. rewrite (sized_block _ (valid_sized _ V)) in B. injection B as ->. now rewrite SB.
  Qed.

  Lemma opened_slot F number s s' i : legal s -> opened c (fs_sb F) (fs_groups F) -> fs_read_inode st F number s = (s', Ok i) ->
    legal s' /\ in_file_size_bytes i = slot_size (device_slot c number).
  Proof.
    intros A OP E. destruct (fs_read_inode_spec st c bad at_ OK _ _ _ _ _ A OP E) as (A' & X). cbv zeta in X. split; [exact A'|].
    assert (SB : fs_sb F = device_sb c) by apply (op_sb _ _ _ OP).
    destruct X as [(_ & _ & _ & _ & N)|(e & X & _)]; [|discriminate]. symmetry in N. rewrite SB in N.
    fold (device_desc c number) in N. fold (device_slot_offset c number) in N. fold (device_slot c number) in N.
    destruct (slot_fields _ _ _ _ N) as (_ & SZ & _). exact SZ.
  Qed.

  Lemma serve_same F s q : legal s -> opened c (fs_sb F) (fs_groups F) ->
    (forall number fuel bufs entries, q = RqOpen number fuel bufs entries -> small number) ->
    serve_wrap st clone F s q = serve st clone F s q /\ legal (fst (serve st clone F s q)).
  Proof.
    intros A OP SM. destruct (opened_sized F OP) as [SZ BS]. destruct q as [number|number buf|number fuel bufs entries]; cbn [serve serve_wrap].
    - rewrite (read_inode_same st F SZ). split; [reflexivity|]. destruct (fs_read_inode st F number s) as [s' r] eqn:E.
      exact (proj1 (fs_read_inode_spec st c bad at_ OK _ _ _ _ _ A OP E)).
    - rewrite (read_block_same st F SZ). split; [reflexivity|]. destruct (fs_read_block st F number s buf) as [[s' b] r] eqn:E.
      exact (proj1 (fs_read_block_spec st c bad at_ OK _ _ _ _ _ _ _ A OP E)).
    - rewrite (open_file_same st F SZ). specialize (SM _ _ _ _ eq_refl). unfold small in SM. rewrite <- BS in SM.
      destruct (open_file st clone F number s) as [s' r] eqn:E. cbn [fst]. unfold open_file in E.
      destruct (clone s) as [s1 t] eqn:C. destruct (CL _ _ _ A C) as (A1 & _ & T). destruct t as [t|e|]; [|injection E as <- <-; now split..].
      destruct (fs_read_inode st F number s1) as [s2 x] eqn:R. apply pair_equal_spec in E as [<- E].
      destruct x as [i|e|]; [|cbn [rbind] in E; subst r; split; [reflexivity|exact (proj1 (fs_read_inode_spec st c bad at_ OK _ _ _ _ _ A1 OP R))]..].
      destruct (opened_slot F number _ _ _ A1 OP R) as [A2 IS]. split; [|exact A2]. cbn [rbind] in E. rewrite <- IS in SM.
      destruct r as [[own a]|e|]; [|reflexivity..]. destruct (any_open F i) as [a'|e|] eqn:AO; [|discriminate..]. injection E as <- <-. unfold any_open in AO.
      destruct (in_file_type i); try (injection AO as <-; reflexivity).
      + destruct (file_open F i) as [f|e|] eqn:FO; [|discriminate..]. injection AO as <-.
        now rewrite (run_file_same st F SZ i SM fuel bufs t f (file_open_counted F i SM f FO)).
      + destruct (dir_open F i) as [d|e|] eqn:DO; [|discriminate..]. injection AO as <-.
        now rewrite (run_dir_same st F SZ i SM fuel entries t d (dir_open_counted F i SM d DO)).
  Qed.

  Theorem release_session s qs : legal s -> (sb4_acceptable (device_sb c) -> sb4_supported (device_sb c) -> table_fits (device_sb c)) ->
    (forall number fuel bufs entries, In (RqOpen number fuel bufs entries) qs -> small number) ->
    session_wrap st clone s qs = session st clone s qs.
  Proof.
    intros A T SM. unfold session_wrap, session. rewrite (release_open s A T). destruct (fs_open st s) as [s1 r] eqn:FO.
    destruct r as [F|e|]; [|reflexivity..]. cbn [rbind]. f_equal. destruct (fs_open_sound st c bad at_ OK _ _ _ A FO) as [A1 OP].
    clear FO. revert s1 A1. induction qs as [|q qs IH]; intros s1 A1; [reflexivity|]. cbn [serve_all serve_all_wrap].
    destruct (serve_same F s1 q A1 OP) as [-> A2]; [intros number fuel bufs entries ->; apply (SM number fuel bufs entries); now left|].
    destruct (serve st clone F s1 q) as [s2 o]. f_equal. apply IH; [|exact A2]. intros number fuel bufs entries H. apply (SM number fuel bufs entries). now right.
  Qed.
End Release.
Print Assumptions release_open.
Print Assumptions release_open_panics_only.
Print Assumptions release_session.

(** ** C86: the whole program, from the block device up *)

Lemma read_exact_same {S} (st1 st2 : stream S) (c : bytes) bad at_ : stream_ok st2 c bad at_ ->
  (forall s p buf, at_ s p -> st_read st1 s buf = st_read st2 s buf) ->
  forall s p buf, at_ s p -> read_exact st1 s buf = read_exact st2 s buf.
Proof.
  intros OK H s p buf A. unfold read_exact. generalize (length buf) as fuel. intros fuel. revert s p buf A.
  induction fuel as [|fuel IH]; intros s p buf A; [reflexivity|]. destruct buf as [|x buf]; [reflexivity|]. cbn [read_exact_loop].
  rewrite (H _ _ _ A). destruct (st_read st2 s (x :: buf)) as [[s1 b1] r1] eqn:E.
  destruct (so_read _ _ _ _ OK _ _ _ _ _ _ A E) as (p1 & _ & A1 & _). unfold sbind. destruct r1 as [k|e|]; [|reflexivity..].
  destruct (k =? 0); [reflexivity|]. destruct (k <=? len b1); [|reflexivity]. now rewrite (IH _ _ _ A1).
Qed.

Theorem release_device {D} (ops : blockdev D) bs count blk bad inv d qs : block_ok ops bs count blk bad inv -> inv d ->
  let c := flat count blk in
  (sb4_acceptable (device_sb c) -> sb4_supported (device_sb c) -> table_fits (device_sb c)) ->
  (forall number fuel bufs entries, In (RqOpen number fuel bufs entries) qs -> small c number) ->
  session_wrap (reader_stream_wrap ops) (reader_clone ops) (reader_new d) qs =
  session (reader_stream ops) (reader_clone ops) (reader_new d) qs.
Proof.
  intros OK I c T SM. pose proof (reader_stream_ok ops bs count blk bad inv OK) as R. pose proof (release_reader_ok ops bs count blk bad inv OK) as W.
  fold c in R, W. set (legal := fun r => exists p, reader_at bs inv r p).
  assert (A0 : legal (reader_new d)) by (exists 0; now apply (reader_new_at ops bs count blk bad inv OK)).
  assert (CL : forall s, legal s -> exists t, reader_clone ops s = (s, Ok t) /\ legal t).
  { intros s A. destruct (bo_clone _ _ _ _ _ _ (reader_block_ok _ _ _ _ _ _ OK) s A) as (t & E & H). exists t. unfold reader_clone. now rewrite E. }
  rewrite (release_session _ c _ _ W (reader_clone ops)); auto.
  2:{ intros s s' r A E. destruct (CL s A) as (t & E' & H). rewrite E in E'. injection E' as -> ->. split; [exact A|]. split; [discriminate|]. now intros u [= <-]. }
  apply (session_alike _ _ (fun s1 s2 => s1 = s2 /\ legal s1) (fun s1 s2 => s1 = s2 /\ legal s1)).
  - constructor; [auto| |].
    + intros s1 s2 o [<- (p & A)] U. destruct (reader_seek ops s1 (SeekStart o)) as [s' r] eqn:E. exists s', s', r, r.
      destruct (reader_seek_spec ops bs count blk bad inv OK _ _ (SeekStart o) _ _ A U E) as (p' & _ & A'). cbn [st_seek reader_stream reader_stream_wrap].
      assert (L' : legal s') by (now exists p'). auto 8.
    + intros s1 s2 buf [<- (p & A)]. rewrite (read_exact_same (reader_stream_wrap ops) (reader_stream ops) c _ _ R (fun s p buf => reader_read_same ops bs count blk bad inv OK s p buf) s1 p buf A).
      destruct (read_exact (reader_stream ops) s1 buf) as [[s' b] r] eqn:E. exists s', s', b, r. do 2 (split; [reflexivity|]). split; [reflexivity|].
      pose proof (read_exact_spec _ c _ _ R _ _ _ _ _ _ A E) as X. destruct r as [u|e|]; [| |destruct X].
      * exists (p + len buf). apply X.
      * destruct X as (_ & _ & (p' & _ & A') & _). now exists p'.
  - intros s1 s2 [<- A]. destruct (CL s1 A) as (t & E & H). exists s1, s1, t, t. rewrite E. auto 8.
  - auto.
Qed.
Print Assumptions release_device.

(** The same through an array, whose members hold the image. *)
Theorem release_array {D} (ops : blockdev D) join (C : contents) f l image a qs : joins join -> geometry_ok f l -> u64_ok (len image) ->
  contents_image C (fun _ => 0) f l image -> slots_hold ops a C -> in_use a f ->
  (sb4_acceptable (device_sb image) -> sb4_supported (device_sb image) -> table_fits (device_sb image)) ->
  (forall number fuel bufs entries, In (RqOpen number fuel bufs entries) qs -> small image number) ->
  session_wrap (reader_stream_wrap (array_block_io ops join)) (reader_clone (array_block_io ops join)) (reader_new a) qs =
  session (reader_stream (array_block_io ops join)) (reader_clone (array_block_io ops join)) (reader_new a) qs.
Proof.
  intros J G U I H IU T SM. pose proof (array_io_block_ok ops join C f l image J G U I) as OK.
  apply (release_device _ _ _ _ _ _ a qs OK (conj H IU)); rewrite flat_image by apply (proj1 I); assumption.
Qed.
Print Assumptions release_array.

(** ** Examples *)

Definition opened_number (q : request) : list N := match q with RqOpen number _ _ _ => [number] | _ => [] end.
Lemma opened_number_in number fuel bufs entries qs : In (RqOpen number fuel bufs entries) qs -> In number (flat_map opened_number qs).
Proof. intros H. apply in_flat_map. eexists. split; [exact H|now left]. Qed.

Example release_session_ex :
  session_wrap mem_stream mem_clone (mem_new open_image 512) [RqInode 5; RqOpen 5 20 (repeat (zeros 1024) 5) 0; RqOpen 6 20 [] 3] =
  session mem_stream mem_clone (mem_new open_image 512) [RqInode 5; RqOpen 5 20 (repeat (zeros 1024) 5) 0; RqOpen 6 20 [] 3] /\
  table_fits (device_sb open_image) /\ small open_image 5 /\ small open_image 6.
Proof.
  assert (T : table_fits (device_sb open_image)) by (vm_compute; congruence).
  assert (S5 : small open_image 5) by (vm_compute; congruence). assert (S6 : small open_image 6) by (vm_compute; congruence).
  split; [|auto]. apply (release_session mem_stream open_image (fun _ => False) (mem_at open_image 512) open_image_ok mem_clone (mem_clone_ok open_image 512)).
  - exact open_image_start.
  - auto.
  - intros number fuel bufs entries H. apply opened_number_in in H. cbn [flat_map opened_number app] in H. now destruct H as [<-|[<-|[]]].
Qed.

(** Through the array of four files of PropsExt4Recover. *)
Example release_array_ex qs : (forall number fuel bufs entries, In (RqOpen number fuel bufs entries) qs -> number = 5) ->
  let dev := array_block_io (filedev_block torn_policy) shared in
  session_wrap (reader_stream_wrap dev) (reader_clone dev) (reader_new torn_array) qs =
  session (reader_stream dev) (reader_clone dev) (reader_new torn_array) qs.
Proof.
  intros H dev. assert (IU : in_use torn_array torn_format) by (right; split; reflexivity).
  assert (Jn : joins (@shared filedev)) by (intros d d'; now right).
  apply (release_array (filedev_block torn_policy) shared (torn_contents torn_policy) torn_format (SpecRaid.Md5 SpecRaid.LeftSymmetric) open_image torn_array qs Jn
    torn_geometry open_image_u64 (torn_image _) (torn_holds _) IU).
  - intros _ _. vm_compute. congruence.
  - intros number fuel bufs entries Q. rewrite (H _ _ _ _ Q). vm_compute. congruence.
Qed.

(** ** C84, refuted without the condition: a file system with blocks of 2^62 bytes and its descriptors in block 4.  The
    checked build panics; a release build takes the first bytes of the device for the descriptors, and opens. *)
Definition wrapped_image : bytes :=
  zeros 1024 ++ fold_left poke [(0x14, to_le 4 3); (0x18, to_le 4 52); (0x1c, to_le 4 52)] small_sb ++ zeros 14336.
Theorem release_open_refuted :
  ~ (forall c s f, u64_ok (len c) -> fs_open_wrap mem_stream (mem_new c 512) = (s, Ok f) -> opened c (fs_sb f) (fs_groups f)).
Proof.
  intros H.
  assert (X : exists s f, fs_open_wrap mem_stream (mem_new wrapped_image 512) = (s, Ok f) /\ len (fs_groups f) = 1 /\ sb4_desc_offset (fs_sb f) 1 = 2 ^ 64 + 64).
  { eexists. eexists. split; [vm_compute; reflexivity|]. vm_compute. repeat split. }
  destruct X as (s & f & E & L & O). assert (LW : len wrapped_image = 16384) by (vm_compute; reflexivity).
  specialize (H wrapped_image s f ltac:(rewrite LW; discriminate) E). pose proof (op_table _ _ _ H) as T. rewrite L, O, LW in T.
  assert (T' : 1 <> 0) by discriminate. specialize (T T'). lia.
Qed.
Print Assumptions release_open_refuted.
Example release_open_refuted_ex : snd (fs_open mem_stream (mem_new wrapped_image 512)) = Panic /\
  sb4_acceptable (device_sb wrapped_image) /\ ~ table_fits (device_sb wrapped_image).
Proof.
  split; [vm_compute; reflexivity|]. split; [apply acceptable_by_computation; vm_compute; reflexivity|].
  intros H. vm_compute in H. now apply H.
Qed.
Example release_open_panics_ex : snd (fs_open_wrap mem_stream (mem_new no_bpg_image 512)) = Panic /\
  snd (fs_open_wrap mem_stream (mem_new huge_count_image 512)) = Panic.
Proof. split; vm_compute; reflexivity. Qed.
