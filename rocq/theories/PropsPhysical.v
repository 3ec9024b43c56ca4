(** Property C123: members whose size is not a whole number of physical blocks. *)

From Coq Require Import Strings.String Permutation.
From Verif Require Import Base BaseFacts Raid SpecRaid RaidFacts Io SpecStream IoFacts Superblock SpecMd SuperblockFacts PropsSuperblock Device SpecDevice PropsDevice
  Array ArrayIo SpecArray ArrayFacts PropsArray PropsArrayRead PropsArrayIo PropsExt4Array PropsExt4Open PropsExt4Recover Main PropsMain SpecMembers PropsMembers SpecDamage PropsPaths PropsPathsWrong.

(** The program takes the size of a block device in whole physical blocks (src/block_device/native.rs:34-38,
    src/md/device/device.rs:40-46); md takes it in sectors of 512 bytes.  [n / bs * bs] is the former, for [n] bytes and physical blocks of
    [bs] bytes. *)

Lemma multiple_fits bs n m : bs <> 0 -> N.divide bs m -> m <= n / bs * bs <-> m <= n.
Proof.
  intros B [k ->]. split.
  - intros H. pose proof (N.mul_div_le n bs B). lia.
  - intros H. apply N.mul_le_mono_r. apply N.div_le_lower_bound; lia.
Qed.

Lemma divide_scaled bs a k : N.divide bs a -> N.divide bs (k * a).
Proof. intros [j ->]. exists (k * j). lia. Qed.

Lemma v10_offset_bytes size o : v10_offset size o <-> N.divide 4096 o /\ o + 8192 <= size < o + 12288.
Proof.
  unfold v10_offset.
  assert (W : forall m, N.divide 4096 m -> m <= 512 * (size / 512) <-> m <= size).
  { intros m H. rewrite (N.mul_comm 512). apply multiple_fits; [discriminate|]. apply (N.divide_trans _ 4096); [now exists 8|exact H]. }
  rewrite N.mod_divide by discriminate. split; intros [D [A B]]; pose proof (W (o + 8192) ltac:(destruct D as [k ->]; exists (k + 2); lia)) as W1;
    pose proof (W (o + 12288) ltac:(destruct D as [k ->]; exists (k + 3); lia)) as W2; (split; [exact D|]); lia.
Qed.

Section Physical.
  Context (bs : N).
  Hypothesis B0 : bs <> 0.
  Hypothesis Bd : N.divide bs 4096.

  Lemma fits_4k n m : N.divide 4096 m -> m <= n / bs * bs <-> m <= n.
  Proof. intros [k ->]. apply multiple_fits; [exact B0|]. now apply divide_scaled. Qed.

  Lemma small_physical n : (n / bs * bs <? 12288) = (n <? 12288).
  Proof.
    pose proof (fits_4k n 12288 ltac:(now exists 3)) as W. destruct (N.ltb_spec (n / bs * bs) 12288), (N.ltb_spec n 12288); try reflexivity; lia.
  Qed.

  Lemma v10_physical n o : v10_offset (n / bs * bs) o <-> v10_offset n o.
  Proof.
    rewrite !v10_offset_bytes. split; intros [D [P Q]]; pose proof (fits_4k n (o + 8192) ltac:(destruct D as [k ->]; exists (k + 2); lia)) as W1;
      pose proof (fits_4k n (o + 12288) ltac:(destruct D as [k ->]; exists (k + 3); lia)) as W2; (split; [exact D|]); lia.
  Qed.

  Lemma v090_physical n o : v090_offset (n / bs * bs) o <-> v090_offset n o.
  Proof.
    unfold v090_offset. rewrite N.mod_divide by discriminate.
    split; intros [D [P Q]]; pose proof (fits_4k n (o + 65536) ltac:(destruct D as [k ->]; exists (16 * k + 16); lia)) as W1;
      pose proof (fits_4k n (o + 131072) ltac:(destruct D as [k ->]; exists (16 * k + 32); lia)) as W2; (split; [exact D|]); lia.
  Qed.

  Lemma locations_physical n ls : locations (n / bs * bs) ls <-> locations n ls.
  Proof.
    unfold locations. pose proof (fits_4k n 65536 ltac:(now exists 16)) as W.
    destruct (N.leb_spec 65536 (n / bs * bs)), (N.leb_spec 65536 n); try lia; clear W.
    - split; intros (o & O & o' & O' & E); exists o; (split; [now apply v10_physical|]); exists o'; (split; [now apply v090_physical|exact E]).
    - split; intros (o & O & E); exists o; (split; [now apply v10_physical|exact E]).
  Qed.
End Physical.

(** ** Superblocks are looked for where md puts them *)

(** A block device of any size whose physical blocks are of 4096 bytes or a part of that: its class is the one that md's rule
    gives for the size of the whole device, whatever of it cannot be read.  (Partial: other sizes of physical blocks, see
    [physical_classification_refuted].) *)
Theorem physical_classification_partial : forall pol c pos clock fx bs,
  len c <= i64_max -> bs <> 0 -> N.divide bs 4096 ->
  exists f' cls, classify (native_block pol) (native_stream pol) (OsFile c pos clock fx (Ok bs) (Ok (len c))) = (f', Ok cls) /\
    if len c <? 12288 then cls = DsTooSmall
    else exists ls, locations (len c) ls /\ classified c (fun l => vacant c l \/ unreadable (pol_bad pol) l) ls cls.
Proof.
  intros pol c pos clock fx bs U Nb Dv.
  assert (M : len c / bs * bs <= len c) by (rewrite N.mul_comm; apply N.mul_div_le; exact Nb).
  destruct (member_classification (native_stream pol) (native_block pol) c (pol_bad pol) (os_at c fx (Ok bs) (Ok (len c))) (len c / bs * bs)
    (OsFile c pos clock fx (Ok bs) (Ok (len c))) pos) as (f' & cls & E & H).
  - now apply os_stream_ok.
  - unfold os_at. cbn. auto 10.
  - unfold device_size. cbn [bd_count bd_size native_block os_size64 os_pbsz rbind].
    unfold cdiv64. destruct (N.eqb_spec bs 0); [contradiction|]. cbn [unwrap rbind].
    unfold size_bytes. rewrite cmul64_some; [reflexivity|]. change u64_max with (2 * i64_max + 1). lia.
  - exact M.
  - exists f', cls. split; [exact E|]. rewrite (small_physical bs Nb Dv) in H. destruct (len c <? 12288); [exact H|].
    destruct H as (ls & Lo & H). exists ls. split; [now apply (locations_physical bs Nb Dv)|exact H].
Qed.
Print Assumptions physical_classification_partial.

(** If all of it can be read, it is that class and no other. *)
Theorem physical_classification_exact_partial : forall pol c pos clock fx bs cls,
  len c <= i64_max -> bs <> 0 -> N.divide bs 4096 -> (forall t p k e, pol t p k <> IoFail e) ->
  snd (classify (native_block pol) (native_stream pol) (OsFile c pos clock fx (Ok bs) (Ok (len c)))) = Ok cls <->
  if len c <? 12288 then cls = DsTooSmall else exists ls, locations (len c) ls /\ classified c (vacant c) ls cls.
Proof.
  intros pol c pos clock fx bs cls U Nb Dv NF. rewrite (native_member_classification pol c pos clock fx bs cls U Nb NF).
  rewrite (small_physical bs Nb Dv). destruct (len c <? 12288); [reflexivity|].
  split; intros (ls & Lo & H); exists ls; (split; [now apply (locations_physical bs Nb Dv)|exact H]).
Qed.
Print Assumptions physical_classification_exact_partial.

(** ** The members of an array are whole without the rest *)

Lemma labelled_physical x i o c bs : bs <> 0 -> N.divide bs 4096 -> labelled_member x i o c ->
  labelled_member x i o (window c 0 (len c / bs * bs)).
Proof.
  intros Nb Dv (L & O & W & V2 & V1). set (size := len c / bs * bs).
  assert (M : size <= len c) by (unfold size; rewrite N.mul_comm; apply N.mul_div_le; exact Nb).
  assert (Ls : len (window c 0 size) = size) by (apply len_window_in; lia).
  assert (O' : v10_offset size o) by now apply (v10_physical bs Nb Dv).
  assert (L' : 12288 <= size) by (apply (fits_4k bs Nb Dv); [now exists 3|exact L]).
  pose proof (proj1 (v10_offset_bytes _ _) O') as (_ & Oe & _).
  unfold labelled_member. rewrite Ls, !window_window by lia. rewrite !N.add_0_l. repeat split; try assumption; try (apply W); apply O'.
Qed.

(** If the device at the path, all of it, is that of the member [w]. *)
Definition path_device (pol : bytes -> io_policy) (open : opener) (path : bytes) (w : member_written) : Prop :=
  exists bs, is_device open path (w_bytes w) bs /\ N.divide bs 4096 /\
    (forall p, w_sbad w p <-> pol_bad (pol path) p) /\ (forall p, w_bad w p <-> pol_bad_block (pol path) bs (p / bs)).

(** The data ends before the superblock. *)
Definition data_fits (x : md_array) (w : member_written) : Prop := x_size x * 512 <= w_place w.

(** [v] is [w] without what follows some byte after its superblock. *)
Definition cut_of (w v : member_written) : Prop :=
  w_position v = w_position w /\ w_place v = w_place w /\ w_sbad v = w_sbad w /\ w_bad v = w_bad w /\
  exists rest, w_bytes w = w_bytes v ++ rest /\ len rest < 4096 /\ w_place w + 8192 <= len (w_bytes v).

Lemma path_device_holds pol open path w x image q : path_device pol open path w -> written x image q w -> data_fits x w ->
  exists v, path_holds pol open path v /\ written x image q v /\ cut_of w v.
Proof.
  destruct w as [i o c sbad bad]. intros (bs & Dev & Dv & Ws & Wd) [[La St] G] Fi. unfold data_fits in Fi. cbn [w_position w_place w_bytes w_sbad w_bad] in *.
  pose proof Dev as (f & _ & _ & _ & _ & Nb & _). set (size := len c / bs * bs).
  assert (M : size <= len c) by (unfold size; rewrite N.mul_comm; apply N.mul_div_le; exact Nb).
  assert (Ls : len (window c 0 size) = size) by (apply len_window_in; lia).
  pose proof (labelled_physical x i o c bs Nb Dv La) as La'.
  assert (Oe : o + 8192 <= size). { pose proof (proj1 (proj2 La')) as O'. apply v10_offset_bytes in O'. fold size in O'. lia. }
  exists (MemberWritten i o (window c 0 size) sbad bad). split; [|split].
  - exists c, bs. cbn. split; [exact Dev|]. split; [reflexivity|]. split; assumption.
  - split; [|exact G]. cbn. split; [exact La'|]. intros t Lt. destruct (St t Lt) as [_ E]. split; [lia|].
    rewrite window_window, N.add_0_l by lia. exact E.
  - repeat split. cbn. exists (skipn (N.to_nat size) c). rewrite Ls. unfold window. rewrite skipn_O, firstn_skipn. split; [reflexivity|]. split; [|exact Oe].
    rewrite len_skipn. pose proof (N.mod_lt (len c) bs Nb) as Lm. rewrite N.mod_eq in Lm by exact Nb. rewrite (N.mul_comm bs) in Lm. fold size in Lm.
    destruct Dv as [k E]. assert (bs <= 4096) by (destruct k; lia). lia.
Qed.

(** Block devices of any size, so written: what [paths_assembled] and the theorems after it (C112) ask for holds, with the
    same positions, the same bytes up to a point after the superblock, and the same bytes that cannot be read.  So all of them
    are opened and put where they belong.  (Partial: as in C112; other sizes of physical blocks.) *)
Theorem physical_paths_partial : forall pol open paths ws x image q order,
  (forall l : list (option N * list (md_device (bytes * osfile))), Permutation (order l) l) ->
  array_ok x -> image_fills x image -> positions_filled x (map w_position ws) ->
  Forall (written x image q) ws -> Forall (data_fits x) ws -> Forall2 (path_device pol open) paths ws ->
  exists vs devices d, Forall2 cut_of ws vs /\ Forall (written x image q) vs /\ Forall2 (path_holds pol open) paths vs /\
    positions_filled x (map w_position vs) /\
    open_paths pol open 0 paths = Ok (devices, []) /\ map (fun d => id_reference (fst d)) devices = map Some paths /\
    d = array_open order (map at_path devices) /\ in_use d (array_format_of x) /\ slots_hold (path_block pol) d (written_contents vs) /\
    contents_image (written_contents vs) (fun _ => 0) (array_format_of x) (x_layout x) image /\ ad_inactive d = [].
Proof.
  intros pol open paths ws x image q order Ord X Fi Po Wr Df Ph.
  assert (V : exists vs, Forall2 cut_of ws vs /\ Forall (written x image q) vs /\ Forall2 (path_holds pol open) paths vs /\ map w_position vs = map w_position ws).
  { clear Po. induction Ph as [|path w paths ws P F IH].
    - exists []. repeat constructor.
    - inv Wr. inv Df. destruct IH as (vs & A1 & A2 & A3 & A4); [assumption|assumption|].
      destruct (path_device_holds pol open path w x image q) as (v & H1' & H2' & H3'); [assumption..|]. exists (v :: vs).
      split; [now constructor|]. split; [now constructor|]. split; [now constructor|]. cbn [map]. rewrite A4. destruct H3' as [-> _]. reflexivity. }
  destruct V as (vs & V1 & V2 & V3 & V4). rewrite <- V4 in Po.
  destruct (paths_assembled pol open paths vs x image q order Ord X Fi Po V2 V3) as (devices & d & [E D] & R & I & _ & S & C & A).
  exists vs, devices, d. auto 12.
Qed.
Print Assumptions physical_paths_partial.

(** ** Likewise if members are missing or wrong (C114) *)

Lemma path_device_labelled pol open path w x : path_device pol open path w -> labelled x w ->
  exists v, path_holds pol open path v /\ labelled x v /\ cut_of w v.
Proof.
  destruct w as [i o c sbad bad]. intros (bs & Dev & Dv & Ws & Wd) [La G]. cbn [w_position w_place w_bytes w_sbad w_bad] in *.
  pose proof Dev as (f & _ & _ & _ & _ & Nb & _). set (size := len c / bs * bs).
  assert (M : size <= len c) by (unfold size; rewrite N.mul_comm; apply N.mul_div_le; exact Nb).
  assert (Ls : len (window c 0 size) = size) by (apply len_window_in; lia).
  pose proof (labelled_physical x i o c bs Nb Dv La) as La'.
  assert (Oe : o + 8192 <= size). { pose proof (proj1 (proj2 La')) as O'. apply v10_offset_bytes in O'. fold size in O'. lia. }
  exists (MemberWritten i o (window c 0 size) sbad bad). split; [|split].
  - exists c, bs. cbn. split; [exact Dev|]. split; [reflexivity|]. split; assumption.
  - split; [exact La'|exact G].
  - repeat split. cbn. exists (skipn (N.to_nat size) c). rewrite Ls. unfold window. rewrite skipn_O, firstn_skipn. split; [reflexivity|]. split; [|exact Oe].
    rewrite len_skipn. pose proof (N.mod_lt (len c) bs Nb) as Lm. rewrite N.mod_eq in Lm by exact Nb. rewrite (N.mul_comm bs) in Lm. fold size in Lm.
    destruct Dv as [k E]. assert (bs <= 4096) by (destruct k; lia). lia.
Qed.

Lemma cut_find ws vs i w : Forall2 cut_of ws vs -> List.find (fun w => w_position w =? i) ws = Some w ->
  exists v, List.find (fun w => w_position w =? i) vs = Some v /\ In w ws /\ cut_of w v.
Proof.
  induction 1 as [|a b ws vs Cb F IH]; cbn [List.find]; [discriminate|]. destruct Cb as [E Cb]. rewrite E. destruct (w_position a =? i).
  - intros X. injection X as <-. exists b. split; [reflexivity|]. split; [now left|]. split; assumption.
  - intros X. destruct (IH X) as (v & P & I & Q). exists v. split; [exact P|]. split; [now right|exact Q].
Qed.

(** What the slots hold of the data is the same. *)
Lemma cut_slot ws vs x i t b : Forall2 cut_of ws vs -> Forall (data_fits x) ws -> t < x_size x ->
  slot_sector (written_contents ws) i t b -> slot_sector (written_contents vs) i t b.
Proof.
  intros F Df Lt (ct & bad & E & Le & B). unfold written_contents in E. destruct (List.find (fun w => w_position w =? i) ws) as [w|] eqn:Fw; [|discriminate E].
  cbn [option_map] in E. injection E as <- <-. destruct (cut_find ws vs i w F Fw) as (v & Fv & Iw & _ & _ & _ & Bv & rest & Eb & _ & Le').
  rewrite Forall_forall in Df. specialize (Df w Iw). unfold data_fits in Df.
  exists (w_bytes v), (w_bad v). split; [unfold written_contents; now rewrite Fv|]. split; [lia|]. rewrite B, Eb. apply window_app_l. lia.
Qed.

(** Of the members some are given, of any sizes, holding anything before their superblocks: what the theorems of C114 ask for
    holds, and the condition on the rows holds of what is opened if it holds of the whole devices. *)
Theorem physical_wrong_paths_partial : forall pol open paths ws x image q order,
  (forall l : list (option N * list (md_device (bytes * osfile))), Permutation (order l) l) ->
  array_ok x -> positions_some x (map w_position ws) ->
  Forall (labelled x) ws -> Forall (data_fits x) ws -> Forall2 (path_device pol open) paths ws ->
  exists vs devices d, Forall2 cut_of ws vs /\ Forall (labelled x) vs /\ Forall2 (path_holds pol open) paths vs /\
    positions_some x (map w_position vs) /\
    (one_wrong (written_contents ws) (array_format_of x) (x_layout x) image q -> one_wrong (written_contents vs) (array_format_of x) (x_layout x) image q) /\
    open_paths pol open 0 paths = Ok (devices, []) /\ map (fun d => id_reference (fst d)) devices = map Some paths /\
    d = array_open order (map at_path devices) /\ in_use d (array_format_of x) /\ slots_hold (path_block pol) d (written_contents vs) /\
    ad_inactive d = [].
Proof.
  intros pol open paths ws x image q order Ord X Po La Df Ph.
  assert (V : exists vs, Forall2 cut_of ws vs /\ Forall (labelled x) vs /\ Forall2 (path_holds pol open) paths vs /\ map w_position vs = map w_position ws).
  { clear Po Df. induction Ph as [|path w paths ws P F IH].
    - exists []. repeat constructor.
    - inv La. destruct IH as (vs & A1 & A2 & A3 & A4); [assumption|].
      destruct (path_device_labelled pol open path w x) as (v & H1' & H2' & H3'); [assumption..|]. exists (v :: vs).
      split; [now constructor|]. split; [now constructor|]. split; [now constructor|]. cbn [map]. rewrite A4. destruct H3' as [-> _]. reflexivity. }
  destruct V as (vs & V1 & V2 & V3 & V4). rewrite <- V4 in Po.
  destruct (wrong_paths_assembled pol open paths vs x q order Ord X Po V2 V3) as (devices & d & [E D] & R & I & _ & S & A).
  exists vs, devices, d. split; [exact V1|]. split; [exact V2|]. split; [exact V3|]. split; [exact Po|]. split; [|auto 12].
  intros [Li H]. split; [exact Li|]. intros s Ls. destruct (H s Ls) as [j Hj]. exists j. intros i Hi Ne. specialize (Hj i Hi Ne).
  cbn [array_format_of mf_device_count mf_sectors_per_device mf_chunk_size] in *. destruct X as (_ & Hn & Hc & [k Dv]).
  apply (cut_slot ws vs x); [exact V1|exact Df| |exact Hj].
  rewrite N.mul_comm in Dv. rewrite Dv in Ls |- *. apply (proj1 (sector_below s (x_chunk x) k (x_devices x - 2) ltac:(lia) ltac:(lia))). exact Ls.
Qed.
Print Assumptions physical_wrong_paths_partial.

(** ** Larger physical blocks *)

Definition large_disk : bytes := zeros 12288 ++ sb_img ++ zeros 4096.
Definition large_file (bs : N) : osfile := OsFile large_disk 0 0 true (Ok bs) (Ok (len large_disk)).
Definition whole_policy : io_policy := fun _ _ n => IoXfer n.

Lemma sb_img_len : len sb_img = 4096.
Proof. vm_compute. reflexivity. Qed.
Lemma large_len : len large_disk = 20480.
Proof. unfold large_disk. rewrite !len_app, !len_zeros, sb_img_len. reflexivity. Qed.

Lemma zeros_window a n rest o m : a = o + m + n -> window (zeros a ++ rest) o m = zeros m.
Proof.
  intros ->. assert (E : zeros (o + m + n) = zeros o ++ zeros m ++ zeros n).
  { unfold zeros. rewrite !N2Nat.inj_add, !repeat_app, app_assoc. reflexivity. }
  rewrite E, <- !app_assoc. rewrite window_app_r by (rewrite len_zeros; lia). rewrite len_zeros, N.sub_diag.
  rewrite window_app_l by (rewrite len_zeros; lia). rewrite <- (len_zeros m) at 2. apply window_full.
Qed.

Lemma zeros_absent a n rest o : a = o + 4096 + n -> ~ v1_present (window (zeros a ++ rest) o 4096).
Proof. intros E [H _]. rewrite (zeros_window a n rest o 4096 E) in H. vm_compute in H. discriminate H. Qed.

Lemma large_superblock : superblock_at large_disk (LocV1 0 12288) (v1_meaning v1_ex 0).
Proof.
  cbn [superblock_at loc_off]. unfold large_disk.
  assert (E : window (zeros 12288 ++ sb_img ++ zeros 4096) 12288 4096 = sb_img).
  { rewrite window_app_r by (rewrite len_zeros; lia). rewrite len_zeros, N.sub_diag, window_app_l by (rewrite sb_img_len; lia).
    rewrite <- sb_img_len. apply window_full. }
  rewrite E. split; [split; vm_compute; reflexivity|]. symmetry. vm_compute. reflexivity.
Qed.
Lemma large_v10 : v10_offset (len large_disk) 12288.
Proof. rewrite large_len. apply v10_offset_bytes. split; [now exists 3|lia]. Qed.

(** False of the code: with physical blocks of 8192 bytes, a member of 20480 bytes with a version 1.0 superblock where md
    puts it is one without a superblock. *)
Theorem physical_classification_refuted : exists (pol : io_policy) c bs o sb,
  len c <= i64_max /\ bs = 8192 /\ (forall t p k e, pol t p k <> IoFail e) /\
  12288 <= len c /\ v10_offset (len c) o /\ superblock_at c (LocV1 0 o) sb /\
  snd (classify (native_block pol) (native_stream pol) (OsFile c 0 0 true (Ok bs) (Ok (len c)))) = Ok DsMissing.
Proof.
  exists whole_policy, large_disk, 8192, 12288, (v1_meaning v1_ex 0).
  assert (U : len large_disk <= i64_max) by (rewrite large_len; discriminate).
  assert (NF : forall t p k e, whole_policy t p k <> IoFail e) by discriminate.
  split; [exact U|]. split; [reflexivity|]. split; [exact NF|]. split; [rewrite large_len; discriminate|].
  split; [exact large_v10|]. split; [exact large_superblock|].
  apply (native_member_classification whole_policy large_disk 0 0 true 8192 DsMissing U ltac:(discriminate) NF). rewrite large_len.
  change (20480 / 8192 * 8192) with 16384. change (16384 <? 12288) with false. cbv iota.
  exists [LocV1 2 4096; LocV1 1 0; LocV1 0 8192]. split.
  - exists 8192. split; [apply v10_offset_bytes; split; [now exists 2|lia]|]. change (65536 <=? 16384) with false. reflexivity.
  - repeat apply Forall_cons; try apply Forall_nil; intros sb [P _]; cbn [loc_off] in P; revert P; unfold large_disk.
    + now apply (zeros_absent 12288 4096).
    + now apply (zeros_absent 12288 8192).
    + now apply (zeros_absent 12288 0).
Qed.
Print Assumptions physical_classification_refuted.

(** Nor is every member that md has room on large enough. *)
Theorem physical_small_refuted : exists (pol : io_policy) c bs ls,
  bs = 8192 /\ (forall t p k e, pol t p k <> IoFail e) /\ 12288 <= len c /\ locations (len c) ls /\
  snd (classify (native_block pol) (native_stream pol) (OsFile c 0 0 true (Ok bs) (Ok (len c)))) = Ok DsTooSmall.
Proof.
  exists whole_policy, (zeros 16000), 8192, [LocV1 2 4096; LocV1 1 0; LocV1 0 4096].
  assert (NF : forall t p k e, whole_policy t p k <> IoFail e) by discriminate.
  split; [reflexivity|]. split; [exact NF|]. rewrite len_zeros. split; [discriminate|]. split.
  - exists 4096. split; [apply v10_offset_bytes; split; [now exists 1|lia]|]. change (65536 <=? 16000) with false. reflexivity.
  - pose proof (native_member_classification whole_policy (zeros 16000) 0 0 true 8192 DsTooSmall) as H. rewrite len_zeros in H.
    apply H; [discriminate|discriminate|exact NF|]. reflexivity.
Qed.
Print Assumptions physical_small_refuted.

(** ** Examples *)

(** The disk above with 512 bytes more, and physical blocks of 4096 bytes: the superblock is found. *)
Example physical_classification_ex : len (large_disk ++ zeros 512) mod 4096 = 512 /\
  snd (classify (native_block short_policy) (native_stream short_policy)
    (OsFile (large_disk ++ zeros 512) 7 0 true (Ok 4096) (Ok (len (large_disk ++ zeros 512))))) = Ok (DsSuperblock (v1_meaning v1_ex 0)).
Proof.
  assert (L : len (large_disk ++ zeros 512) = 20992) by (rewrite len_app, large_len, len_zeros; reflexivity).
  split; [rewrite L; reflexivity|].
  apply physical_classification_exact_partial; [rewrite L; discriminate|discriminate|now exists 1|discriminate|].
  rewrite L. change (20992 <? 12288) with false. cbv iota. exists [LocV1 2 4096; LocV1 1 0; LocV1 0 12288]. split.
  - exists 12288. split; [apply v10_offset_bytes; split; [now exists 3|lia]|]. change (65536 <=? 20992) with false. reflexivity.
  - exists [LocV1 2 4096; LocV1 1 0], (LocV1 0 12288), []. split; [reflexivity|]. split.
    + destruct large_superblock as [P E]. cbn [loc_off] in P, E. unfold superblock_at. cbn [loc_off].
      rewrite window_app_l by (rewrite large_len; lia). split; assumption.
    + repeat apply Forall_cons; try apply Forall_nil; intros sb [P _]; cbn [loc_off] in P; revert P; unfold large_disk; rewrite <- app_assoc.
      * now apply (zeros_absent 12288 4096).
      * now apply (zeros_absent 12288 8192).
Qed.

(** The four devices of the example of C112, each with 512 bytes more, in physical blocks of 4096 or 1024 bytes. *)
Definition odd_bs (i : N) : N := if i mod 2 =? 0 then 4096 else 1024.
Definition odd_bytes (i : N) : bytes := raw_bytes i ++ zeros 512.
Definition odd_open : opener := fun path =>
  match raw_open path with
  | Ok f => Ok (OsFile (os_content f ++ zeros 512) 0 0 true (Ok (match os_pbsz f with Ok 512 => 4096 | _ => 1024 end)) (Ok 16896))
  | r => r
  end.
Definition odd_written (i : N) : member_written :=
  MemberWritten i 8192 (odd_bytes i) (pol_bad (raw_pol (raw_path i))) (fun p => pol_bad_block (raw_pol (raw_path i)) (odd_bs i) (p / odd_bs i)).
Definition odd_ws : list member_written := map odd_written [3; 1; 2; 0].

Lemma odd_len i : i < 4 -> len (odd_bytes i) = 16896.
Proof. intros Hi. unfold odd_bytes. rewrite len_app, len_zeros, raw_len by exact Hi. reflexivity. Qed.

Lemma odd_member i : i < 4 -> written_member raw_array open_image (fun _ => zeros 512) i 8192 (odd_bytes i).
Proof.
  intros Hi. destruct (raw_member i Hi) as [(_ & _ & W & V2 & V1) St]. pose proof (raw_len i Hi) as L. unfold written_member, labelled_member.
  rewrite (odd_len i Hi). unfold odd_bytes. rewrite !window_app_l by (rewrite L; lia).
  split; [split; [discriminate|split; [apply v10_offset_bytes; split; [now exists 2|lia]|split; [exact W|split; [exact V2|exact V1]]]]|].
  intros t Ht. destruct (St t Ht) as [Le E]. rewrite L in Le. split; [fold (odd_bytes i); rewrite (odd_len i Hi); lia|].
  rewrite window_app_l by (rewrite L; lia). exact E.
Qed.

Lemma odd_device i : i < 4 -> path_device raw_pol odd_open (raw_path i) (odd_written i).
Proof.
  intros Hi. exists (odd_bs i).
  assert (E : raw_open (raw_path i) = Ok (OsFile (raw_bytes i) 0 0 true (Ok (raw_bs i)) (Ok 16384)) /\
    match raw_bs i with 512 => 4096 | _ => 1024 end = odd_bs i /\ odd_bs i <> 0 /\ N.divide (odd_bs i) 4096).
  { assert (i = 0 \/ i = 1 \/ i = 2 \/ i = 3) as [->|[->|[->| ->]]] by lia; (split; [reflexivity|]); (split; [reflexivity|]); (split; [discriminate|]);
      [now exists 1|now exists 4|now exists 1|now exists 4]. }
  destruct E as (E1 & E2 & E3 & E4). split; [|split; [exact E4|split; [now intros p|now intros p]]].
  exists (OsFile (odd_bytes i) 0 0 true (Ok (odd_bs i)) (Ok 16896)). cbn [os_content os_pbsz os_size64 w_bytes odd_written].
  rewrite (odd_len i Hi). split; [|repeat split; [exact E3|discriminate]].
  unfold odd_open. rewrite E1. cbn [os_content os_pbsz]. rewrite E2. reflexivity.
Qed.

(** The hypotheses of [physical_paths_partial]. *)
Example physical_paths_ex : array_ok raw_array /\ image_fills raw_array open_image /\ positions_filled raw_array (map w_position odd_ws) /\
  Forall (written raw_array open_image (fun _ => zeros 512)) odd_ws /\ Forall (data_fits raw_array) odd_ws /\
  Forall2 (path_device raw_pol odd_open) (map raw_path [3; 1; 2; 0]) odd_ws.
Proof.
  destruct raw_assembled_ex as (H1 & H2 & H3 & H4 & _). split; [exact H1|]. split; [exact H2|]. split; [exact H3|]. split; [|split].
  - unfold raw_ws in H4. unfold odd_ws. rewrite Forall_map in *. rewrite Forall_forall in *. intros i I.
    assert (Hi : i < 4) by (cbn [In] in I; lia). split; [now apply odd_member|exact (proj2 (H4 i I))].
  - unfold odd_ws. rewrite Forall_map, Forall_forall. intros i _. unfold data_fits. cbn. discriminate.
  - unfold odd_ws. cbn [map]. repeat (constructor; [apply odd_device; reflexivity|]). constructor.
Qed.

(** The hypotheses of [physical_wrong_paths_partial], and the condition on the rows: three of the four devices are given. *)
Example physical_wrong_paths_ex : let ws := map odd_written [3; 1; 0] in
  array_ok raw_array /\ positions_some raw_array (map w_position ws) /\ Forall (labelled raw_array) ws /\ Forall (data_fits raw_array) ws /\
  Forall2 (path_device raw_pol odd_open) (map raw_path [3; 1; 0]) ws /\
  one_wrong (written_contents ws) (array_format_of raw_array) (x_layout raw_array) open_image (fun _ => zeros 512).
Proof.
  cbv zeta. destruct physical_paths_ex as (H1 & H2 & _ & H4 & H5 & H6).
  assert (W : Forall (written raw_array open_image (fun _ => zeros 512)) (map odd_written [3; 1; 0])).
  { rewrite Forall_forall in *. intros w I. apply H4. unfold odd_ws. cbn [map In] in *. tauto. }
  assert (Nd : NoDup (map w_position (map odd_written [3; 1; 0]))) by (repeat constructor; cbn [map w_position odd_written In]; intuition discriminate).
  split; [exact H1|]. split; [|split; [|split; [|split]]].
  - split; [discriminate|]. split; [exact Nd|]. intros i I. cbn [map w_position odd_written In] in I. change (x_devices raw_array) with 4. lia.
  - eapply Forall_impl; [|exact W]. intros w [[L _] G]. split; assumption.
  - rewrite Forall_forall in *. intros w I. apply H5. unfold odd_ws. cbn [map In] in *. tauto.
  - cbn [map]. repeat (constructor; [apply odd_device; reflexivity|]). constructor.
  - apply (but_one_written _ raw_array open_image (fun _ => zeros 512) 2 H1 H2 Nd). intros i Hi Ne. change (x_devices raw_array) with 4 in Hi.
    exists (odd_written i). assert (I : In (odd_written i) (map odd_written [3; 1; 0])) by (apply in_map; cbn [In]; lia).
    split; [exact I|]. split; [reflexivity|]. rewrite Forall_forall in W. exact (W _ I).
Qed.
