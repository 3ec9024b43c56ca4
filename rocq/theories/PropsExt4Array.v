(** Property C57: a file system read through a RAID-6 array and from the flat image. *)

From Coq Require Import Strings.String Permutation.
From Verif Require Import Base BaseFacts Raid SpecRaid RaidFacts SpecParity ParityFacts PropsRaid Io SpecStream IoFacts Superblock Device Array
  SpecMd SpecArray ArrayFacts PropsArray PropsArrayRead Ext4Superblock Ext4Inode Ext4Fs Ext4Extent Ext4File Ext4String Ext4Dir PropsExt4File
  PropsExt4Flat.

(** ** How md stores a flat image

    Sector [t] of member [i] of an array of [n] members with chunks of [c] sectors: by the slot that the layout gives to
    the member in stripe [t / c], a sector of the image, the exclusive or of the stripe's data sectors, or a Q sector
    (here any sector: md-recover does not look at it). *)
Definition image_sector (image : bytes) (s : N) : bytes := window image (s * 512) 512.

Definition stored_slot (n c : N) (image : bytes) (q : N -> bytes) (t : N) (sl : slot) : bytes :=
  let data j := image_sector image ((t / c * (n - 2) + j) * c + t mod c) in
  match sl with
  | SpecRaid.D j => data j
  | P => map (fun p => fold_right (fun j x => xor8 (byte_at (data (N.of_nat j)) (N.of_nat p)) x) x00 (seq 0 (N.to_nat (n - 2)))) (seq 0 512)
  | Q => q t
  end.

Definition stored (l : layout6) (n c : N) (image : bytes) (q : N -> bytes) (i t : N) : bytes :=
  match nth_N (row6 l n (t / c)) i with Some sl => stored_slot n c image q t sl | None => [] end.

(** The array [a] holds [image]: every slot is filled by a readable member whose data area, which starts at the data
    offset of its superblock, is the member's part of the image. *)
Definition holds_image {D} (ops : blockdev D) (a : definition D) (f : md_format) (l : layout6) (image : bytes) : Prop :=
  let n := mf_device_count f in
  len image = mf_sectors_per_device f * (n - 2) * 512 /\
  exists q, forall i, i < n -> exists m sb ct, In (i, m) (ad_devices a) /\ md_superblock m = DsSuperblock sb /\
    member_holds ops m ct (fun _ => False) /\
    forall t, t < mf_sectors_per_device f -> sector_at ct (sb_data_offset sb + t) (stored l n (mf_chunk_size f) image q i t).

(** ** The stored rows are consistent *)

Lemma xor8_assoc a b c : xor8 a (xor8 b c) = xor8 (xor8 a b) c.
Proof.
  unfold xor8. destruct (Byte.to_bits a) as (a0 & a1 & a2 & a3 & a4 & a5 & a6 & a7), (Byte.to_bits b) as (b0 & b1 & b2 & b3 & b4 & b5 & b6 & b7),
    (Byte.to_bits c) as (c0 & c1 & c2 & c3 & c4 & c5 & c6 & c7). rewrite !Byte.to_bits_of_bits. now rewrite <- !xorb_assoc.
Qed.
Lemma xor8_comm a b : xor8 a b = xor8 b a.
Proof.
  unfold xor8. destruct (Byte.to_bits a) as (a0 & a1 & a2 & a3 & a4 & a5 & a6 & a7), (Byte.to_bits b) as (b0 & b1 & b2 & b3 & b4 & b5 & b6 & b7).
  now rewrite (xorb_comm a0), (xorb_comm a1), (xorb_comm a2), (xorb_comm a3), (xorb_comm a4), (xorb_comm a5), (xorb_comm a6), (xorb_comm a7).
Qed.
Lemma xor8_0_l a : xor8 x00 a = a.
Proof. destruct a; reflexivity. Qed.

Section Stored.
  Context (f : slot -> bytes) (p : N).
  Let g (sl : slot) : byte := match sl with SpecRaid.D _ => byte_at (f sl) p | _ => x00 end.
  Let total (row : list slot) : byte := fold_right (fun sl x => xor8 (g sl) x) x00 row.

  Lemma data_xor_total row : data_xor row (map f row) p = total row.
  Proof.
    unfold total. induction row as [|[j| |] row IH]; cbn [data_xor map fold_right]; [reflexivity| | |]; rewrite IH; unfold g at 2;
      [reflexivity|now rewrite xor8_0_l..].
  Qed.
  Lemma total_perm a b : Permutation a b -> total a = total b.
  Proof.
    unfold total. induction 1 as [|x a b _ IH|x y a|a b c _ IH1 _ IH2]; cbn [fold_right]; [reflexivity|now rewrite IH| |now rewrite IH1].
    now rewrite !xor8_assoc, (xor8_comm (g y)).
  Qed.
  Lemma total_datas m : total (datas m) = fold_right (fun j x => xor8 (byte_at (f (SpecRaid.D (N.of_nat j))) p) x) x00 (seq 0 (N.to_nat m)).
  Proof. unfold datas. generalize (seq 0 (N.to_nat m)). intros js. unfold total. induction js as [|j js IH]; cbn [map fold_right]; [reflexivity|]. now rewrite IH. Qed.
End Stored.

Lemma slot_block_map f row sl : In sl row -> slot_block row (map f row) sl = Some (f sl).
Proof.
  induction row as [|t row IH]; intros I; [destruct I|]. cbn [slot_block map].
  destruct I as [->|I]; [destruct sl as [i| |]; rewrite ?N.eqb_refl; reflexivity|].
  destruct sl as [i| |], t as [j| |]; auto. destruct (N.eqb_spec i j) as [->|]; auto.
Qed.

Lemma byte_at_seq (F : nat -> byte) m j : j < N.of_nat m -> byte_at (map F (seq 0 m)) j = F (N.to_nat j).
Proof.
  intros H. unfold byte_at. rewrite (nth_indep _ _ (F 0%nat)) by (rewrite map_length, seq_length; lia). rewrite map_nth, seq_nth by lia. reflexivity.
Qed.

Lemma stored_consistent l n c image q t : 2 <= n -> p_consistent (row6 l n (t / c)) (map (stored_slot n c image q t) (row6 l n (t / c))).
Proof.
  intros Hn pb Hp j Hj. set (f := stored_slot n c image q t) in *.
  rewrite slot_block_map in Hp.
  2: { apply (Permutation_in P (Permutation_sym (row6_perm l n (t / c) Hn))). now left. }
  assert (pb = f P) as -> by congruence. clear Hp. rewrite data_xor_total, (total_perm f j _ _ (row6_perm l n (t / c) Hn)).
  cbn [fold_right]. rewrite !xor8_0_l, total_datas. unfold f. cbn [stored_slot]. rewrite byte_at_seq, N2Nat.id by assumption. reflexivity.
Qed.

(** Two contents of a member agree if one of them is readable throughout. *)
Lemma member_content_unique {D} (ops : blockdev D) m ct ct' bad :
  member_holds ops m ct (fun _ => False) -> member_holds ops m ct' bad -> ct' = ct.
Proof.
  intros (bs & count & blk & badb & inv & OK & I & -> & B) (bs' & count' & blk' & badb' & inv' & OK' & I' & -> & B').
  assert (bs' = bs). { pose proof (bo_size _ _ _ _ _ _ OK _ I). pose proof (bo_size _ _ _ _ _ _ OK' _ I'). congruence. } subst bs'.
  assert (count' = count). { pose proof (bo_count _ _ _ _ _ _ OK _ I). pose proof (bo_count _ _ _ _ _ _ OK' _ I'). congruence. } subst count'.
  unfold flat. f_equal. apply map_ext_in. intros k K. apply in_seq in K. assert (K' : N.of_nat k < count) by lia.
  destruct (bd_read ops (md_dev m) (N.of_nat k) (zeros bs)) as [[d b] r] eqn:E.
  destruct (bo_read _ _ _ _ _ _ OK _ _ _ _ _ _ I K' (len_zeros bs) E) as (_ & _ & O).
  destruct (bo_read _ _ _ _ _ _ OK' _ _ _ _ _ _ I' K' (len_zeros bs) E) as (_ & _ & O').
  destruct r as [x|e|]; [destruct O, O'; congruence| |destruct O].
  exfalso. apply (B (N.of_nat k * bs)). rewrite N.div_mul; [exact O|]. exact (bo_bs _ _ _ _ _ _ OK).
Qed.

(** ** The array is a block device with the image as content *)
Lemma array_block_ok {D} (ops : blockdev D) order (ds : list (md_device D)) f l code ra image :
  (forall x, Permutation (order x) x) ->
  let a := array_open order ds in
  members_hold ops a -> in_use a f -> u32_ok (mf_device_count f) -> mf_algorithm f = AlgRaid6 ra ->
  layout6_code l = Some code -> raid6_from_layout code = Some ra ->
  mf_chunk_size f <> 0 -> N.divide (mf_chunk_size f) (mf_sectors_per_device f) -> 3 <= mf_device_count f ->
  u64_ok (len image) -> holds_image ops a f l image ->
  (forall d sb, In d ds -> md_superblock d = DsSuperblock sb -> sb_data_offset sb = 0) ->
  block_ok (array_block ops) 512 (mf_sectors_per_device f * (mf_device_count f - 2)) (image_sector image) (fun _ => False) (fun a' => a' = a).
Proof.
  intros O a Mh Iu Uf Al Hl Ha Hc [z Dv] Hn U (Li & q & Hs) Off.
  set (n := mf_device_count f) in *. set (c := mf_chunk_size f) in *. set (spd := mf_sectors_per_device f) in *.
  assert (Nd : NoDup (map fst (ad_devices a))) by apply (array_members_partition order ds O).
  unfold u64_ok in U. constructor; unfold u64_ok; try lia; auto.
  - intros s Ls. apply len_window_in. lia.
  - intros a' ->. cbn [bd_count array_block]. unfold array_block_count. rewrite (proj1 (in_use_current a f) Iu). cbn [rbind].
    unfold data_sector_count, data_device_count. rewrite Al. cbn [parity_device_count obind]. unfold csub32. fold n.
    destruct (N.leb_spec 2 n); [|lia]. cbn [obind]. fold spd. rewrite cmul64_some by lia. reflexivity.
  - intros a' s buf d' buf' r -> Ls Lb E. cbn [bd_read array_block] in E.
    set (t := member_sector s c (n - 2)).
    assert (Lt : t < spd). { rewrite Dv, (N.mul_comm z c) in *. apply sector_below; lia. }
    destruct (member_sector_split s c (n - 2) Hc) as [Tk To]. fold t in Tk, To.
    set (blks := map (stored_slot n c image q t) (row6 l n (t / c))).
    assert (St : forall i b, nth_N blks i = Some b -> i < n /\ b = stored l n c image q i t).
    { intros i b Hb. unfold blks in Hb. rewrite nth_N_spec, nth_error_map in Hb. unfold stored. rewrite nth_N_spec.
      destruct (nth_error (row6 l n (t / c)) (N.to_nat i)) as [sl|] eqn:E1; [|discriminate]. cbn in Hb. split; [|congruence].
      assert (nth_error (row6 l n (t / c)) (N.to_nat i) <> None) as X by congruence. apply nth_error_Some in X.
      pose proof (len_row6 l n (t / c) ltac:(lia)) as Y. unfold len in Y. lia. }
    destruct (array_read_complete ops order ds s buf f l code ra blks O Mh) as (blk & Db & R); auto.
    { unfold u64_ok. lia. }
    { intros i Hi. destruct (Hs i Hi) as (m & sb & ct & Im & Sm & Mo & Sec). exists ct, (fun _ => False). split; [exists m; auto|].
      fold n c t. destruct (proj1 (proj2 (proj2 (array_members_partition order ds O)) i m) Im) as (pre & post & Eds & _).
      assert (Z : sb_data_offset sb = 0) by (apply (Off m); [rewrite Eds; apply in_elt|exact Sm]).
      destruct (Sec t Lt) as [Y _]. rewrite Z in Y. split; [exact Y|auto]. }
    { unfold row_of. fold n c t. rewrite <- Tk. split; [|split].
      - unfold blks. pose proof (len_row6 l n (t / c) ltac:(lia)) as Y. unfold len in *. now rewrite map_length.
      - intros i b Hb. destruct (St i b Hb) as [Hi ->]. destruct (Hs i Hi) as (m & sb & ct & Im & Sm & Mo & Sec). exists m. split; [exact Im|].
        intros ct' bad' Mo'. rewrite (member_content_unique ops m ct ct' bad' Mo Mo').
        destruct (proj1 (proj2 (proj2 (array_members_partition order ds O)) i m) Im) as (pre & post & Eds & _).
        assert (Z : sb_data_offset sb = 0) by (apply (Off m); [rewrite Eds; apply in_elt|exact Sm]).
        specialize (Sec t Lt). now rewrite Z in Sec.
      - apply stored_consistent. lia. }
    fold a in R. rewrite R in E. injection E as <- <- <-.
    assert (blk = image_sector image s) as ->.
    { unfold data_of in Db. fold n c in Db. rewrite <- Tk in Db. unfold blks in Db. rewrite slot_block_map in Db.
      - assert (blk = stored_slot n c image q t (SpecRaid.D (data_index_of s c (n - 2)))) as -> by congruence. cbn [stored_slot].
        rewrite To, Tk. f_equal. symmetry. apply sector_recompose; lia.
      - apply (Permutation_in _ (Permutation_sym (row6_perm l n (t / c) ltac:(lia)))). right. right. apply in_datas.
        eexists. split; [reflexivity|]. apply N.mod_lt. lia. }
    split; [reflexivity|]. split; [|auto]. rewrite Lb. apply len_window_in. lia.
  - intros a' ->. exists a. auto.
Qed.

Lemma flat_image image k : len image = k * 512 -> flat k (image_sector image) = image.
Proof.
  intros L. assert (K : k = len image / 512) by (rewrite L, N.div_mul; lia). rewrite K.
  change (image_sector image) with (block_of image 512). rewrite flat_block_of by lia. rewrite <- K, <- L. apply window_full.
Qed.

Definition reader_clone {D} (ops : blockdev D) (r : reader D) : reader D * res (reader D) := (r, bd_clone (reader_block ops) r).
Definition mem_clone (d : memdev) : memdev * res memdev := (d, bd_clone mem_block d).

Lemma reader_clones {D1 S2} (ops1 : blockdev D1) bs1 count1 blk1 bad1 inv1 (at2 : S2 -> N -> Prop) (clone2 : S2 -> S2 * res S2) :
  block_ok ops1 bs1 count1 blk1 bad1 inv1 ->
  (forall s p, at2 s p -> exists s' t p' p'', clone2 s = (s', Ok t) /\ at2 s' p' /\ at2 t p'') ->
  forall s1 s2, both (reader_at bs1 inv1) at2 s1 s2 -> exists s1' s2' t1 t2, reader_clone ops1 s1 = (s1', Ok t1) /\ clone2 s2 = (s2', Ok t2) /\
    both (reader_at bs1 inv1) at2 s1' s2' /\ both (reader_at bs1 inv1) at2 t1 t2.
Proof.
  intros OK C2 s1 s2 [H1 [p2 H2]]. destruct (bo_clone _ _ _ _ _ _ (reader_block_ok _ _ _ _ _ _ OK) s1 H1) as (t1 & E1 & T1).
  destruct (C2 s2 p2 H2) as (s2' & t2 & p' & p'' & E2 & A' & A''). exists s1, s2', t1, t2. unfold reader_clone. rewrite E1, E2.
  do 2 (split; [reflexivity|]). split; split; eauto.
Qed.

(** ** C57

    Every client session on a file system gives the same results through the array as on the flat image in memory, and as
    through a reader over the flat image as a block device of any block size.  (Partial: the data areas of the members
    must start at offset 0, see [data_offset_refuted]; without that hypothesis the claim is false.) *)
Theorem array_session_partial : forall {D} (ops : blockdev D) order (ds : list (md_device D)) f l code ra image bs qs,
  (forall x, Permutation (order x) x) ->
  let a := array_open order ds in
  members_hold ops a -> in_use a f -> u32_ok (mf_device_count f) -> mf_algorithm f = AlgRaid6 ra ->
  layout6_code l = Some code -> raid6_from_layout code = Some ra ->
  mf_chunk_size f <> 0 -> N.divide (mf_chunk_size f) (mf_sectors_per_device f) -> 3 <= mf_device_count f ->
  u64_ok (len image) -> holds_image ops a f l image ->
  (forall d sb, In d ds -> md_superblock d = DsSuperblock sb -> sb_data_offset sb = 0) ->
  bs <> 0 -> N.divide bs (len image) ->
  session (reader_stream (array_block ops)) (reader_clone (array_block ops)) (reader_new a) qs =
    session mem_stream mem_clone (mem_new image bs) qs /\
  session (reader_stream (array_block ops)) (reader_clone (array_block ops)) (reader_new a) qs =
    session (reader_stream mem_block) (reader_clone mem_block) (reader_new (mem_new image bs)) qs.
Proof.
  intros D ops order ds f l code ra image bs qs O a Mh Iu Uf Al Hl Ha Hc Hd Hn U Hi Off Hb [k Db].
  pose proof (array_block_ok ops order ds f l code ra image O Mh Iu Uf Al Hl Ha Hc Hd Hn U Hi Off) as OK. fold a in OK.
  set (count := mf_sectors_per_device f * (mf_device_count f - 2)) in *.
  assert (FI : flat count (image_sector image) = image) by (apply flat_image; apply (proj1 Hi)).
  pose proof (reader_stream_ok _ _ _ _ _ _ OK) as S1. rewrite FI in S1.
  assert (K1 : forall s p o s' r, reader_at 512 (fun a' => a' = a) s p -> len image < o -> u64_ok o ->
    st_seek (reader_stream (array_block ops)) s (SeekStart o) = (s', r) -> (let? _ := r in Ok tt) = Ok tt).
  { intros s p o s' r A L. rewrite <- FI in L. exact (reader_seeks _ _ _ _ _ _ OK s p o s' r A L). }
  pose proof (reader_new_at _ _ _ _ _ _ OK a eq_refl) as A1.
  split.
  - eapply (session_alike _ _ (both (reader_at 512 (fun a' => a' = a)) (mem_at image bs)) (level image (reader_at 512 (fun a' => a' = a)) (mem_at image bs))).
    + apply (contents_alike _ _ image (bad_pos 512 (fun _ => False)) (fun _ => False) _ _ (fun _ => Ok tt) S1 (mem_stream_ok image bs U)); [intros p []..|exact K1|].
      intros s p o s' r. apply mem_seeks.
    + eapply reader_clones; [exact OK|]. intros s p A. exists s, s, p, p. auto.
    + split; [eauto|]. exists 0. repeat split. lia.
  - pose proof (mem_block_ok image bs U Hb) as OK2. pose proof (reader_stream_ok _ _ _ _ _ _ OK2) as S2.
    assert (FM : flat (len image / bs) (block_of image bs) = image).
    { rewrite flat_block_of by assumption. replace (len image / bs * bs) with (len image) by (rewrite Db, N.div_mul; auto). apply window_full. }
    rewrite FM in S2.
    eapply (session_alike _ _ (both (reader_at 512 (fun a' => a' = a)) (reader_at bs _)) (level image (reader_at 512 (fun a' => a' = a)) (reader_at bs _))).
    + apply (contents_alike _ _ image (bad_pos 512 (fun _ => False)) (bad_pos bs (fun _ => False)) _ _ (fun _ => Ok tt) S1 S2); [intros p []..|exact K1|].
      intros s p o s' r A L. rewrite <- FM in L. exact (reader_seeks _ _ _ _ _ _ OK2 s p o s' r A L).
    + eapply reader_clones; [exact OK|]. intros s p A.
      destruct (bo_clone _ _ _ _ _ _ (reader_block_ok _ _ _ _ _ _ OK2) s (ex_intro _ p A)) as (t & E & (p' & T)).
      exists s, t, p, p'. unfold reader_clone. rewrite E. auto.
    + split; [eauto|]. exists 0. apply (reader_new_at _ _ _ _ _ _ OK2). cbn. repeat split. lia.
Qed.
Print Assumptions array_session_partial.

(** The file system of [ex_image] on four members, left-symmetric, with chunks of two sectors. *)
Lemma stored_len l n c image q i t : 2 <= n -> i < n -> c <> 0 -> t < len image / 512 / (n - 2) -> (forall u, len (q u) = 512) ->
  N.divide c (len image / 512 / (n - 2)) -> len (stored l n c image q i t) = 512.
Proof.
  intros Hn Hi Hc Ht Hq [z Dz]. unfold stored. rewrite nth_N_spec.
  destruct (nth_error (row6 l n (t / c)) (N.to_nat i)) as [sl|] eqn:E.
  2: { apply nth_error_None in E. pose proof (len_row6 l n (t / c) ltac:(lia)) as Y. unfold len in Y. lia. }
  apply nth_error_In in E. apply (Permutation_in _ (row6_perm l n (t / c) Hn)) in E. destruct sl as [j| |]; cbn [stored_slot].
  - destruct E as [E|[E|E]]; [discriminate..|]. apply in_datas in E as (j' & E & Lj). injection E as <-. unfold image_sector. apply len_window_in.
    set (m := len image / 512) in *. set (w := m / (n - 2)) in *.
    assert (m * 512 <= len image) by (unfold m; rewrite N.mul_comm; apply N.mul_div_le; lia).
    assert (w * (n - 2) <= m) by (unfold w; rewrite N.mul_comm; apply N.mul_div_le; lia).
    pose proof (N.div_mod t c Hc). pose proof (N.mod_lt t c Hc). generalize dependent (t mod c). generalize dependent (t / c). intros k o -> Lo.
    assert (k < z) by nia. assert (k * (n - 2) + j < z * (n - 2)) by nia.
    assert ((k * (n - 2) + j) * c + o < z * (n - 2) * c) by nia. nia.
  - unfold len. rewrite map_length, seq_length. reflexivity.
  - apply Hq.
Qed.

Definition ex_part (i : N) : bytes := flat 16 (stored (Md5 LeftSymmetric) 4 2 ex_image (fun _ => zeros 512) i).
Definition ex_part_sb (i : N) : superblock :=
  Superblock 1 2 (UuidLong []) None (AlgRaid6 R6LeftSymmetric) 16 2 4 None 0 i 0 [0; 1; 2; 3].
Definition ex_member (i : N) : md_device memdev := MdDevice i (DsSuperblock (ex_part_sb i)) (mem_new (ex_part i) 512).
Definition ex_members : list (md_device memdev) := [ex_member 2; ex_member 0; ex_member 3; ex_member 1].

Lemma ex_part_len i : i < 4 -> len (ex_part i) = 16 * 512.
Proof.
  intros Hi. unfold ex_part. apply len_flat. intros t Ht. apply stored_len; try lia; rewrite ?ex_image_len.
  - exact Ht.
  - intros u. apply len_zeros.
  - now exists 8.
Qed.
Lemma ex_member_holds i : i < 4 -> member_holds mem_block (ex_member i) (ex_part i) (fun _ => False).
Proof.
  intros Hi. pose proof (mem_member_holds (ex_member i) (ex_part i) 512 eq_refl ltac:(lia)) as H.
  rewrite flat_block_of, (ex_part_len i Hi) in H by lia. change (16 * 512 / 512 * 512) with (16 * 512) in H. rewrite <- (ex_part_len i Hi) in H at 2.
  rewrite window_full in H. apply H. discriminate.
Qed.

Lemma ex_part_unfold i : ex_part i = flat 16 (stored (Md5 LeftSymmetric) 4 2 ex_image (fun _ => zeros 512) i).
Proof. reflexivity. Qed.
Local Opaque ex_part.
Example array_session_ex : let a := array_open (fun x => x) ex_members in let f := MdFormat (AlgRaid6 R6LeftSymmetric) 4 16 2 in
  members_hold mem_block a /\ in_use a f /\ holds_image mem_block a f (Md5 LeftSymmetric) ex_image /\
  session (reader_stream (array_block mem_block)) (reader_clone (array_block mem_block)) (reader_new a) [RqBlock 9 (zeros 1024)] =
    Ok [OcBlock (Ok tt) (repeat x09 1024)].
Proof.
  intros a f.
  assert (Mh : forall i m, In (i, m) (ad_devices a) <-> i < 4 /\ m = ex_member i).
  { assert (Dv : ad_devices a = [(2, ex_member 2); (0, ex_member 0); (3, ex_member 3); (1, ex_member 1)]) by reflexivity.
    rewrite Dv. generalize ex_member. clear. intros em i m. cbn [In]. split.
    - intros H. repeat (destruct H as [H|H]; [injection H as <- <-; split; reflexivity|]). destruct H.
    - intros [Hi ->]. assert (H : i = 0 \/ i = 1 \/ i = 2 \/ i = 3) by lia. destruct H as [-> |[-> |[-> | ->]]]; tauto. }
  split; [|split; [|split]].
  - intros i m I. apply Mh in I as [Hi ->]. eexists. eexists. now apply ex_member_holds.
  - right. split; reflexivity.
  - split; [rewrite ex_image_len; reflexivity|]. exists (fun _ => zeros 512). intros i Hi. exists (ex_member i), (ex_part_sb i), (ex_part i).
    split; [now apply Mh|]. split; [reflexivity|]. split; [now apply ex_member_holds|]. intros t Ht. cbn [mf_sectors_per_device f] in Ht.
    change (sb_data_offset (ex_part_sb i) + t) with t. split; [rewrite (ex_part_len i Hi); lia|].
    change (mf_device_count f) with 4 in *. change (mf_chunk_size f) with 2.
    assert (Ls : forall u, u < 16 -> len (stored (Md5 LeftSymmetric) 4 2 ex_image (fun _ => zeros 512) i u) = 512).
    { intros u Hu. apply stored_len; try lia; rewrite ?ex_image_len; [exact Hu|intros; apply len_zeros|now exists 8]. }
    rewrite ex_part_unfold. pose proof (flat_window 16 (stored (Md5 LeftSymmetric) 4 2 ex_image (fun _ => zeros 512) i) 512 t 0 512 Ls Ht ltac:(lia)) as W.
    rewrite N.add_0_r in W. rewrite W, <- (Ls t Ht) at 1. now rewrite window_full.
  - vm_compute. reflexivity.
Qed.
