(** Properties C18, C19, C60, C61: finding and classifying superblocks. *)

From Coq Require Import Strings.String.
From Verif Require Import Base BaseFacts Raid Io SpecStream RaidFacts IoFacts Superblock Device SpecMd SuperblockFacts
  PropsSuperblock SpecDevice.

(** ** C18 *)

Lemma clear_low_spec x b : clear_low x b = 2 ^ b * (x / 2 ^ b).
Proof.
  unfold clear_low. rewrite N.ldiff_ones_r, N.shiftl_mul_pow2, N.shiftr_div_pow2. lia.
Qed.

Lemma probe_1_0 size : 12288 <= size ->
  v10_offset size (N.shiftl (clear_low (N.shiftr size 9 - 16) 3) 9).
Proof.
  intros L. unfold v10_offset. rewrite clear_low_spec, N.shiftl_mul_pow2, N.shiftr_div_pow2.
  change (2 ^ 3) with 8. change (2 ^ 9) with 512. lia.
Qed.

Lemma v10_unique size o o' : v10_offset size o -> v10_offset size o' -> o = o'.
Proof. unfold v10_offset. lia. Qed.

Lemma v090_unique size o o' : v090_offset size o -> v090_offset size o' -> o = o'.
Proof. unfold v090_offset. lia. Qed.

Lemma probe_0_90 size : 65536 <= size -> v090_offset size (v0_probe size).
Proof.
  intros L. unfold v090_offset, v0_probe. rewrite clear_low_spec. change (2 ^ 16) with 65536. lia.
Qed.

(** The version 1 probes are at 4096, 0 and the one offset the md rule allows, and lie inside the device. *)
Theorem v1_probe_locations : forall size, 12288 <= size ->
  exists o, v1_probes size = [(2, 4096); (1, 0); (0, o)] /\
    o mod 4096 = 0 /\ o + 8192 <= 512 * (size / 512) < o + 12288 /\
    (forall o', o' mod 4096 = 0 -> o' + 8192 <= 512 * (size / 512) < o' + 12288 -> o' = o) /\
    4096 + 4096 <= size /\ 0 + 4096 <= size /\ o + 4096 <= size.
Proof.
  intros size L. eexists. split; [reflexivity|]. pose proof (probe_1_0 size L) as (A & B).
  set (o := N.shiftl _ _) in *. clearbody o. repeat split; try lia; try exact A.
Qed.
Print Assumptions v1_probe_locations.

Theorem v0_probe_location : forall size, 65536 <= size ->
  v0_probe size mod 65536 = 0 /\ v0_probe size + 65536 <= size < v0_probe size + 131072 /\
  (forall o, o mod 65536 = 0 -> o + 65536 <= size < o + 131072 -> o = v0_probe size) /\
  v0_probe size + 4096 <= size.
Proof.
  intros size L. pose proof (probe_0_90 size L) as (A & B). repeat split; try lia; try exact A.
Qed.
Print Assumptions v0_probe_location.

Example probe_ex : v1_probes 1000000 = [(2, 4096); (1, 0); (0, 991232)] /\ v0_probe 1000000 = 917504.
Proof. vm_compute. auto. Qed.

(** ** C19 *)

Local Opaque read_exact.

Section Classify.
  Context {S : Type} (st : stream S) (c : bytes) (bad : N -> Prop) (at_ : S -> N -> Prop).
  Hypothesis OK : stream_ok st c bad at_.

  Definition passed (l : location) : Prop := vacant c l \/ unreadable bad l.

  Lemma v1_read_spec s p minor s' r :
    at_ s p -> p + 4096 <= len c -> v1_read st s minor = (s', r) ->
    (exists p', at_ s' p') /\
    match r with
    | Ok sb => superblock_at c (LocV1 minor p) sb
    | Err _ => passed (LocV1 minor p)
    | Panic => False
    end.
  Proof.
    intros A L E. unfold v1_read in E. destruct (read_exact st s (zeros v1_max_size)) as [[s1 b] x] eqn:R.
    apply (read_exact_spec _ _ _ _ OK _ _ p) in R; [|exact A]. rewrite len_zeros in R. change v1_max_size with 4096 in R.
    injection E as <- <-. destruct x as [[]|e|]; [| |destruct R].
    - destruct R as (_ & -> & A'). split; [eauto|]. cbn [rbind].
      assert (LW : len (window c p 4096) = 4096) by (apply len_window_in; exact L).
      unfold passed, vacant, superblock_at. cbn [loc_off].
      set (img := window c p 4096) in *. clearbody img.
      destruct (v1_accessors_published img minor LW) as (V & _). fold (v1_present img) in V.
      destruct (v1_valid img).
      + split; [now apply V|reflexivity].
      + left. intros sb (P & _). apply V in P. discriminate.
    - destruct R as (_ & _ & (p' & _ & A') & [(q & Q & B)|(_ & Q)]); [|lia]. split; [eauto|].
      cbn [rbind]. right. exists q. auto.
  Qed.

  Lemma v0_read_spec s p s' r :
    at_ s p -> p + 4096 <= len c -> v0_read st s = (s', r) ->
    (exists p', at_ s' p') /\
    match r with
    | Ok sb => superblock_at c (LocV0 p) sb
    | Err _ => passed (LocV0 p)
    | Panic => False
    end.
  Proof.
    intros A L E. unfold v0_read in E. destruct (read_exact st s (zeros v0_size)) as [[s1 b] x] eqn:R.
    apply (read_exact_spec _ _ _ _ OK _ _ p) in R; [|exact A]. rewrite len_zeros in R. change v0_size with 4096 in R.
    injection E as <- <-. destruct x as [[]|e|]; [| |destruct R].
    - destruct R as (_ & -> & A'). split; [eauto|]. cbn [rbind].
      assert (LW : len (window c p 4096) = 4096) by (apply len_window_in; exact L).
      unfold passed, vacant, superblock_at. cbn [loc_off].
      set (img := window c p 4096) in *. clearbody img.
      pose proof (fun sb => v0_accepted_iff img sb LW) as V.
      destruct (v0_decode img) as [sb|e|] eqn:D.
      + now apply V.
      + left. intros sb P. apply V in P. discriminate.
      + unfold v0_decode in D. destruct (v0_valid _) in D; discriminate.
    - destruct R as (_ & _ & (p' & _ & A') & [(q & Q & B)|(_ & Q)]); [|lia]. split; [eauto|].
      cbn [rbind]. right. exists q. auto.
  Qed.

  Lemma probe_v1_spec l s p s' r :
    at_ s p -> Forall (fun x => snd x + 4096 <= len c) l -> probe_v1 st s l = (s', r) ->
    let ls := map (fun x => LocV1 (fst x) (snd x)) l in
    (exists p', at_ s' p') /\
    match r with
    | Ok (Some sb) => exists pre l post, ls = pre ++ l :: post /\ superblock_at c l sb /\ Forall passed pre
    | Ok None => Forall passed ls
    | _ => False
    end.
  Proof.
    revert s p. induction l as [|[minor off] l IH]; intros s p A F E; cbn [probe_v1] in E.
    - injection E as <- <-. split; [eauto|constructor].
    - apply Forall_cons_iff in F as [Fo F]. cbn [snd fst map] in *.
      destruct (so_seek _ _ _ _ OK s p off A ltac:(lia)) as (s1 & E1 & A1). rewrite E1 in E.
      destruct (v1_read st s1 minor) as [s2 x] eqn:R.
      destruct (v1_read_spec _ _ _ _ _ A1 Fo R) as ((p2 & A2) & O).
      destruct x as [sb|e|]; [| |destruct O].
      + injection E as <- <-. split; [eauto|]. exists [], (LocV1 minor off), (map (fun x => LocV1 (fst x) (snd x)) l).
        auto.
      + destruct (IH _ _ A2 F E) as (A3 & O3). split; [exact A3|]. destruct r as [[sb|]|e'|]; try exact O3.
        * destruct O3 as (pre & l0 & post & -> & H & Fp). exists (LocV1 minor off :: pre), l0, post.
          split; [reflexivity|]. split; [exact H|]. now constructor.
        * now constructor.
  Qed.

  (** Classification always answers, whatever the cursor; a location is passed over only when it is vacant or
      when a byte of it cannot be read. *)
  Lemma classify_ok (bd : blockdev S) size s p :
    at_ s p -> device_size bd s = Ok size -> size <= len c ->
    exists s' cls, classify bd st s = (s', Ok cls) /\ (exists p', at_ s' p') /\
      if size <? 12288 then cls = DsTooSmall
      else exists ls, locations size ls /\ classified c passed ls cls.
  Proof.
    intros A Sz L. unfold classify. rewrite Sz. change min_device_size with 12288.
    destruct (N.ltb_spec size 12288) as [Sm|Bg].
    { exists s, DsTooSmall. split; [reflexivity|]. split; [eauto|reflexivity]. }
    pose proof (probe_1_0 size Bg) as P10.
    set (ls1 := map (fun x => LocV1 (fst x) (snd x)) (v1_probes size)).
    destruct (probe_v1 st s (v1_probes size)) as [s1 r1] eqn:E1.
    apply (probe_v1_spec _ _ p) in E1; [|exact A|].
    2: { unfold v1_probes. change (N.shiftl 8 9) with 4096. unfold v10_offset in P10.
         repeat apply Forall_cons; try apply Forall_nil; cbn [snd]; lia. }
    destruct E1 as ((p1 & A1) & O1). fold ls1 in O1.
    assert (Loc : exists l0, locations size (ls1 ++ l0) /\
              l0 = if 65536 <=? size then [LocV0 (v0_probe size)] else []).
    { eexists. split; [|reflexivity]. eexists. split; [exact P10|]. destruct (N.leb_spec 65536 size) as [G|G].
      - exists (v0_probe size). split; [now apply probe_0_90|reflexivity].
      - now rewrite app_nil_r. }
    destruct Loc as (l0 & Loc & El0).
    destruct r1 as [[sb|]|e|]; try (exfalso; exact O1).
    { exists s1, (DsSuperblock sb). split; [reflexivity|]. split; [eauto|]. exists (ls1 ++ l0). split; [exact Loc|].
      destruct O1 as (pre & l & post & -> & H & F). exists pre, l, (post ++ l0).
      split; [now rewrite <- app_assoc|]. auto. }
    unfold probe_v0. change min_superblock_0_device_size with 65536.
    destruct (N.leb_spec 65536 size) as [G|G].
    2: { exists s1, DsMissing. split; [reflexivity|]. split; [eauto|]. exists (ls1 ++ l0). split; [exact Loc|].
         subst l0. rewrite app_nil_r. exact O1. }
    pose proof (probe_0_90 size G) as (PA & PB).
    destruct (so_seek _ _ _ _ OK s1 p1 (v0_probe size) A1 ltac:(lia)) as (s2 & E2 & A2). rewrite E2.
    destruct (v0_read st s2) as [s3 x] eqn:R.
    destruct (v0_read_spec _ _ _ _ A2 ltac:(lia) R) as ((p3 & A3) & O3).
    subst l0. destruct x as [sb|e|]; [| |destruct O3].
    - exists s3, (DsSuperblock sb). split; [reflexivity|]. split; [eauto|]. eexists. split; [exact Loc|].
      exists ls1, (LocV0 (v0_probe size)), []. auto.
    - exists s3, DsMissing. split; [reflexivity|]. split; [eauto|]. eexists. split; [exact Loc|].
      cbn [classified]. apply Forall_app. split; [exact O1|]. now constructor.
  Qed.
End Classify.

Lemma locations_unique size ls ls' : locations size ls -> locations size ls' -> ls = ls'.
Proof.
  intros (o & O & H) (o' & O' & H'). rewrite (v10_unique _ _ _ O' O) in H'. destruct (65536 <=? size).
  - destruct H as (x & X & ->), H' as (x' & X' & ->). now rewrite (v090_unique _ _ _ X' X).
  - now subst.
Qed.

Lemma superblock_at_unique c l sb sb' : superblock_at c l sb -> superblock_at c l sb' ->
  len (window c (loc_off l) 4096) = 4096 -> sb = sb'.
Proof.
  destruct l as [m o|o]; cbn [superblock_at loc_off].
  - intros (_ & ->) (_ & ->) _. reflexivity.
  - intros H H' L. apply (v0_accepted_iff _ _ L) in H. apply (v0_accepted_iff _ _ L) in H'. congruence.
Qed.

(** With nothing unreadable, at most one class is right. *)
Lemma classified_unique c ls cls cls' :
  Forall (fun l => len (window c (loc_off l) 4096) = 4096) ls ->
  classified c (vacant c) ls cls -> classified c (vacant c) ls cls' -> cls = cls'.
Proof.
  induction ls as [|l ls IH]; intros Fl.
  - assert (N : forall cls, classified c (vacant c) [] cls -> cls = DsMissing).
    { intros [sb| |]; cbn; try easy. intros (pre & x & post & E & _). destruct pre; discriminate. }
    intros H H'. rewrite (N _ H), (N _ H'). reflexivity.
  - apply Forall_cons_iff in Fl as [Fh Fl]. specialize (IH Fl).
    assert (Step : forall cls, classified c (vacant c) (l :: ls) cls ->
              (exists sb, cls = DsSuperblock sb /\ superblock_at c l sb) \/ (vacant c l /\ classified c (vacant c) ls cls)).
    { clear. intros [sb| |]; cbn.
      - intros (pre & x & post & E & H & F). destruct pre as [|y pre]; cbn in E; injection E as -> ->.
        + left. exists sb. auto.
        + apply Forall_cons_iff in F as [F0 F]. right. split; [exact F0|]. exists pre, x, post. auto.
      - easy.
      - intros F. apply Forall_cons_iff in F as [F0 F]. auto. }
    intros H H'. apply Step in H. apply Step in H'.
    destruct H as [(sb & -> & H)|(V & H)], H' as [(sb' & -> & H')|(V' & H')].
    + f_equal. eapply superblock_at_unique; eassumption.
    + destruct (V' _ H).
    + destruct (V _ H').
    + now apply IH.
Qed.

(** Any device: [c] is what its [Read]/[Seek] side shows, [size] what its block side says. *)
Theorem member_classification : forall {S} (st : stream S) (bd : blockdev S) c bad at_ size s p,
  stream_ok st c bad at_ -> at_ s p -> device_size bd s = Ok size -> size <= len c ->
  exists s' cls, classify bd st s = (s', Ok cls) /\
    if size <? 12288 then cls = DsTooSmall
    else exists ls, locations size ls /\ classified c (fun l => vacant c l \/ unreadable bad l) ls cls.
Proof.
  intros S st bd c bad at_ size s p OK A Sz L.
  destruct (classify_ok st c bad at_ OK bd size s p A Sz L) as (s' & cls & E & _ & H). eauto.
Qed.
Print Assumptions member_classification.

(** If everything can be read, the class is the one the rule gives, and no other. *)
Theorem member_classification_exact : forall {S} (st : stream S) (bd : blockdev S) c bad at_ size s p cls,
  stream_ok st c bad at_ -> at_ s p -> device_size bd s = Ok size -> size <= len c ->
  (forall q, ~ bad q) ->
  (snd (classify bd st s) = Ok cls <->
   if size <? 12288 then cls = DsTooSmall
   else exists ls, locations size ls /\ classified c (vacant c) ls cls).
Proof.
  intros S st bd c bad at_ size s p cls OK A Sz L NB.
  destruct (classify_ok st c bad at_ OK bd size s p A Sz L) as (s' & cls' & E & _ & H). rewrite E. cbn [snd].
  destruct (N.ltb_spec size 12288) as [Sm|Bg].
  { subst cls'. split; [intros I; now inv I|now intros ->]. }
  destruct H as (ls & Lo & H).
  assert (Mono : classified c (vacant c) ls cls').
  { assert (W : forall l, vacant c l \/ unreadable bad l -> vacant c l).
    { intros l [V|(q & _ & B)]; [exact V|destruct (NB _ B)]. }
    destruct cls' as [sb| |]; cbn in *; [|exact H|].
    - destruct H as (pre & l & post & E1 & H1 & F). exists pre, l, post. split; [exact E1|]. split; [exact H1|].
      eapply Forall_impl; [|exact F]. exact W.
    - eapply Forall_impl; [|exact H]. exact W. }
  split.
  - intros I. inv I. eauto.
  - intros (ls' & Lo' & H'). rewrite (locations_unique _ _ _ Lo' Lo) in H'. f_equal.
    refine (classified_unique c ls cls' cls _ Mono H').
    destruct Lo as (o & O & Lo). unfold v10_offset in O.
    destruct (N.leb_spec 65536 size).
    + destruct Lo as (o' & O' & ->). unfold v090_offset in O'.
      repeat apply Forall_cons; try apply Forall_nil; cbn [loc_off]; apply len_window_in; lia.
    + subst ls. repeat apply Forall_cons; try apply Forall_nil; cbn [loc_off]; apply len_window_in; lia.
Qed.
Print Assumptions member_classification_exact.

(** The three kinds of devices: a file with a block size, a native block device, memory. *)
Theorem file_member_classification : forall pol c pos clock fx pb sz bs cls,
  len c <= i64_max -> bs <> 0 -> (forall t p k e, pol t p k <> IoFail e) ->
  let size := len c / bs * bs in
  snd (classify (filedev_block pol) (filedev_stream pol) (FileDev (OsFile c pos clock fx pb sz) bs)) = Ok cls <->
  if size <? 12288 then cls = DsTooSmall
  else exists ls, locations size ls /\ classified c (vacant c) ls cls.
Proof.
  intros pol c pos clock fx pb sz bs cls U Hb NF size.
  assert (M : size <= len c) by (unfold size; rewrite N.mul_comm; apply N.mul_div_le; exact Hb).
  apply (member_classification_exact _ _ c (pol_bad pol)
    (fun d p => fd_bs d = bs /\ os_at c fx pb sz (fd_file d) p) size _ pos).
  - now apply filedev_stream_ok.
  - unfold os_at. cbn. auto 10.
  - unfold device_size. cbn [bd_count bd_size filedev_block fd_file fd_bs os_content].
    unfold cdiv64. destruct (N.eqb_spec bs 0); [contradiction|]. cbn [unwrap rbind].
    unfold size_bytes. rewrite cmul64_some; [reflexivity|]. fold size. change u64_max with (2 * i64_max + 1). lia.
  - exact M.
  - intros q (t & k & e & H). exact (NF _ _ _ _ H).
Qed.
Print Assumptions file_member_classification.

Theorem native_member_classification : forall pol c pos clock fx bs cls,
  len c <= i64_max -> bs <> 0 -> (forall t p k e, pol t p k <> IoFail e) ->
  let size := len c / bs * bs in
  snd (classify (native_block pol) (native_stream pol) (OsFile c pos clock fx (Ok bs) (Ok (len c)))) = Ok cls <->
  if size <? 12288 then cls = DsTooSmall
  else exists ls, locations size ls /\ classified c (vacant c) ls cls.
Proof.
  intros pol c pos clock fx bs cls U Hb NF size.
  assert (M : size <= len c) by (unfold size; rewrite N.mul_comm; apply N.mul_div_le; exact Hb).
  apply (member_classification_exact _ _ c (pol_bad pol) (os_at c fx (Ok bs) (Ok (len c))) size _ pos).
  - now apply os_stream_ok.
  - unfold os_at. cbn. auto 10.
  - unfold device_size. cbn [bd_count bd_size native_block os_size64 os_pbsz rbind].
    unfold cdiv64. destruct (N.eqb_spec bs 0); [contradiction|]. cbn [unwrap rbind].
    unfold size_bytes. rewrite cmul64_some; [reflexivity|]. fold size. change u64_max with (2 * i64_max + 1). lia.
  - exact M.
  - intros q (t & k & e & H). exact (NF _ _ _ _ H).
Qed.
Print Assumptions native_member_classification.

Theorem memory_member_classification : forall mem pos bs cls,
  u64_ok (len mem) -> bs <> 0 -> pos <= len mem ->
  let size := len mem / bs * bs in
  snd (classify mem_block mem_stream (MemDev mem pos bs)) = Ok cls <->
  if size <? 12288 then cls = DsTooSmall
  else exists ls, locations size ls /\ classified mem (vacant mem) ls cls.
Proof.
  intros mem pos bs cls U Hb P size.
  assert (M : size <= len mem) by (unfold size; rewrite N.mul_comm; apply N.mul_div_le; exact Hb).
  apply (member_classification_exact _ _ mem (fun _ => False) (mem_at mem bs) size _ pos).
  - now apply mem_stream_ok.
  - unfold mem_at. auto.
  - unfold device_size. cbn [bd_count bd_size mem_block m_mem m_bs].
    unfold cdiv64. destruct (N.eqb_spec bs 0); [contradiction|]. cbn [unwrap rbind].
    unfold size_bytes. rewrite cmul64_some; [reflexivity|]. unfold u64_ok in U. lia.
  - exact M.
  - auto.
Qed.
Print Assumptions memory_member_classification.

Definition sb_img : bytes := fold_left poke (v1_bytes v1_ex) (zeros 4096).
Definition sb0_img : bytes := fold_left poke (v0_bytes Big v0_ex) (zeros 4096).

(** A 1.2 superblock wins over a 0.90 one on the same device; without it the 0.90 one is found. *)
Example classify_ex :
  let disk2 := zeros 4096 ++ sb_img ++ zeros (65536 - 8192) ++ sb0_img ++ zeros 65536 in
  let disk0 := zeros 65536 ++ sb0_img ++ zeros 65000 in
  snd (classify mem_block mem_stream (mem_new disk2 512)) = Ok (DsSuperblock (v1_meaning v1_ex 2)) /\
  snd (classify mem_block mem_stream (mem_new disk0 512)) = Ok (DsSuperblock (v0_meaning v0_ex)) /\
  snd (classify mem_block mem_stream (mem_new (zeros 65536) 512)) = Ok DsMissing /\
  snd (classify mem_block mem_stream (mem_new (zeros 12287) 1)) = Ok DsTooSmall.
Proof. split; [|split; [|split]]; vm_compute; reflexivity. Qed.

(** ** C60: I/O errors while looking for superblocks *)

(** False of the code: one failing read and the member counts as one without a superblock. *)
Theorem probe_error_reported_refuted : exists pol c s,
  (* the only failing call is the first one *)
  (forall t p k e, pol t p k = IoFail e -> t = 0) /\
  os_content s = c /\
  superblock_at c (LocV1 2 4096) (v1_meaning v1_ex 2) /\
  snd (classify (native_block pol) (native_stream pol) s) = Ok DsMissing.
Proof.
  exists (fun t p k => if t =? 0 then IoFail 5 else IoXfer 65536).
  exists (zeros 4096 ++ sb_img ++ zeros 8192).
  exists (OsFile (zeros 4096 ++ sb_img ++ zeros 8192) 0 0 true (Ok 512) (Ok 16384)).
  split; [|split; [reflexivity|split]].
  - intros t p k e. destruct (N.eqb_spec t 0); [auto|discriminate].
  - cbn [superblock_at loc_off].
    assert (E : window (zeros 4096 ++ sb_img ++ zeros 8192) 4096 4096 = sb_img) by (vm_compute; reflexivity).
    rewrite E. split; [split; vm_compute; reflexivity|]. symmetry. vm_compute. reflexivity.
  - vm_compute. reflexivity.
Qed.
Print Assumptions probe_error_reported_refuted.

(** What does hold: nothing is passed over unless it is vacant or unreadable (see [member_classification]). *)
Theorem probe_error_partial : forall {S} (st : stream S) (bd : blockdev S) c bad at_ size s p sb ls l,
  stream_ok st c bad at_ -> at_ s p -> device_size bd s = Ok size -> size <= len c -> 12288 <= size ->
  locations size ls -> In l ls -> superblock_at c l sb ->
  snd (classify bd st s) = Ok DsMissing -> unreadable bad l.
Proof.
  intros S st bd c bad at_ size s p sb ls l OK A Sz L G Lo I H E.
  destruct (member_classification st bd c bad at_ size s p OK A Sz L) as (s' & cls & E' & C).
  rewrite E' in E. cbn [snd] in E. inv E. destruct (N.ltb_spec size 12288); [discriminate|].
  destruct C as (ls' & Lo' & F). rewrite (locations_unique _ _ _ Lo' Lo) in F. cbn [classified] in F.
  rewrite Forall_forall in F. destruct (F _ I) as [V|U]; [destruct (V _ H)|exact U].
Qed.
Print Assumptions probe_error_partial.

(** ** C61: superblock checksums *)

(** The version 1 checksum of the kernel ([calc_sb_1_csum]): the little-endian words with the checksum word taken as 0,
    the two halves of the sum added.  The table has [max_devices] entries, even here. *)
Definition v1_csum (st : bytes) : N :=
  let words := (256 + 2 * uint_le st 220 4) / 4 in
  let sum := fold_left (fun a i => if N.of_nat i =? 54 then a else a + uint_le st (4 * N.of_nat i) 4)
                       (seq 0 (N.to_nat words)) 0 in
  (sum mod 2 ^ 32 + sum / 2 ^ 32) mod 2 ^ 32.
Definition v1_csum_ok (st : bytes) : Prop := uint_le st 216 4 = v1_csum st.

(** False of the code: a superblock whose checksum is wrong is accepted, with the altered contents. *)
Theorem v1_checksum_refuted : exists st st',
  len st = 4096 /\ len st' = 4096 /\ v1_csum_ok st /\ ~ v1_csum_ok st' /\
  v1_valid st = true /\ v1_valid st' = true /\
  sb_chunk_size (v1_superblock st 2) = 128 /\ sb_chunk_size (v1_superblock st' 2) = 129.
Proof.
  set (img := poke (fold_left poke (v1_bytes v1_ex) (zeros 4096)) (88, to_le 4 128)).
  set (img1 := poke img (220, to_le 4 4)).
  exists (poke img1 (216, to_le 4 (v1_csum img1))), (poke (poke img1 (216, to_le 4 (v1_csum img1))) (88, to_le 4 129)).
  unfold v1_csum_ok. repeat match goal with |- _ /\ _ => split end; vm_compute; first [reflexivity | discriminate].
Qed.
Print Assumptions v1_checksum_refuted.

(** In fact nothing behind byte 8 has any influence on acceptance. *)
Theorem v1_checksum_ignored : forall st o b,
  len st = 4096 -> 8 <= o < 4096 -> v1_valid (poke st (o, [b])) = v1_valid st.
Proof.
  intros st o b L O. unfold v1_valid. rewrite !(fle_at v1_layout "magic" 0 4) by reflexivity.
  rewrite !(fle_at v1_layout "major_version" 4 4) by reflexivity. rewrite !uint_le_window.
  assert (W : forall a n, a + n <= 8 -> window (poke st (o, [b])) a n = window st a n).
  { intros a n H. unfold poke. rewrite window_app_l.
    - rewrite <- window_firstn. now rewrite window_window by lia.
    - rewrite len_firstn. lia. }
  rewrite !W by (vm_compute; discriminate). reflexivity.
Qed.
Print Assumptions v1_checksum_ignored.
