(** Property C104: the format in which an array that is being reshaped is read. *)

From Coq Require Import Strings.String Permutation.
From Verif Require Import Base BaseFacts Raid SpecRaid RaidFacts SpecParity ParityFacts PropsRaid Io SpecStream IoFacts Superblock Device Array
  ArrayIo SpecMd SpecArray ArrayFacts PropsArray PropsArrayRead PropsArrayIo PropsExt4Array PropsExt4Recover SpecStale PropsArrayStale SpecReshape.

Lemma same_all {D} (g : md_device D -> option md_format) (ds : list (md_device D)) v : ds <> [] -> (forall d, In d ds -> g d = v) ->
  reduce_flatten same_or_none (map g ds) = v.
Proof.
  intros N H. destruct ds as [|d ds]; [easy|]. cbn [map reduce_flatten]. rewrite (H d ltac:(now left)).
  assert (F : forall d', In d' ds -> g d' = v) by (intros d' I; apply H; now right). clear H N.
  induction ds as [|e ds IH]; [reflexivity|]. cbn [map fold_left]. rewrite (F e ltac:(now left)).
  unfold same_or_none at 2. destruct (option_dec format_dec v v) as [_|X]; [|easy]. apply IH. intros d' I. apply F. now right.
Qed.

(** All members of an array that is being reshaped agree.  (16-bit numbers of devices: md's roles have no more.)  The format
    in which md-recover reads is the one in which md keeps sector [s] in exactly these two cases: the number of devices does
    not change and the sector is in the new format already (or the formats are the same); or the array gets fewer devices,
    by no more than are left, nothing else changes, and the sector is in the new format already.  It never is if the array
    gets more devices. *)
Theorem reshape_format_iff : forall {D} order (ds : list (md_device D)) sb rs backwards s f,
  ds <> [] -> (forall d, In d ds -> exists sb', md_superblock d = DsSuperblock sb' /\ same_statement sb sb') ->
  sb_reshape sb = Some rs -> rs_delta_devices rs < 2 ^ 32 -> sb_device_count sb < 2 ^ 16 -> (0 <= old_count sb rs < 2 ^ 16)%Z ->
  direction_ok backwards rs -> in_use (array_open order ds) f ->
  let same := sb_algorithm sb = rs_algorithm rs /\ sb_chunk_size sb = rs_chunk_size rs in
  (md_keeps backwards sb rs s f <->
   delta_of rs = 0%Z /\ (moved backwards rs s \/ same) \/
   (delta_of rs < 0)%Z /\ (- delta_of rs <= Z.of_N (sb_device_count sb))%Z /\ moved backwards rs s /\ same).
Proof.
  intros D order ds sb rs bw s f Ne All Rs U32 C16 O16 Dir IU same.
  assert (F1 : ad_format (array_open order ds) = Some (MdFormat (sb_algorithm sb) (sb_device_count sb) (sb_sectors_per_device sb) (sb_chunk_size sb))).
  { apply (same_all (fun d => format_of (md_superblock d)) ds _ Ne). intros d I. destruct (All d I) as (sb' & -> & P1 & P2 & P3 & P4 & P5).
    cbn. now rewrite <- P1, <- P2, <- P3, <- P4. }
  assert (F2 : ad_new_format (array_open order ds) = let* n := cadd32 (sb_device_count sb) (rs_delta_devices rs) in
    Some (MdFormat (rs_algorithm rs) n (sb_sectors_per_device sb) (rs_chunk_size rs))).
  { apply (same_all (fun d => new_format_of (md_superblock d)) ds _ Ne). intros d I. destruct (All d I) as (sb' & -> & P1 & P2 & P3 & P4 & P5).
    unfold same_target in P5. rewrite Rs in P5. unfold new_format_of. cbn [as_option obind]. destruct (sb_reshape sb') as [rs'|]; [|destruct P5].
    cbn [obind]. destruct P5 as (<- & <- & <-). now rewrite <- P2, <- P4. }
  unfold in_use in IU. rewrite F1, F2 in IU. unfold md_keeps. unfold delta_of, old_count, direction_ok in *. unfold delta_of in *.
  set (n := sb_device_count sb) in *. set (dl := rs_delta_devices rs) in *. clearbody n dl.
  destruct Dir as [Dp Dn]. unfold same. clear same F1 F2 All Rs.
  assert (A16 : 2 ^ 16 = 65536) by reflexivity. assert (A31 : 2 ^ 31 = 2147483648) by reflexivity. assert (A32 : 2 ^ 32 = 4294967296) by reflexivity.
  assert (B16 : (2 ^ 16 = 65536)%Z) by reflexivity. assert (B32 : (2 ^ 32 = 4294967296)%Z) by reflexivity.
  rewrite ?A16, ?A31, ?A32, ?B16, ?B32 in *. clear A16 A31 A32 B16 B32.
  unfold cadd32 in IU. assert (E32 : u32_max = 4294967295) by reflexivity. rewrite E32 in IU.
  destruct (N.leb_spec (n + dl) 4294967295) as [Ov|Ov]; cbn [obind] in IU.
  - destruct IU as [IU|[IU _]]; [|discriminate]. injection IU as <-. cbn [mf_device_count].
    destruct (N.ltb_spec dl 2147483648) as [Sg|Sg].
    + assert (dl = 0 \/ 0 < dl) as [->|Pos] by lia.
      * rewrite N.add_0_r. split.
        -- intros [[M _]|(M & _ & E)]; left; (split; [reflexivity|]); [now left|right]. injection E as <- <-. auto.
        -- intros [(_ & [M|[-> ->]])|(X & _)]; [left; split; [exact M|reflexivity]| |lia].
           assert (moved bw rs s \/ ~ moved bw rs s) as [M|M] by (destruct bw; cbn; lia); [left; auto|right; split; [exact M|split; [lia|reflexivity]]].
      * split; [|intros [[X _]|[X _]]; lia]. intros [[_ E]|(_ & X & _)]; [injection E as E; lia|lia].
    + split; [|intros [[X _]|(X & Y & _)]; lia]. intros [[_ E]|(_ & X & _)]; [injection E as E; lia|lia].
  - destruct IU as [IU|[_ IU]]; [discriminate|]. injection IU as <-. cbn [mf_device_count].
    destruct (N.ltb_spec dl 2147483648) as [Sg|Sg]; [lia|]. split.
    + intros [[M E]|(_ & X & _)]; [|lia]. injection E as -> ->. right. repeat split; auto; lia.
    + intros [[X _]|(X & Y & M & -> & ->)]; [lia|]. left. auto.
Qed.
Print Assumptions reshape_format_iff.

(** An array that gets more devices: every read fails, whether the sector has been moved or not and whether or not all
    members, old and new, are there. *)
Theorem reshape_grow_fails : forall {D} (ops : blockdev D) join order (ds : list (md_device D)) sb rs s buf a' buf' r,
  (forall x, Permutation (order x) x) -> joins join ->
  ds <> [] -> (forall d, In d ds -> exists sb', md_superblock d = DsSuperblock sb' /\ same_statement sb sb') ->
  sb_reshape sb = Some rs -> rs_delta_devices rs < 2 ^ 32 -> (0 < delta_of rs)%Z -> sb_device_count sb < 2 ^ 16 -> (0 <= old_count sb rs)%Z ->
  let a := array_open order ds in
  members_hold ops a -> (forall k d, In (k, d) (ad_devices a) -> k < sb_device_count sb) ->
  u64_ok s -> len buf = 512 -> array_read_block_io ops join a s buf = (a', buf', r) -> (exists e, r = Err e) /\ buf' = buf.
Proof.
  intros D ops join order ds sb rs s buf a' buf' r O J Ne All Rs U32 Dl C16 Old a Mh Ks Us Lb E.
  assert (D16 : 0 < rs_delta_devices rs < 65536).
  { assert (A16 : 2 ^ 16 = 65536) by reflexivity. assert (A31 : 2 ^ 31 = 2147483648) by reflexivity. assert (A32 : 2 ^ 32 = 4294967296) by reflexivity.
    assert (B32 : (2 ^ 32 = 4294967296)%Z) by reflexivity. unfold old_count, delta_of in *. rewrite ?A16, ?A31, ?A32, ?B32 in *. destruct (N.ltb_spec (rs_delta_devices rs) 2147483648); lia. }
  assert (A16 : 2 ^ 16 = 65536) by reflexivity. rewrite A16 in C16. clear A16.
  assert (F2 : ad_new_format a = Some (MdFormat (rs_algorithm rs) (sb_device_count sb + rs_delta_devices rs) (sb_sectors_per_device sb) (rs_chunk_size rs))).
  { apply (same_all (fun d => new_format_of (md_superblock d)) ds _ Ne). intros d I. destruct (All d I) as (sb' & -> & P1 & P2 & P3 & P4 & P5).
    unfold same_target in P5. rewrite Rs in P5. unfold new_format_of. cbn [as_option obind]. destruct (sb_reshape sb') as [rs'|]; [|destruct P5].
    cbn [obind]. destruct P5 as (<- & <- & <-). rewrite <- P2, <- P4. unfold cadd32. assert (E32 : u32_max = 4294967295) by reflexivity. rewrite E32.
    destruct (N.leb_spec (sb_device_count sb + rs_delta_devices rs) 4294967295); [reflexivity|lia]. }
  assert (FU : forall f, in_use a f -> mf_device_count f = sb_device_count sb + rs_delta_devices rs).
  { intros f IU. unfold in_use in IU. rewrite F2 in IU. destruct IU as [IU|[IU _]]; [|discriminate]. now injection IU as <-. }
  assert (Nd : NoDup (map fst (ad_devices a))) by apply (array_members_partition order ds O).
  destruct (contents_exist ops (ad_devices a) Nd Mh) as (C & A & B).
  assert (Hs : slots_hold ops a C) by (split; [exact Nd|split; [exact A|exact B]]).
  destruct (array_io_sound ops join J C a s buf a' buf' r Hs Us) as (_ & _ & R); auto.
  { intros f IU. rewrite (FU f IU). unfold u32_ok. assert (E32 : u32_max = 4294967295) by reflexivity. rewrite E32. lia. }
  destruct r as [k|e|]; [|split; [eauto|apply R]|destruct R]. exfalso.
  destruct R as (_ & f & l & code & ra & blks & IU & _ & _ & _ & _ & _ & (Lk & Rw & _) & _). rewrite (FU f IU) in Lk.
  destruct (nth_N blks (sb_device_count sb)) as [b|] eqn:Eb.
  - destruct (Rw _ _ Eb) as (ct & bad & Ci & _). destruct (B _ _ _ Ci) as (m & I). specialize (Ks _ _ I). lia.
  - rewrite nth_N_spec in Eb. apply nth_error_None in Eb. unfold len in Lk. lia.
Qed.
Print Assumptions reshape_grow_fails.

(** An array of five members, four before, whose reshape is all but finished: every member has its part in the new format,
    which is the one that md keeps all sectors in. *)
Definition grow_sb (index : N) : superblock :=
  Superblock 1 2 (UuidLong []) None (AlgRaid6 R6LeftSymmetric) 1 1 5 (Some (Reshape (AlgRaid6 R6LeftSymmetric) 3 1 1 0)) 0 index 7 [0; 1; 2; 3; 4].
Definition grow_members : list (md_device memdev) :=
  map (fun '(i, b) => MdDevice i (DsSuperblock (grow_sb i)) (mem_new (sec b) 512)) [(0, x00); (1, x31); (2, x42); (3, x20); (4, x53)].
Definition grow_image : bytes := sec x31 ++ sec x42 ++ sec x20.
Definition grow_format : md_format := MdFormat (AlgRaid6 R6LeftSymmetric) 5 1 1.
Example reshape_grow_ex : let a := array_open (fun x => x) grow_members in
  (forall s, s < 3 -> exists rs, sb_reshape (grow_sb 0) = Some rs /\ direction_ok false rs /\ old_count (grow_sb 0) rs = 4%Z /\ md_keeps false (grow_sb 0) rs s grow_format) /\
  (forall d, In d grow_members -> exists k, In (k, d) (ad_devices a) /\ has_part mem_block grow_format (Md5 LeftSymmetric) grow_image (fun _ => sec x00) k d) /\
  array_reads mem_block shared a [(0, zeros 512); (1, zeros 512); (2, zeros 512)] = repeat (zeros 512, Err InvalidInput) 3.
Proof.
  cbv zeta. split; [|split; [|vm_compute; reflexivity]].
  - intros s Ls. eexists. split; [reflexivity|]. split; [split; intros H; [reflexivity|discriminate H]|]. split; [reflexivity|]. left. split; [exact Ls|reflexivity].
  - assert (HP : forall k d b, md_dev d = mem_new (sec b) 512 -> stored (Md5 LeftSymmetric) 5 1 grow_image (fun _ => sec x00) k 0 = sec b ->
      has_part mem_block grow_format (Md5 LeftSymmetric) grow_image (fun _ => sec x00) k d).
    { intros k d b E St. apply (mem_part _ _ _ _ _ _ (sec b) E); [unfold sec; rewrite len_repeat; reflexivity|unfold sec; rewrite len_repeat; vm_compute; discriminate|].
      intros t Ht. cbn in Ht. assert (t = 0) as -> by lia. cbn [mf_device_count mf_chunk_size grow_format]. rewrite St.
      change (0 * 512) with 0. change 512 with (len (sec b)) at 1. apply window_full. }
    intros d I. assert (X : exists i, nth_error grow_members i = Some d) by now apply In_nth_error. destruct X as (i & E).
    exists (N.of_nat i). destruct i as [|[|[|[|[|i]]]]]; cbn in E; try (injection E as <-); [| | | | |destruct i; discriminate E].
    + split; [left; reflexivity|]. eapply HP; [reflexivity|vm_compute; reflexivity].
    + split; [right; left; reflexivity|]. eapply HP; [reflexivity|vm_compute; reflexivity].
    + split; [right; right; left; reflexivity|]. eapply HP; [reflexivity|vm_compute; reflexivity].
    + split; [right; right; right; left; reflexivity|]. eapply HP; [reflexivity|vm_compute; reflexivity].
    + split; [right; right; right; right; left; reflexivity|]. eapply HP; [reflexivity|vm_compute; reflexivity].
Qed.

(** Only the chunk size is changed, and half of the array is done: of the right formats for the two halves, the one in use
    is that of the first half. *)
Definition rechunk_sb (index : N) : superblock :=
  Superblock 1 2 (UuidLong []) None (AlgRaid6 R6LeftSymmetric) 4 2 4 (Some (Reshape (AlgRaid6 R6LeftSymmetric) 4 0 1 0)) 0 index 7 [0; 1; 2; 3].
Definition rechunk_members : list (md_device unit) := map (fun i => MdDevice i (DsSuperblock (rechunk_sb i)) tt) [2; 0; 3; 1].
Definition rechunk_status : reshape_status := Reshape (AlgRaid6 R6LeftSymmetric) 4 0 1 0.
Definition rechunk_format (chunk : N) : md_format := MdFormat (AlgRaid6 R6LeftSymmetric) 4 4 chunk.
Example reshape_format_ex : rechunk_members <> [] /\
  (forall d, In d rechunk_members -> exists sb', md_superblock d = DsSuperblock sb' /\ same_statement (rechunk_sb 0) sb') /\
  direction_ok false rechunk_status /\ in_use (array_open (fun x => x) rechunk_members) (rechunk_format 1) /\
  md_keeps false (rechunk_sb 0) rechunk_status 3 (rechunk_format 1) /\ ~ md_keeps false (rechunk_sb 0) rechunk_status 4 (rechunk_format 1) /\
  md_keeps false (rechunk_sb 0) rechunk_status 4 (rechunk_format 2).
Proof.
  split; [discriminate|]. split; [|split; [split; intros X; [reflexivity|discriminate X]|split; [left; reflexivity|split; [|split]]]].
  - intros d I. cbn in I. repeat (destruct I as [<-|I]; [eexists; split; [reflexivity|vm_compute; repeat split]|]). destruct I.
  - left. split; [vm_compute; reflexivity|reflexivity].
  - intros [[X _]|(_ & _ & X)]; [vm_compute in X; discriminate X|discriminate X].
  - right. split; [intros X; vm_compute in X; discriminate X|]. split; reflexivity.
Qed.
