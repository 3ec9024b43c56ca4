(** C38, C39, C40: opening an ext4 file system, reading inodes and blocks. *)

From Coq Require Import Strings.String.
From Verif Require Import Base BaseFacts Io SpecStream IoFacts SpecMd SuperblockFacts Superblock Crc SpecCrc PropsCrc
  Ext4Superblock SpecExt4 TestData PropsExt4Superblock Ext4Inode SpecExt4Inode PropsExt4Inode Ext4Fs SpecExt4Fs Ext4FsFacts.

Local Opaque read_exact.

(** Where the descriptor table of a superblock would be, and how large. *)
Definition table_fits (sb : bytes) : Prop := u64_ok (sb4_desc_offset sb 0).
Definition table_allocatable (sb : bytes) : Prop := forall k, sb4_group_count sb k -> k * 60 <= i64_max.

Section Fs.
  Context {S : Type} (st : stream S) (c : bytes) (bad : N -> Prop) (at_ : S -> N -> Prop).
  Hypothesis OK : stream_ok st c bad at_.
  Notation legal := (legal at_).

  (** The outcome of opening, by cases. *)
  Lemma fs_open_spec s s' r : legal s -> fs_open st s = (s', r) ->
    legal s' /\
    let sb := window c 1024 1024 in
    match r with
    | Ok f => opened c (fs_sb f) (fs_groups f) /\ table_fits sb /\ table_allocatable sb
    | Err e =>
        (len c < 2048 \/ exists q, 1024 <= q < 2048 /\ bad q) \/
        (2048 <= len c /\ ~ sb4_acceptable sb /\ e = InvalidData) \/
        (sb4_acceptable sb /\ ~ sb4_supported sb /\ sb4_blocks_per_group sb <> 0 /\ e = Unsupported) \/
        (sb4_acceptable sb /\ sb4_supported sb /\ table_fits sb /\
         (table_allocatable sb \/ len c < sb4_desc_offset sb 0) /\ exists k, sb4_group_count sb k /\
           (len c < sb4_desc_offset sb k \/ exists q, sb4_desc_offset sb 0 <= q < sb4_desc_offset sb k /\ bad q))
    | Panic =>
        2048 <= len c /\ sb4_acceptable sb /\
        (sb4_blocks_per_group sb = 0 \/ (sb4_supported sb /\ (~ table_fits sb \/ ~ table_allocatable sb)))
    end.
  Proof.
    intros A E. cbv zeta. set (sb := window c 1024 1024). unfold fs_open in E.
    assert (U1024 : u64_ok 1024) by discriminate.
    apply io_bind_inv in E as (s1 & r1 & Q & E).
    pose proof (io_seek_spec st c bad at_ OK _ _ _ _ A U1024 Q) as X.
    destruct r1 as [u|e|]; [| |destruct X].
    2:{ destruct E as [-> ->]. destruct X as [Lg L]. split; [exact Lg|]. left. left. lia. }
    destruct X as (p & A1 & P). apply io_bind_inv in E as (s2 & r2 & R & E).
    pose proof (e4_read_spec st c bad at_ OK _ _ _ _ A1 R) as [Lg X].
    destruct r2 as [sb'|e|]; [| |destruct X].
    2:{ destruct E as [-> ->]. split; [exact Lg|]. destruct P as [->|[P1 P2]]; [|left; left; lia].
        destruct X as [X|(L & -> & V)]; [left; exact X|]. right. left. split; [exact L|]. split; [|reflexivity].
        intros AC. destruct (sb4_valid_iff (window c 1024 1024)) as (v & V' & I); [apply len_window_in; exact L|].
        rewrite V in V'. injection V' as <-. apply I in AC. discriminate. }
    destruct X as (L & -> & V). destruct P as [->|[P1 P2]]; [|lia]. fold sb in E, V.
    assert (L2 : 2048 <= len c) by exact L.
    assert (Lsb : len sb = 1024) by (apply len_window_in; exact L).
    assert (AC : sb4_acceptable sb).
    { destruct (sb4_valid_iff sb Lsb) as (v & V' & I). rewrite V in V'. injection V' as <-. now apply I. }
    destruct (N.eq_dec (sb4_blocks_per_group sb) 0) as [B0|B0].
    { assert (D : div_ceil (e4_blocks_count sb) (e4_blocks_per_group sb) = Panic).
      { unfold div_ceil. unfold e4_blocks_per_group. s4_field. fold (sb4_blocks_per_group sb). rewrite B0. reflexivity. }
      rewrite D in E. unfold io_bind, io_lift in E. apply pair_equal_spec in E as [<- <-]. split; [exact Lg|]. auto. }
    destruct (div_ceil_spec sb B0) as (k & D & K).
    rewrite D in E. rewrite (io_bind_ok _ _ _ s2 k eq_refl) in E. fold (refused sb) in E.
    destruct (refused sb) eqn:RF.
    { apply pair_equal_spec in E as [<- <-]. split; [exact Lg|]. right. right. left. split; [exact AC|].
      split; [|auto]. intros SU. apply refused_iff in SU. congruence. }
    apply refused_iff in RF. rewrite (block_size_ok sb Lsb V) in E. rewrite (io_bind_ok _ _ _ s2 _ eq_refl) in E.
    assert (FO : (e4_first_data_block sb + 1) * sb4_block_size sb = sb4_desc_offset sb 0).
    { unfold sb4_desc_offset, e4_first_data_block. s4_field. lia. }
    assert (OFF : forall i, sb4_desc_offset sb i = sb4_desc_offset sb 0 + i * sb4_desc_size sb) by (intros i; unfold sb4_desc_offset; lia).
    unfold cmul64 in E. rewrite FO in E. destruct (N.leb_spec (sb4_desc_offset sb 0) u64_max) as [TF|TF]; cbn [unwrap] in E.
    2:{ unfold io_bind, io_lift in E. apply pair_equal_spec in E as [<- <-]. split; [exact Lg|].
        split; [exact L2|]. split; [exact AC|]. right. split; [exact RF|]. left. unfold table_fits, u64_ok. lia. }
    rewrite (io_bind_ok _ _ _ s2 _ eq_refl) in E.
    apply io_bind_inv in E as (s3 & r3 & Q3 & E).
    pose proof (io_seek_spec st c bad at_ OK _ _ _ _ Lg TF Q3) as X.
    destruct r3 as [u3|e|]; [| |destruct X].
    2:{ destruct E as [-> ->]. destruct X as [Lg3 L3]. split; [exact Lg3|]. right. right. right. split; [exact AC|].
        split; [exact RF|]. split; [exact TF|]. split; [now right|].
        exists k. split; [exact K|]. left. rewrite (OFF k). lia. }
    destruct X as (p3 & A3 & P3). change (layout_size bg_layout) with 60 in E.
    destruct (N.ltb_spec i64_max (k * 60)) as [AL|AL].
    { unfold io_lift in E. apply pair_equal_spec in E as [<- <-]. split; [now exists p3|].
      split; [exact L2|]. split; [exact AC|]. right. split; [exact RF|]. right. intros H. specialize (H k K). lia. }
    assert (TA : table_allocatable sb).
    { intros k' K'. now rewrite <- (group_count_unique sb k k' B0 K K'). }
    assert (DS : e4_group_descriptor_size sb = sb4_desc_size sb) by (unfold e4_group_descriptor_size; s4_field; reflexivity).
    rewrite DS in E. pose proof (su_desc sb RF) as DN.
    apply io_bind_inv in E as (s4' & r4 & R4 & E).
    pose proof (read_groups_spec st c bad at_ OK _ _ _ _ _ _ DN A3 R4) as [Lg4 X]. rewrite !N2Nat.id in X.
    destruct r4 as [gs|e|]; [| |destruct X].
    2:{ destruct E as [-> ->]. split; [exact Lg4|]. right. right. right. split; [exact AC|]. split; [exact RF|]. split; [exact TF|].
        split; [now left|]. exists k. split; [exact K|]. rewrite (OFF k). destruct P3 as [->|[P3 P3']]; [exact X|]. left. lia. }
    apply pair_equal_spec in E as [<- <-]. split; [exact Lg4|]. split; [|auto]. cbn [fs_sb fs_groups].
    destruct X as (Lk & T & G).
    assert (IN : k <> 0 -> p3 = sb4_desc_offset sb 0 /\ sb4_desc_offset sb k <= len c).
    { intros K0. specialize (T ltac:(lia)). rewrite (OFF k). destruct P3 as [->|[P3 P3']]; [auto|].
      pose proof (proj1 (N.neq_mul_0 k (sb4_desc_size sb)) (conj K0 DN)). lia. }
    constructor; try assumption.
    - reflexivity.
    - rewrite Lk. exact K.
    - rewrite Lk. intros K0. now apply IN.
    - intros i g Hg o w H. pose proof (nth_N_some_lt _ _ _ Hg) as Li. rewrite Lk in Li. rewrite (G i Li) in Hg.
      injection Hg as <-. destruct (IN ltac:(lia)) as [-> _]. rewrite <- (OFF i). now apply bg_new_uint.
  Qed.

  (** C39: what a successfully opened file system consists of. *)
  Theorem fs_open_sound s s' f : legal s -> fs_open st s = (s', Ok f) ->
    legal s' /\ opened c (fs_sb f) (fs_groups f).
  Proof. intros A E. destruct (fs_open_spec _ _ _ A E) as (Lg & O & _). auto. Qed.

  (** C39: a readable device with an acceptable superblock of a supported file system is opened. *)
  Theorem fs_open_complete s k : legal s -> 2048 <= len c -> sb4_acceptable (window c 1024 1024) ->
    sb4_supported (window c 1024 1024) -> sb4_group_count (window c 1024 1024) k ->
    sb4_desc_offset (window c 1024 1024) k <= len c -> u64_ok (len c) -> k * 60 <= i64_max ->
    (forall q, 1024 <= q < 2048 \/ sb4_desc_offset (window c 1024 1024) 0 <= q < sb4_desc_offset (window c 1024 1024) k -> ~ bad q) ->
    exists s' f, fs_open st s = (s', Ok f) /\ legal s' /\ opened c (fs_sb f) (fs_groups f).
  Proof.
    intros A L AC SU K T U AL NB. destruct (fs_open st s) as [s' r] eqn:E.
    destruct (fs_open_spec _ _ _ A E) as (Lg & X). cbv zeta in X. set (sb := window c 1024 1024) in *.
    assert (OFF : forall i, sb4_desc_offset sb i = sb4_desc_offset sb 0 + i * sb4_desc_size sb) by (intros i; unfold sb4_desc_offset; lia).
    destruct r as [f|e|].
    - exists s', f. tauto.
    - exfalso. destruct X as [[X|(q & Q & B)]|[X|[X|(_ & _ & _ & _ & k' & K' & D)]]]; [lia|apply (NB q); tauto|tauto|tauto|].
      rewrite <- (group_count_unique sb k k' (su_bpg sb SU) K K') in D. destruct D as [D|(q & Q & B)]; [lia|]. apply (NB q); tauto.
    - exfalso. destruct X as (_ & _ & [X|(_ & [X|X])]).
      + now apply (su_bpg sb SU).
      + apply X. unfold table_fits, u64_ok in *. rewrite (OFF k) in T. lia.
      + apply X. intros k' K'. now rewrite <- (group_count_unique sb k k' (su_bpg sb SU) K K').
  Qed.

  (** C39: everything else that has an acceptable superblock is refused as unsupported. *)
  Theorem fs_open_refuses s s' r : legal s -> 2048 <= len c -> (forall q, 1024 <= q < 2048 -> ~ bad q) ->
    sb4_acceptable (window c 1024 1024) -> ~ sb4_supported (window c 1024 1024) ->
    sb4_blocks_per_group (window c 1024 1024) <> 0 -> fs_open st s = (s', r) -> r = Err Unsupported.
  Proof.
    intros A L NB AC NS B0 E. destruct (fs_open_spec _ _ _ A E) as (Lg & X). cbv zeta in X.
    destruct r as [f|e|].
    - destruct X as [O _]. elim NS. rewrite <- (op_sb _ _ _ O). apply (op_supported _ _ _ O).
    - destruct X as [[X|(q & Q & B)]|[X|[X|(_ & X & _)]]]; [lia|exfalso; now apply (NB q)|tauto| |tauto].
      destruct X as (_ & _ & _ & ->). reflexivity.
    - tauto.
  Qed.

  (** C38: opening panics only when an acceptable superblock states no blocks per group, or a supported one places its
      descriptor table beyond the 64-bit addresses or makes it larger than can be allocated. *)
  Theorem fs_open_panics_only s : legal s -> snd (fs_open st s) = Panic ->
    let sb := window c 1024 1024 in
    2048 <= len c /\ sb4_acceptable sb /\
    (sb4_blocks_per_group sb = 0 \/ (sb4_supported sb /\ (~ table_fits sb \/ ~ table_allocatable sb))).
  Proof.
    intros A P. destruct (fs_open st s) as [s' r] eqn:E. cbn [snd] in P. subst r.
    now destruct (fs_open_spec _ _ _ A E) as (_ & X).
  Qed.

  (** C38, and in these cases it does, if the superblock can be read and the table starts on the device. *)
  Theorem fs_open_panics s : legal s -> (forall q, 1024 <= q < 2048 -> ~ bad q) ->
    let sb := window c 1024 1024 in
    2048 <= len c -> sb4_acceptable sb ->
    (sb4_blocks_per_group sb = 0 \/
     (sb4_supported sb /\ (~ table_fits sb \/ (sb4_desc_offset sb 0 <= len c /\ ~ table_allocatable sb)))) ->
    snd (fs_open st s) = Panic.
  Proof.
    intros A NB. cbv zeta. intros L AC D. destruct (fs_open st s) as [s' r] eqn:E. cbn [snd].
    destruct (fs_open_spec _ _ _ A E) as (_ & X). cbv zeta in X. destruct r as [f|e|]; [| |reflexivity]; exfalso.
    - destruct X as (O & TF & TA). pose proof (op_supported _ _ _ O) as SU. rewrite (op_sb _ _ _ O) in SU.
      pose proof (su_bpg _ SU). tauto.
    - destruct X as [[X|(q & Q & B)]|[X|[X|(_ & SU & TF & TA & _)]]]; [lia|now apply (NB q)|tauto|tauto|].
      pose proof (su_bpg _ SU). destruct D as [D|(_ & [D|[D1 D2]])]; [tauto|tauto|]. destruct TA as [TA|TA]; [tauto|lia].
  Qed.

  (** ** Inodes *)

  (** C40: what reading an inode does. *)
  Lemma fs_read_inode_spec s f number s' r : legal s -> opened c (fs_sb f) (fs_groups f) ->
    fs_read_inode st f number s = (s', r) ->
    legal s' /\
    let sb := fs_sb f in
    let desc := window c (sb4_desc_offset sb (inode_group sb number)) (sb4_desc_size sb) in
    let o := inode_offset sb desc number in
    let slot := window c o (sb4_inode_size sb) in
    (1 <= number <= sb4_inodes sb /\ inode_group sb number < len (fs_groups f) /\ u64_ok o /\
     (sb4_inode_size sb <> 0 -> o + sb4_inode_size sb <= len c) /\ r = inode_new sb number slot) \/
    (exists e, r = Err e /\
      ((~ (1 <= number <= sb4_inodes sb) /\ e = InvalidInput) \/
       (1 <= number <= sb4_inodes sb /\ len (fs_groups f) <= inode_group sb number /\ e = InvalidInput) \/
       (1 <= number <= sb4_inodes sb /\ inode_group sb number < len (fs_groups f) /\
        (len c < o + sb4_inode_size sb \/ ~ u64_ok o \/ exists q, o <= q < o + sb4_inode_size sb /\ bad q)))).
  Proof.
    intros A O E. cbv zeta. unfold fs_read_inode in E. destruct f as [sb gs]. cbn [fs_sb fs_groups] in *.
    pose proof (op_supported _ _ _ O) as SU. pose proof (su_ipg sb SU) as IPG.
    assert (F1 : e4_inodes_count sb = sb4_inodes sb) by (unfold e4_inodes_count; s4_field; reflexivity).
    assert (F2 : e4_inodes_per_group sb = sb4_inodes_per_group sb) by (unfold e4_inodes_per_group; s4_field; reflexivity).
    assert (F3 : e4_inode_size sb = sb4_inode_size sb) by (unfold e4_inode_size; s4_field; reflexivity).
    assert (Lsb : len sb = 1024) by (rewrite (op_sb _ _ _ O); apply len_window_in; apply (op_len _ _ _ O)).
    assert (V : e4_valid sb = Ok true).
    { destruct (sb4_valid_iff sb Lsb) as (v & V & I). rewrite V. f_equal. apply I, (op_acceptable _ _ _ O). }
    rewrite F1, F2, F3 in E.
    destruct (N.eqb_spec number 0) as [N0|N0]; cbn [orb] in E.
    { apply pair_equal_spec in E as [<- <-]. split; [exact A|]. right. eexists. split; [reflexivity|]. left. split; [lia|reflexivity]. }
    destruct (N.ltb_spec (sb4_inodes sb) number) as [NL|NL].
    { apply pair_equal_spec in E as [<- <-]. split; [exact A|]. right. eexists. split; [reflexivity|]. left. split; [lia|reflexivity]. }
    unfold cdiv64, crem64 in E. destruct (N.eqb_spec (sb4_inodes_per_group sb) 0) as [Z|_]; [contradiction|].
    cbn [unwrap] in E. fold (inode_group sb number) (inode_index sb number) in E.
    rewrite (io_bind_ok _ _ _ s _ eq_refl), (io_bind_ok _ _ _ s _ eq_refl) in E.
    destruct (nth_N gs (inode_group sb number)) as [g|] eqn:G; cbn [ok_or] in E.
    2:{ apply pair_equal_spec in E as [<- <-]. split; [exact A|]. right. eexists. split; [reflexivity|]. right. left.
        split; [lia|]. split; [|reflexivity].
        apply N.nlt_ge. intros H. apply nth_N_lt_some in H as (g & H). congruence. }
    pose proof (nth_N_some_lt _ _ _ G) as GL. rewrite (io_bind_ok _ _ _ s _ eq_refl) in E.
    rewrite (block_size_ok sb Lsb V), (io_bind_ok _ _ _ s _ eq_refl) in E.
    set (desc := window c (sb4_desc_offset sb (inode_group sb number)) (sb4_desc_size sb)) in *.
    assert (TB : bg_inode_table_block g = desc_inode_table desc).
    { unfold bg_inode_table_block, desc_inode_table. repeat named_field bg bg_layout.
      pose proof (op_group _ _ _ O _ _ G) as H. fold desc in H. rewrite !H by (vm_compute; congruence).
      apply lor_shift, (uint_le_bound desc 8 4). }
    rewrite TB in E.
    assert (OFF : desc_inode_table desc * sb4_block_size sb + inode_index sb number * sb4_inode_size sb = inode_offset sb desc number) by reflexivity.
    set (o := inode_offset sb desc number) in *.
    unfold cmul64, cadd64 in E.
    assert (C : (let* base := if desc_inode_table desc * sb4_block_size sb <=? u64_max
                 then Some (desc_inode_table desc * sb4_block_size sb) else None in
                 if base + inode_index sb number * sb4_inode_size sb <=? u64_max
                 then Some (base + inode_index sb number * sb4_inode_size sb) else None) = if o <=? u64_max then Some o else None).
    { destruct (N.leb_spec (desc_inode_table desc * sb4_block_size sb) u64_max) as [Q|Q]; [reflexivity|].
      destruct (N.leb_spec o u64_max); [lia|reflexivity]. }
    rewrite C in E. clear C. destruct (N.leb_spec o u64_max) as [UO|UO]; cbn [ok_or] in E.
    2:{ apply pair_equal_spec in E as [<- <-]. split; [exact A|]. right. eexists. split; [reflexivity|]. right. right.
        split; [lia|]. split; [exact GL|]. right. left. unfold u64_ok. lia. }
    rewrite (io_bind_ok _ _ _ s _ eq_refl) in E.
    apply io_bind_inv in E as (s1 & r1 & Q1 & E1).
    destruct ((let! _ := io_seek st o in io_read_exact st (sb4_inode_size sb)) s) as [s2 r2] eqn:SR.
    pose proof (seek_read_spec st c bad at_ OK _ _ _ _ _ A UO SR) as [Lg X].
    unfold io_bind in SR. rewrite Q1 in SR. destruct r1 as [u|e|].
    - apply io_bind_inv in E1 as (s3 & r3 & R3 & E3). rewrite R3 in SR. apply pair_equal_spec in SR as [-> ->].
      destruct r2 as [b|e|]; [| |destruct X].
      + unfold io_lift in E3. apply pair_equal_spec in E3 as [<- <-]. split; [exact Lg|]. left. destruct X as [-> X].
        split; [lia|]. split; [exact GL|]. split; [exact UO|]. split; [intros Z; now apply X|reflexivity].
      + destruct E3 as [-> ->]. split; [exact Lg|]. right. exists e. split; [reflexivity|]. right. right.
        split; [lia|]. split; [exact GL|]. tauto.
    - apply pair_equal_spec in SR as [<- <-]. destruct E1 as [-> ->]. split; [exact Lg|]. right. exists e. split; [reflexivity|].
      right. right. split; [lia|]. split; [exact GL|]. tauto.
    - apply pair_equal_spec in SR as [<- <-]. destruct X.
  Qed.
  (** C40: a successful lookup is of a number in range; it gives the fields of the slot that the number designates, and
      the checksum seed of that inode. *)
  Theorem fs_read_inode_sound s f number s' i : legal s -> opened c (fs_sb f) (fs_groups f) ->
    fs_read_inode st f number s = (s', Ok i) ->
    let sb := fs_sb f in
    let desc := window c (sb4_desc_offset sb (inode_group sb number)) (sb4_desc_size sb) in
    let slot := window c (inode_offset sb desc number) (sb4_inode_size sb) in
    legal s' /\ 1 <= number <= sb4_inodes sb /\ inode_group sb number < len (fs_groups f) /\
    inode_offset sb desc number + sb4_inode_size sb <= len c /\
    (forall o w, uint_le (in_storage i) o w = uint_le (inode_visible slot) o w) /\
    inode_seed sb number slot (in_seed i).
  Proof.
    intros A O E. cbv zeta. destruct (fs_read_inode_spec _ _ _ _ _ A O E) as (Lg & X). cbv zeta in X.
    destruct X as [(R & G & U & T & N)|(e & X & _)]; [|discriminate]. symmetry in N.
    split; [exact Lg|]. split; [exact R|]. split; [exact G|]. split.
    - apply T. intros Z. assert (P : inode_new (fs_sb f) number (window c (inode_offset (fs_sb f)
        (window c (sb4_desc_offset (fs_sb f) (inode_group (fs_sb f) number)) (sb4_desc_size (fs_sb f))) number)
        (sb4_inode_size (fs_sb f))) = Panic); [|congruence].
      apply inode_new_panics_iff. right. rewrite Z, window_0. vm_compute. reflexivity.
    - apply inode_new_decodes in N. tauto.
  Qed.

  (** C40: numbers out of range are refused. *)
  Theorem fs_read_inode_out_of_range s f number s' r : legal s -> opened c (fs_sb f) (fs_groups f) ->
    number = 0 \/ sb4_inodes (fs_sb f) < number \/ len (fs_groups f) <= inode_group (fs_sb f) number ->
    fs_read_inode st f number s = (s', r) -> r = Err InvalidInput.
  Proof.
    intros A O D E. destruct (fs_read_inode_spec _ _ _ _ _ A O E) as (_ & X). cbv zeta in X.
    destruct X as [(R & G & _)|(e & -> & [(_ & ->)|[(_ & _ & ->)|(R & G & _)]])]; [lia|reflexivity|reflexivity|lia].
  Qed.

  (** C40: every number in range whose slot lies on the device and is well formed is found. *)
  Theorem fs_read_inode_complete s f number : legal s -> opened c (fs_sb f) (fs_groups f) ->
    let sb := fs_sb f in
    let desc := window c (sb4_desc_offset sb (inode_group sb number)) (sb4_desc_size sb) in
    let o := inode_offset sb desc number in
    let slot := window c o (sb4_inode_size sb) in
    1 <= number <= sb4_inodes sb -> inode_group sb number < len (fs_groups f) -> u64_ok (len c) ->
    o + sb4_inode_size sb <= len c -> (forall q, o <= q < o + sb4_inode_size sb -> ~ bad q) ->
    inode_extra slot <= 32 -> 128 + inode_extra slot <= sb4_inode_size sb ->
    exists s' i, fs_read_inode st f number s = (s', Ok i).
  Proof.
    intros A O. cbv zeta. intros R G U T NB X1 X2.
    destruct (fs_read_inode st f number s) as [s' r] eqn:E. destruct (fs_read_inode_spec _ _ _ _ _ A O E) as (_ & X). cbv zeta in X.
    destruct X as [(_ & _ & _ & _ & N)|(e & _ & [(C & _)|[(_ & C & _)|(_ & _ & [C|[C|(q & Q & B)]])]])].
    - symmetry in N. destruct r as [i|e|]; [eauto|now apply inode_new_no_error in N|].
      apply inode_new_panics_iff in N. rewrite len_window_in in N by exact T. lia.
    - lia.
    - lia.
    - lia.
    - unfold u64_ok in *. lia.
    - elim (NB q Q B).
  Qed.

  (** C40: a lookup panics only on a slot whose extra size is more than 32 or more than there is room for. *)
  Theorem fs_read_inode_panics_only s f number : legal s -> opened c (fs_sb f) (fs_groups f) ->
    snd (fs_read_inode st f number s) = Panic ->
    let sb := fs_sb f in
    let desc := window c (sb4_desc_offset sb (inode_group sb number)) (sb4_desc_size sb) in
    let slot := window c (inode_offset sb desc number) (sb4_inode_size sb) in
    1 <= number <= sb4_inodes sb /\ (32 < inode_extra slot \/ sb4_inode_size sb < 128 + inode_extra slot).
  Proof.
    intros A O P. cbv zeta. destruct (fs_read_inode st f number s) as [s' r] eqn:E. cbn [snd] in P. subst r.
    destruct (fs_read_inode_spec _ _ _ _ _ A O E) as (_ & X). cbv zeta in X.
    destruct X as [(R & G & U & T & N)|(e & X & _)]; [|discriminate]. split; [exact R|].
    symmetry in N. apply inode_new_panics_iff in N. destruct N as [N|N]; [now left|right].
    destruct (N.eq_dec (sb4_inode_size (fs_sb f)) 0) as [Z|Z]; [lia|]. now rewrite len_window_in in N by auto.
  Qed.

  (** ** Blocks *)

  (** C65: what reading a block does: the whole buffer is filled, from the start of the block on. *)
  Theorem fs_read_block_spec s f block buf s' buf' r : legal s -> opened c (fs_sb f) (fs_groups f) ->
    fs_read_block st f block s buf = (s', buf', r) ->
    let o := block * sb4_block_size (fs_sb f) in
    legal s' /\ len buf' = len buf /\
    match r with
    | Ok _ => sb4_block_size (fs_sb f) <= len buf /\ o + len buf <= len c /\ buf' = window c o (len buf)
    | Err e => (len buf < sb4_block_size (fs_sb f) /\ e = InvalidInput) \/ ~ u64_ok o \/ len c < o + len buf \/
               exists q, o <= q < o + len buf /\ bad q
    | Panic => False
    end.
  Proof.
    intros A O E. cbv zeta. unfold fs_read_block, fs_block_size in E. destruct f as [sb gs]. cbn [fs_sb fs_groups] in *.
    assert (Lsb : len sb = 1024) by (rewrite (op_sb _ _ _ O); apply len_window_in; apply (op_len _ _ _ O)).
    assert (V : e4_valid sb = Ok true).
    { destruct (sb4_valid_iff sb Lsb) as (v & V & I). rewrite V. f_equal. apply I, (op_acceptable _ _ _ O). }
    rewrite (block_size_ok sb Lsb V) in E.
    assert (B0 : sb4_block_size sb <> 0) by (apply N.pow_nonzero; discriminate).
    set (bs := sb4_block_size sb) in *. destruct (N.ltb_spec (len buf) bs) as [L|L].
    { apply pair_equal_spec in E as [E <-]. apply pair_equal_spec in E as [<- <-]. split; [exact A|]. split; [reflexivity|].
      left. auto. }
    unfold cmul64 in E. destruct (N.leb_spec (block * bs) u64_max) as [U|U].
    2:{ apply pair_equal_spec in E as [E <-]. apply pair_equal_spec in E as [<- <-]. split; [exact A|]. split; [reflexivity|].
      right. left. unfold u64_ok. lia. }
    destruct (io_seek st (block * bs) s) as [s1 r1] eqn:Q. pose proof (io_seek_spec st c bad at_ OK _ _ _ _ A U Q) as X.
    destruct r1 as [u|e|]; [| |destruct X].
    - destruct X as (p & A1 & P). pose proof (read_exact_spec st c bad at_ OK _ _ _ _ _ _ A1 E) as X.
      destruct r as [u'|e|]; cbn [exact_outcome] in X; [| |destruct X].
      + destruct X as ([X|X] & -> & A2); [lia|]. split; [now exists (p + len buf)|].
        destruct P as [->|[P1 P2]]; [|lia]. split; [now rewrite len_window_in|]. auto.
      + destruct X as (LB & N0 & (p' & _ & A') & X). split; [now exists p'|]. split; [exact LB|].
        right. right. destruct P as [->|[P1 P2]]; [|left; lia]. destruct X as [X|[_ X]]; auto.
    - apply pair_equal_spec in E as [E <-]. apply pair_equal_spec in E as [<- <-]. destruct X as [Lg L1].
      split; [exact Lg|]. split; [reflexivity|]. right. right. left. lia.
  Qed.

  (** C65: with a buffer of the size of a block, every readable block of the device is read. *)
  Theorem fs_read_block_complete s f block buf : legal s -> opened c (fs_sb f) (fs_groups f) ->
    let bs := sb4_block_size (fs_sb f) in
    len buf = bs -> u64_ok (len c) -> (block + 1) * bs <= len c ->
    (forall q, block * bs <= q < (block + 1) * bs -> ~ bad q) ->
    exists s', fs_read_block st f block s buf = (s', window c (block * bs) bs, Ok tt) /\ legal s'.
  Proof.
    intros A O. cbv zeta. intros Lb U T NB. destruct (fs_read_block st f block s buf) as [[s' buf'] r] eqn:E.
    pose proof (fs_read_block_spec _ _ _ _ _ _ _ A O E) as (Lg & LB & X). cbv zeta in X. rewrite Lb in *.
    rewrite N.mul_add_distr_r, N.mul_1_l in *. destruct r as [[]|e|]; [| |destruct X].
    - exists s'. destruct X as (_ & _ & ->). auto.
    - exfalso. destruct X as [X|[X|[X|(q & Q & B)]]]; [lia|unfold u64_ok in *; lia|lia|now apply (NB q)].
  Qed.
End Fs.
Print Assumptions fs_open_sound.
Print Assumptions fs_open_complete.
Print Assumptions fs_open_refuses.
Print Assumptions fs_open_panics_only.
Print Assumptions fs_open_panics.
Print Assumptions fs_read_inode_sound.
Print Assumptions fs_read_inode_out_of_range.
Print Assumptions fs_read_inode_complete.
Print Assumptions fs_read_inode_panics_only.
Print Assumptions fs_read_block_spec.
Print Assumptions fs_read_block_complete.

(** C40: different inodes of a group have disjoint slots, all within the table that the group has room for. *)
Theorem inode_slots_disjoint sb desc n m : 1 <= n -> 1 <= m -> n <> m -> inode_group sb n = inode_group sb m ->
  inode_offset sb desc n + sb4_inode_size sb <= inode_offset sb desc m \/
  inode_offset sb desc m + sb4_inode_size sb <= inode_offset sb desc n.
Proof.
  intros N M NE G. unfold inode_offset. unfold inode_group in G.
  set (k := sb4_inodes_per_group sb) in *. set (z := sb4_inode_size sb).
  assert (I : inode_index sb n <> inode_index sb m).
  { unfold inode_index. fold k. intros I. destruct (N.eq_dec k 0) as [Z|Z].
    - assert (M0 : forall a, a mod 0 = a) by (intros []; reflexivity). rewrite Z, !M0 in I. lia.
    - pose proof (N.div_mod (n - 1) k Z). pose proof (N.div_mod (m - 1) k Z). rewrite G, I in *. lia. }
  set (a := inode_index sb n) in *. set (b := inode_index sb m) in *. clearbody a b z.
  destruct (N.lt_total a b) as [L|[L|L]]; [left|contradiction|right].
  - pose proof (N.mul_le_mono_r (a + 1) b z ltac:(lia)). lia.
  - pose proof (N.mul_le_mono_r (b + 1) a z ltac:(lia)). lia.
Qed.
Print Assumptions inode_slots_disjoint.

Theorem inode_slots_in_table sb desc n : sb4_inodes_per_group sb <> 0 ->
  desc_inode_table desc * sb4_block_size sb <= inode_offset sb desc n /\
  inode_offset sb desc n + sb4_inode_size sb <=
    desc_inode_table desc * sb4_block_size sb + sb4_inodes_per_group sb * sb4_inode_size sb.
Proof.
  intros Z. unfold inode_offset, inode_index. pose proof (N.mod_lt (n - 1) _ Z) as L.
  set (k := sb4_inodes_per_group sb) in *. set (i := (n - 1) mod k) in *. clearbody i.
  pose proof (N.mul_le_mono_r (i + 1) k (sb4_inode_size sb) ltac:(lia)). lia.
Qed.
Print Assumptions inode_slots_in_table.

(** ** A small file system

    Blocks of 1024 bytes, 16 of them in one group of 8192; 16 inodes of 256 bytes in the table at block 3, all zero but
    the second, which is the root inode of a real image; descriptors of 64 bytes; revision 1, features extents and 64bit. *)
Definition small_sb : bytes :=
  fold_left poke [
    (0x0, to_le 4 16); (0x4, to_le 4 16); (0x14, to_le 4 1); (0x20, to_le 4 8192); (0x24, to_le 4 8192); (0x28, to_le 4 16);
    (0x38, to_le 2 0xef53); (0x3c, to_le 2 1); (0x4c, to_le 4 1); (0x58, to_le 2 256); (0x60, to_le 4 0xc0); (0xfe, to_le 2 64)]
    (zeros 1024).
Definition small_desc : bytes := poke (zeros 64) (0x8, to_le 4 3).
Definition small_image : bytes :=
  zeros 1024 ++ small_sb ++ small_desc ++ zeros 960 ++ zeros 256 ++ root_inode_slot ++ zeros 3584 ++ zeros 9216.

Lemma small_image_len : len small_image = 16384.
Proof. vm_compute. reflexivity. Qed.

Lemma small_image_ok : stream_ok mem_stream small_image (fun _ => False) (mem_at small_image 512).
Proof. apply mem_stream_ok. rewrite small_image_len. discriminate. Qed.

Lemma small_image_start : legal (mem_at small_image 512) (mem_new small_image 512).
Proof. exists 0. repeat split. rewrite small_image_len. discriminate. Qed.

Example fs_open_ex : exists s f, fs_open mem_stream (mem_new small_image 512) = (s, Ok f) /\
  len (fs_groups f) = 1 /\ sb4_block_size (fs_sb f) = 1024 /\ sb4_desc_offset (fs_sb f) 0 = 2048.
Proof. eexists. eexists. split; [vm_compute; reflexivity|]. vm_compute. repeat split. Qed.

Example fs_read_inode_ex : exists s f i, fs_open mem_stream (mem_new small_image 512) = (s, Ok f) /\
  snd (fs_read_inode mem_stream f 2 s) = Ok i /\ in_file_type i = FtDirectory /\ in_file_size_bytes i = 4096 /\
  in_seed i = None /\
  inode_offset (fs_sb f) (window small_image (sb4_desc_offset (fs_sb f) 0) 64) 2 = 3328 /\
  snd (fs_read_inode mem_stream f 17 s) = Err InvalidInput /\ snd (fs_read_inode mem_stream f 0 s) = Err InvalidInput.
Proof.
  eexists. eexists. eexists. split; [vm_compute; reflexivity|]. split; [vm_compute; reflexivity|]. vm_compute. repeat split.
Qed.

Example fs_read_block_ex : exists s f s' b, fs_open mem_stream (mem_new small_image 512) = (s, Ok f) /\
  fs_read_block mem_stream f 3 s (zeros 1024) = (s', b, Ok tt) /\ sub b 256 256 = Some root_inode_slot.
Proof.
  eexists. eexists. eexists. eexists. split; [vm_compute; reflexivity|]. split; [vm_compute; reflexivity|].
  vm_compute. reflexivity.
Qed.

(** ** Refutations *)

(** C38: the claim itself is false: a superblock with zero blocks per group makes opening panic, and so does one whose
    block count needs a table larger than can be allocated.  Both are acceptable: their magic number, block sizes and
    error policy are, and they have no checksum. *)
Definition no_bpg_image : bytes :=
  zeros 1024 ++ poke (poke small_sb (0x20, to_le 4 0)) (0x24, to_le 4 0) ++ zeros 14336.
Definition huge_count_image : bytes :=
  zeros 1024 ++ poke (poke (poke small_sb (0x20, to_le 4 1)) (0x24, to_le 4 1)) (0x150, to_le 4 0xffffffff) ++ zeros 14336.

Lemma acceptable_by_computation sb : len sb = 1024 -> e4_valid sb = Ok true -> sb4_acceptable sb.
Proof.
  intros L V. destruct (sb4_valid_iff sb L) as (v & V' & I). rewrite V in V'. injection V' as <-. now apply I.
Qed.

Theorem fs_open_never_panics_refuted : ~ (forall c, len c <= 16384 -> snd (fs_open mem_stream (mem_new c 512)) <> Panic).
Proof.
  intros H. apply (H no_bpg_image); [vm_compute; congruence|]. vm_compute. reflexivity.
Qed.
Print Assumptions fs_open_never_panics_refuted.

Example fs_open_panics_ex : snd (fs_open mem_stream (mem_new huge_count_image 512)) = Panic /\
  sb4_acceptable (window huge_count_image 1024 1024).
Proof. split; [vm_compute; reflexivity|]. apply acceptable_by_computation; vm_compute; reflexivity. Qed.

(** C65: with a larger buffer the last block of the device cannot be read, although the block is there. *)
Theorem fs_read_block_large_buffer_refuted :
  ~ (forall c s f block buf, fs_open mem_stream (mem_new c 512) = (s, Ok f) ->
       sb4_block_size (fs_sb f) <= len buf -> (block + 1) * sb4_block_size (fs_sb f) <= len c -> len c <= 16384 ->
       snd (fs_read_block mem_stream f block s buf) = Ok tt).
Proof.
  intros H.
  assert (X : exists s f, fs_open mem_stream (mem_new small_image 512) = (s, Ok f) /\ sb4_block_size (fs_sb f) = 1024 /\
                snd (fs_read_block mem_stream f 15 s (zeros 1025)) = Err UnexpectedEof).
  { eexists. eexists. split; [vm_compute; reflexivity|]. vm_compute. repeat split. }
  destruct X as (s & f & E & B & F). specialize (H small_image s f 15 (zeros 1025) E). rewrite B, F in H.
  assert (Err UnexpectedEof = Ok tt) by (apply H; vm_compute; congruence). discriminate.
Qed.
Print Assumptions fs_read_block_large_buffer_refuted.
