(** Auxiliary facts for [PropsExt4Fs]: calls on a stream, and the checks on the superblock. *)

From Coq Require Import Strings.String.
From Verif Require Import Base BaseFacts Io SpecStream IoFacts SpecMd SuperblockFacts Superblock Crc SpecCrc PropsCrc
  Ext4Superblock SpecExt4 TestData PropsExt4Superblock Ext4Inode SpecExt4Inode PropsExt4Inode Ext4Fs SpecExt4Fs.

Local Opaque read_exact.

(** ** Calls on a stream *)

Lemma io_bind_inv {S A B} (m : io S A) (k : A -> io S B) s s' r : io_bind m k s = (s', r) ->
  exists s1 r1, m s = (s1, r1) /\
    match r1 with Ok a => k a s1 = (s', r) | Err e => s' = s1 /\ r = Err e | Panic => s' = s1 /\ r = Panic end.
Proof.
  unfold io_bind. destruct (m s) as [s1 [a|e|]]; intros E.
  - exists s1, (Ok a). auto.
  - exists s1, (Err e). apply pair_equal_spec in E as [<- <-]. auto.
  - exists s1, Panic. apply pair_equal_spec in E as [<- <-]. auto.
Qed.

Lemma io_bind_ok {S A B} (m : io S A) (k : A -> io S B) s s1 a : m s = (s1, Ok a) -> io_bind m k s = k a s1.
Proof. unfold io_bind. now intros ->. Qed.

Section Stream.
  Context {S : Type} (st : stream S) (c : bytes) (bad : N -> Prop) (at_ : S -> N -> Prop).
  Hypothesis OK : stream_ok st c bad at_.

  (** Standing somewhere. *)
  Definition legal (s : S) : Prop := exists p, at_ s p.

  Lemma io_seek_spec s o s' r : legal s -> u64_ok o -> io_seek st o s = (s', r) ->
    match r with
    | Ok _ => exists p, at_ s' p /\ (p = o \/ (len c < o /\ len c <= p))
    | Err _ => legal s' /\ len c < o
    | Panic => False
    end.
  Proof.
    intros [p A] U E. unfold io_seek in E.
    destruct (N.leb_spec o (len c)) as [L|L].
    - destruct (so_seek _ _ _ _ OK s p o A L) as (s1 & Q & A1). rewrite Q in E. apply pair_equal_spec in E as [<- <-].
      exists o. auto.
    - destruct (st_seek st s (SeekStart o)) as [s1 r1] eqn:Q.
      destruct (so_seek_out _ _ _ _ OK s p o s1 r1 A L U Q) as (p1 & A1 & NP & G).
      apply pair_equal_spec in E as [<- <-]. destruct r1 as [k|e|]; [| |congruence].
      + exists p1. split; [exact A1|]. right. split; [exact L|]. eapply G. reflexivity.
      + split; [now exists p1|exact L].
  Qed.

  Lemma io_read_exact_spec s p n s' r : at_ s p -> io_read_exact st n s = (s', r) ->
    match r with
    | Ok b => (n = 0 \/ p + n <= len c) /\ b = window c p n /\ at_ s' (p + n)
    | Err e => n <> 0 /\ legal s' /\ ((exists q, p <= q < p + n /\ bad q) \/ (e = UnexpectedEof /\ len c < p + n))
    | Panic => False
    end.
  Proof.
    intros A E. unfold io_read_exact in E. destruct (read_exact st s (zeros n)) as [[s1 b] r1] eqn:R.
    pose proof (read_exact_spec st c bad at_ OK _ _ _ _ _ _ A R) as X. rewrite len_zeros in X.
    apply pair_equal_spec in E as [<- <-]. destruct r1 as [u|e|]; cbn [rbind exact_outcome] in *; [exact X| |exact X].
    destruct X as (_ & N0 & (p' & _ & A') & D). split; [exact N0|]. split; [now exists p'|exact D].
  Qed.

  (** Seek and read, from anywhere. *)
  Lemma seek_read_spec s o n s' r : legal s -> u64_ok o ->
    (let! _ := io_seek st o in io_read_exact st n) s = (s', r) ->
    legal s' /\
    match r with
    | Ok b => b = window c o n /\ (n <> 0 -> o + n <= len c /\ at_ s' (o + n))
    | Err _ => len c < o + n \/ exists q, o <= q < o + n /\ bad q
    | Panic => False
    end.
  Proof.
    intros A U E. apply io_bind_inv in E as (s1 & r1 & Q & E).
    pose proof (io_seek_spec _ _ _ _ A U Q) as X. destruct r1 as [u|e|]; [| |destruct X].
    - destruct X as (p & A1 & P). pose proof (io_read_exact_spec _ _ _ _ _ A1 E) as Y. destruct r as [b|e|]; [| |destruct Y].
      + destruct Y as (L & -> & A2). split; [now exists (p + n)|]. destruct P as [->|[P1 P2]].
        * split; [reflexivity|]. intros N0. split; [tauto|exact A2].
        * assert (n = 0) as -> by lia. split; [now rewrite !window_0|congruence].
      + destruct Y as (N0 & Lg & D). split; [exact Lg|]. destruct P as [->|[P1 P2]]; [|left; lia].
        destruct D as [D|[_ D]]; [now right|now left].
    - destruct E as [-> ->]. destruct X as [Lg L]. split; [exact Lg|]. left. lia.
  Qed.

  Lemma seek_good s o : legal s -> o <= len c -> exists s', io_seek st o s = (s', Ok tt) /\ at_ s' o.
  Proof.
    intros [p A] L. destruct (so_seek _ _ _ _ OK s p o A L) as (s1 & Q & A1). exists s1. unfold io_seek. rewrite Q. auto.
  Qed.

  Lemma read_good s p n : at_ s p -> p + n <= len c -> (forall q, p <= q < p + n -> ~ bad q) ->
    exists s', io_read_exact st n s = (s', Ok (window c p n)) /\ at_ s' (p + n).
  Proof.
    intros A L NB. destruct (read_exact_good st c bad at_ OK s (zeros n) p A) as (s1 & E & A1); [now rewrite len_zeros|now rewrite len_zeros|].
    rewrite len_zeros in *. exists s1. unfold io_read_exact. rewrite E. auto.
  Qed.

  Lemma e4_read_spec s p s' r : at_ s p -> e4_read st s = (s', r) ->
    legal s' /\
    match r with
    | Ok sb => p + 1024 <= len c /\ sb = window c p 1024 /\ e4_valid sb = Ok true
    | Err e => (len c < p + 1024 \/ exists q, p <= q < p + 1024 /\ bad q) \/ 
               (p + 1024 <= len c /\ e = InvalidData /\ e4_valid (window c p 1024) = Ok false)
    | Panic => False
    end.
  Proof.
    intros A E. unfold e4_read in E. change (layout_size sb4_layout) with 1024 in E.
    apply io_bind_inv in E as (s1 & r1 & R & E).
    pose proof (io_read_exact_spec _ _ _ _ _ A R) as X. destruct r1 as [b|e|]; [| |destruct X].
    - destruct X as (L & -> & A1). destruct L as [L|L]; [discriminate|].
      destruct (sb4_valid_iff (window c p 1024)) as (v & V & _); [now apply len_window_in|].
      rewrite V in E. unfold io_bind, io_lift, io_ret in E. destruct v; apply pair_equal_spec in E as [<- <-].
      + split; [now exists (p + 1024)|]. auto.
      + split; [now exists (p + 1024)|]. auto.
    - destruct E as [-> ->]. destruct X as (_ & Lg & D). split; [exact Lg|]. left. destruct D as [D|[_ D]]; auto.
  Qed.

  Lemma read_groups_spec size n s p s' r : size <> 0 -> at_ s p -> read_groups st size n s = (s', r) ->
    legal s' /\
    match r with
    | Ok gs => len gs = N.of_nat n /\ (n <> O -> p + N.of_nat n * size <= len c) /\
               forall i, i < N.of_nat n -> nth_N gs i = Some (bg_new (window c (p + i * size) size))
    | Err _ => len c < p + N.of_nat n * size \/ exists q, p <= q < p + N.of_nat n * size /\ bad q
    | Panic => False
    end.
  Proof.
    intros Hs. revert s p s' r. induction n as [|n IH]; intros s p s' r A E; cbn [read_groups] in E.
    - apply pair_equal_spec in E as [<- <-]. split; [now exists p|]. split; [reflexivity|]. split; [congruence|]. lia.
    - assert (MS : N.of_nat (Datatypes.S n) * size = size + N.of_nat n * size) by (rewrite Nat2N.inj_succ; lia).
      rewrite MS. apply io_bind_inv in E as (s1 & r1 & R & E).
      pose proof (io_read_exact_spec _ _ _ _ _ A R) as X. destruct r1 as [b|e|]; [| |destruct X].
      + destruct X as (L & -> & A1). destruct L as [L|L]; [contradiction|].
        apply io_bind_inv in E as (s2 & r2 & R2 & E). apply (IH _ _ _ _ A1) in R2 as [Lg X].
        destruct r2 as [gs|e|]; [| |destruct X].
        * apply pair_equal_spec in E as [<- <-]. split; [exact Lg|]. destruct X as (Lgs & T & G).
          split; [rewrite len_cons; lia|]. split.
          { intros _. destruct n; [cbn; lia|]. specialize (T ltac:(discriminate)). lia. }
          intros i Hi. destruct (N.eq_dec i 0) as [->|Ni].
          { rewrite nth_N_spec, N.mul_0_l, N.add_0_r. reflexivity. }
          rewrite nth_N_spec. replace (N.to_nat i) with (Datatypes.S (N.to_nat (i - 1))) by lia. cbn [nth_error].
          rewrite <- nth_N_spec, G by lia. replace (p + size + (i - 1) * size) with (p + i * size) by nia. reflexivity.
        * destruct E as [-> ->]. split; [exact Lg|]. destruct X as [X|(q & Q & B)]; [left; lia|right; exists q; split; [lia|exact B]].
      + destruct E as [-> ->]. destruct X as (_ & Lg & D). split; [exact Lg|].
        destruct D as [(q & Q & B)|[_ D]]; [right; exists q; split; [lia|exact B]|left; lia].
  Qed.

  Lemma read_groups_good size n s p : at_ s p -> p + N.of_nat n * size <= len c ->
    (forall q, p <= q < p + N.of_nat n * size -> ~ bad q) ->
    exists s' gs, read_groups st size n s = (s', Ok gs) /\ at_ s' (p + N.of_nat n * size).
  Proof.
    revert s p. induction n as [|n IH]; intros s p A L NB; cbn [read_groups].
    - exists s, []. split; [reflexivity|]. now replace (p + N.of_nat 0 * size) with p by lia.
    - assert (MS : N.of_nat (Datatypes.S n) * size = size + N.of_nat n * size) by (rewrite Nat2N.inj_succ; lia).
      rewrite MS in *. destruct (read_good s p size A) as (s1 & R & A1); [lia|intros q Q; apply NB; lia|].
      destruct (IH s1 (p + size) A1) as (s2 & gs & R2 & A2); [lia|intros q Q; apply NB; lia|].
      exists s2. eexists. rewrite (io_bind_ok _ _ _ _ _ R), (io_bind_ok _ _ _ _ _ R2). split; [reflexivity|].
      now replace (p + (size + N.of_nat n * size)) with (p + size + N.of_nat n * size) by lia.
  Qed.
End Stream.

(** ** The checks on the superblock *)

Definition refused (sb : bytes) : bool :=
  (e4_blocks_per_group sb =? 0) || (e4_group_descriptor_size sb =? 0) || (e4_inodes_per_group sb =? 0)
  || negb (match e4_creator_os sb with OsLinux => true | _ => false end)
  || negb (contains (e4_incompatible_features sb) incompat_extents)
  || contains_unknown (e4_incompatible_features sb) incompat_all.

Lemma known_mask k : N.testbit incompat_all k = true <-> In k sb4_known_features.
Proof.
  split.
  - intros T. destruct (N.ltb_spec k 17) as [L|L].
    + assert (C : forallb (fun i => implb (N.testbit incompat_all (N.of_nat i)) (existsb (N.eqb (N.of_nat i)) sb4_known_features)) (seq 0 17) = true) by reflexivity.
      rewrite forallb_forall in C. specialize (C (N.to_nat k)). rewrite N2Nat.id, T in C.
      assert (I : In (N.to_nat k) (seq 0 17)) by (apply in_seq; lia). specialize (C I). cbn [implb] in C.
      apply existsb_exists in C as (x & X & E). apply N.eqb_eq in E. now subst.
    + rewrite (proj1 (CrcFacts.bits_bound incompat_all 17)) in T; [discriminate|reflexivity|exact L].
  - intros I. assert (C : forallb (N.testbit incompat_all) sb4_known_features = true) by reflexivity.
    rewrite forallb_forall in C. now apply C.
Qed.

Lemma refused_iff sb : refused sb = false <-> sb4_supported sb.
Proof.
  unfold refused, e4_blocks_per_group, e4_group_descriptor_size, e4_inodes_per_group, e4_creator_os,
    e4_incompatible_features. repeat s4_field.
  change incompat_extents with (2 ^ 6). rewrite contains_bit.
  fold (sb4_blocks_per_group sb) (sb4_desc_size sb) (sb4_inodes_per_group sb).
  assert (CR : match creator_os_of (uint_le sb 0x48 4) with OsLinux => true | _ => false end = (uint_le sb 0x48 4 =? 0)).
  { unfold creator_os_of. destruct (uint_le sb 0x48 4 =? 0); [reflexivity|].
    repeat match goal with |- context [?a =? ?b] => destruct (a =? b); try reflexivity end. }
  rewrite CR.
  assert (U : contains_unknown (uint_le sb 0x60 4) incompat_all = false <->
              forall k, has_bit (uint_le sb 0x60 4) k = true -> In k sb4_known_features).
  { unfold contains_unknown, has_bit. rewrite negb_false_iff, N.eqb_eq. split.
    - intros Z k T. apply known_mask. destruct (N.testbit incompat_all k) eqn:M; [reflexivity|].
      assert (X : N.testbit (N.ldiff (uint_le sb 96 4) incompat_all) k = true) by (rewrite N.ldiff_spec, T, M; reflexivity).
      rewrite Z, N.bits_0 in X. discriminate.
    - intros H. apply N.bits_inj. intros k. rewrite N.bits_0, N.ldiff_spec.
      destruct (N.testbit (uint_le sb 96 4) k) eqn:T; [|reflexivity]. apply H, known_mask in T. rewrite T. reflexivity. }
  rewrite !orb_false_iff, !N.eqb_neq, !negb_false_iff, N.eqb_eq, U. split.
  - intros [[[[[? ?] ?] ?] ?] ?]. now constructor.
  - intros [? ? ? ? ? ?]. tauto.
Qed.

Lemma block_size_ok sb : len sb = 1024 -> e4_valid sb = Ok true -> e4_block_size_bytes sb = Ok (sb4_block_size sb).
Proof.
  intros L V. destruct (sb4_valid_iff sb L) as (b & E & I). rewrite V in E. injection E as <-.
  destruct (proj1 I eq_refl) as [_ B _ _ _ _ _]. unfold e4_block_size_bytes. s4_field. now apply shl_10_plus_ok.
Qed.

Lemma blocks_count_ok sb : e4_blocks_count sb = sb4_blocks sb.
Proof. unfold e4_blocks_count. repeat s4_field. apply lor_shift, (uint_le_bound sb 4 4). Qed.

Lemma div_ceil_spec sb : sb4_blocks_per_group sb <> 0 ->
  exists k, div_ceil (e4_blocks_count sb) (e4_blocks_per_group sb) = Ok k /\ sb4_group_count sb k.
Proof.
  intros H. unfold div_ceil, sb4_group_count. rewrite blocks_count_ok. unfold e4_blocks_per_group. s4_field.
  fold (sb4_blocks_per_group sb). destruct (N.eqb_spec (sb4_blocks_per_group sb) 0); [contradiction|].
  eexists. split; [reflexivity|]. set (a := sb4_blocks sb). set (b := sb4_blocks_per_group sb) in *.
  pose proof (N.div_mod a b H) as D. pose proof (N.mod_lt a b H) as M. 
  set (q := a / b) in *. set (r := a mod b) in *. clearbody a b q r.
  destruct (N.eqb_spec r 0) as [->|R].
  - split; [nia|]. destruct (N.eq_dec q 0); [now left|right]. nia.
  - split; [nia|]. right. replace (q + 1 - 1) with q by lia. nia.
Qed.

Lemma group_count_unique sb k k' : sb4_blocks_per_group sb <> 0 -> sb4_group_count sb k -> sb4_group_count sb k' -> k = k'.
Proof. unfold sb4_group_count. generalize (sb4_blocks_per_group sb) (sb4_blocks sb). intros b a H [A1 A2] [B1 B2].
  destruct (N.lt_trichotomy k k') as [L|[L|L]]; [|exact L|].
  - pose proof (N.mul_le_mono_r k (k' - 1) b ltac:(lia)). lia.
  - pose proof (N.mul_le_mono_r k' (k - 1) b ltac:(lia)). lia.
Qed.

