(** Property C120: what the operating system is asked about block devices. *)

From Verif Require Import Base BaseFacts Io Device Ioctl.

(** ** Specification: Linux *)

(** include/uapi/asm-generic/ioctl.h: number, type, size of the argument and direction, in fields of 8, 8, 14 and 2 bits. *)
Definition linux_request (direction size type nr request : N) : Prop :=
  direction < 4 /\ size < 2 ^ 14 /\ type < 256 /\ nr < 256 /\ request = nr + 256 * type + 65536 * size + 1073741824 * direction.
(** include/uapi/linux/fs.h: [#define BLKGETSIZE64 _IOR(0x12,114,size_t)], [#define BLKPBSZGET _IO(0x12,123)]; [word] is the
    size of [size_t]. *)
Definition linux_getsize64 (word request : N) : Prop := linux_request 2 word 0x12 114 request.
Definition linux_pbszget (request : N) : Prop := linux_request 0 0 0x12 123 request.

(** A block device of [size] bytes with physical blocks of [pbsz] bytes, as Linux answers for it: a [u64] and an
    [unsigned int]; request 114 of the same type with another size is not known (ENOTTY, 25). *)
Definition linux_device (word size pbsz : N) (k : kernel) : Prop :=
  (forall r, linux_getsize64 word r -> k r = Ok (to_le 8 size)) /\
  (forall r, linux_pbszget r -> k r = Ok (to_le 4 pbsz)) /\
  (forall word' r, word' <> word -> linux_getsize64 word' r -> k r = Err (OsError 25)).

Lemma getsize64_is : linux_getsize64 8 blk_getsize64.
Proof. repeat split. Qed.
Lemma pbszget_is : linux_pbszget blk_pbszget.
Proof. repeat split. Qed.

(** ** C120 *)

(** Where [size_t] has 64 bits, the questions are those of Linux, and the answers are understood: block size, and number of
    whole blocks. *)
Theorem blk_answers_partial : forall size pbsz k, size <= u64_max -> pbsz <= u32_max -> pbsz <> 0 -> linux_device 8 size pbsz k ->
  native_block_size k = Ok pbsz /\ exists n, native_block_count k = Ok n /\ n * pbsz <= size < (n + 1) * pbsz.
Proof.
  intros size pbsz k S P Z (H1 & H2 & _). assert (E : native_block_size k = Ok pbsz).
  { unfold native_block_size, ask. rewrite (H2 _ pbszget_is). cbn [rbind]. rewrite len_to_le. cbn [N.eqb Pos.eqb N.of_nat Pos.of_succ_nat Pos.succ]. rewrite le_to_le; [reflexivity|].
    change (256 ^ N.of_nat 4) with (u32_max + 1). lia. }
  split; [exact E|]. exists (size / pbsz). unfold native_block_count. rewrite E. unfold ask. rewrite (H1 _ getsize64_is). cbn [rbind]. rewrite len_to_le.
  cbn [N.eqb Pos.eqb N.of_nat Pos.of_succ_nat Pos.succ rbind]. rewrite le_to_le by (change (256 ^ N.of_nat 8) with (u64_max + 1); lia).
  unfold cdiv64. destruct (N.eqb_spec pbsz 0); [contradiction|]. split; [reflexivity|].
  pose proof (N.div_mod size pbsz Z) as D. pose proof (N.mod_upper_bound size pbsz Z). generalize dependent (size / pbsz). intros q D. nia.
Qed.
Print Assumptions blk_answers_partial.

(** So the parameters of Io.v are what the kernel says, and the sizes that members are classified by are those of the device. *)
Theorem blk_device_size_partial : forall pol size pbsz k f, size <= u64_max -> pbsz <= u32_max -> pbsz <> 0 -> linux_device 8 size pbsz k ->
  os_pbsz f = native_block_size k -> os_size64 f = ask k blk_getsize64 8 ->
  exists n, device_size (native_block pol) f = Ok n /\ n <= size < n + pbsz /\ N.divide pbsz n.
Proof.
  intros pol size pbsz k f S P Z H F1 F2. destruct (blk_answers_partial size pbsz k S P Z H) as (E & n & C & L).
  exists (n * pbsz). split; [|split; [lia|now exists n]]. unfold device_size. cbn [bd_count bd_size native_block]. rewrite F1, F2.
  unfold native_block_count in C. destruct (ask k blk_getsize64 8) as [s|e|]; [|discriminate C|discriminate C]. cbn [rbind] in *. rewrite E in *. cbn [rbind] in *.
  rewrite C. cbn [rbind]. unfold size_bytes, cmul64. destruct (N.leb_spec (n * pbsz) u64_max); [reflexivity|lia].
Qed.
Print Assumptions blk_device_size_partial.

(** The kernel's errors are passed on. *)
Theorem blk_errors : forall k e, (k blk_pbszget = Err e -> native_block_size k = Err e) /\ (k blk_getsize64 = Err e -> native_block_count k = Err e).
Proof. intros k e. unfold native_block_size, native_block_count, ask. split; intros ->; reflexivity. Qed.
Print Assumptions blk_errors.

(** Where [size_t] has 32 bits, Linux does not know the question: the size of no block device is found. *)
Theorem blk_answers_refuted : forall size pbsz k, linux_device 4 size pbsz k -> native_block_count k = Err (OsError 25).
Proof. intros size pbsz k (_ & _ & H). apply blk_errors. exact (H 8 _ ltac:(discriminate) getsize64_is). Qed.
Print Assumptions blk_answers_refuted.

(** ** Examples *)

Definition disk (word size pbsz : N) : kernel := fun r =>
  if r =? 0x80000000 + 65536 * word + 0x1272 then Ok (to_le 8 size) else if r =? 0x127b then Ok (to_le 4 pbsz) else Err (OsError 25).
Lemma disk_linux word size pbsz : word = 4 \/ word = 8 -> linux_device word size pbsz (disk word size pbsz).
Proof.
  intros W. unfold disk. split; [|split].
  - intros r (_ & _ & _ & _ & ->). replace (114 + 256 * 18 + 65536 * word + 1073741824 * 2) with (0x80000000 + 65536 * word + 0x1272) by lia. now rewrite N.eqb_refl.
  - intros r (_ & _ & _ & _ & ->). destruct W as [-> | ->]; reflexivity.
  - intros w r D (_ & L & _ & _ & ->). destruct (N.eqb_spec (114 + 256 * 18 + 65536 * w + 1073741824 * 2) (0x80000000 + 65536 * word + 0x1272)); [lia|].
    destruct (N.eqb_spec (114 + 256 * 18 + 65536 * w + 1073741824 * 2) 0x127b); [lia|reflexivity].
Qed.
Example blk_ex : linux_device 8 5000 512 (disk 8 5000 512) /\ native_block_size (disk 8 5000 512) = Ok 512 /\ native_block_count (disk 8 5000 512) = Ok 9 /\
  linux_device 4 5000 512 (disk 4 5000 512) /\ native_block_size (disk 4 5000 512) = Ok 512 /\ native_block_count (disk 4 5000 512) = Err (OsError 25) /\
  linux_getsize64 8 0x80081272 /\ linux_pbszget 0x127b.
Proof. split; [apply disk_linux; auto|]. do 2 (split; [reflexivity|]). split; [apply disk_linux; auto|]. repeat split. Qed.
