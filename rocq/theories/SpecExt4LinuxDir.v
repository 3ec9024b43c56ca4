(** Specification of what Linux lists of a directory: fs/ext4/dir.c ([ext4_readdir], [__ext4_check_dir_entry],
    [get_dtype]), and of the checksum of its blocks, fs/ext4/namei.c ([ext4_dirblock_csum_verify]).  For directories
    without index, without encryption and case folding, and blocks of less than 64 KiB. *)

From Verif Require Import Base SpecMd SpecCrc SpecExt4 SpecExt4Inode SpecExt4Fs SpecExt4File SpecExt4Dir SpecExt4Open SpecExt4Linux SpecExt4Content.

(** The feature of having the type of files in directories. *)
Definition linux_filetype (sb : bytes) : bool := has_bit (uint_le sb 0x60 4) 1.

(** The length that a record needs for a name of [n] bytes: a multiple of four. *)
Definition linux_needed (n : N) : N := (n + 11) / 4 * 4.

(** The record at offset [o] of a block is accepted, on a file system with so many inodes. *)
Record linux_accepts (inodes : N) (b : bytes) (o : N) : Prop := LinuxAccepts {
  la_least : linux_needed 1 <= rec_length (window b o 8);
  la_aligned : exists m, rec_length (window b o 8) = 4 * m;
  la_name : linux_needed (rec_name_length (window b o 8)) <= rec_length (window b o 8);
  la_inside : o + rec_length (window b o 8) <= len b;
  la_next : o + rec_length (window b o 8) = len b \/ o + rec_length (window b o 8) + linux_needed 1 <= len b;
  la_inode : rec_inode (window b o 8) <= inodes
}.

(** [linux_records inodes b o es]: from offset [o] on, Linux goes through the records [es] of the block.  At the first one
    that it does not accept it leaves the block. *)
Inductive linux_records (inodes : N) (b : bytes) : N -> list bytes -> Prop :=
| linux_end : linux_records inodes b (len b) []
| linux_leave o : o < len b -> ~ linux_accepts inodes b o -> linux_records inodes b o []
| linux_record o e es :
    o < len b -> linux_accepts inodes b o -> e = window b o (rec_length (window b o 8)) ->
    linux_records inodes b (o + len e) es -> linux_records inodes b o (e :: es).

(** A record that is in use is listed: its inode, its name, its type.  Types above 7 are unknown, 0, and all of them are
    without the feature. *)
Definition linux_entry (typed : bool) (e : bytes) : dirent :=
  Dirent (rec_inode e) (rec_name e) (if typed && (rec_type e <? 8) then byte_of (rec_type e) else x00).
Definition linux_used (e : bytes) : bool := negb (rec_inode e =? 0).

Section Directory.
  Context (c : bytes) (inodes bs : N) (typed : bool) (seed : option N) (root : bytes).

  (** Block [p] of the directory. *)
  Definition linux_dir_block (p : N) (b : bytes) : Prop :=
    exists e, linux_finds c bs root p (Some e) /\ b = device_block c bs (extent_start e + (p - extent_first e)).

  (** [linux_lists n ds]: of the first [n] blocks, [ds] is listed.  Holes, and blocks with a wrong checksum, are left
      out. *)
  Inductive linux_lists : N -> list dirent -> Prop :=
  | lists_start : linux_lists 0 []
  | lists_hole n ds : linux_lists n ds -> linux_finds c bs root n None -> linux_lists (n + 1) ds
  | lists_bad n ds b : linux_lists n ds -> linux_dir_block n b -> ~ dir_tail_ok seed b -> linux_lists (n + 1) ds
  | lists_block n ds b es :
      linux_lists n ds -> linux_dir_block n b -> dir_tail_ok seed b -> linux_records inodes b 0 es ->
      linux_lists (n + 1) (ds ++ map (linux_entry typed) (filter linux_used es)).
End Directory.

(** The directory with inode number [number], on a device with content [c], is listed as [ds]. *)
Definition linux_directory (c : bytes) (number : N) (ds : list dirent) : Prop :=
  let sb := device_sb c in
  exists a seed n, linux_inode_at c number a /\
    let slot := window c a (linux_inode_size sb) in
    inode_seed sb number slot seed /\ slot_size slot = n * sb4_block_size sb /\
    linux_lists c (sb4_inodes sb) (sb4_block_size sb) (linux_filetype sb) seed (slot_root slot) n ds.

(** The records of a block fill it, up to the place of the checksum, and all are accepted. *)
Definition linux_whole (inodes : N) (seed : option N) (b : bytes) : Prop :=
  exists es, linux_records inodes b 0 (es ++ match seed with Some _ => [window b (len b - 12) 12] | None => [] end) /\
    len (concat es) = dir_limit seed b.

(** A record whose name can be told from what follows it: it has no zero byte, and the record ends with it, or a zero byte
    follows. *)
Definition rec_tidy (e : bytes) : Prop :=
  ~ In x00 (rec_name e) /\ (len e = 8 + rec_name_length e \/ nth_N e (8 + rec_name_length e) = Some x00).
