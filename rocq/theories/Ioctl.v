(** Model of src/ioctl/blk.rs, and of the two calls in src/block_device/native.rs that ask the operating system about a block
    device.  Io.v has the answers as parameters ([os_pbsz], [os_size64]); here they come from a kernel that is asked by number.

    Of the crate iocuddle the documented meaning is used: [Group::read(nr)] for [Ioctl<Read, &T>] is the request "read, size
    of T, group, nr" in the encoding of include/uapi/asm-generic/ioctl.h; [Ioctl::classic] is the number itself; [ioctl]
    passes a pointer to a [T], and returns what has been written there, or the error of the call. *)

From Verif Require Import Base Io Device.

(** [Group::read] with a [T] of [size] bytes. *)
Definition group_read (group size nr : N) : N :=
  N.lor (N.shiftl 2 30) (N.lor (N.shiftl size 16) (N.lor (N.shiftl group 8) nr)).

(** blk.rs 3, 5: [BLK], [BLK_GETSIZE64] with a [u64]. *)
Definition blk_group : N := 0x12.
Definition blk_getsize64 : N := group_read blk_group 8 114.
(** blk.rs 6: [BLK_PBSZGET] with a [u32]. *)
Definition blk_pbszget : N := N.lor (N.shiftl 0x12 8) 123.

(** What the kernel writes for a request to this file, or its error. *)
Definition kernel : Type := N -> res bytes.

(** [Ioctl::ioctl] for an integer of [size] bytes.  A kernel that writes more or less than that is outside of the model. *)
Definition ask (k : kernel) (request size : N) : res N :=
  let? b := k request in if len b =? size then Ok (le b) else Panic.

(** src/block_device/native.rs 27-31 and 33-37. *)
Definition native_block_size (k : kernel) : res N := ask k blk_pbszget 4.
Definition native_block_count (k : kernel) : res N :=
  let? size := ask k blk_getsize64 8 in
  let? bs := native_block_size k in
  unwrap (cdiv64 size bs).
