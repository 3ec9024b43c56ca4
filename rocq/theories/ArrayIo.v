(** src/md/array.rs and src/md/raid6/algorithm.rs again, with the state of the member devices carried from one read to the
    next.

    [Array.member_read] reads a clone of a member and throws the clone away.  That is what the code does, but a clone of a
    file shares the open file, and so its cursor, with the original (dup(2)), and the operating system is in another state
    after each call: the next read may be cut short or fail where the last one did not.  Here a read gives back the array
    with the members as the read has left them. *)

From Verif Require Import Base Io Raid Superblock Device Array.

(** The closure type of src/md/algorithm.rs 29-35, an [FnMut], with its state. *)
Definition sector_io (W : Type) : Type := N -> N -> bytes -> W -> W * res N * bytes.

(** src/md/raid6/algorithm.rs 208-218. *)
Fixpoint raid6_read_all_io {W} (rd : sector_io W) (sec : N) (i : N) (k : nat) (w : W) : W * res (list bytes) :=
  match k with
  | O => (w, Ok [])
  | S k' =>
      let '(w, r, buf) := rd i sec (zeros 512) w in
      match r with
      | Err e => (w, Err e)
      | Panic => (w, Panic)
      | Ok got =>
          if got =? len buf then
            let '(w, rest) := raid6_read_all_io rd sec (i + 1) k' w in
            (w, let? rest := rest in Ok (buf :: rest))
          else (w, Err InvalidData)
      end
  end.

(** src/md/raid6/algorithm.rs 194-247. *)
Definition raid6_read_sector_io {W} (a : raid6_alg) (sector chunk n : N) (rd : sector_io W) (w : W) : W * res bytes :=
  match raid6_compute_sector a sector chunk n with
  | None => (w, Err InvalidInput)
  | Some (sec, p, q, d) =>
      let '(w, bufs) := raid6_read_all_io rd sec 0 (N.to_nat n) w in
      (w, let? bufs := bufs in
          let? pbuf := ok_or (nth_N bufs p) InvalidData in
          let datas := raid6_data_buffers bufs 0 p q in
          let? _ := raid6_check datas pbuf 0 512 in
          unwrap (nth_N bufs d))
  end.

(** src/md/algorithm.rs 29-44. *)
Definition alg_read_sector_io {W} (a : md_algorithm) (sector chunk n : N) (rd : sector_io W) (w : W) : W * res bytes :=
  match a with
  | AlgRaid6 a => raid6_read_sector_io a sector chunk n rd w
  | _ => (w, Err Unsupported)
  end.

(** Replaces the value of a key, for the state of a member inside the [HashMap]. *)
Fixpoint assoc_set {V} (m : list (N * V)) (k : N) (v : V) : list (N * V) :=
  match m with
  | [] => []
  | (k', v') :: m => if k' =? k then (k', v) :: m else (k', v') :: assoc_set m k v
  end.

(** What is left of the original [d] when its clone has become [d']: a clone of a file is the same open file, so that the
    state of the clone is that of the original ([shared]); a clone of a block of memory has a cursor of its own ([own]).
    The functions below take either. *)
Definition shared {D} (d d' : D) : D := d'.
Definition own {D} (d d' : D) : D := d.

Definition set_member {D} (join : D -> D -> D) (a : definition D) (dev : N) (m m' : md_device D) : definition D :=
  {| ad_format := ad_format a;
     ad_new_format := ad_new_format a;
     ad_devices := assoc_set (ad_devices a) dev
                     {| md_id := md_id m; md_superblock := md_superblock m; md_dev := join (md_dev m) (md_dev m') |};
     ad_inactive := ad_inactive a |}.

(** src/md/array.rs 149-169, the closure. *)
Definition member_read_io {D} (ops : blockdev D) (join : D -> D -> D) : sector_io (definition D) := fun dev sec buf a =>
  if len buf <? 512 then (a, Err InvalidInput, buf)
  else
    match assoc (ad_devices a) dev with
    | None => (a, Err InvalidInput, buf)
    | Some m =>
        match bd_clone (md_block ops) m with
        | Err e => (a, Err e, buf)
        | Panic => (a, Panic, buf)
        | Ok m' =>
            match cmul64 sec 512 with
            | None => (a, Err InvalidInput, buf)
            | Some pos =>
                let '(r, x) := reader_seek (md_block ops) (reader_new m') (SeekStart pos) in
                match x with
                | Err e => (set_member join a dev m (r_dev r), Err e, buf)
                | Panic => (set_member join a dev m (r_dev r), Panic, buf)
                | Ok _ =>
                    let '(r, b, x) := read_exact (reader_stream (md_block ops)) r (firstn 512 buf) in
                    (set_member join a dev m (r_dev r), let? _ := x in Ok 512, b ++ skipn 512 buf)
                end
            end
        end
    end.

(** 132-173, [read_block]. *)
Definition array_read_block_io {D} (ops : blockdev D) (join : D -> D -> D) (a : definition D) (n : N) (buf : bytes)
  : definition D * bytes * res N :=
  if len buf <? 512 then (a, buf, Err InvalidInput)
  else
    match current_format a with
    | Err e => (a, buf, Err e)
    | Panic => (a, buf, Panic)
    | Ok f =>
        let '(a, block) :=
          alg_read_sector_io (mf_algorithm f) n (mf_chunk_size f) (mf_device_count f) (member_read_io ops join) a in
        match block with
        | Err e => (a, buf, Err e)
        | Panic => (a, buf, Panic)
        | Ok block =>
            match copy_from_slice buf block with
            | None => (a, buf, Panic)
            | Some b => (a, b, Ok 512)
            end
        end
    end.

(** 106-173, the block device.  A clone of an array shares the definition and so the members (an [Rc]). *)
Definition array_block_io {D} (ops : blockdev D) (join : D -> D -> D) : blockdev (definition D) := {|
  bd_size := fun _ => Ok 512;
  bd_count := array_block_count;
  bd_read := array_read_block_io ops join;
  bd_clone := fun a => Ok a
|}.
