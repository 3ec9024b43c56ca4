(** Property C21, continued: the descriptors of version 0.90 superblocks, and the fields that no accessor uses. *)

From Coq Require Import Strings.String.
From Verif Require Import Base BaseFacts Superblock SpecMd SuperblockFacts PropsSuperblock Superblock0.

(** ** Specification: [mdp_disk_t] of include/uapi/linux/raid/md_p.h

    Words 0 to 4 of a descriptor are number, major, minor, raid_disk and state; descriptor [i] is at word 128 + 32 i, the one
    of this disk at word 992. *)
Definition disk_words (e : endian) (st : bytes) (w : N) : list N := map (fun k => uint e st (word (w + k)) 4) [0; 1; 2; 3; 4].
Definition descriptor_words (d : descriptor) : list N := [dd_index d; dd_major d; dd_minor d; dd_role d; dd_state d].

Lemma fval_uint e lay name o w st : field lay name = Some (o, N.of_nat w) -> o + N.of_nat w <= len st -> fval e lay name st = uint e st o w.
Proof.
  intros F B. unfold fval, fbytes. rewrite F. destruct e; symmetry; [apply uint_le_window|now apply uint_be_window].
Qed.
Lemma uint_inside e st a n o w : o + N.of_nat w <= n -> a + n <= len st -> uint e (window st a n) o w = uint e st (a + o) w.
Proof.
  intros B L. assert (Lw : len (window st a n) = n) by (rewrite len_window; lia). destruct e.
  - cbn [uint]. rewrite !uint_le_window. now rewrite window_window by lia.
  - cbn [uint]. rewrite !uint_be_window by lia. now rewrite window_window by lia.
Qed.

Lemma descriptor_at e st a : a + 128 <= len st ->
  descriptor_words (v0_descriptor e (window st a 128)) = map (fun k => uint e st (a + 4 * k) 4) [0; 1; 2; 3; 4].
Proof.
  intros L. assert (Lw : len (window st a 128) = 128) by (rewrite len_window; lia). unfold v0_descriptor, descriptor_words. cbn [dd_index dd_major dd_minor dd_role dd_state map].
  rewrite (fval_uint e v0_descriptor_layout "index" 0 4), (fval_uint e v0_descriptor_layout "major" 4 4), (fval_uint e v0_descriptor_layout "minor" 8 4),
    (fval_uint e v0_descriptor_layout "role" 12 4), (fval_uint e v0_descriptor_layout "state" 16 4) by (reflexivity || (rewrite Lw; vm_compute; discriminate)).
  rewrite !uint_inside by (lia || (vm_compute; discriminate)). reflexivity.
Qed.

(** There are 27 descriptors; each, and that of this disk, has its published words, in either byte order. *)
Theorem v0_descriptors_published : forall e st, len st = 4096 ->
  len (s0_devices (v0_from_view e st)) = 27 /\
  (forall i, i < 27 -> exists d, nth_N (s0_devices (v0_from_view e st)) i = Some d /\ descriptor_words d = disk_words e st (128 + 32 * i)) /\
  descriptor_words (s0_this (v0_from_view e st)) = disk_words e st 992.
Proof.
  intros e st L. assert (W : forall a w, a = word w -> a + 128 <= 4096 -> descriptor_words (v0_descriptor e (window st a 128)) = disk_words e st w).
  { intros a w -> B. rewrite descriptor_at by lia. unfold disk_words, word. apply map_ext. intros k. f_equal. lia. }
  split; [reflexivity|]. split; [|apply W; [reflexivity|vm_compute; discriminate]]. intros i J.
  exists (v0_descriptor e (window st (512 + i * 128) 128)). split; [|apply W; [unfold word; lia|lia]].
  unfold v0_from_view. cbn [s0_devices]. change (N.to_nat v0_max_devices) with 27%nat. change (layout_size v0_descriptor_layout) with 128.
  assert (Si : nth_error (seq 0 27) (N.to_nat i) = Some (N.to_nat i)).
  { rewrite nth_error_nth' with (d := O) by (rewrite seq_length; lia). now rewrite seq_nth by lia. }
  unfold nth_N. rewrite (map_nth_error _ _ _ Si), N2Nat.id. match goal with |- (if ?b then _ else _) = _ => replace b with true end; [|symmetry; apply N.ltb_lt; unfold len; rewrite map_length, seq_length; lia]. do 2 f_equal. unfold fbytes. change (field v0_layout "devices") with (Some (512, 3456)). cbv iota.
  rewrite window_window by lia. reflexivity.
Qed.
Print Assumptions v0_descriptors_published.

(** The fields that no accessor uses are those of [mdp_super_t]: patch_version, gvalid_words, ctime, md_minor, not_persistent,
    utime, state, active_disks, working_disks, failed_disks, spare_disks, sb_csum, cp_events (two words, the low one first in
    little-endian superblocks), recovery_cp, root_pv, root_block. *)
Theorem v0_rest_published : forall e st, len st = 4096 ->
  let u w := uint e st (word w) 4 in
  v0_rest e st = Sb0Rest (u 3) (u 4) (u 6) (u 11) (u 12) (u 32) (u 33) (u 34) (u 35) (u 36) (u 37) (u 38) (uint e st (word 41) 8) (u 43) (u 66) (u 67).
Proof.
  intros e st L u. unfold v0_rest, u.
  rewrite (fval_uint e v0_layout "patch_version" (word 3) 4), (fval_uint e v0_layout "gvalid_words" (word 4) 4), (fval_uint e v0_layout "ctime" (word 6) 4),
    (fval_uint e v0_layout "md_minor" (word 11) 4), (fval_uint e v0_layout "not_persistent" (word 12) 4), (fval_uint e v0_layout "utime" (word 32) 4),
    (fval_uint e v0_layout "state" (word 33) 4), (fval_uint e v0_layout "active_device_count" (word 34) 4), (fval_uint e v0_layout "working_device_count" (word 35) 4),
    (fval_uint e v0_layout "failed_device_count" (word 36) 4), (fval_uint e v0_layout "spare_device_count" (word 37) 4),
    (fval_uint e v0_layout "superblock_checksum" (word 38) 4), (fval_uint e v0_layout "checkpoint_event_count" (word 41) 8),
    (fval_uint e v0_layout "recovery_checkpoint" (word 43) 4), (fval_uint e v0_layout "root_pv" (word 66) 4), (fval_uint e v0_layout "root_block" (word 67) 4)
    by (reflexivity || (rewrite L; vm_compute; discriminate)).
  reflexivity.
Qed.
Print Assumptions v0_rest_published.

Example v0_descriptors_ex : let st := zeros 3968 ++ to_le 4 7 ++ to_le 4 8 ++ to_le 4 33 ++ to_le 4 2 ++ to_le 4 6 ++ zeros 108 in
  len st = 4096 /\ disk_words Little st 992 = [7; 8; 33; 2; 6].
Proof. split; vm_compute; reflexivity. Qed.
Example v0_rest_ex : let st := zeros 164 ++ to_be 8 0x1122334455667788 ++ to_be 4 9 ++ zeros 3920 in
  len st = 4096 /\ s0_checkpoint_events (v0_rest Big st) = 0x1122334455667788 /\ s0_recovery_checkpoint (v0_rest Big st) = 9.
Proof. split; [vm_compute; reflexivity|]. split; vm_compute; reflexivity. Qed.
