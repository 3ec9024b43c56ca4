(** Byte images shipped with md-recover's tests, for use in examples. *)

From Verif Require Import Base SpecMd.

(** src/ext4/superblock/test_data/ext4-1 *)
Definition sb_ext4_1 : bytes :=
  fold_left poke [
   (0, [x40; x00; x00; x00; x80; x00; x00; x00; x06; x00; x00; x00; x72; x00; x00; x00; x35; x00; x00; x00; x00;
     x00; x00; x00; x02; x00; x00; x00; x02; x00; x00; x00; x00; x80; x00; x00; x00; x80; x00; x00; x40; x00; x00;
     x00; x00; x00; x00; x00; x4c; x54; x3b; x67; x00; x00; xff; xff; x53; xef; x01; x00; x01; x00; x00; x00; x4c;
     x54; x3b; x67]);
   (76, [x01; x00; x00; x00; x00; x00; x00; x00; x0b; x00; x00; x00; x00; x01; x00; x00; x38; x00; x00; x00; xc2;
     x02; x00; x00; x6b; x04; x00; x00; x0f; x12; x02; xc6; xa5; x2e; x4d; xf8; xa5; xa7; x7f; x00; x1c; x37; xb8;
     xe8]);
   (236, [x44; x9d; x8b; x5a; x5e; xe4; x49; x05; xa8; x44; x17; x7a; xd4; x0d; x9d; x21; x01; x00; x40; x00; x0c;
     x00; x00; x00; x00; x00; x00; x00; x4c; x54; x3b; x67]);
   (348, [x20; x00; x20; x00; x01]);
   (372, [x04; x01; x00; x00; x09]);
   (584, [x08]);
   (1020, [x17; x0b; x35; x42])] (zeros 1024).

(** src/ext4/inode/test_data/root *)
Definition root_inode_slot : bytes :=
  fold_left poke [
   (0, [xed; x41; x00; x00; x00; x10; x00; x00; x5d; x3b; x13; x69; x5d; x3b; x13; x69; x5d; x3b; x13; x69; x00;
     x00; x00; x00; x00; x00; x03; x00; x08; x00; x00; x00; x00; x00; x08; x00; x00; x00; x00; x00; x0a; xf3; x01;
     x00; x04]);
   (56, [x01; x00; x00; x00; x0f]);
   (124, [x0e; x70; x00; x00; x20; x00; x6e; xda]);
   (144, [x5d; x3b; x13; x69])] (zeros 256).

(** src/ext4/inode/test_data/superblock *)
Definition root_inode_superblock : bytes :=
  fold_left poke [
   (0, [x40; x00; x00; x00; x80; x00; x00; x00; x06; x00; x00; x00; x72; x00; x00; x00; x35; x00; x00; x00; x00;
     x00; x00; x00; x02; x00; x00; x00; x02; x00; x00; x00; x00; x80; x00; x00; x00; x80; x00; x00; x40; x00; x00;
     x00; x00; x00; x00; x00; x4c; x54; x3b; x67; x00; x00; xff; xff; x53; xef; x01; x00; x01; x00; x00; x00; x4c;
     x54; x3b; x67]);
   (76, [x01; x00; x00; x00; x00; x00; x00; x00; x0b; x00; x00; x00; x00; x01; x00; x00; x38; x00; x00; x00; xc2;
     x02; x00; x00; x6b; x04; x00; x00; x0f; x12; x02; xc6; xa5; x2e; x4d; xf8; xa5; xa7; x7f; x00; x1c; x37; xb8;
     xe8]);
   (236, [x44; x9d; x8b; x5a; x5e; xe4; x49; x05; xa8; x44; x17; x7a; xd4; x0d; x9d; x21; x01; x00; x40; x00; x0c;
     x00; x00; x00; x00; x00; x00; x00; x4c; x54; x3b; x67]);
   (348, [x20; x00; x20; x00; x01]);
   (372, [x04; x01; x00; x00; x09]);
   (584, [x08]);
   (1020, [x17; x0b; x35; x42])] (zeros 1024).

(** src/ext4/block_group/test_data/descriptor *)
Definition group_descriptor_bytes : bytes :=
  fold_left poke [
   (0, [x0e; x00; x00; x00; x1e; x00; x00; x00; x2e; x00; x00; x00; xaa; x59; xf5; x63; x02; x00; x04; x00; x00;
     x00; x00; x00; x23; x97; xe9; x02; xf5; x63; xe2; x67]);
   (56, [x60; x30; x75; x95])] (zeros 64).

(** src/ext4/directory/test_data/empty-root-dir-block *)
Definition root_directory_block : bytes :=
  fold_left poke [
   (0, [x02; x00; x00; x00; x0c; x00; x01; x02; x2e; x00; x00; x00; x02; x00; x00; x00; x0c; x00; x02; x02; x2e;
     x2e; x00; x00; x0b; x00; x00; x00; xdc; x0f; x0a; x02; x6c; x6f; x73; x74; x2b; x66; x6f; x75; x6e; x64]);
   (4088, [x0c; x00; x00; xde; x78; x37; x38; xff])] (zeros 4096).
