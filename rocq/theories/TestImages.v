(** More byte images that md-recover's tests use: superblocks, directory entries and the blocks that are not zero of the
    100 MB file system. *)

From Verif Require Import Base SpecMd.

(** src/ext4/superblock/test_data/ext2 *)
Definition sb_ext2 : bytes :=
  fold_left poke [
   (0, [x40; x00; x00; x00; x80; x00; x00; x00; x06; x00; x00; x00; x72; x00; x00; x00; x35]);
   (24, [x02; x00; x00; x00; x02; x00; x00; x00; x00; x80; x00; x00; x00; x80; x00; x00; x40]);
   (48, [xc5; x49; x3b; x67; x00; x00; xff; xff; x53; xef; x01; x00; x01; x00; x00; x00; xc5; x49; x3b; x67]);
   (76, [x01]);
   (84, [x0b; x00; x00; x00; x00; x01; x00; x00; x38; x00; x00; x00; x02; x00; x00; x00; x03; x00; x00; x00;
     x3b; x15; x3b; xb6; xca; xa9; x45; xb2; x82; xe0; x8f; x19; x45; xbb; xf3; x57]);
   (236, [x16; x0e; x3f; x80; xea; xf5; x4b; x7c; xa8; x3c; x19; xb0; x7b; xf5; xac; x3a; x01; x00; x00; x00;
     x0c]);
   (264, [xc5; x49; x3b; x67]);
   (348, [x20; x00; x20; x00; x01]);
   (584, [x08])] (zeros 1024).

(** src/ext4/superblock/test_data/ext4-2 *)
Definition sb_ext4_2 : bytes :=
  fold_left poke [
   (2, [x01; x00; x00; x00; x04; x00; x33; x33; x00; x00; x65; xcd; x03; x00; xf5; xff]);
   (24, [x02; x00; x00; x00; x02; x00; x00; x00; x00; x80; x00; x00; x00; x80; x00; x00; x00; x20; x00; x00;
     x63; x2d; x3d; x67; x74; x2d; x3d; x67; x01; x00; xff; xff; x53; xef; x01; x00; x01; x00; x00; x00; x06;
     x2d; x3d; x67]);
   (76, [x01]);
   (84, [x0b; x00; x00; x00; x00; x01; x00; x00; x3c; x00; x00; x00; xc2; x02; x00; x00; x6b; x04; x00; x00;
     x8c; x32; xdc; xc2; xf7; xde; x4b; x28; xb4; xc4; x69; xa8; x4b; x69; xac; x2b]);
   (206, [x7f]);
   (224, [x08]);
   (236, [x2d; x91; x3a; xa5; xfe; x21; x47; xee; xb1; xb5; x32; xae; x39; x80; x55; x15; x01; x01; x40; x00;
     x0c]);
   (264, [x06; x2d; x3d; x67; x0a; xf3; x01; x00; x04]);
   (285, [x20; x00; x00; x00; x00; x02]);
   (335, [x02]);
   (348, [x20; x00; x20; x00; x01]);
   (372, [x04; x01; x00; x00; x19; x02]);
   (584, [x95; x32]);
   (1020, [xf8; x48; xa5; x03])] (zeros 1024).

(** src/ext4/superblock/test_data/ext4-3 *)
Definition sb_ext4_3 : bytes :=
  fold_left poke [
   (2, [x32; x00; x00; x00; xc8; x00; x00; x00; x14; x00; x72; xa8; xc3; x00; xf5; xff; x31; x00; x00; x00;
     x00; x00; x02; x00; x00; x00; x02; x00; x00; x00; x00; x80; x00; x00; x00; x80; x00; x00; x00; x20]);
   (48, [x20; x33; x3d; x67; x00; x00; x64; x00; x53; xef; x01; x00; x02; x00; x00; x00; x6d; x32; x3d; x67;
     x80; xf4; x03; x00; x00; x00; x00; x00; x01; x00; x00; x00; xe8; x03; xe8; x03; x0b; x00; x00; x00; x00;
     x01; x00; x00; x3c; x00; x00; x00; xc2; x02; x00; x00; x6b; x04; x00; x00; x96; x88; x27; xba; xcc; x32;
     x40; x67; xba; x37; x23; xfb; x86; xf9; xae; xfd; x65; x78; x74; x34; x2d; x33]);
   (207, [x04]);
   (224, [x08]);
   (236, [x59; x15; x26; x6d; x1d; xa6; x44; xb4; xa1; x5d; xb7; xc6; x10; xa2; x0b; xa3; x01; x01; x40; x00;
     x0c]);
   (264, [x6d; x32; x3d; x67; x0a; xf3; x02; x00; x04]);
   (285, [x80; x00; x00; x00; x80; x60; x00; x00; x80; x00; x00; x00; x80; x00; x00; x00; x00; x61]);
   (335, [x10]);
   (348, [x20; x00; x20; x00; x01]);
   (372, [x04; x01; x00; x00; x7f; x10]);
   (584, [x88; x57; x04]);
   (1020, [xf0; xb7; x9c; x15])] (zeros 1024).

(** src/ext4/superblock/test_data/random *)
Definition sb_random : bytes :=
  fold_left poke [
   (0, [x73; x09; x9e; xc4; x6d; xbb; x19; x4a; xd1; xe2; x3c; x50; x44; xf4; xa2; x53; xfa; x85; x0f; x27;
     xe8; x0a; xf6; xe3; xf7; xff; x02; x34; xa5; x1a; x81; xaf; x7c; x33; xe2; x98; xc5; x4b; x93; xa6; xc2;
     x3e; x45; xeb; x9b; xc8; x35; xc2; xb9; xce; x38; xc7; xc6; x01; xff; x47; x36; x97; x1b; x47; xb9; x7e;
     xb5; x6f; x9a; xd6; xe5; x79; x57; x8c; x21; x04; xbf; xa6; xe7; x0d; x48; xe2; x69; x67; x8b; x8d; xa9;
     x92; x7f; xe5; x75; x50; x60; xa4; x27; x95; x03; x78; x8b; x01; x33; x01; x3e; x2d; xb6; xa8; x5c; x3f;
     x27; x36; xa5; xb4; x48; x98; xfa; xe2; x6f; x61; x61; x81; xda; x4a; xbb; xec; x8c; xb9; xb4; xd8; x20;
     xc9; x95; xe4; x64; x07; x75; x53; xd0; xaf; x58; x49; x46; x8c; xed; x3a; xbf; x33; x64; x0e; x94; x51;
     xc5; x02; x40; x08; x55; xa7; xc9; x15; x53; xf5; xab; x4a; xf9; x41; xc4; x7c; xe3; x46; x45; x07; x95;
     xe1; x89; x13; x3e; x12; x38; xc0; xca; x13; xe4; xd8; x85; x00; x0a; xba; x8f; x85; x2c; x3b; x98; x81;
     x73; xbe; xe1; x68; x82; x80; xa6; xb9; x4b; x4a; x49; x50; x09; xe6; x68; x7f; xd4; xa2; xb2; x07; x3c;
     x9d; xbd; x19; x0d; x41; x92; x35; xa8; x2d; x13; xea; x92; x7d; x21; x0c; x5f; xe8; x40; x5c; xb7; xe4;
     x61; x63; xaf; x80; xe4; xcb; xa5; x61; xed; x8a; x37; x41; xb4; x44; xce; xf4; x6e; x72; xc9; x03; xdf;
     x1f; xc1; xfe; x1e; xcd; x2d; x31; x4b; x9d; x6b; x63; xc3; x41; x5c; x91; x97; xca; xeb; xfa; x2a; x11;
     xa8; xd8; x02; x7e; xc8; x99; xa8; x6a; x61; x56; xa5; x67; xa2; x5a; xca; xf3; x86; x9e; x17; xef; xfd;
     x56; x35; x8a; x56; x41; x49; xf5; x74; x21; x30; x2b; x54; x6b; xac; x25; xc7; x59; x80; xe5; x67; xe7;
     x51; x1c; x1d; x04; xf9; x2e; x40; x6a; x29; xdc; x51; x1f; x21; x11; xe9; x33; xb5; x40; x8f; xb5; xdc;
     x85; xd5; x88; xd8; x62; x19; x2e; x88; xa4; x34; x1c; x7f; x13; x34; x4a; x33; x78; xe4; xea; x47; x75;
     x80; x52; x20; x0f; xee; x72; x6b; xd2; xc7; xbf; x65; xa7; x68; x07; x2c; x39; x79; xc2; x86; x19; x67;
     x6c; x79; x75; x83; x67; xa0; x38; xeb; xba; xae; x4a; x2d; xa2; xcd; x8b; xec; xa8; xc2; x38; xa2; x81;
     x71; x98; x9c; xe9; xf8; x98; xac; x4b; x4a; x1b; x5d; xe8; x19; xdb; x9f; x1c; x2f; x52; x41; x8c; x25;
     x0b; x08; x40; xa0; x09; xe1; x9e; xda; xf6; x7c; x08; xad; xda; x2a; xff; x2f; xd3; xd7; xe9; xb1; x81;
     xa6; xad; x77; xe8; x1d; x6e; x86; xea; x69; x59; xb5; x49; x54; x99; x27; x7b; x94; xd0; x54; x0e; xd7;
     xbe; x54; xf3; x52; xb5; x62; xfc; x30; xe8; x27; xe9; xee; x22; x0b; xea; x73; xad; x66; x52; x36; x83;
     x65; xa0; x09; xe1; x69; x16; x43; x44; x8a; x64; x40; x96; x24; x4c; x7a; x69; x16; x17; xa1; x1e; x5b;
     xee; xb7; xf3; x71; xf0; xe8; xba; xdc; xe9; x53; x0e; xc2; x82; xe8; x67; xc9; x07; xe7; x78; x99; x3f;
     x74; xd6; x2b; x23; xf2; xc5; x87; x62; x52; x23; x0f; xec; x8e; x41; x14; xa0; x93; x01; x6b; x5e; xa0;
     x57; xbe; x8b; x40; xac; x0d; x09; x8c; x39; x49; x69; x91; x47; x55; xc6; x6d; x95; x87; x3c; x40; x38;
     x5f; x44; xd3; xe0; x65; xb5; xe4; xa8; x71; x86; xdb; x4b; x6a; x77; xa7; xe7; xbb; x3c; x38; x92; x56;
     x6a; xa6; x50; xfc; xcb; x00; x54; x0a; x7d; xb6; x87; x15; x37; x61; x70; xde; x02; x9c; x75; x73; xa4;
     x9a; xc1; x01; x93; x16; x8f; xab; x52; x94; x91; xe1; x53; x02; x05; xf3; xb9; x61; xc1; xb6; x23; x59;
     x77; x27; x23; x87; x14; x23; x38; xb9; x16; x23; x22; x31; xf4; xc4; x09; x42; xf1; xdd; xf5; xe9; xca;
     x6e; x4c; xf0; x15; x5d; x54; xbc; x63; x5f; x23; x4f; x71; xc2; x79; xc6; x08; xe6; x1e; xb2; x29; x1c;
     x26; x41; x4c; xac; x0a; xfe; xe6; x91; xcc; xb9; xde; xe8; xca; xa0; x17; x26; x94; x61; xc4; xc5; x41;
     x9e; x61; x83; xec; x4b; xf5; x0c; xe3; x16; x1f; xba; xce; x42; x23; xb6; xe0; x38; xc4; xb5; x7f; xf5;
     xd8; x48; x85; xe5; xbf; x8c; xe9; x1a; x73; x73; x5a; x23; x98; x53; xa3; x65; x93; x34; x60; x5c; xaa;
     xaf; x12; xd5; xbe; x53; x6c; x8b; x7e; x6b; x71; xa0; x83; xb7; x3b; xc5; xe6; xd1; xbe; x84; x9c; x58;
     xa7; x0b; x43; x92; xa1; xac; x00; xd6; x7b; x32; xd2; xf2; x86; x75; x25; x7c; x7e; x9d; x6a; x92; x2f;
     xe1; xc4; x94; xfe; x7c; x7d; xa0; xdd; xac; x9e; x64; x7c; x9a; x53; x83; x29; xfe; x8f; x8a; x55; xda;
     x14; x4e; xba; xa7; xbe; x29; xb4; xb8; x51; x66; x27; xf8; x5e; xb6; x90; x57; x0d; xdc; x51; x3b; x22;
     xbe; xb8; xd2; x45; xde; xfd; x74; x5a; x89; xd8; xc8; x74; x23; x3d; x75; x82; xbd; x8f; xde; x75; xce;
     xd2; xf5; x85; x09; x36; xe9; xb6; xd6; xdd; xb6; xdf; xa8; xf6; x3b; xf9; xad; x4b; xc4; x92; x6a; x22;
     x62; x98; xcb; xaf; x8c; x5c; xcb; xd6; x72; x54; x78; x26; x7d; x37; x66; x53; xad; xbd; x89; x78; x58;
     xac; x2b; xa8; x0e; x07; x69; x96; x3e; xba; x2b; xa1; xda; xb6; x97; x76; xef; x06; x77; x22; xee; xbd;
     x8a; xc0; xe2; x86; xbd; x17; x7b; x75; x41; x8d; xad; x65; xd0; x99; xb0; xd0; x08; x8b; x57; x24; xbd;
     x6c; x04; xf1; xd1; xfa; x92; x70; x8d; x51; x97; xa2; x93; x75; xad; x6d; x6e; x94; x33; xfe; x11; x91;
     xf0; x2e; xfa; xa0; x5a; xd0; x13; xed; xa8; xaa; x57; x58; x34; x2e; xb4; xd5; xda; x99; x58; x59; xd7;
     x2b; x8f; xf9; x99; xd5; xcb; x04; x9a; x60; x91; x99; xd3; x61; x7f; xe1; x78; x1f; x49; x13; x78; x10;
     x7e; x42; xe9; x75; x57; x28; xac; x36; xaa; xde; xd5; xf0; x20; xc8; x89; xbf; x6f; xc0; x80; x33; x01;
     xc9; x22; x1b; x12; xe5; xa0; x78; x7d; x00; x90; x25; x00; x62; xc7; x62; xd6; x93])] (zeros 1024).

(** src/ext4/directory/test_data/dir_entry *)
Definition dir_entry_bytes : bytes :=
  fold_left poke [
   (0, [x02; x00; x00; x00; x0c; x00; x01; x02; x2e])] (zeros 12).

(** src/ext4/directory/test_data/dir_entries_with_padding *)
Definition dir_entries_with_padding_bytes : bytes :=
  fold_left poke [
   (0, [x02; x00; x00; x00; x0c; x00; x01; x02; x2e; x00; x00; x00; x02; x00; x00; x00; x0c; x00; x02; x02;
     x2e; x2e])] (zeros 120).

(** src/ext4/test_data/ext4-100MB-empty.gz, block 0 *)
Definition empty_block_0 : bytes :=
  fold_left poke [
   (1025, [x64; x00; x00; x00; x64; x00; x00; x00; x05; x00; x00; xaa; x59; x00; x00; xf5; x63]);
   (1048, [x02; x00; x00; x00; x02; x00; x00; x00; x00; x80; x00; x00; x00; x80; x00; x00; x00; x64]);
   (1072, [x5d; x3b; x13; x69; x00; x00; xff; xff; x53; xef; x01; x00; x01; x00; x00; x00; x5d; x3b; x13; x69]);
   (1100, [x01]);
   (1108, [x0b; x00; x00; x00; x00; x01; x00; x00; x3c; x00; x00; x00; xc2; x02; x00; x00; x6b; x04; x00; x00;
     x6c; x74; x93; x54; x0f; xb2; x40; x7a; x87; x79; xbb; x3e; x4a; x36; x44; xb8]);
   (1230, [x0c]);
   (1248, [x08]);
   (1260, [x5e; xb2; xd5; x5c; x73; x42; x4a; xe7; x9d; x1a; x4c; xca; xee; xdf; xc1; x80; x01; x01; x40; x00;
     x0c]);
   (1288, [x5d; x3b; x13; x69; x0a; xf3; x03; x00; x04]);
   (1308, [x0a; x00; x00; x00; x14; x00; x00; x00; x0a; x00; x00; x00; x0f; x00; x00; x00; x1f; x00; x00; x00;
     x19; x00; x00; x00; xe7; x03; x00; x00; x6f; x06]);
   (1358, [x40]);
   (1372, [x20; x00; x20; x00; x01]);
   (1396, [x04; x01; x00; x00; x41]);
   (1608, [x50; x0a]);
   (2044, [x75; xb0; x80; xd8])] (zeros 4096).

(** src/ext4/test_data/ext4-100MB-empty.gz, block 1 *)
Definition empty_block_1 : bytes :=
  fold_left poke [
   (0, [x0e; x00; x00; x00; x1e; x00; x00; x00; x2e; x00; x00; x00; xaa; x59; xf5; x63; x02; x00; x04; x00;
     x00; x00; x00; x00; x23; x97; xe9; x02; xf5; x63; xe2; x67]);
   (56, [x60; x30; x75; x95])] (zeros 4096).

(** src/ext4/test_data/ext4-100MB-empty.gz, block 14 *)
Definition empty_block_14 : bytes :=
  fold_left poke [
   (0, repeat xff 330);
   (330, [x3f]);
   (3200, repeat xff 896)] (zeros 4096).

(** src/ext4/test_data/ext4-100MB-empty.gz, block 15 *)
Definition empty_block_15 : bytes :=
  fold_left poke [
   (0, [x02; x00; x00; x00; x0c; x00; x01; x02; x2e; x00; x00; x00; x02; x00; x00; x00; x0c; x00; x02; x02;
     x2e; x2e; x00; x00; x0b; x00; x00; x00; xdc; x0f; x0a; x02; x6c; x6f; x73; x74; x2b; x66; x6f; x75; x6e;
     x64]);
   (4088, [x0c; x00; x00; xde; x78; x37; x38; xff])] (zeros 4096).

(** src/ext4/test_data/ext4-100MB-empty.gz, block 16 *)
Definition empty_block_16 : bytes :=
  fold_left poke [
   (0, [x0b; x00; x00; x00; x0c; x00; x01; x02; x2e; x00; x00; x00; x02; x00; x00; x00; xe8; x0f; x02; x02;
     x2e; x2e]);
   (4088, [x0c; x00; x00; xde; xdc; x08; xcd; x1b])] (zeros 4096).

(** src/ext4/test_data/ext4-100MB-empty.gz, block 17 *)
Definition empty_block_17 : bytes :=
  fold_left poke [
   (4, [xf4; x0f]);
   (4088, [x0c; x00; x00; xde; x32; x2e; xbd; x49])] (zeros 4096).

(** src/ext4/test_data/ext4-100MB-empty.gz, block 18 *)
Definition empty_block_18 : bytes :=
  fold_left poke [
   (4, [xf4; x0f]);
   (4088, [x0c; x00; x00; xde; x32; x2e; xbd; x49])] (zeros 4096).

(** src/ext4/test_data/ext4-100MB-empty.gz, block 19 *)
Definition empty_block_19 : bytes :=
  fold_left poke [
   (4, [xf4; x0f]);
   (4088, [x0c; x00; x00; xde; x32; x2e; xbd; x49])] (zeros 4096).

(** src/ext4/test_data/ext4-100MB-empty.gz, block 20 *)
Definition empty_block_20 : bytes :=
  fold_left poke [
   (0, [xc0; x3b; x39; x98; x00; x00; x00; x04]);
   (14, [x10; x00; x00; x00; x04; x00; x00; x00; x00; x01; x00; x00; x00; x01]);
   (48, [x6c; x74; x93; x54; x0f; xb2; x40; x7a; x87; x79; xbb; x3e; x4a; x36; x44; xb8; x00; x00; x00; x01])] (zeros 4096).

(** src/ext4/test_data/ext4-100MB-empty.gz, block 30 *)
Definition empty_block_30 : bytes :=
  fold_left poke [
   (0, [xff; x07]);
   (3200, repeat xff 896)] (zeros 4096).

(** src/ext4/test_data/ext4-100MB-empty.gz, block 46 *)
Definition empty_block_46 : bytes :=
  fold_left poke [
   (8, [x5d; x3b; x13; x69; x5d; x3b; x13; x69; x5d; x3b; x13; x69]);
   (124, [x4e; x48]);
   (256, [xed; x41; x00; x00; x00; x10; x00; x00; x5d; x3b; x13; x69; x5d; x3b; x13; x69; x5d; x3b; x13; x69]);
   (282, [x03; x00; x08; x00; x00; x00; x00; x00; x08; x00; x00; x00; x00; x00; x0a; xf3; x01; x00; x04]);
   (312, [x01; x00; x00; x00; x0f]);
   (380, [x0e; x70; x00; x00; x20; x00; x6e; xda]);
   (400, [x5d; x3b; x13; x69]);
   (636, [xb3; x75]);
   (892, [x59; xd2]);
   (1148, [x17; xe8]);
   (1404, [xc5; xa6]);
   (1536, [x80; x81; x00; x00; x00; xc0; x40; x00; x5d; x3b; x13; x69; x5d; x3b; x13; x69; x5d; x3b; x13; x69]);
   (1562, [x01; x00; x68]);
   (1628, [x6e; x06]);
   (1644, [x01]);
   (1660, [x65; x3e; x00; x00; x20; x00; x8a; x63]);
   (1680, [x5d; x3b; x13; x69]);
   (1792, [x80; x81; x00; x00; x00; x00; x40; x00; x5d; x3b; x13; x69; x5d; x3b; x13; x69; x5d; x3b; x13; x69]);
   (1818, [x01; x00; x00; x20; x00; x00; x00; x00; x08; x00; x00; x00; x00; x00; x0a; xf3; x03; x00; x04]);
   (1848, [x0a; x00; x00; x00; x14; x00; x00; x00; x0a; x00; x00; x00; x0f; x00; x00; x00; x1f; x00; x00; x00;
     x19; x00; x00; x00; xe7; x03; x00; x00; x6f; x06]);
   (1916, [x04; x34; x00; x00; x20; x00; x2e; x41]);
   (1936, [x5d; x3b; x13; x69]);
   (2172, [x5f; xd3]);
   (2428, [x8d; x9d]);
   (2560, [xc0; x41; x00; x00; x00; x40; x00; x00; x5d; x3b; x13; x69; x5d; x3b; x13; x69; x5d; x3b; x13; x69]);
   (2586, [x02; x00; x20; x00; x00; x00; x00; x00; x08; x00; x00; x00; x00; x00; x0a; xf3; x01; x00; x04]);
   (2616, [x04; x00; x00; x00; x10]);
   (2684, [xeb; x38; x00; x00; x20; x00; x4e; x86]);
   (2704, [x5d; x3b; x13; x69])] (zeros 4096).

(** src/ext4/test_data/ext4-100MB-empty.gz, block 1646 *)
Definition empty_block_1646 : bytes :=
  fold_left poke [
   (4, [x02; x00; x00; x00; x03; x00; x00; x00; x04; x00; x00; x00; x05; x00; x00; x00; x06; x00; x00; x00;
     x07; x00; x00; x00; x08; x00; x00; x00; x09; x00; x00; x00; x0a; x00; x00; x00; x0b; x00; x00; x00; x0c;
     x00; x00; x00; x0d])] (zeros 4096).

(** src/ext4/test_data/ext4-100MB-empty.gz: 25600 blocks; all others are zero *)
Definition empty_blocks : list (N * bytes) :=
  [(0, empty_block_0); (1, empty_block_1); (14, empty_block_14); (15, empty_block_15); (16, empty_block_16); (17, empty_block_17); (18, empty_block_18); (19, empty_block_19); (20, empty_block_20); (30, empty_block_30); (46, empty_block_46); (1646, empty_block_1646)].

(** src/ext4/test_data/random-2MB-zero-30MB.gz, bytes 1024-2047 *)
Definition random_superblock : bytes :=
  fold_left poke [
   (0, [x73; x09; x9e; xc4; x6d; xbb; x19; x4a; xd1; xe2; x3c; x50; x44; xf4; xa2; x53; xfa; x85; x0f; x27;
     xe8; x0a; xf6; xe3; xf7; xff; x02; x34; xa5; x1a; x81; xaf; x7c; x33; xe2; x98; xc5; x4b; x93; xa6; xc2;
     x3e; x45; xeb; x9b; xc8; x35; xc2; xb9; xce; x38; xc7; xc6; x01; xff; x47; x36; x97; x1b; x47; xb9; x7e;
     xb5; x6f; x9a; xd6; xe5; x79; x57; x8c; x21; x04; xbf; xa6; xe7; x0d; x48; xe2; x69; x67; x8b; x8d; xa9;
     x92; x7f; xe5; x75; x50; x60; xa4; x27; x95; x03; x78; x8b; x01; x33; x01; x3e; x2d; xb6; xa8; x5c; x3f;
     x27; x36; xa5; xb4; x48; x98; xfa; xe2; x6f; x61; x61; x81; xda; x4a; xbb; xec; x8c; xb9; xb4; xd8; x20;
     xc9; x95; xe4; x64; x07; x75; x53; xd0; xaf; x58; x49; x46; x8c; xed; x3a; xbf; x33; x64; x0e; x94; x51;
     xc5; x02; x40; x08; x55; xa7; xc9; x15; x53; xf5; xab; x4a; xf9; x41; xc4; x7c; xe3; x46; x45; x07; x95;
     xe1; x89; x13; x3e; x12; x38; xc0; xca; x13; xe4; xd8; x85; x00; x0a; xba; x8f; x85; x2c; x3b; x98; x81;
     x73; xbe; xe1; x68; x82; x80; xa6; xb9; x4b; x4a; x49; x50; x09; xe6; x68; x7f; xd4; xa2; xb2; x07; x3c;
     x9d; xbd; x19; x0d; x41; x92; x35; xa8; x2d; x13; xea; x92; x7d; x21; x0c; x5f; xe8; x40; x5c; xb7; xe4;
     x61; x63; xaf; x80; xe4; xcb; xa5; x61; xed; x8a; x37; x41; xb4; x44; xce; xf4; x6e; x72; xc9; x03; xdf;
     x1f; xc1; xfe; x1e; xcd; x2d; x31; x4b; x9d; x6b; x63; xc3; x41; x5c; x91; x97; xca; xeb; xfa; x2a; x11;
     xa8; xd8; x02; x7e; xc8; x99; xa8; x6a; x61; x56; xa5; x67; xa2; x5a; xca; xf3; x86; x9e; x17; xef; xfd;
     x56; x35; x8a; x56; x41; x49; xf5; x74; x21; x30; x2b; x54; x6b; xac; x25; xc7; x59; x80; xe5; x67; xe7;
     x51; x1c; x1d; x04; xf9; x2e; x40; x6a; x29; xdc; x51; x1f; x21; x11; xe9; x33; xb5; x40; x8f; xb5; xdc;
     x85; xd5; x88; xd8; x62; x19; x2e; x88; xa4; x34; x1c; x7f; x13; x34; x4a; x33; x78; xe4; xea; x47; x75;
     x80; x52; x20; x0f; xee; x72; x6b; xd2; xc7; xbf; x65; xa7; x68; x07; x2c; x39; x79; xc2; x86; x19; x67;
     x6c; x79; x75; x83; x67; xa0; x38; xeb; xba; xae; x4a; x2d; xa2; xcd; x8b; xec; xa8; xc2; x38; xa2; x81;
     x71; x98; x9c; xe9; xf8; x98; xac; x4b; x4a; x1b; x5d; xe8; x19; xdb; x9f; x1c; x2f; x52; x41; x8c; x25;
     x0b; x08; x40; xa0; x09; xe1; x9e; xda; xf6; x7c; x08; xad; xda; x2a; xff; x2f; xd3; xd7; xe9; xb1; x81;
     xa6; xad; x77; xe8; x1d; x6e; x86; xea; x69; x59; xb5; x49; x54; x99; x27; x7b; x94; xd0; x54; x0e; xd7;
     xbe; x54; xf3; x52; xb5; x62; xfc; x30; xe8; x27; xe9; xee; x22; x0b; xea; x73; xad; x66; x52; x36; x83;
     x65; xa0; x09; xe1; x69; x16; x43; x44; x8a; x64; x40; x96; x24; x4c; x7a; x69; x16; x17; xa1; x1e; x5b;
     xee; xb7; xf3; x71; xf0; xe8; xba; xdc; xe9; x53; x0e; xc2; x82; xe8; x67; xc9; x07; xe7; x78; x99; x3f;
     x74; xd6; x2b; x23; xf2; xc5; x87; x62; x52; x23; x0f; xec; x8e; x41; x14; xa0; x93; x01; x6b; x5e; xa0;
     x57; xbe; x8b; x40; xac; x0d; x09; x8c; x39; x49; x69; x91; x47; x55; xc6; x6d; x95; x87; x3c; x40; x38;
     x5f; x44; xd3; xe0; x65; xb5; xe4; xa8; x71; x86; xdb; x4b; x6a; x77; xa7; xe7; xbb; x3c; x38; x92; x56;
     x6a; xa6; x50; xfc; xcb; x00; x54; x0a; x7d; xb6; x87; x15; x37; x61; x70; xde; x02; x9c; x75; x73; xa4;
     x9a; xc1; x01; x93; x16; x8f; xab; x52; x94; x91; xe1; x53; x02; x05; xf3; xb9; x61; xc1; xb6; x23; x59;
     x77; x27; x23; x87; x14; x23; x38; xb9; x16; x23; x22; x31; xf4; xc4; x09; x42; xf1; xdd; xf5; xe9; xca;
     x6e; x4c; xf0; x15; x5d; x54; xbc; x63; x5f; x23; x4f; x71; xc2; x79; xc6; x08; xe6; x1e; xb2; x29; x1c;
     x26; x41; x4c; xac; x0a; xfe; xe6; x91; xcc; xb9; xde; xe8; xca; xa0; x17; x26; x94; x61; xc4; xc5; x41;
     x9e; x61; x83; xec; x4b; xf5; x0c; xe3; x16; x1f; xba; xce; x42; x23; xb6; xe0; x38; xc4; xb5; x7f; xf5;
     xd8; x48; x85; xe5; xbf; x8c; xe9; x1a; x73; x73; x5a; x23; x98; x53; xa3; x65; x93; x34; x60; x5c; xaa;
     xaf; x12; xd5; xbe; x53; x6c; x8b; x7e; x6b; x71; xa0; x83; xb7; x3b; xc5; xe6; xd1; xbe; x84; x9c; x58;
     xa7; x0b; x43; x92; xa1; xac; x00; xd6; x7b; x32; xd2; xf2; x86; x75; x25; x7c; x7e; x9d; x6a; x92; x2f;
     xe1; xc4; x94; xfe; x7c; x7d; xa0; xdd; xac; x9e; x64; x7c; x9a; x53; x83; x29; xfe; x8f; x8a; x55; xda;
     x14; x4e; xba; xa7; xbe; x29; xb4; xb8; x51; x66; x27; xf8; x5e; xb6; x90; x57; x0d; xdc; x51; x3b; x22;
     xbe; xb8; xd2; x45; xde; xfd; x74; x5a; x89; xd8; xc8; x74; x23; x3d; x75; x82; xbd; x8f; xde; x75; xce;
     xd2; xf5; x85; x09; x36; xe9; xb6; xd6; xdd; xb6; xdf; xa8; xf6; x3b; xf9; xad; x4b; xc4; x92; x6a; x22;
     x62; x98; xcb; xaf; x8c; x5c; xcb; xd6; x72; x54; x78; x26; x7d; x37; x66; x53; xad; xbd; x89; x78; x58;
     xac; x2b; xa8; x0e; x07; x69; x96; x3e; xba; x2b; xa1; xda; xb6; x97; x76; xef; x06; x77; x22; xee; xbd;
     x8a; xc0; xe2; x86; xbd; x17; x7b; x75; x41; x8d; xad; x65; xd0; x99; xb0; xd0; x08; x8b; x57; x24; xbd;
     x6c; x04; xf1; xd1; xfa; x92; x70; x8d; x51; x97; xa2; x93; x75; xad; x6d; x6e; x94; x33; xfe; x11; x91;
     xf0; x2e; xfa; xa0; x5a; xd0; x13; xed; xa8; xaa; x57; x58; x34; x2e; xb4; xd5; xda; x99; x58; x59; xd7;
     x2b; x8f; xf9; x99; xd5; xcb; x04; x9a; x60; x91; x99; xd3; x61; x7f; xe1; x78; x1f; x49; x13; x78; x10;
     x7e; x42; xe9; x75; x57; x28; xac; x36; xaa; xde; xd5; xf0; x20; xc8; x89; xbf; x6f; xc0; x80; x33; x01;
     xc9; x22; x1b; x12; xe5; xa0; x78; x7d; x00; x90; x25; x00; x62; xc7; x62; xd6; x93])] (zeros 1024).

(** src/md/superblock/version_1/tests.rs, [DATA] *)
Definition md_v1_data : bytes :=
  fold_left poke [
   (0, [xfc; x4e; x2b; xa9; x01]);
   (16, [xc5; x98; x7f; x03; x80; xf5; xe1; xbf; x7a; x42; x17; xa1; x15; x09; x17; x33; x6d; x65; x64; x69;
     x65; x76; x61; x6c; x20; x73; x74; x6f; x72; x6d]);
   (64, [x23; x24; xbd; xf9; xd1; xdc; x49; x11; x05; x00; x00; x00; xb3; x04; x4a; xa6; xd6; xa8; xed; x3b;
     x5a; xf9; xff; xa8; x00; x00; x01; x00; x04; x00; x00; x00; x7b; x1d; x5a; x5a; x06; x00; x00; x00; x39;
     xf7; xce; x74; x52; xc6; x0d; xe3; x01; x00; x00; x00; x99; x69; x9a; x97; x00; x00; x01; x00; x00; x00;
     x00; x00; xfd; x8e; x9c; xa7; x84; xd1; xe3; xfa; x13; xa4; xf1; xe9; x7c; xb1; x8a; x58; xf0; x31; x63;
     x36; x8b; x69; x44; xf5; x2d; xfd; x6a; x4d; xb9; xfe; x3e; x94; x5b; xdd; xb6; xc2; xe7; x80; x4a; x94;
     x31; x79; x2c; x4c; xcc; xbe; x9d; x9f; x21; x04; xc6; xa8; x0f; x65; xb0; x46; x00; xa1; xa0; xcc; x21;
     xcc; x79; xad; x41; x83; x78; xed; x80; x5f; xe3; x5c; x6a; x83; xff; x8f; x9d; x4b; x95; x71; xb5; xe8;
     x59; xef; x9a; xaf; x91; xc1; x55; x4d; xdc; x55; x04]);
   (256, [x01; x00; x02; x00; x03; x00; x04])] (zeros 4096).

(** src/md/superblock/version_0/little_endian/tests.rs, [DATA] *)
Definition md_v0_little_data : bytes :=
  fold_left poke [
   (0, [xfc; x4e; x2b; xa9; x00; x00; x00; x00; x5a; x00; x00; x00; x01]);
   (20, [x78; x56; x34; x12; x68; x9a; xcd; x59; x05; x00; x00; x00; x9d; x57; x54; x46; x04; x00; x00; x00;
     x04; x00; x00; x00; x07]);
   (52, [x46; x39; x25; xcc; xcc; xaf; x49; x16; x82; x41; x72; xf5]);
   (128, [x20; x68; xea; x40; x00; x00; x00; x00; x04; x00; x00; x00; x04]);
   (152, [xfa; xe3; x42; x47; xcf; xf9; x31; x54; x5c; xa7; xad; x05; x5b; xea; x9e; xf7; x63; x3e; x61; x7d;
     x46; x9b; xe3; x46]);
   (256, [xfc; x04; x97; xc4; x00; x00; x01; x00; x27; xd2; xbd; xbd; xba; xef; xfe; xa7]);
   (512, [x01; x00; x00; x00; x41; x2f; xb5; xe9; x84; x32; x78; x08; x01]);
   (640, [x02; x00; x00; x00; x5b; xa9; x32; x96; x44; x89; xf2; x4d; x02]);
   (768, [x03; x00; x00; x00; x78; xae; x7e; xb2; x59; x5c; x60; x88; x03]);
   (896, [x04; x00; x00; x00; x17; x28; x16; xa5; xc3; xdb; x54; x3e; x04])] (zeros 4096).

(** src/md/superblock/version_0/big_endian/tests.rs, [DATA] *)
Definition md_v0_big_data : bytes :=
  fold_left poke [
   (0, [xa9; x2b; x4e; xfc]);
   (11, [x5a; x00; x00; x00; x01; x00; x00; x00; x00; x12; x34; x56; x78; x59; xcd; x9a; x68; x00; x00; x00;
     x05; x46; x54; x57; x9d; x00; x00; x00; x04; x00; x00; x00; x04; x00; x00; x00; x07; x00; x00; x00; x00;
     xcc; x25; x39; x46; x16; x49; xaf; xcc; xf5; x72; x41; x82]);
   (128, [x40; xea; x68; x20]);
   (139, [x04; x00; x00; x00; x04]);
   (152, [x47; x42; xe3; xfa; x05; xad; xa7; x5c; x54; x31; xf9; xcf; x7d; x61; x3e; x63; xf7; x9e; xea; x5b;
     x46; xe3; x9b; x46]);
   (256, [xc4; x97; x04; xfc; x00; x01; x00; x00; xbd; xbd; xd2; x27; xa7; xfe; xef; xba]);
   (515, [x01; xe9; xb5; x2f; x41; x08; x78; x32; x84; x00; x00; x00; x01]);
   (643, [x02; x96; x32; xa9; x5b; x4d; xf2; x89; x44; x00; x00; x00; x02]);
   (771, [x03; xb2; x7e; xae; x78; x88; x60; x5c; x59; x00; x00; x00; x03]);
   (899, [x04; xa5; x16; x28; x17; x3e; x54; xdb; xc3; x00; x00; x00; x04])] (zeros 4096).
