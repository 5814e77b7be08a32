(** The files of /repo/bins, generated by tools/gen_repo_tests.py. *)
From Verif Require Import Base.
(** /repo/bins/elements/rsn.bin *)
Definition rsn_bin : bytes := [
  0x01; 0x00; 0x00; 0x0f; 0xac; 0x04; 0x01; 0x00; 0x00; 0x0f; 0xac; 0x04; 0x01; 0x00; 0x00; 0x0f; 0xac; 0x02; 0x0c; 0x00
  ]%N.
(** /repo/bins/elements/ssid.bin *)
Definition ssid_bin : bytes := [
  0x74; 0x65; 0x73; 0x74
  ]%N.
(** /repo/bins/elements/supported_rates.bin *)
Definition supported_rates_bin : bytes := [
  0x98; 0x24; 0xb0; 0x48; 0x60; 0x6c
  ]%N.
(** /repo/bins/elements/dsss_parameter_set.bin *)
Definition dsss_parameter_set_bin : bytes := [
  0x01
  ]%N.
(** /repo/bins/frames/action_mesh_open.bin *)
Definition action_mesh_open_bin : bytes := [
  0xd0; 0x00; 0x38; 0x01; 0xe8; 0x9c; 0x25; 0x14; 0x4f; 0xc8; 0xe8; 0x9c; 0x25; 0x14; 0x51; 0x00; 0xe8; 0x9c; 0x25; 0x14; 0x51; 0x00; 0x00; 0x00;
  0x0f; 0x01; 0x00; 0x00; 0x01; 0x08; 0x82; 0x04; 0x0b; 0x16; 0x0c; 0x12; 0x18; 0x24; 0x32; 0x04; 0x30; 0x48; 0x60; 0x6c; 0x72; 0x08; 0x6d; 0x65;
  0x73; 0x68; 0x74; 0x65; 0x73; 0x74; 0x71; 0x07; 0x01; 0x01; 0x00; 0x01; 0x00; 0x00; 0x09; 0x75; 0x04; 0x00; 0x00; 0xa3; 0xd6; 0x2d; 0x1a; 0xfe;
  0x01; 0x03; 0xff; 0xff; 0x00; 0x00; 0x00; 0x00; 0x00; 0x00; 0x00; 0x00; 0x00; 0x00; 0x01; 0x00; 0x00; 0x00; 0x00; 0x00; 0x00; 0x00; 0x00; 0x00;
  0x00; 0x3d; 0x16; 0x02; 0x00; 0x03; 0x00; 0x00; 0x00; 0xff; 0xff; 0x00; 0x00; 0x00; 0x00; 0x00; 0x00; 0x00; 0x00; 0x00; 0x00; 0x00; 0x00; 0x00;
  0x00
  ]%N.
(** /repo/bins/frames/awdl_action.bin *)
Definition awdl_action_bin : bytes := [
  0xd0; 0x00; 0x00; 0x00; 0xff; 0xff; 0xff; 0xff; 0xff; 0xff; 0xea; 0xd0; 0x74; 0x53; 0xe1; 0x9c; 0x00; 0x25; 0x00; 0xff; 0x94; 0x73; 0xa0; 0x31;
  0x7f; 0x00; 0x17; 0xf2; 0x08; 0x10; 0x03; 0x00; 0xc1; 0xe6; 0x9e; 0x41; 0x9f; 0xe5; 0x9e; 0x41; 0x04; 0x49; 0x00; 0x2c; 0x1f; 0x00; 0x06; 0x00;
  0x10; 0x00; 0x6e; 0x00; 0x00; 0x18; 0x10; 0x00; 0x10; 0x00; 0x00; 0x00; 0x03; 0x03; 0x03; 0x03; 0xf2; 0xf4; 0xef; 0xf6; 0xa3; 0xf9; 0x04; 0x00;
  0x66; 0x2f; 0x49; 0x2f; 0x0f; 0x01; 0x00; 0x03; 0xff; 0xff; 0x1d; 0x2e; 0x00; 0x00; 0x1d; 0x2e; 0x00; 0x00; 0x00; 0x00; 0x00; 0x00; 0x00; 0x00;
  0x00; 0x00; 0x2b; 0x06; 0x1d; 0x2e; 0x1d; 0x2e; 0x00; 0x00; 0x00; 0x00; 0x00; 0x00; 0x00; 0x00; 0x00; 0x00; 0x00; 0x00; 0x05; 0x15; 0x00; 0x00;
  0x00; 0x00; 0x01; 0x00; 0xf2; 0xf4; 0xef; 0xf6; 0xa3; 0xf9; 0x1a; 0x02; 0x00; 0x00; 0xfe; 0x01; 0x00; 0x00; 0x00; 0x00; 0x12; 0x29; 0x00; 0x0f;
  0x03; 0x00; 0x03; 0xff; 0xff; 0x2c; 0x80; 0x00; 0x00; 0x2c; 0x80; 0x00; 0x00; 0x00; 0x00; 0x00; 0x00; 0x00; 0x00; 0x00; 0x00; 0x06; 0x51; 0x2c;
  0x80; 0x2c; 0x80; 0x00; 0x00; 0x00; 0x00; 0x00; 0x00; 0x00; 0x00; 0x00; 0x00; 0x00; 0x00; 0x00; 0x18; 0x28; 0x00; 0xf2; 0xf4; 0xef; 0xf6; 0xa3;
  0xf9; 0xf2; 0xf4; 0xef; 0xf6; 0xa3; 0xf9; 0x9f; 0x0d; 0x00; 0x00; 0x01; 0x00; 0x00; 0x00; 0x1a; 0x02; 0x00; 0x00; 0xfe; 0x01; 0x00; 0x00; 0x00;
  0x00; 0x00; 0x00; 0x00; 0x00; 0x00; 0x00; 0xc4; 0x0d; 0x00; 0x00; 0x0c; 0x2f; 0x00; 0x63; 0x9f; 0x44; 0x45; 0x00; 0x03; 0x00; 0x00; 0x00; 0x00;
  0x00; 0x00; 0x00; 0x74; 0x00; 0xea; 0xd0; 0x74; 0x53; 0xe1; 0x9c; 0x04; 0x00; 0x00; 0x00; 0x00; 0x00; 0x6d; 0x10; 0x00; 0x00; 0x9f; 0x0d; 0x00;
  0x00; 0xa9; 0xe4; 0x05; 0x00; 0x08; 0x2f; 0x00; 0x00; 0x35; 0x40; 0x00; 0x00; 0x07; 0x0a; 0x00; 0x00; 0x00; 0x6f; 0x01; 0x1f; 0xff; 0xff; 0xff;
  0x00; 0x00; 0x11; 0x0e; 0x00; 0xbf; 0x0c; 0x32; 0x00; 0x80; 0x03; 0xea; 0xff; 0x00; 0x00; 0xea; 0xff; 0x00; 0x00; 0x15; 0x02; 0x00; 0x71; 0x01;
  0x06; 0x09; 0x00; 0x00; 0x00; 0x00; 0x02; 0x04; 0x00; 0x00; 0x00; 0x00
  ]%N.
(** /repo/bins/frames/beacon.bin *)
Definition beacon_bin : bytes := [
  0x80; 0x00; 0x00; 0x00; 0xff; 0xff; 0xff; 0xff; 0xff; 0xff; 0xbc; 0x9f; 0xe4; 0x28; 0xf4; 0x20; 0xbc; 0x9f; 0xe4; 0x28; 0xf4; 0x20; 0x10; 0x49;
  0x02; 0xc5; 0xc9; 0x28; 0x07; 0x00; 0x00; 0x00; 0x64; 0x00; 0x11; 0x15; 0x00; 0x04; 0x33; 0x37; 0x43; 0x33; 0x01; 0x06; 0x98; 0x24; 0xb0; 0x48;
  0x60; 0x6c; 0x03; 0x01; 0x2c; 0x05; 0x19; 0x00; 0x01; 0x02; 0x10; 0x00; 0x00; 0x00; 0x00; 0x00; 0x00; 0x00; 0x08; 0x00; 0x00; 0x00; 0x00; 0x00;
  0x00; 0x00; 0x00; 0x00; 0x00; 0x80; 0x00; 0x02; 0x07; 0x06; 0x44; 0x45; 0x20; 0x24; 0x08; 0x17; 0x20; 0x01; 0x00; 0x23; 0x02; 0x12; 0x00; 0x30;
  0x1a; 0x01; 0x00; 0x00; 0x0f; 0xac; 0x04; 0x01; 0x00; 0x00; 0x0f; 0xac; 0x04; 0x01; 0x00; 0x00; 0x0f; 0xac; 0x01; 0xa8; 0x00; 0x00; 0x00; 0x00;
  0x0f; 0xac; 0x06; 0x0b; 0x05; 0xc9; 0x00; 0x61; 0x20; 0x4e; 0x33; 0x05; 0x01; 0x24; 0x28; 0x2c; 0x30; 0x33; 0x05; 0x02; 0x34; 0x38; 0x3c; 0x40;
  0x43; 0x06; 0x00; 0x0c; 0x05; 0x48; 0x05; 0x48; 0x46; 0x05; 0x73; 0xd0; 0x01; 0x00; 0x0d; 0x2d; 0x1a; 0xad; 0x09; 0x03; 0xff; 0xff; 0xff; 0xff;
  0x00; 0x00; 0x00; 0x00; 0x00; 0x00; 0x00; 0x00; 0x01; 0x00; 0x00; 0x00; 0x00; 0x00; 0x00; 0x00; 0x00; 0x00; 0x00; 0x3d; 0x16; 0x2c; 0x00; 0x05;
  0x00; 0x00; 0x00; 0x00; 0x00; 0x00; 0x00; 0x00; 0x00; 0x00; 0x00; 0x00; 0x00; 0x00; 0x00; 0x00; 0x00; 0x00; 0x00; 0x7f; 0x0a; 0x04; 0x00; 0x08;
  0x00; 0x00; 0x00; 0x00; 0x40; 0x00; 0x40; 0xbf; 0x0c; 0x91; 0xf9; 0x8b; 0x33; 0xaa; 0xff; 0x00; 0x00; 0xaa; 0xff; 0x00; 0x20; 0xc0; 0x05; 0x00;
  0x00; 0x00; 0x00; 0x00; 0xc3; 0x02; 0x00; 0x2e; 0xff; 0x20; 0x23; 0x05; 0x01; 0x08; 0x9a; 0x40; 0x10; 0x00; 0x60; 0x08; 0x88; 0x1f; 0xc3; 0x83;
  0x1c; 0x01; 0x08; 0x00; 0xaa; 0xff; 0xaa; 0xff; 0x3b; 0x1c; 0xc7; 0x71; 0x1c; 0xc7; 0x71; 0x1c; 0xc7; 0x71; 0xff; 0x07; 0x24; 0xf4; 0x3f; 0x00;
  0x15; 0xfc; 0xff; 0xff; 0x0e; 0x26; 0x0f; 0x03; 0xa4; 0x16; 0x2f; 0xa9; 0xff; 0x45; 0x75; 0xff; 0x62; 0x32; 0xff; 0xdd; 0x18; 0x00; 0x50; 0xf2;
  0x02; 0x01; 0x01; 0x0f; 0x00; 0x03; 0xa4; 0x00; 0x00; 0x27; 0xa4; 0x00; 0x00; 0x42; 0x43; 0x5e; 0x00; 0x62; 0x32; 0x2f; 0x00; 0xdd; 0x16; 0x8c;
  0xfd; 0xf0; 0x04; 0x00; 0x00; 0x49; 0x4c; 0x51; 0x03; 0x02; 0x09; 0x72; 0x01; 0x00; 0x00; 0x00; 0x00; 0xfe; 0xff; 0x00; 0x00; 0xdd; 0x07; 0x8c;
  0xfd; 0xf0; 0x04; 0x01; 0x01; 0x00; 0xdd; 0x07; 0x00; 0x0b; 0x86; 0x01; 0x04; 0x08; 0x12; 0xdd; 0x0b; 0x00; 0x0b; 0x86; 0x01; 0x03; 0x00; 0x41;
  0x50; 0x36; 0x39; 0x32
  ]%N.
(** /repo/bins/frames/beacon_owe.bin *)
Definition beacon_owe_bin : bytes := [
  0x80; 0x00; 0x00; 0x00; 0xff; 0xff; 0xff; 0xff; 0xff; 0xff; 0xd0; 0x15; 0xa6; 0xc1; 0x24; 0xa1; 0xd0; 0x15; 0xa6; 0xc1; 0x24; 0xa1; 0x10; 0x21;
  0x58; 0x61; 0x9b; 0x5b; 0x4e; 0x00; 0x00; 0x00; 0x64; 0x00; 0x01; 0x15; 0x00; 0x09; 0x33; 0x37; 0x43; 0x33; 0x2d; 0x6f; 0x70; 0x65; 0x6e; 0x01;
  0x06; 0x98; 0x24; 0xb0; 0x48; 0x60; 0x6c; 0x03; 0x01; 0x2c; 0x05; 0x04; 0x00; 0x01; 0x00; 0x00; 0x07; 0x06; 0x44; 0x45; 0x20; 0x24; 0x08; 0x17;
  0x20; 0x01; 0x00; 0x23; 0x02; 0x12; 0x00; 0x0b; 0x05; 0x09; 0x00; 0x30; 0x8a; 0x66; 0x33; 0x05; 0x01; 0x24; 0x28; 0x2c; 0x30; 0x33; 0x05; 0x02;
  0x34; 0x38; 0x3c; 0x40; 0x43; 0x06; 0x00; 0x0c; 0xe0; 0x62; 0xe0; 0x62; 0x46; 0x05; 0x73; 0xd0; 0x01; 0x00; 0x0d; 0x2d; 0x1a; 0xad; 0x09; 0x03;
  0xff; 0xff; 0xff; 0xff; 0x00; 0x00; 0x00; 0x00; 0x00; 0x00; 0x00; 0x00; 0x01; 0x00; 0x00; 0x00; 0x00; 0x00; 0x00; 0x00; 0x00; 0x00; 0x00; 0x3d;
  0x16; 0x2c; 0x00; 0x04; 0x00; 0x00; 0x00; 0x00; 0x00; 0x00; 0x00; 0x00; 0x00; 0x00; 0x00; 0x00; 0x00; 0x00; 0x00; 0x00; 0x00; 0x00; 0x00; 0x7f;
  0x0a; 0x04; 0x00; 0x08; 0x00; 0x00; 0x00; 0x00; 0x40; 0x00; 0x40; 0xbf; 0x0c; 0x91; 0xf9; 0x8b; 0x33; 0xaa; 0xff; 0x00; 0x00; 0xaa; 0xff; 0x00;
  0x20; 0xc0; 0x05; 0x00; 0x00; 0x00; 0x00; 0x00; 0xc3; 0x02; 0x00; 0x2e; 0xff; 0x20; 0x23; 0x05; 0x01; 0x08; 0x9a; 0x40; 0x10; 0x00; 0x60; 0x08;
  0x88; 0x1f; 0xc3; 0x83; 0x1c; 0x01; 0x08; 0x00; 0xaa; 0xff; 0xaa; 0xff; 0x3b; 0x1c; 0xc7; 0x71; 0x1c; 0xc7; 0x71; 0x1c; 0xc7; 0x71; 0xff; 0x07;
  0x24; 0xf4; 0x3f; 0x00; 0x0e; 0xfc; 0xff; 0xff; 0x0e; 0x26; 0x0a; 0x03; 0xa4; 0x24; 0x2f; 0xa9; 0xff; 0x45; 0x75; 0xff; 0x62; 0x32; 0xff; 0xdd;
  0x24; 0x50; 0x6f; 0x9a; 0x1c; 0xd0; 0x15; 0xa6; 0xc1; 0x24; 0xa2; 0x19; 0x5f; 0x6f; 0x77; 0x65; 0x74; 0x6d; 0x5f; 0x33; 0x37; 0x43; 0x33; 0x2d;
  0x6f; 0x70; 0x65; 0x6e; 0x5f; 0x64; 0x33; 0x64; 0x63; 0x30; 0x62; 0x39; 0x39; 0xdd; 0x18; 0x00; 0x50; 0xf2; 0x02; 0x01; 0x01; 0x0a; 0x00; 0x03;
  0xa4; 0x00; 0x00; 0x27; 0xa4; 0x00; 0x00; 0x42; 0x43; 0x5e; 0x00; 0x62; 0x32; 0x2f; 0x00; 0xdd; 0x16; 0x8c; 0xfd; 0xf0; 0x04; 0x00; 0x00; 0x49;
  0x4c; 0x51; 0x03; 0x02; 0x09; 0x72; 0x01; 0x00; 0x00; 0x00; 0x00; 0xfe; 0xff; 0x00; 0x00; 0xdd; 0x07; 0x8c; 0xfd; 0xf0; 0x04; 0x01; 0x01; 0x00;
  0xdd; 0x07; 0x00; 0x0b; 0x86; 0x01; 0x04; 0x08; 0x12; 0xdd; 0x0b; 0x00; 0x0b; 0x86; 0x01; 0x03; 0x00; 0x41; 0x50; 0x37; 0x30; 0x34
  ]%N.
(** /repo/bins/frames/assoc.bin *)
Definition assoc_bin : bytes := [
  0x10; 0x00; 0x02; 0x01; 0x00; 0x23; 0x45; 0x67; 0x89; 0xab; 0x9c; 0xef; 0xd5; 0xfa; 0x4c; 0xcb; 0x9c; 0xef; 0xd5; 0xfa; 0x4c; 0xcb; 0x90; 0x18;
  0x01; 0x00; 0x00; 0x00; 0x01; 0xc0; 0x01; 0x08; 0x82; 0x84; 0x8b; 0x96; 0x0c; 0x12; 0x18; 0x24; 0x32; 0x04; 0x30; 0x48; 0x60; 0x6c; 0x7f; 0x08;
  0x04; 0x00; 0x00; 0x00; 0x00; 0x00; 0x00; 0x40; 0xa4; 0xb5; 0xed; 0x00
  ]%N.
(** /repo/bins/frames/qos_data.bin *)
Definition qos_data_bin : bytes := [
  0x88; 0x01; 0x30; 0x00; 0xd0; 0x15; 0xa6; 0xc1; 0x24; 0xa1; 0xfa; 0xf0; 0x46; 0x46; 0xdf; 0x98; 0x18; 0x00; 0x00; 0x00; 0x00; 0x01; 0x30; 0x02;
  0x00; 0x00; 0xaa; 0xaa; 0x03; 0x00; 0x00; 0x00; 0x86; 0xdd; 0x60; 0x09; 0xfc; 0x64; 0x00; 0x14; 0x06; 0x40; 0x20; 0x01; 0x06; 0x7c; 0x20; 0xa1;
  0x19; 0x14; 0x09; 0xcb; 0x73; 0x48; 0xae; 0xfd; 0xfa; 0x85; 0x26; 0x07; 0xf8; 0xb0; 0x40; 0x02; 0x0c; 0x09; 0x00; 0x00; 0x00; 0x00; 0x00; 0x00;
  0x00; 0xbc; 0xc2; 0x10; 0x14; 0x6c; 0xd7; 0x99; 0xeb; 0x79; 0x00; 0x00; 0x00; 0x00; 0x50; 0x04; 0x00; 0x00; 0x24; 0x08; 0x00; 0x00
  ]%N.
(** /repo/bins/frames/action_vendor.bin *)
Definition action_vendor_bin : bytes := [
  0xd0; 0x00; 0x00; 0x00; 0xff; 0xff; 0xff; 0xff; 0xff; 0xff; 0xbe; 0x45; 0xa1; 0xd1; 0x49; 0xb6; 0x00; 0x25; 0x00; 0xff; 0x94; 0x73; 0x70; 0x28;
  0x7f; 0x00; 0x17; 0xf2; 0x08; 0x10; 0x03; 0x00; 0x01; 0x7d; 0xd0; 0x03; 0xa6; 0x7c; 0xd0; 0x03; 0x04; 0x49; 0x00; 0x2c; 0x2f; 0x00; 0x06; 0x00;
  0x10; 0x00; 0xb8; 0x01; 0x00; 0x18; 0x10; 0x00; 0x10; 0x00; 0x00; 0x00; 0x03; 0x03; 0x03; 0x03; 0xbe; 0x45; 0xa1; 0xd1; 0x49; 0xb6; 0x04; 0x00;
  0xe1; 0x0e; 0xe1; 0x0e; 0x0f; 0x01; 0x00; 0x03; 0xff; 0xff; 0x1d; 0x2e; 0x1d; 0x2e; 0x1d; 0x2e; 0x1d; 0x2e; 0x1d; 0x2e; 0x1d; 0x2e; 0x1d; 0x2e;
  0x1d; 0x2e; 0x1d; 0x2e; 0x1d; 0x2e; 0x1d; 0x2e; 0x1d; 0x2e; 0x1d; 0x2e; 0x1d; 0x2e; 0x1d; 0x2e; 0x1d; 0x2e; 0x00; 0x00; 0x05; 0x15; 0x00; 0x00;
  0x00; 0x00; 0x00; 0x00; 0xbe; 0x45; 0xa1; 0xd1; 0x49; 0xb6; 0x18; 0x02; 0x00; 0x00; 0x18; 0x02; 0x00; 0x00; 0x00; 0x00; 0x12; 0x29; 0x00; 0x0f;
  0x03; 0x00; 0x03; 0xff; 0xff; 0x2c; 0x80; 0x2c; 0x80; 0x2c; 0x80; 0x2c; 0x80; 0x2c; 0x80; 0x2c; 0x80; 0x2c; 0x80; 0x2c; 0x80; 0x2c; 0x80; 0x2c;
  0x80; 0x2c; 0x80; 0x2c; 0x80; 0x2c; 0x80; 0x2c; 0x80; 0x2c; 0x80; 0x2c; 0x80; 0x00; 0x00; 0x00; 0x18; 0x28; 0x00; 0xbe; 0x45; 0xa1; 0xd1; 0x49;
  0xb6; 0xbe; 0x45; 0xa1; 0xd1; 0x49; 0xb6; 0x6d; 0x2a; 0x00; 0x00; 0x00; 0x00; 0x00; 0x00; 0x18; 0x02; 0x00; 0x00; 0x18; 0x02; 0x00; 0x00; 0x00;
  0x00; 0x00; 0x00; 0x00; 0x00; 0x00; 0x00; 0x6d; 0x2a; 0x00; 0x00; 0x0c; 0x2f; 0x00; 0x23; 0x9f; 0x44; 0x45; 0x00; 0x03; 0x00; 0x00; 0x00; 0x00;
  0x00; 0x00; 0x00; 0x00; 0x00; 0xbe; 0x45; 0xa1; 0xd1; 0x49; 0xb6; 0x04; 0x00; 0x00; 0x00; 0x00; 0x00; 0x6d; 0x00; 0x00; 0x00; 0x6d; 0x2a; 0x00;
  0x00; 0x34; 0xea; 0x00; 0x00; 0x40; 0x0e; 0x00; 0x00; 0xb3; 0x7f; 0x00; 0x00; 0x07; 0x09; 0x00; 0x00; 0x00; 0x6f; 0x01; 0x1f; 0xff; 0xff; 0x00;
  0x00; 0x14; 0x06; 0x00; 0xbe; 0x45; 0xa1; 0xd1; 0x49; 0xb6; 0x11; 0x0e; 0x00; 0xbf; 0x0c; 0x32; 0x00; 0x80; 0x03; 0xfa; 0xff; 0x00; 0x00; 0xfa;
  0xff; 0x00; 0x00; 0x15; 0x02; 0x00; 0x65; 0x02; 0x06; 0x09; 0x00; 0x00; 0x00; 0x00; 0x02; 0x1b; 0x00; 0x00; 0x00; 0x00
  ]%N.
