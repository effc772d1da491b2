(** The named curves: src/ecp/ecp_curves.c, with 64-bit digits and every curve
    enabled as in include/cry/config.h:12-22.  The byte tables are transcribed
    in the order of the source, the least significant byte first. *)
From Verif Require Import Base MpiModel EcpModel.

(** src/ecp/ecp_curves.c:49-53 BYTES_TO_DIGITS_W, 61-62 BYTES_TO_DIGITS_8 *)
Definition b8 (a b c d e f g h : Z) : Z :=
  Z.lor (Z.lor (Z.lor (Z.lor (Z.lor (Z.lor (Z.lor (Z.shiftl a 0) (Z.shiftl b 8)) (Z.shiftl c 16)) (Z.shiftl d 24)) (Z.shiftl e 32)) (Z.shiftl f 40)) (Z.shiftl g 48)) (Z.shiftl h 56).
(** src/ecp/ecp_curves.c:58-59 BYTES_TO_DIGITS_4 *)
Definition b4 (a b c d : Z) : Z := b8 a b c d 0 0 0 0.
(** src/ecp/ecp_curves.c:55-56 BYTES_TO_DIGITS_2 *)
Definition b2 (a b : Z) : Z := b8 a b 0 0 0 0 0 0.

(** src/ecp/ecp_curves.c:79-83 *)
Definition secp192r1_p : list Z :=
  [ b8 0xFF 0xFF 0xFF 0xFF 0xFF 0xFF 0xFF 0xFF;
    b8 0xFE 0xFF 0xFF 0xFF 0xFF 0xFF 0xFF 0xFF;
    b8 0xFF 0xFF 0xFF 0xFF 0xFF 0xFF 0xFF 0xFF ].
(** src/ecp/ecp_curves.c:85 *)
Definition secp192r1_a : option (list Z) := None.
(** src/ecp/ecp_curves.c:87-91 *)
Definition secp192r1_b : list Z :=
  [ b8 0xB1 0xB9 0x46 0xC1 0xEC 0xDE 0xB8 0xFE;
    b8 0x49 0x30 0x24 0x72 0xAB 0xE9 0xA7 0x0F;
    b8 0xE7 0x80 0x9C 0xE5 0x19 0x05 0x21 0x64 ].
(** src/ecp/ecp_curves.c:92-96 *)
Definition secp192r1_gx : list Z :=
  [ b8 0x12 0x10 0xFF 0x82 0xFD 0x0A 0xFF 0xF4;
    b8 0x00 0x88 0xA1 0x43 0xEB 0x20 0xBF 0x7C;
    b8 0xF6 0x90 0x30 0xB0 0x0E 0xA8 0x8D 0x18 ].
(** src/ecp/ecp_curves.c:97-101 *)
Definition secp192r1_gy : list Z :=
  [ b8 0x11 0x48 0x79 0x1E 0xA1 0x77 0xF9 0x73;
    b8 0xD5 0xCD 0x24 0x6B 0xED 0x11 0x10 0x63;
    b8 0x78 0xDA 0xC8 0xFF 0x95 0x2B 0x19 0x07 ].
(** src/ecp/ecp_curves.c:102-106 *)
Definition secp192r1_n : list Z :=
  [ b8 0x31 0x28 0xD2 0xB4 0xB1 0xC9 0x6B 0x14;
    b8 0x36 0xF8 0xDE 0x99 0xFF 0xFF 0xFF 0xFF;
    b8 0xFF 0xFF 0xFF 0xFF 0xFF 0xFF 0xFF 0xFF ].

(** src/ecp/ecp_curves.c:117-122 *)
Definition secp224r1_p : list Z :=
  [ b8 0x01 0x00 0x00 0x00 0x00 0x00 0x00 0x00;
    b8 0x00 0x00 0x00 0x00 0xFF 0xFF 0xFF 0xFF;
    b8 0xFF 0xFF 0xFF 0xFF 0xFF 0xFF 0xFF 0xFF;
    b4 0xFF 0xFF 0xFF 0xFF ].
(** src/ecp/ecp_curves.c:124 *)
Definition secp224r1_a : option (list Z) := None.
(** src/ecp/ecp_curves.c:126-131 *)
Definition secp224r1_b : list Z :=
  [ b8 0xB4 0xFF 0x55 0x23 0x43 0x39 0x0B 0x27;
    b8 0xBA 0xD8 0xBF 0xD7 0xB7 0xB0 0x44 0x50;
    b8 0x56 0x32 0x41 0xF5 0xAB 0xB3 0x04 0x0C;
    b4 0x85 0x0A 0x05 0xB4 ].
(** src/ecp/ecp_curves.c:132-137 *)
Definition secp224r1_gx : list Z :=
  [ b8 0x21 0x1D 0x5C 0x11 0xD6 0x80 0x32 0x34;
    b8 0x22 0x11 0xC2 0x56 0xD3 0xC1 0x03 0x4A;
    b8 0xB9 0x90 0x13 0x32 0x7F 0xBF 0xB4 0x6B;
    b4 0xBD 0x0C 0x0E 0xB7 ].
(** src/ecp/ecp_curves.c:138-143 *)
Definition secp224r1_gy : list Z :=
  [ b8 0x34 0x7E 0x00 0x85 0x99 0x81 0xD5 0x44;
    b8 0x64 0x47 0x07 0x5A 0xA0 0x75 0x43 0xCD;
    b8 0xE6 0xDF 0x22 0x4C 0xFB 0x23 0xF7 0xB5;
    b4 0x88 0x63 0x37 0xBD ].
(** src/ecp/ecp_curves.c:144-149 *)
Definition secp224r1_n : list Z :=
  [ b8 0x3D 0x2A 0x5C 0x5C 0x45 0x29 0xDD 0x13;
    b8 0x3E 0xF0 0xB8 0xE0 0xA2 0x16 0xFF 0xFF;
    b8 0xFF 0xFF 0xFF 0xFF 0xFF 0xFF 0xFF 0xFF;
    b4 0xFF 0xFF 0xFF 0xFF ].

(** src/ecp/ecp_curves.c:160-165 *)
Definition secp256r1_p : list Z :=
  [ b8 0xFF 0xFF 0xFF 0xFF 0xFF 0xFF 0xFF 0xFF;
    b8 0xFF 0xFF 0xFF 0xFF 0x00 0x00 0x00 0x00;
    b8 0x00 0x00 0x00 0x00 0x00 0x00 0x00 0x00;
    b8 0x01 0x00 0x00 0x00 0xFF 0xFF 0xFF 0xFF ].
(** src/ecp/ecp_curves.c:167 *)
Definition secp256r1_a : option (list Z) := None.
(** src/ecp/ecp_curves.c:169-174 *)
Definition secp256r1_b : list Z :=
  [ b8 0x4B 0x60 0xD2 0x27 0x3E 0x3C 0xCE 0x3B;
    b8 0xF6 0xB0 0x53 0xCC 0xB0 0x06 0x1D 0x65;
    b8 0xBC 0x86 0x98 0x76 0x55 0xBD 0xEB 0xB3;
    b8 0xE7 0x93 0x3A 0xAA 0xD8 0x35 0xC6 0x5A ].
(** src/ecp/ecp_curves.c:175-180 *)
Definition secp256r1_gx : list Z :=
  [ b8 0x96 0xC2 0x98 0xD8 0x45 0x39 0xA1 0xF4;
    b8 0xA0 0x33 0xEB 0x2D 0x81 0x7D 0x03 0x77;
    b8 0xF2 0x40 0xA4 0x63 0xE5 0xE6 0xBC 0xF8;
    b8 0x47 0x42 0x2C 0xE1 0xF2 0xD1 0x17 0x6B ].
(** src/ecp/ecp_curves.c:181-186 *)
Definition secp256r1_gy : list Z :=
  [ b8 0xF5 0x51 0xBF 0x37 0x68 0x40 0xB6 0xCB;
    b8 0xCE 0x5E 0x31 0x6B 0x57 0x33 0xCE 0x2B;
    b8 0x16 0x9E 0x0F 0x7C 0x4A 0xEB 0xE7 0x8E;
    b8 0x9B 0x7F 0x1A 0xFE 0xE2 0x42 0xE3 0x4F ].
(** src/ecp/ecp_curves.c:187-192 *)
Definition secp256r1_n : list Z :=
  [ b8 0x51 0x25 0x63 0xFC 0xC2 0xCA 0xB9 0xF3;
    b8 0x84 0x9E 0x17 0xA7 0xAD 0xFA 0xE6 0xBC;
    b8 0xFF 0xFF 0xFF 0xFF 0xFF 0xFF 0xFF 0xFF;
    b8 0x00 0x00 0x00 0x00 0xFF 0xFF 0xFF 0xFF ].

(** src/ecp/ecp_curves.c:203-210 *)
Definition secp384r1_p : list Z :=
  [ b8 0xFF 0xFF 0xFF 0xFF 0x00 0x00 0x00 0x00;
    b8 0x00 0x00 0x00 0x00 0xFF 0xFF 0xFF 0xFF;
    b8 0xFE 0xFF 0xFF 0xFF 0xFF 0xFF 0xFF 0xFF;
    b8 0xFF 0xFF 0xFF 0xFF 0xFF 0xFF 0xFF 0xFF;
    b8 0xFF 0xFF 0xFF 0xFF 0xFF 0xFF 0xFF 0xFF;
    b8 0xFF 0xFF 0xFF 0xFF 0xFF 0xFF 0xFF 0xFF ].
(** src/ecp/ecp_curves.c:212 *)
Definition secp384r1_a : option (list Z) := None.
(** src/ecp/ecp_curves.c:214-221 *)
Definition secp384r1_b : list Z :=
  [ b8 0xEF 0x2A 0xEC 0xD3 0xED 0xC8 0x85 0x2A;
    b8 0x9D 0xD1 0x2E 0x8A 0x8D 0x39 0x56 0xC6;
    b8 0x5A 0x87 0x13 0x50 0x8F 0x08 0x14 0x03;
    b8 0x12 0x41 0x81 0xFE 0x6E 0x9C 0x1D 0x18;
    b8 0x19 0x2D 0xF8 0xE3 0x6B 0x05 0x8E 0x98;
    b8 0xE4 0xE7 0x3E 0xE2 0xA7 0x2F 0x31 0xB3 ].
(** src/ecp/ecp_curves.c:222-229 *)
Definition secp384r1_gx : list Z :=
  [ b8 0xB7 0x0A 0x76 0x72 0x38 0x5E 0x54 0x3A;
    b8 0x6C 0x29 0x55 0xBF 0x5D 0xF2 0x02 0x55;
    b8 0x38 0x2A 0x54 0x82 0xE0 0x41 0xF7 0x59;
    b8 0x98 0x9B 0xA7 0x8B 0x62 0x3B 0x1D 0x6E;
    b8 0x74 0xAD 0x20 0xF3 0x1E 0xC7 0xB1 0x8E;
    b8 0x37 0x05 0x8B 0xBE 0x22 0xCA 0x87 0xAA ].
(** src/ecp/ecp_curves.c:230-237 *)
Definition secp384r1_gy : list Z :=
  [ b8 0x5F 0x0E 0xEA 0x90 0x7C 0x1D 0x43 0x7A;
    b8 0x9D 0x81 0x7E 0x1D 0xCE 0xB1 0x60 0x0A;
    b8 0xC0 0xB8 0xF0 0xB5 0x13 0x31 0xDA 0xE9;
    b8 0x7C 0x14 0x9A 0x28 0xBD 0x1D 0xF4 0xF8;
    b8 0x29 0xDC 0x92 0x92 0xBF 0x98 0x9E 0x5D;
    b8 0x6F 0x2C 0x26 0x96 0x4A 0xDE 0x17 0x36 ].
(** src/ecp/ecp_curves.c:238-245 *)
Definition secp384r1_n : list Z :=
  [ b8 0x73 0x29 0xC5 0xCC 0x6A 0x19 0xEC 0xEC;
    b8 0x7A 0xA7 0xB0 0x48 0xB2 0x0D 0x1A 0x58;
    b8 0xDF 0x2D 0x37 0xF4 0x81 0x4D 0x63 0xC7;
    b8 0xFF 0xFF 0xFF 0xFF 0xFF 0xFF 0xFF 0xFF;
    b8 0xFF 0xFF 0xFF 0xFF 0xFF 0xFF 0xFF 0xFF;
    b8 0xFF 0xFF 0xFF 0xFF 0xFF 0xFF 0xFF 0xFF ].

(** src/ecp/ecp_curves.c:256-266 *)
Definition secp521r1_p : list Z :=
  [ b8 0xFF 0xFF 0xFF 0xFF 0xFF 0xFF 0xFF 0xFF;
    b8 0xFF 0xFF 0xFF 0xFF 0xFF 0xFF 0xFF 0xFF;
    b8 0xFF 0xFF 0xFF 0xFF 0xFF 0xFF 0xFF 0xFF;
    b8 0xFF 0xFF 0xFF 0xFF 0xFF 0xFF 0xFF 0xFF;
    b8 0xFF 0xFF 0xFF 0xFF 0xFF 0xFF 0xFF 0xFF;
    b8 0xFF 0xFF 0xFF 0xFF 0xFF 0xFF 0xFF 0xFF;
    b8 0xFF 0xFF 0xFF 0xFF 0xFF 0xFF 0xFF 0xFF;
    b8 0xFF 0xFF 0xFF 0xFF 0xFF 0xFF 0xFF 0xFF;
    b2 0xFF 0x01 ].
(** src/ecp/ecp_curves.c:268 *)
Definition secp521r1_a : option (list Z) := None.
(** src/ecp/ecp_curves.c:270-280 *)
Definition secp521r1_b : list Z :=
  [ b8 0x00 0x3F 0x50 0x6B 0xD4 0x1F 0x45 0xEF;
    b8 0xF1 0x34 0x2C 0x3D 0x88 0xDF 0x73 0x35;
    b8 0x07 0xBF 0xB1 0x3B 0xBD 0xC0 0x52 0x16;
    b8 0x7B 0x93 0x7E 0xEC 0x51 0x39 0x19 0x56;
    b8 0xE1 0x09 0xF1 0x8E 0x91 0x89 0xB4 0xB8;
    b8 0xF3 0x15 0xB3 0x99 0x5B 0x72 0xDA 0xA2;
    b8 0xEE 0x40 0x85 0xB6 0xA0 0x21 0x9A 0x92;
    b8 0x1F 0x9A 0x1C 0x8E 0x61 0xB9 0x3E 0x95;
    b2 0x51 0x00 ].
(** src/ecp/ecp_curves.c:281-291 *)
Definition secp521r1_gx : list Z :=
  [ b8 0x66 0xBD 0xE5 0xC2 0x31 0x7E 0x7E 0xF9;
    b8 0x9B 0x42 0x6A 0x85 0xC1 0xB3 0x48 0x33;
    b8 0xDE 0xA8 0xFF 0xA2 0x27 0xC1 0x1D 0xFE;
    b8 0x28 0x59 0xE7 0xEF 0x77 0x5E 0x4B 0xA1;
    b8 0xBA 0x3D 0x4D 0x6B 0x60 0xAF 0x28 0xF8;
    b8 0x21 0xB5 0x3F 0x05 0x39 0x81 0x64 0x9C;
    b8 0x42 0xB4 0x95 0x23 0x66 0xCB 0x3E 0x9E;
    b8 0xCD 0xE9 0x04 0x04 0xB7 0x06 0x8E 0x85;
    b2 0xC6 0x00 ].
(** src/ecp/ecp_curves.c:292-302 *)
Definition secp521r1_gy : list Z :=
  [ b8 0x50 0x66 0xD1 0x9F 0x76 0x94 0xBE 0x88;
    b8 0x40 0xC2 0x72 0xA2 0x86 0x70 0x3C 0x35;
    b8 0x61 0x07 0xAD 0x3F 0x01 0xB9 0x50 0xC5;
    b8 0x40 0x26 0xF4 0x5E 0x99 0x72 0xEE 0x97;
    b8 0x2C 0x66 0x3E 0x27 0x17 0xBD 0xAF 0x17;
    b8 0x68 0x44 0x9B 0x57 0x49 0x44 0xF5 0x98;
    b8 0xD9 0x1B 0x7D 0x2C 0xB4 0x5F 0x8A 0x5C;
    b8 0x04 0xC0 0x3B 0x9A 0x78 0x6A 0x29 0x39;
    b2 0x18 0x01 ].
(** src/ecp/ecp_curves.c:303-313 *)
Definition secp521r1_n : list Z :=
  [ b8 0x09 0x64 0x38 0x91 0x1E 0xB7 0x6F 0xBB;
    b8 0xAE 0x47 0x9C 0x89 0xB8 0xC9 0xB5 0x3B;
    b8 0xD0 0xA5 0x09 0xF7 0x48 0x01 0xCC 0x7F;
    b8 0x6B 0x96 0x2F 0xBF 0x83 0x87 0x86 0x51;
    b8 0xFA 0xFF 0xFF 0xFF 0xFF 0xFF 0xFF 0xFF;
    b8 0xFF 0xFF 0xFF 0xFF 0xFF 0xFF 0xFF 0xFF;
    b8 0xFF 0xFF 0xFF 0xFF 0xFF 0xFF 0xFF 0xFF;
    b8 0xFF 0xFF 0xFF 0xFF 0xFF 0xFF 0xFF 0xFF;
    b2 0xFF 0x01 ].

(** src/ecp/ecp_curves.c:324-328 *)
Definition secp192k1_p : list Z :=
  [ b8 0x37 0xEE 0xFF 0xFF 0xFE 0xFF 0xFF 0xFF;
    b8 0xFF 0xFF 0xFF 0xFF 0xFF 0xFF 0xFF 0xFF;
    b8 0xFF 0xFF 0xFF 0xFF 0xFF 0xFF 0xFF 0xFF ].
(** src/ecp/ecp_curves.c:329-331 *)
Definition secp192k1_a : option (list Z) := Some
  [ b2 0x00 0x00 ].
(** src/ecp/ecp_curves.c:332-334 *)
Definition secp192k1_b : list Z :=
  [ b2 0x03 0x00 ].
(** src/ecp/ecp_curves.c:335-339 *)
Definition secp192k1_gx : list Z :=
  [ b8 0x7D 0x6C 0xE0 0xEA 0xB1 0xD1 0xA5 0x1D;
    b8 0x34 0xF4 0xB7 0x80 0x02 0x7D 0xB0 0x26;
    b8 0xAE 0xE9 0x57 0xC0 0x0E 0xF1 0x4F 0xDB ].
(** src/ecp/ecp_curves.c:340-344 *)
Definition secp192k1_gy : list Z :=
  [ b8 0x9D 0x2F 0x5E 0xD9 0x88 0xAA 0x82 0x40;
    b8 0x34 0x86 0xBE 0x15 0xD0 0x63 0x41 0x84;
    b8 0xA7 0x28 0x56 0x9C 0x6D 0x2F 0x2F 0x9B ].
(** src/ecp/ecp_curves.c:345-349 *)
Definition secp192k1_n : list Z :=
  [ b8 0x8D 0xFD 0xDE 0x74 0x6A 0x46 0x69 0x0F;
    b8 0x17 0xFC 0xF2 0x26 0xFE 0xFF 0xFF 0xFF;
    b8 0xFF 0xFF 0xFF 0xFF 0xFF 0xFF 0xFF 0xFF ].

(** src/ecp/ecp_curves.c:360-365 *)
Definition secp224k1_p : list Z :=
  [ b8 0x6D 0xE5 0xFF 0xFF 0xFE 0xFF 0xFF 0xFF;
    b8 0xFF 0xFF 0xFF 0xFF 0xFF 0xFF 0xFF 0xFF;
    b8 0xFF 0xFF 0xFF 0xFF 0xFF 0xFF 0xFF 0xFF;
    b4 0xFF 0xFF 0xFF 0xFF ].
(** src/ecp/ecp_curves.c:366-368 *)
Definition secp224k1_a : option (list Z) := Some
  [ b2 0x00 0x00 ].
(** src/ecp/ecp_curves.c:369-371 *)
Definition secp224k1_b : list Z :=
  [ b2 0x05 0x00 ].
(** src/ecp/ecp_curves.c:372-377 *)
Definition secp224k1_gx : list Z :=
  [ b8 0x5C 0xA4 0xB7 0xB6 0x0E 0x65 0x7E 0x0F;
    b8 0xA9 0x75 0x70 0xE4 0xE9 0x67 0xA4 0x69;
    b8 0xA1 0x28 0xFC 0x30 0xDF 0x99 0xF0 0x4D;
    b4 0x33 0x5B 0x45 0xA1 ].
(** src/ecp/ecp_curves.c:378-383 *)
Definition secp224k1_gy : list Z :=
  [ b8 0xA5 0x61 0x6D 0x55 0xDB 0x4B 0xCA 0xE2;
    b8 0x59 0xBD 0xB0 0xC0 0xF7 0x19 0xE3 0xF7;
    b8 0xD6 0xFB 0xCA 0x82 0x42 0x34 0xBA 0x7F;
    b4 0xED 0x9F 0x08 0x7E ].
(** src/ecp/ecp_curves.c:384-389 *)
Definition secp224k1_n : list Z :=
  [ b8 0xF7 0xB1 0x9F 0x76 0x71 0xA9 0xF0 0xCA;
    b8 0x84 0x61 0xEC 0xD2 0xE8 0xDC 0x01 0x00;
    b8 0x00 0x00 0x00 0x00 0x00 0x00 0x00 0x00;
    b8 0x00 0x00 0x00 0x00 0x01 0x00 0x00 0x00 ].

(** src/ecp/ecp_curves.c:400-405 *)
Definition secp256k1_p : list Z :=
  [ b8 0x2F 0xFC 0xFF 0xFF 0xFE 0xFF 0xFF 0xFF;
    b8 0xFF 0xFF 0xFF 0xFF 0xFF 0xFF 0xFF 0xFF;
    b8 0xFF 0xFF 0xFF 0xFF 0xFF 0xFF 0xFF 0xFF;
    b8 0xFF 0xFF 0xFF 0xFF 0xFF 0xFF 0xFF 0xFF ].
(** src/ecp/ecp_curves.c:406-408 *)
Definition secp256k1_a : option (list Z) := Some
  [ b2 0x00 0x00 ].
(** src/ecp/ecp_curves.c:409-411 *)
Definition secp256k1_b : list Z :=
  [ b2 0x07 0x00 ].
(** src/ecp/ecp_curves.c:412-417 *)
Definition secp256k1_gx : list Z :=
  [ b8 0x98 0x17 0xF8 0x16 0x5B 0x81 0xF2 0x59;
    b8 0xD9 0x28 0xCE 0x2D 0xDB 0xFC 0x9B 0x02;
    b8 0x07 0x0B 0x87 0xCE 0x95 0x62 0xA0 0x55;
    b8 0xAC 0xBB 0xDC 0xF9 0x7E 0x66 0xBE 0x79 ].
(** src/ecp/ecp_curves.c:418-423 *)
Definition secp256k1_gy : list Z :=
  [ b8 0xB8 0xD4 0x10 0xFB 0x8F 0xD0 0x47 0x9C;
    b8 0x19 0x54 0x85 0xA6 0x48 0xB4 0x17 0xFD;
    b8 0xA8 0x08 0x11 0x0E 0xFC 0xFB 0xA4 0x5D;
    b8 0x65 0xC4 0xA3 0x26 0x77 0xDA 0x3A 0x48 ].
(** src/ecp/ecp_curves.c:424-429 *)
Definition secp256k1_n : list Z :=
  [ b8 0x41 0x41 0x36 0xD0 0x8C 0x5E 0xD2 0xBF;
    b8 0x3B 0xA0 0x48 0xAF 0xE6 0xDC 0xAE 0xBA;
    b8 0xFE 0xFF 0xFF 0xFF 0xFF 0xFF 0xFF 0xFF;
    b8 0xFF 0xFF 0xFF 0xFF 0xFF 0xFF 0xFF 0xFF ].

(** src/ecp/ecp_curves.c:440-445 *)
Definition brainpoolP256r1_p : list Z :=
  [ b8 0x77 0x53 0x6E 0x1F 0x1D 0x48 0x13 0x20;
    b8 0x28 0x20 0x26 0xD5 0x23 0xF6 0x3B 0x6E;
    b8 0x72 0x8D 0x83 0x9D 0x90 0x0A 0x66 0x3E;
    b8 0xBC 0xA9 0xEE 0xA1 0xDB 0x57 0xFB 0xA9 ].
(** src/ecp/ecp_curves.c:446-451 *)
Definition brainpoolP256r1_a : option (list Z) := Some
  [ b8 0xD9 0xB5 0x30 0xF3 0x44 0x4B 0x4A 0xE9;
    b8 0x6C 0x5C 0xDC 0x26 0xC1 0x55 0x80 0xFB;
    b8 0xE7 0xFF 0x7A 0x41 0x30 0x75 0xF6 0xEE;
    b8 0x57 0x30 0x2C 0xFC 0x75 0x09 0x5A 0x7D ].
(** src/ecp/ecp_curves.c:452-457 *)
Definition brainpoolP256r1_b : list Z :=
  [ b8 0xB6 0x07 0x8C 0xFF 0x18 0xDC 0xCC 0x6B;
    b8 0xCE 0xE1 0xF7 0x5C 0x29 0x16 0x84 0x95;
    b8 0xBF 0x7C 0xD7 0xBB 0xD9 0xB5 0x30 0xF3;
    b8 0x44 0x4B 0x4A 0xE9 0x6C 0x5C 0xDC 0x26 ].
(** src/ecp/ecp_curves.c:458-463 *)
Definition brainpoolP256r1_gx : list Z :=
  [ b8 0x62 0x32 0xCE 0x9A 0xBD 0x53 0x44 0x3A;
    b8 0xC2 0x23 0xBD 0xE3 0xE1 0x27 0xDE 0xB9;
    b8 0xAF 0xB7 0x81 0xFC 0x2F 0x48 0x4B 0x2C;
    b8 0xCB 0x57 0x7E 0xCB 0xB9 0xAE 0xD2 0x8B ].
(** src/ecp/ecp_curves.c:464-469 *)
Definition brainpoolP256r1_gy : list Z :=
  [ b8 0x97 0x69 0x04 0x2F 0xC7 0x54 0x1D 0x5C;
    b8 0x54 0x8E 0xED 0x2D 0x13 0x45 0x77 0xC2;
    b8 0xC9 0x1D 0x61 0x14 0x1A 0x46 0xF8 0x97;
    b8 0xFD 0xC4 0xDA 0xC3 0x35 0xF8 0x7E 0x54 ].
(** src/ecp/ecp_curves.c:470-475 *)
Definition brainpoolP256r1_n : list Z :=
  [ b8 0xA7 0x56 0x48 0x97 0x82 0x0E 0x1E 0x90;
    b8 0xF7 0xA6 0x61 0xB5 0xA3 0x7A 0x39 0x8C;
    b8 0x71 0x8D 0x83 0x9D 0x90 0x0A 0x66 0x3E;
    b8 0xBC 0xA9 0xEE 0xA1 0xDB 0x57 0xFB 0xA9 ].

(** src/ecp/ecp_curves.c:486-493 *)
Definition brainpoolP384r1_p : list Z :=
  [ b8 0x53 0xEC 0x07 0x31 0x13 0x00 0x47 0x87;
    b8 0x71 0x1A 0x1D 0x90 0x29 0xA7 0xD3 0xAC;
    b8 0x23 0x11 0xB7 0x7F 0x19 0xDA 0xB1 0x12;
    b8 0xB4 0x56 0x54 0xED 0x09 0x71 0x2F 0x15;
    b8 0xDF 0x41 0xE6 0x50 0x7E 0x6F 0x5D 0x0F;
    b8 0x28 0x6D 0x38 0xA3 0x82 0x1E 0xB9 0x8C ].
(** src/ecp/ecp_curves.c:494-501 *)
Definition brainpoolP384r1_a : option (list Z) := Some
  [ b8 0x26 0x28 0xCE 0x22 0xDD 0xC7 0xA8 0x04;
    b8 0xEB 0xD4 0x3A 0x50 0x4A 0x81 0xA5 0x8A;
    b8 0x0F 0xF9 0x91 0xBA 0xEF 0x65 0x91 0x13;
    b8 0x87 0x27 0xB2 0x4F 0x8E 0xA2 0xBE 0xC2;
    b8 0xA0 0xAF 0x05 0xCE 0x0A 0x08 0x72 0x3C;
    b8 0x0C 0x15 0x8C 0x3D 0xC6 0x82 0xC3 0x7B ].
(** src/ecp/ecp_curves.c:502-509 *)
Definition brainpoolP384r1_b : list Z :=
  [ b8 0x11 0x4C 0x50 0xFA 0x96 0x86 0xB7 0x3A;
    b8 0x94 0xC9 0xDB 0x95 0x02 0x39 0xB4 0x7C;
    b8 0xD5 0x62 0xEB 0x3E 0xA5 0x0E 0x88 0x2E;
    b8 0xA6 0xD2 0xDC 0x07 0xE1 0x7D 0xB7 0x2F;
    b8 0x7C 0x44 0xF0 0x16 0x54 0xB5 0x39 0x8B;
    b8 0x26 0x28 0xCE 0x22 0xDD 0xC7 0xA8 0x04 ].
(** src/ecp/ecp_curves.c:510-517 *)
Definition brainpoolP384r1_gx : list Z :=
  [ b8 0x1E 0xAF 0xD4 0x47 0xE2 0xB2 0x87 0xEF;
    b8 0xAA 0x46 0xD6 0x36 0x34 0xE0 0x26 0xE8;
    b8 0xE8 0x10 0xBD 0x0C 0xFE 0xCA 0x7F 0xDB;
    b8 0xE3 0x4F 0xF1 0x7E 0xE7 0xA3 0x47 0x88;
    b8 0x6B 0x3F 0xC1 0xB7 0x81 0x3A 0xA6 0xA2;
    b8 0xFF 0x45 0xCF 0x68 0xF0 0x64 0x1C 0x1D ].
(** src/ecp/ecp_curves.c:518-525 *)
Definition brainpoolP384r1_gy : list Z :=
  [ b8 0x15 0x53 0x3C 0x26 0x41 0x03 0x82 0x42;
    b8 0x11 0x81 0x91 0x77 0x21 0x46 0x46 0x0E;
    b8 0x28 0x29 0x91 0xF9 0x4F 0x05 0x9C 0xE1;
    b8 0x64 0x58 0xEC 0xFE 0x29 0x0B 0xB7 0x62;
    b8 0x52 0xD5 0xCF 0x95 0x8E 0xEB 0xB1 0x5C;
    b8 0xA4 0xC2 0xF9 0x20 0x75 0x1D 0xBE 0x8A ].
(** src/ecp/ecp_curves.c:526-533 *)
Definition brainpoolP384r1_n : list Z :=
  [ b8 0x65 0x65 0x04 0xE9 0x02 0x32 0x88 0x3B;
    b8 0x10 0xC3 0x7F 0x6B 0xAF 0xB6 0x3A 0xCF;
    b8 0xA7 0x25 0x04 0xAC 0x6C 0x6E 0x16 0x1F;
    b8 0xB3 0x56 0x54 0xED 0x09 0x71 0x2F 0x15;
    b8 0xDF 0x41 0xE6 0x50 0x7E 0x6F 0x5D 0x0F;
    b8 0x28 0x6D 0x38 0xA3 0x82 0x1E 0xB9 0x8C ].

(** src/ecp/ecp_curves.c:544-553 *)
Definition brainpoolP512r1_p : list Z :=
  [ b8 0xF3 0x48 0x3A 0x58 0x56 0x60 0xAA 0x28;
    b8 0x85 0xC6 0x82 0x2D 0x2F 0xFF 0x81 0x28;
    b8 0xE6 0x80 0xA3 0xE6 0x2A 0xA1 0xCD 0xAE;
    b8 0x42 0x68 0xC6 0x9B 0x00 0x9B 0x4D 0x7D;
    b8 0x71 0x08 0x33 0x70 0xCA 0x9C 0x63 0xD6;
    b8 0x0E 0xD2 0xC9 0xB3 0xB3 0x8D 0x30 0xCB;
    b8 0x07 0xFC 0xC9 0x33 0xAE 0xE6 0xD4 0x3F;
    b8 0x8B 0xC4 0xE9 0xDB 0xB8 0x9D 0xDD 0xAA ].
(** src/ecp/ecp_curves.c:554-563 *)
Definition brainpoolP512r1_a : option (list Z) := Some
  [ b8 0xCA 0x94 0xFC 0x77 0x4D 0xAC 0xC1 0xE7;
    b8 0xB9 0xC7 0xF2 0x2B 0xA7 0x17 0x11 0x7F;
    b8 0xB5 0xC8 0x9A 0x8B 0xC9 0xF1 0x2E 0x0A;
    b8 0xA1 0x3A 0x25 0xA8 0x5A 0x5D 0xED 0x2D;
    b8 0xBC 0x63 0x98 0xEA 0xCA 0x41 0x34 0xA8;
    b8 0x10 0x16 0xF9 0x3D 0x8D 0xDD 0xCB 0x94;
    b8 0xC5 0x4C 0x23 0xAC 0x45 0x71 0x32 0xE2;
    b8 0x89 0x3B 0x60 0x8B 0x31 0xA3 0x30 0x78 ].
(** src/ecp/ecp_curves.c:564-573 *)
Definition brainpoolP512r1_b : list Z :=
  [ b8 0x23 0xF7 0x16 0x80 0x63 0xBD 0x09 0x28;
    b8 0xDD 0xE5 0xBA 0x5E 0xB7 0x50 0x40 0x98;
    b8 0x67 0x3E 0x08 0xDC 0xCA 0x94 0xFC 0x77;
    b8 0x4D 0xAC 0xC1 0xE7 0xB9 0xC7 0xF2 0x2B;
    b8 0xA7 0x17 0x11 0x7F 0xB5 0xC8 0x9A 0x8B;
    b8 0xC9 0xF1 0x2E 0x0A 0xA1 0x3A 0x25 0xA8;
    b8 0x5A 0x5D 0xED 0x2D 0xBC 0x63 0x98 0xEA;
    b8 0xCA 0x41 0x34 0xA8 0x10 0x16 0xF9 0x3D ].
(** src/ecp/ecp_curves.c:574-583 *)
Definition brainpoolP512r1_gx : list Z :=
  [ b8 0x22 0xF8 0xB9 0xBC 0x09 0x22 0x35 0x8B;
    b8 0x68 0x5E 0x6A 0x40 0x47 0x50 0x6D 0x7C;
    b8 0x5F 0x7D 0xB9 0x93 0x7B 0x68 0xD1 0x50;
    b8 0x8D 0xD4 0xD0 0xE2 0x78 0x1F 0x3B 0xFF;
    b8 0x8E 0x09 0xD0 0xF4 0xEE 0x62 0x3B 0xB4;
    b8 0xC1 0x16 0xD9 0xB5 0x70 0x9F 0xED 0x85;
    b8 0x93 0x6A 0x4C 0x9C 0x2E 0x32 0x21 0x5A;
    b8 0x64 0xD9 0x2E 0xD8 0xBD 0xE4 0xAE 0x81 ].
(** src/ecp/ecp_curves.c:584-593 *)
Definition brainpoolP512r1_gy : list Z :=
  [ b8 0x92 0x08 0xD8 0x3A 0x0F 0x1E 0xCD 0x78;
    b8 0x06 0x54 0xF0 0xA8 0x2F 0x2B 0xCA 0xD1;
    b8 0xAE 0x63 0x27 0x8A 0xD8 0x4B 0xCA 0x5B;
    b8 0x5E 0x48 0x5F 0x4A 0x49 0xDE 0xDC 0xB2;
    b8 0x11 0x81 0x1F 0x88 0x5B 0xC5 0x00 0xA0;
    b8 0x1A 0x7B 0xA5 0x24 0x00 0xF7 0x09 0xF2;
    b8 0xFD 0x22 0x78 0xCF 0xA9 0xBF 0xEA 0xC0;
    b8 0xEC 0x32 0x63 0x56 0x5D 0x38 0xDE 0x7D ].
(** src/ecp/ecp_curves.c:594-603 *)
Definition brainpoolP512r1_n : list Z :=
  [ b8 0x69 0x00 0xA9 0x9C 0x82 0x96 0x87 0xB5;
    b8 0xDD 0xDA 0x5D 0x08 0x81 0xD3 0xB1 0x1D;
    b8 0x47 0x10 0xAC 0x7F 0x19 0x61 0x86 0x41;
    b8 0x19 0x26 0xA9 0x4C 0x41 0x5C 0x3E 0x55;
    b8 0x70 0x08 0x33 0x70 0xCA 0x9C 0x63 0xD6;
    b8 0x0E 0xD2 0xC9 0xB3 0xB3 0x8D 0x30 0xCB;
    b8 0x07 0xFC 0xC9 0x33 0xAE 0xE6 0xD4 0x3F;
    b8 0x8B 0xC4 0xE9 0xDB 0xB8 0x9D 0xDD 0xAA ].

(** src/ecp/ecp_curves.c:608-614 ecp_mpi_load: the object points at the table
    and owns no memory (alloc = 0: see cry_mpi_clear, src/mpi/mpi_core.c:120-131,
    which frees nothing then).  The digits are taken as they are. *)
Definition mpi_load (d : list Z) : mpi := mkmpi false d.
(** src/ecp/ecp_curves.c:616-640 ecp_grp_load; [None] is a NULL table for [a] *)
Definition grp_load1 (p : list Z) (a : option (list Z)) (b gx gy n : list Z) : grp :=
  {| gp := mpi_load p;
     ga := match a with Some a => mpi_load a | None => mkmpi true [3] end;
     gb := mpi_load b;
     gg := {| ex := mpi_load gx; ey := mpi_load gy; ez := mpi_load [1] |};
     gn := mpi_load n |}.
(** src/ecp/ecp_curves.c:641-713 cry_ecp_grp_load; ids in include/cry/ecp.h:11-21 *)
Definition ecp_grp_load (id : Z) : res grp :=
  match id with
  | 0 => Ok (grp_load1 secp192r1_p secp192r1_a secp192r1_b secp192r1_gx secp192r1_gy secp192r1_n)
  | 1 => Ok (grp_load1 secp224r1_p secp224r1_a secp224r1_b secp224r1_gx secp224r1_gy secp224r1_n)
  | 2 => Ok (grp_load1 secp256r1_p secp256r1_a secp256r1_b secp256r1_gx secp256r1_gy secp256r1_n)
  | 3 => Ok (grp_load1 secp384r1_p secp384r1_a secp384r1_b secp384r1_gx secp384r1_gy secp384r1_n)
  | 4 => Ok (grp_load1 secp521r1_p secp521r1_a secp521r1_b secp521r1_gx secp521r1_gy secp521r1_n)
  | 5 => Ok (grp_load1 secp192k1_p secp192k1_a secp192k1_b secp192k1_gx secp192k1_gy secp192k1_n)
  | 6 => Ok (grp_load1 secp224k1_p secp224k1_a secp224k1_b secp224k1_gx secp224k1_gy secp224k1_n)
  | 7 => Ok (grp_load1 secp256k1_p secp256k1_a secp256k1_b secp256k1_gx secp256k1_gy secp256k1_n)
  | 8 => Ok (grp_load1 brainpoolP256r1_p brainpoolP256r1_a brainpoolP256r1_b brainpoolP256r1_gx brainpoolP256r1_gy brainpoolP256r1_n)
  | 9 => Ok (grp_load1 brainpoolP384r1_p brainpoolP384r1_a brainpoolP384r1_b brainpoolP384r1_gx brainpoolP384r1_gy brainpoolP384r1_n)
  | 10 => Ok (grp_load1 brainpoolP512r1_p brainpoolP512r1_a brainpoolP512r1_b brainpoolP512r1_gx brainpoolP512r1_gy brainpoolP512r1_n)
  | _ => Err (-1)
  end.
