(** Model of the curve tables of dstulib/params.c and of the functions that build and recognise
    groups.  The tables were copied from the source by a script. *)
From Coq Require Import ZArith.
From Verif Require Import Base Model_Gf2m Model_Compress Model_Ec Model_Utils.

(** params.c:14-34: A, B, N, Px, Py. *)
Definition data163 : list N :=
  [0x01;
   0x05; 0xFF; 0x61; 0x08; 0x46; 0x2A; 0x2D; 0xC8; 0x21; 0x0A; 0xB4; 0x03; 0x92; 0x5E; 0x63; 0x8A; 0x19; 0xC1; 0x45; 0x5D; 0x21;
   0x04; 0x00; 0x00; 0x00; 0x00; 0x00; 0x00; 0x00; 0x00; 0x00; 0x02; 0xBE; 0xC1; 0x2B; 0xE2; 0x26; 0x2D; 0x39; 0xBC; 0xF1; 0x4D;
   0x02; 0xE2; 0xF8; 0x5F; 0x5D; 0xD7; 0x4C; 0xE9; 0x83; 0xA5; 0xC4; 0x23; 0x72; 0x29; 0xDA; 0xF8; 0xA3; 0xF3; 0x58; 0x23; 0xBE;
   0x03; 0x82; 0x6F; 0x00; 0x8A; 0x8C; 0x51; 0xD7; 0xB9; 0x52; 0x84; 0xD9; 0xD0; 0x3F; 0xF0; 0xE0; 0x0C; 0xE2; 0xCD; 0x72; 0x3A].
(** params.c:36-56: A, B, N, Px, Py. *)
Definition data167 : list N :=
  [0x01;
   0x6E; 0xE3; 0xCE; 0xEB; 0x23; 0x08; 0x11; 0x75; 0x9F; 0x20; 0x51; 0x8A; 0x09; 0x30; 0xF1; 0xA4; 0x31; 0x5A; 0x82; 0x7D; 0xAC;
   0x3F; 0xFF; 0xFF; 0xFF; 0xFF; 0xFF; 0xFF; 0xFF; 0xFF; 0xFF; 0xFF; 0xB1; 0x2E; 0xBC; 0xC7; 0xD7; 0xF2; 0x9F; 0xF7; 0x70; 0x1F;
   0x7A; 0x1F; 0x66; 0x53; 0x78; 0x6A; 0x68; 0x19; 0x28; 0x03; 0x91; 0x0A; 0x3D; 0x30; 0xB2; 0xA2; 0x01; 0x8B; 0x21; 0xCD; 0x54;
   0x5F; 0x49; 0xEB; 0x26; 0x78; 0x1C; 0x0E; 0xC6; 0xB8; 0x90; 0x91; 0x56; 0xD9; 0x8E; 0xD4; 0x35; 0xE4; 0x5F; 0xD5; 0x99; 0x18].
(** params.c:58-78: A, B, N, Px, Py. *)
Definition data173 : list N :=
  [0x00;
   0x10; 0x85; 0x76; 0xC8; 0x04; 0x99; 0xDB; 0x2F; 0xC1; 0x6E; 0xDD; 0xF6; 0x85; 0x3B; 0xBB; 0x27; 0x8F; 0x6B; 0x6F; 0xB4; 0x37; 0xD9;
   0x08; 0x00; 0x00; 0x00; 0x00; 0x00; 0x00; 0x00; 0x00; 0x00; 0x00; 0x18; 0x9B; 0x4E; 0x67; 0x60; 0x6E; 0x38; 0x25; 0xBB; 0x28; 0x31;
   0x04; 0xD4; 0x1A; 0x61; 0x9B; 0xCC; 0x6E; 0xAD; 0xF0; 0x44; 0x8F; 0xA2; 0x2F; 0xAD; 0x56; 0x7A; 0x91; 0x81; 0xD3; 0x73; 0x89; 0xCA;
   0x10; 0xB5; 0x1C; 0xC1; 0x28; 0x49; 0xB2; 0x34; 0xC7; 0x5E; 0x6D; 0xD2; 0x02; 0x8B; 0xF7; 0xFF; 0x5C; 0x1C; 0xE0; 0xD9; 0x91; 0xA1].
(** params.c:80-100: A, B, N, Px, Py. *)
Definition data179 : list N :=
  [0x01;
   0x04; 0xA6; 0xE0; 0x85; 0x65; 0x26; 0x43; 0x6F; 0x2F; 0x88; 0xDD; 0x07; 0xA3; 0x41; 0xE3; 0x2D; 0x04; 0x18; 0x45; 0x72; 0xBE; 0xB7; 0x10;
   0x03; 0xFF; 0xFF; 0xFF; 0xFF; 0xFF; 0xFF; 0xFF; 0xFF; 0xFF; 0xFF; 0xFF; 0xB9; 0x81; 0x96; 0x04; 0x35; 0xFE; 0x5A; 0xB6; 0x42; 0x36; 0xEF;
   0x06; 0xBA; 0x06; 0xFE; 0x51; 0x46; 0x4B; 0x2B; 0xD2; 0x6D; 0xC5; 0x7F; 0x48; 0x81; 0x9B; 0xA9; 0x95; 0x46; 0x67; 0x02; 0x2C; 0x7D; 0x03;
   0x02; 0x5F; 0xBC; 0x36; 0x35; 0x82; 0xDC; 0xEC; 0x06; 0x50; 0x80; 0xCA; 0x82; 0x87; 0xAA; 0xFF; 0x09; 0x78; 0x8A; 0x66; 0xDC; 0x3A; 0x9E].
(** params.c:102-122: A, B, N, Px, Py. *)
Definition data191 : list N :=
  [0x01;
   0x7B; 0xC8; 0x6E; 0x21; 0x02; 0x90; 0x2E; 0xC4; 0xD5; 0x89; 0x0E; 0x8B; 0x6B; 0x49; 0x81; 0xFF; 0x27; 0xE0; 0x48; 0x27; 0x50; 0xFE; 0xFC; 0x03;
   0x40; 0x00; 0x00; 0x00; 0x00; 0x00; 0x00; 0x00; 0x00; 0x00; 0x00; 0x00; 0x69; 0xA7; 0x79; 0xCA; 0xC1; 0xDA; 0xBC; 0x67; 0x88; 0xF7; 0x47; 0x4F;
   0x71; 0x41; 0x14; 0xB7; 0x62; 0xF2; 0xFF; 0x4A; 0x79; 0x12; 0xA6; 0xD2; 0xAC; 0x58; 0xB9; 0xB5; 0xC2; 0xFC; 0xFE; 0x76; 0xDA; 0xEB; 0x71; 0x29;
   0x29; 0xC4; 0x1E; 0x56; 0x8B; 0x77; 0xC6; 0x17; 0xEF; 0xE5; 0x90; 0x2F; 0x11; 0xDB; 0x96; 0xFA; 0x96; 0x13; 0xCD; 0x8D; 0x03; 0xDB; 0x08; 0xDA].
(** params.c:124-148: A, B, N, Px, Py. *)
Definition data233 : list N :=
  [0x01;
   0x00; 0x69; 0x73; 0xB1; 0x50; 0x95; 0x67; 0x55; 0x34; 0xC7; 0xCF; 0x7E; 0x64; 0xA2; 0x1B; 0xD5; 0x4E; 0xF5; 0xDD; 0x3B; 0x8A; 0x03; 0x26; 0xAA; 0x93; 0x6E; 0xCE; 0x45; 0x4D; 0x2C;
   0x01; 0x00; 0x00; 0x00; 0x00; 0x00; 0x00; 0x00; 0x00; 0x00; 0x00; 0x00; 0x00; 0x00; 0x00; 0x13; 0xE9; 0x74; 0xE7; 0x2F; 0x8A; 0x69; 0x22; 0x03; 0x1D; 0x26; 0x03; 0xCF; 0xE0; 0xD7;
   0x00; 0x3F; 0xCD; 0xA5; 0x26; 0xB6; 0xCD; 0xF8; 0x3B; 0xA1; 0x11; 0x8D; 0xF3; 0x5B; 0x3C; 0x31; 0x76; 0x1D; 0x35; 0x45; 0xF3; 0x27; 0x28; 0xD0; 0x03; 0xEE; 0xB2; 0x5E; 0xFE; 0x96;
   0x00; 0x9C; 0xA8; 0xB5; 0x7A; 0x93; 0x4C; 0x54; 0xDE; 0xED; 0xA9; 0xE5; 0x4A; 0x7B; 0xBA; 0xD9; 0x5E; 0x3B; 0x2E; 0x91; 0xC5; 0x4D; 0x32; 0xBE; 0x0B; 0x9D; 0xF9; 0x6D; 0x8D; 0x35].
(** params.c:150-174: A, B, N, Px, Py. *)
Definition data257 : list N :=
  [0x00;
   0x01; 0xCE; 0xF4; 0x94; 0x72; 0x01; 0x15; 0x65; 0x7E; 0x18; 0xF9; 0x38; 0xD7; 0xA7; 0x94; 0x23; 0x94; 0xFF; 0x94; 0x25; 0xC1; 0x45; 0x8C; 0x57; 0x86; 0x1F; 0x9E; 0xEA; 0x6A; 0xDB; 0xE3; 0xBE; 0x10;
   0x00; 0x80; 0x00; 0x00; 0x00; 0x00; 0x00; 0x00; 0x00; 0x00; 0x00; 0x00; 0x00; 0x00; 0x00; 0x00; 0x00; 0x67; 0x59; 0x21; 0x3A; 0xF1; 0x82; 0xE9; 0x87; 0xD3; 0xE1; 0x77; 0x14; 0x90; 0x7D; 0x47; 0x0D;
   0x00; 0x2A; 0x29; 0xEF; 0x20; 0x7D; 0x0E; 0x9B; 0x6C; 0x55; 0xCD; 0x26; 0x0B; 0x30; 0x6C; 0x7E; 0x00; 0x7A; 0xC4; 0x91; 0xCA; 0x1B; 0x10; 0xC6; 0x23; 0x34; 0xA9; 0xE8; 0xDC; 0xD8; 0xD2; 0x0F; 0xB7;
   0x01; 0x06; 0x86; 0xD4; 0x1F; 0xF7; 0x44; 0xD4; 0x44; 0x9F; 0xCC; 0xF6; 0xD8; 0xEE; 0xA0; 0x31; 0x02; 0xE6; 0x81; 0x2C; 0x93; 0xA9; 0xD6; 0x0B; 0x97; 0x8B; 0x70; 0x2C; 0xF1; 0x56; 0xD8; 0x14; 0xEF].
(** params.c:176-204: A, B, N, Px, Py. *)
Definition data307 : list N :=
  [0x01;
   0x03; 0x93; 0xC7; 0xF7; 0xD5; 0x36; 0x66; 0xB5; 0x05; 0x4B; 0x5E; 0x6C; 0x6D; 0x3D; 0xE9; 0x4F; 0x42; 0x96; 0xC0; 0xC5; 0x99; 0xE2; 0xE2; 0xE2; 0x41; 0x05; 0x0D; 0xF1; 0x8B; 0x60; 0x90; 0xBD; 0xC9; 0x01; 0x86; 0x90; 0x49; 0x68; 0xBB;
   0x03; 0xFF; 0xFF; 0xFF; 0xFF; 0xFF; 0xFF; 0xFF; 0xFF; 0xFF; 0xFF; 0xFF; 0xFF; 0xFF; 0xFF; 0xFF; 0xFF; 0xFF; 0xFF; 0xFF; 0xC0; 0x79; 0xC2; 0xF3; 0x82; 0x5D; 0xA7; 0x0D; 0x39; 0x0F; 0xBB; 0xA5; 0x88; 0xD4; 0x60; 0x40; 0x22; 0xB7; 0xB7;
   0x02; 0x16; 0xEE; 0x8B; 0x18; 0x9D; 0x29; 0x1A; 0x02; 0x24; 0x98; 0x4C; 0x1E; 0x92; 0xF1; 0xD1; 0x6B; 0xF7; 0x5C; 0xCD; 0x82; 0x5A; 0x08; 0x7A; 0x23; 0x9B; 0x27; 0x6D; 0x31; 0x67; 0x74; 0x3C; 0x52; 0xC0; 0x2D; 0x6E; 0x72; 0x32; 0xAA;
   0x05; 0xD9; 0x30; 0x6B; 0xAC; 0xD2; 0x2B; 0x7F; 0xAE; 0xB0; 0x9D; 0x2E; 0x04; 0x9C; 0x6E; 0x28; 0x66; 0xC5; 0xD1; 0x67; 0x77; 0x62; 0xA8; 0xF2; 0xF2; 0xDC; 0x9A; 0x11; 0xC7; 0xF7; 0xBE; 0x83; 0x40; 0xAB; 0x22; 0x37; 0xC7; 0xF2; 0xA0].
(** params.c:206-234: A, B, N, Px, Py. *)
Definition data367 : list N :=
  [0x01;
   0x43; 0xFC; 0x8A; 0xD2; 0x42; 0xB0; 0xB7; 0xA6; 0xF3; 0xD1; 0x62; 0x7A; 0xD5; 0x65; 0x44; 0x47; 0x55; 0x6B; 0x47; 0xBF; 0x6A; 0xA4; 0xA6; 0x4B; 0x0C; 0x2A; 0xFE; 0x42; 0xCA; 0xDA; 0xB8; 0xF9; 0x3D; 0x92; 0x39; 0x4C; 0x79; 0xA7; 0x97; 0x55; 0x43; 0x7B; 0x56; 0x99; 0x51; 0x36;
   0x40; 0x00; 0x00; 0x00; 0x00; 0x00; 0x00; 0x00; 0x00; 0x00; 0x00; 0x00; 0x00; 0x00; 0x00; 0x00; 0x00; 0x00; 0x00; 0x00; 0x00; 0x00; 0x00; 0x9C; 0x30; 0x0B; 0x75; 0xA3; 0xFA; 0x82; 0x4F; 0x22; 0x42; 0x8F; 0xD2; 0x8C; 0xE8; 0x81; 0x22; 0x45; 0xEF; 0x44; 0x04; 0x9B; 0x2D; 0x49;
   0x32; 0x4A; 0x6E; 0xDD; 0xD5; 0x12; 0xF0; 0x8C; 0x49; 0xA9; 0x9A; 0xE0; 0xD3; 0xF9; 0x61; 0x19; 0x7A; 0x76; 0x41; 0x3E; 0x7B; 0xE8; 0x1A; 0x40; 0x0C; 0xA6; 0x81; 0xE0; 0x96; 0x39; 0xB5; 0xFE; 0x12; 0xE5; 0x9A; 0x10; 0x9F; 0x78; 0xBF; 0x4A; 0x37; 0x35; 0x41; 0xB3; 0xB9; 0xA1;
   0x01; 0xAB; 0x59; 0x7A; 0x5B; 0x44; 0x77; 0xF5; 0x9E; 0x39; 0x53; 0x90; 0x07; 0xC7; 0xF9; 0x77; 0xD1; 0xA5; 0x67; 0xB9; 0x2B; 0x04; 0x3A; 0x49; 0xC6; 0xB6; 0x19; 0x84; 0xC3; 0xFE; 0x34; 0x81; 0xAA; 0xF4; 0x54; 0xCD; 0x41; 0xBA; 0x1F; 0x05; 0x16; 0x26; 0x44; 0x2B; 0x3C; 0x10].
(** params.c:236-268: A, B, N, Px, Py. *)
Definition data431 : list N :=
  [0x01;
   0x03; 0xCE; 0x10; 0x49; 0x0F; 0x6A; 0x70; 0x8F; 0xC2; 0x6D; 0xFE; 0x8C; 0x3D; 0x27; 0xC4; 0xF9; 0x4E; 0x69; 0x01; 0x34; 0xD5; 0xBF; 0xF9; 0x88; 0xD8; 0xD2; 0x8A; 0xAE; 0xAE; 0xDE; 0x97; 0x59; 0x36; 0xC6; 0x6B; 0xAC; 0x53; 0x6B; 0x18; 0xAE; 0x2D; 0xC3; 0x12; 0xCA; 0x49; 0x31; 0x17; 0xDA; 0xA4; 0x69; 0xC6; 0x40; 0xCA; 0xF3;
   0x3F; 0xFF; 0xFF; 0xFF; 0xFF; 0xFF; 0xFF; 0xFF; 0xFF; 0xFF; 0xFF; 0xFF; 0xFF; 0xFF; 0xFF; 0xFF; 0xFF; 0xFF; 0xFF; 0xFF; 0xFF; 0xFF; 0xFF; 0xFF; 0xFF; 0xFF; 0xFF; 0xBA; 0x31; 0x75; 0x45; 0x80; 0x09; 0xA8; 0xC0; 0xA7; 0x24; 0xF0; 0x2F; 0x81; 0xAA; 0x8A; 0x1F; 0xCB; 0xAF; 0x80; 0xD9; 0x0C; 0x7A; 0x95; 0x11; 0x05; 0x04; 0xCF;
   0x1A; 0x62; 0xBA; 0x79; 0xD9; 0x81; 0x33; 0xA1; 0x6B; 0xBA; 0xE7; 0xED; 0x9A; 0x8E; 0x03; 0xC3; 0x2E; 0x08; 0x24; 0xD5; 0x7A; 0xEF; 0x72; 0xF8; 0x89; 0x86; 0x87; 0x4E; 0x5A; 0xAE; 0x49; 0xC2; 0x7B; 0xED; 0x49; 0xA2; 0xA9; 0x50; 0x58; 0x06; 0x84; 0x26; 0xC2; 0x17; 0x1E; 0x99; 0xFD; 0x3B; 0x43; 0xC5; 0x94; 0x7C; 0x85; 0x7D;
   0x70; 0xB5; 0xE1; 0xE1; 0x40; 0x31; 0xC1; 0xF7; 0x0B; 0xBE; 0xFE; 0x96; 0xBD; 0xDE; 0x66; 0xF4; 0x51; 0x75; 0x4B; 0x4C; 0xA5; 0xF4; 0x8D; 0xA2; 0x41; 0xF3; 0x31; 0xAA; 0x39; 0x6B; 0x8D; 0x18; 0x39; 0xA8; 0x55; 0xC1; 0x76; 0x9B; 0x1E; 0xA1; 0x4B; 0xA5; 0x33; 0x08; 0xB5; 0xE2; 0x72; 0x37; 0x24; 0xE0; 0x90; 0xE0; 0x2D; 0xB9].

(** params.c:270-282 dstu_curves.  The numbers of the identifiers are those of OpenSSL 1.1.1. *)
Record named_curve := NC { nc_nid : Z; nc_poly : list Z; nc_data : list N }.
(** params.c:270-282 *)
Definition dstu_curves : list named_curve :=
  [NC 1160 [163; 7; 6; 3; 0; -1] data163;
   NC 1161 [167; 6; 0; -1; 0; 0] data167;
   NC 1162 [173; 10; 2; 1; 0; -1] data173;
   NC 1163 [179; 4; 2; 1; 0; -1] data179;
   NC 1164 [191; 9; 0; -1; 0; 0] data191;
   NC 1165 [233; 9; 4; 1; 0; -1] data233;
   NC 1166 [257; 12; 0; -1; 0; 0] data257;
   NC 1167 [307; 8; 4; 2; 0; -1] data307;
   NC 1168 [367; 21; 0; -1; 0; 0] data367;
   NC 1169 [431; 5; 3; 1; 0; -1] data431]%Z.

(** params.c:394-475 group_from_named_curve; None: NULL, or an index outside the table.
    Simplification: memory is sufficient.  EC_POINT_set_affine_coordinates_GF2m checks that the
    point is on the curve. *)
Definition group_from_named_curve (i : nat) : option group :=
  match nth_error dstu_curves i with
  | None => None
  | Some n =>
      let bytesize := Z.to_nat ((hd 0%Z (nc_poly n) + 7) / 8) in
      let field k := be_val (firstn bytesize (skipn (1 + k * bytesize) (nc_data n))) in
      match arr2poly (nc_poly n) 0 with
      | None => None
      | Some p =>
          match new_curve p (if hd 0 (nc_data n) =? 0 then 0 else 1) (field 0%nat) with
          | None => None
          | Some c =>
              match set_affine c (field 2%nat) (field 3%nat) with
              | None => None
              | Some P => set_generator c P (field 1%nat) 1
              end
          end
      end
  end.

(** The loops of params.c:291-295 and 481-485: the first index with the property. *)
Fixpoint find_curve (f : named_curve -> bool) (l : list named_curve) (i : nat) : option nat :=
  match l with [] => None | n :: t => if f n then Some i else find_curve f t (S i) end.
(** params.c:477-488 group_from_nid. *)
Definition group_from_nid (nid : Z) : option group :=
  match find_curve (fun n => (nid =? nc_nid n)%Z) dstu_curves 0 with
  | Some i => group_from_named_curve i
  | None => None
  end.
(** params.c:284-312 curve_nid_from_group; 0 is NID_undef. *)
Definition curve_nid_from_group (g : group) : Z :=
  match find_curve (fun n => (Z.of_N (degree (c_p (g_curve g))) =? hd 0 (nc_poly n))%Z) dstu_curves 0 with
  | None => 0
  | Some i =>
      match group_from_named_curve i, nth_error dstu_curves i with
      | Some std, Some n => if group_eqb g std then nc_nid n else 0
      | _, _ => 0
      end
  end%Z.
