(** Model of printf (kernel/src/io/veas.cpp:321-332), of the font (veas.cpp:6-320) and of the report of an exception
    (kernel/src/core/interrupt.cpp:200-242).
    Simplified: the frame buffer lies apart from the memory the formatter reads and writes; the two IrqGuards (326, 363)
    are C50; an error of the formatter (a missing argument, a format that ends early) is [UB]. *)
From Coq Require Import ZArith String Ascii.
From stdpp Require Import gmap.
From Verif Require Import Base StringModel PrintfModel VesaModel.
Local Open Scope Z_scope.
Local Open Scope outcome_scope.

(** ** veas.cpp:6-320: font_ascii; rows 0 to 32 and 127 to 255 are all zero *)
Definition blank_glyph : list Z := replicate 16 0.
Definition printable_glyphs : list (list Z) :=
  [
   [0x00; 0x10; 0x10; 0x10; 0x10; 0x10; 0x10; 0x10; 0x10; 0x10; 0x00; 0x00; 0x10; 0x10; 0x00; 0x00];   (* 33 *)
   [0x28; 0x28; 0x28; 0x00; 0x00; 0x00; 0x00; 0x00; 0x00; 0x00; 0x00; 0x00; 0x00; 0x00; 0x00; 0x00];   (* 34 *)
   [0x00; 0x44; 0x44; 0x44; 0xfe; 0x44; 0x44; 0x44; 0x44; 0x44; 0xfe; 0x44; 0x44; 0x44; 0x00; 0x00];   (* 35 *)
   [0x10; 0x3a; 0x56; 0x92; 0x92; 0x90; 0x50; 0x38; 0x14; 0x12; 0x92; 0x92; 0xd4; 0xb8; 0x10; 0x10];   (* 36 *)
   [0x62; 0x92; 0x94; 0x94; 0x68; 0x08; 0x10; 0x10; 0x20; 0x2c; 0x52; 0x52; 0x92; 0x8c; 0x00; 0x00];   (* 37 *)
   [0x00; 0x70; 0x88; 0x88; 0x88; 0x90; 0x60; 0x47; 0xa2; 0x92; 0x8a; 0x84; 0x46; 0x39; 0x00; 0x00];   (* 38 *)
   [0x04; 0x08; 0x10; 0x00; 0x00; 0x00; 0x00; 0x00; 0x00; 0x00; 0x00; 0x00; 0x00; 0x00; 0x00; 0x00];   (* 39 *)
   [0x02; 0x04; 0x08; 0x08; 0x10; 0x10; 0x10; 0x10; 0x10; 0x10; 0x10; 0x08; 0x08; 0x04; 0x02; 0x00];   (* 40 *)
   [0x80; 0x40; 0x20; 0x20; 0x10; 0x10; 0x10; 0x10; 0x10; 0x10; 0x10; 0x20; 0x20; 0x40; 0x80; 0x00];   (* 41 *)
   [0x00; 0x00; 0x00; 0x00; 0x00; 0x10; 0x92; 0x54; 0x38; 0x54; 0x92; 0x10; 0x00; 0x00; 0x00; 0x00];   (* 42 *)
   [0x00; 0x00; 0x00; 0x00; 0x00; 0x10; 0x10; 0x10; 0xfe; 0x10; 0x10; 0x10; 0x00; 0x00; 0x00; 0x00];   (* 43 *)
   [0x00; 0x00; 0x00; 0x00; 0x00; 0x00; 0x00; 0x00; 0x00; 0x00; 0x00; 0x18; 0x18; 0x08; 0x08; 0x10];   (* 44 *)
   [0x00; 0x00; 0x00; 0x00; 0x00; 0x00; 0x00; 0x00; 0xfe; 0x00; 0x00; 0x00; 0x00; 0x00; 0x00; 0x00];   (* 45 *)
   [0x00; 0x00; 0x00; 0x00; 0x00; 0x00; 0x00; 0x00; 0x00; 0x00; 0x00; 0x00; 0x18; 0x18; 0x00; 0x00];   (* 46 *)
   [0x02; 0x02; 0x04; 0x04; 0x08; 0x08; 0x08; 0x10; 0x10; 0x20; 0x20; 0x40; 0x40; 0x40; 0x80; 0x80];   (* 47 *)
   [0x00; 0x18; 0x24; 0x24; 0x42; 0x42; 0x42; 0x42; 0x42; 0x42; 0x42; 0x24; 0x24; 0x18; 0x00; 0x00];   (* 48 *)
   [0x00; 0x08; 0x18; 0x28; 0x08; 0x08; 0x08; 0x08; 0x08; 0x08; 0x08; 0x08; 0x08; 0x3e; 0x00; 0x00];   (* 49 *)
   [0x00; 0x18; 0x24; 0x42; 0x42; 0x02; 0x04; 0x08; 0x10; 0x20; 0x20; 0x40; 0x40; 0x7e; 0x00; 0x00];   (* 50 *)
   [0x00; 0x18; 0x24; 0x42; 0x02; 0x02; 0x04; 0x18; 0x04; 0x02; 0x02; 0x42; 0x24; 0x18; 0x00; 0x00];   (* 51 *)
   [0x00; 0x0c; 0x0c; 0x0c; 0x14; 0x14; 0x14; 0x24; 0x24; 0x44; 0x7e; 0x04; 0x04; 0x1e; 0x00; 0x00];   (* 52 *)
   [0x00; 0x7c; 0x40; 0x40; 0x40; 0x58; 0x64; 0x02; 0x02; 0x02; 0x02; 0x42; 0x24; 0x18; 0x00; 0x00];   (* 53 *)
   [0x00; 0x18; 0x24; 0x42; 0x40; 0x58; 0x64; 0x42; 0x42; 0x42; 0x42; 0x42; 0x24; 0x18; 0x00; 0x00];   (* 54 *)
   [0x00; 0x7e; 0x42; 0x42; 0x04; 0x04; 0x08; 0x08; 0x08; 0x10; 0x10; 0x10; 0x10; 0x38; 0x00; 0x00];   (* 55 *)
   [0x00; 0x18; 0x24; 0x42; 0x42; 0x42; 0x24; 0x18; 0x24; 0x42; 0x42; 0x42; 0x24; 0x18; 0x00; 0x00];   (* 56 *)
   [0x00; 0x18; 0x24; 0x42; 0x42; 0x42; 0x42; 0x42; 0x26; 0x1a; 0x02; 0x42; 0x24; 0x18; 0x00; 0x00];   (* 57 *)
   [0x00; 0x00; 0x00; 0x00; 0x00; 0x18; 0x18; 0x00; 0x00; 0x00; 0x00; 0x00; 0x18; 0x18; 0x00; 0x00];   (* 58 *)
   [0x00; 0x00; 0x00; 0x00; 0x00; 0x18; 0x18; 0x00; 0x00; 0x00; 0x00; 0x18; 0x18; 0x08; 0x08; 0x10];   (* 59 *)
   [0x00; 0x02; 0x04; 0x08; 0x10; 0x20; 0x40; 0x80; 0x80; 0x40; 0x20; 0x10; 0x08; 0x04; 0x02; 0x00];   (* 60 *)
   [0x00; 0x00; 0x00; 0x00; 0x00; 0x00; 0xfe; 0x00; 0x00; 0xfe; 0x00; 0x00; 0x00; 0x00; 0x00; 0x00];   (* 61 *)
   [0x00; 0x80; 0x40; 0x20; 0x10; 0x08; 0x04; 0x02; 0x02; 0x04; 0x08; 0x10; 0x20; 0x40; 0x80; 0x00];   (* 62 *)
   [0x00; 0x38; 0x44; 0x82; 0x82; 0x82; 0x04; 0x08; 0x10; 0x10; 0x00; 0x00; 0x18; 0x18; 0x00; 0x00];   (* 63 *)
   [0x00; 0x38; 0x44; 0x82; 0x9a; 0xaa; 0xaa; 0xaa; 0xaa; 0xaa; 0x9c; 0x80; 0x46; 0x38; 0x00; 0x00];   (* 64 *)
   [0x00; 0x18; 0x18; 0x18; 0x18; 0x24; 0x24; 0x24; 0x24; 0x7e; 0x42; 0x42; 0x42; 0xe7; 0x00; 0x00];   (* 65 *)
   [0x00; 0xf0; 0x48; 0x44; 0x44; 0x44; 0x48; 0x78; 0x44; 0x42; 0x42; 0x42; 0x44; 0xf8; 0x00; 0x00];   (* 66 *)
   [0x00; 0x3a; 0x46; 0x42; 0x82; 0x80; 0x80; 0x80; 0x80; 0x80; 0x82; 0x42; 0x44; 0x38; 0x00; 0x00];   (* 67 *)
   [0x00; 0xf8; 0x44; 0x44; 0x42; 0x42; 0x42; 0x42; 0x42; 0x42; 0x42; 0x44; 0x44; 0xf8; 0x00; 0x00];   (* 68 *)
   [0x00; 0xfe; 0x42; 0x42; 0x40; 0x40; 0x44; 0x7c; 0x44; 0x40; 0x40; 0x42; 0x42; 0xfe; 0x00; 0x00];   (* 69 *)
   [0x00; 0xfe; 0x42; 0x42; 0x40; 0x40; 0x44; 0x7c; 0x44; 0x44; 0x40; 0x40; 0x40; 0xf0; 0x00; 0x00];   (* 70 *)
   [0x00; 0x3a; 0x46; 0x42; 0x82; 0x80; 0x80; 0x9e; 0x82; 0x82; 0x82; 0x42; 0x46; 0x38; 0x00; 0x00];   (* 71 *)
   [0x00; 0xe7; 0x42; 0x42; 0x42; 0x42; 0x42; 0x7e; 0x42; 0x42; 0x42; 0x42; 0x42; 0xe7; 0x00; 0x00];   (* 72 *)
   [0x00; 0x7c; 0x10; 0x10; 0x10; 0x10; 0x10; 0x10; 0x10; 0x10; 0x10; 0x10; 0x10; 0x7c; 0x00; 0x00];   (* 73 *)
   [0x00; 0x1f; 0x04; 0x04; 0x04; 0x04; 0x04; 0x04; 0x04; 0x04; 0x04; 0x04; 0x84; 0x48; 0x30; 0x00];   (* 74 *)
   [0x00; 0xe7; 0x42; 0x44; 0x48; 0x50; 0x50; 0x60; 0x50; 0x50; 0x48; 0x44; 0x42; 0xe7; 0x00; 0x00];   (* 75 *)
   [0x00; 0xf0; 0x40; 0x40; 0x40; 0x40; 0x40; 0x40; 0x40; 0x40; 0x40; 0x42; 0x42; 0xfe; 0x00; 0x00];   (* 76 *)
   [0x00; 0xc3; 0x42; 0x66; 0x66; 0x66; 0x5a; 0x5a; 0x5a; 0x42; 0x42; 0x42; 0x42; 0xe7; 0x00; 0x00];   (* 77 *)
   [0x00; 0xc7; 0x42; 0x62; 0x62; 0x52; 0x52; 0x52; 0x4a; 0x4a; 0x4a; 0x46; 0x46; 0xe2; 0x00; 0x00];   (* 78 *)
   [0x00; 0x38; 0x44; 0x82; 0x82; 0x82; 0x82; 0x82; 0x82; 0x82; 0x82; 0x82; 0x44; 0x38; 0x00; 0x00];   (* 79 *)
   [0x00; 0xf8; 0x44; 0x42; 0x42; 0x42; 0x44; 0x78; 0x40; 0x40; 0x40; 0x40; 0x40; 0xf0; 0x00; 0x00];   (* 80 *)
   [0x00; 0x38; 0x44; 0x82; 0x82; 0x82; 0x82; 0x82; 0x82; 0x82; 0x92; 0x8a; 0x44; 0x3a; 0x00; 0x00];   (* 81 *)
   [0x00; 0xfc; 0x42; 0x42; 0x42; 0x42; 0x7c; 0x44; 0x42; 0x42; 0x42; 0x42; 0x42; 0xe7; 0x00; 0x00];   (* 82 *)
   [0x00; 0x3a; 0x46; 0x82; 0x82; 0x80; 0x40; 0x38; 0x04; 0x02; 0x82; 0x82; 0xc4; 0xb8; 0x00; 0x00];   (* 83 *)
   [0x00; 0xfe; 0x92; 0x92; 0x10; 0x10; 0x10; 0x10; 0x10; 0x10; 0x10; 0x10; 0x10; 0x7c; 0x00; 0x00];   (* 84 *)
   [0x00; 0xe7; 0x42; 0x42; 0x42; 0x42; 0x42; 0x42; 0x42; 0x42; 0x42; 0x42; 0x24; 0x3c; 0x00; 0x00];   (* 85 *)
   [0x00; 0xe7; 0x42; 0x42; 0x42; 0x42; 0x24; 0x24; 0x24; 0x24; 0x18; 0x18; 0x18; 0x18; 0x00; 0x00];   (* 86 *)
   [0x00; 0xe7; 0x42; 0x42; 0x42; 0x5a; 0x5a; 0x5a; 0x5a; 0x24; 0x24; 0x24; 0x24; 0x24; 0x00; 0x00];   (* 87 *)
   [0x00; 0xe7; 0x42; 0x42; 0x24; 0x24; 0x24; 0x18; 0x24; 0x24; 0x24; 0x42; 0x42; 0xe7; 0x00; 0x00];   (* 88 *)
   [0x00; 0xee; 0x44; 0x44; 0x44; 0x28; 0x28; 0x28; 0x10; 0x10; 0x10; 0x10; 0x10; 0x7c; 0x00; 0x00];   (* 89 *)
   [0x00; 0xfe; 0x84; 0x84; 0x08; 0x08; 0x10; 0x10; 0x20; 0x20; 0x40; 0x42; 0x82; 0xfe; 0x00; 0x00];   (* 90 *)
   [0x00; 0x3e; 0x20; 0x20; 0x20; 0x20; 0x20; 0x20; 0x20; 0x20; 0x20; 0x20; 0x20; 0x20; 0x3e; 0x00];   (* 91 *)
   [0x80; 0x80; 0x40; 0x40; 0x20; 0x20; 0x20; 0x10; 0x10; 0x08; 0x08; 0x04; 0x04; 0x04; 0x02; 0x02];   (* 92 *)
   [0x00; 0x7c; 0x04; 0x04; 0x04; 0x04; 0x04; 0x04; 0x04; 0x04; 0x04; 0x04; 0x04; 0x04; 0x7c; 0x00];   (* 93 *)
   [0x00; 0x10; 0x28; 0x44; 0x82; 0x00; 0x00; 0x00; 0x00; 0x00; 0x00; 0x00; 0x00; 0x00; 0x00; 0x00];   (* 94 *)
   [0x00; 0x00; 0x00; 0x00; 0x00; 0x00; 0x00; 0x00; 0x00; 0x00; 0x00; 0x00; 0x00; 0x00; 0xfe; 0x00];   (* 95 *)
   [0x10; 0x08; 0x04; 0x00; 0x00; 0x00; 0x00; 0x00; 0x00; 0x00; 0x00; 0x00; 0x00; 0x00; 0x00; 0x00];   (* 96 *)
   [0x00; 0x00; 0x00; 0x00; 0x00; 0x70; 0x08; 0x04; 0x3c; 0x44; 0x84; 0x84; 0x8c; 0x76; 0x00; 0x00];   (* 97 *)
   [0xc0; 0x40; 0x40; 0x40; 0x40; 0x58; 0x64; 0x42; 0x42; 0x42; 0x42; 0x42; 0x64; 0x58; 0x00; 0x00];   (* 98 *)
   [0x00; 0x00; 0x00; 0x00; 0x00; 0x30; 0x4c; 0x84; 0x84; 0x80; 0x80; 0x82; 0x44; 0x38; 0x00; 0x00];   (* 99 *)
   [0x0c; 0x04; 0x04; 0x04; 0x04; 0x34; 0x4c; 0x84; 0x84; 0x84; 0x84; 0x84; 0x4c; 0x36; 0x00; 0x00];   (* 100 *)
   [0x00; 0x00; 0x00; 0x00; 0x00; 0x38; 0x44; 0x82; 0x82; 0xfc; 0x80; 0x82; 0x42; 0x3c; 0x00; 0x00];   (* 101 *)
   [0x0e; 0x10; 0x10; 0x10; 0x10; 0x7c; 0x10; 0x10; 0x10; 0x10; 0x10; 0x10; 0x10; 0x7c; 0x00; 0x00];   (* 102 *)
   [0x00; 0x00; 0x00; 0x00; 0x00; 0x36; 0x4c; 0x84; 0x84; 0x84; 0x84; 0x4c; 0x34; 0x04; 0x04; 0x38];   (* 103 *)
   [0xc0; 0x40; 0x40; 0x40; 0x40; 0x58; 0x64; 0x42; 0x42; 0x42; 0x42; 0x42; 0x42; 0xe3; 0x00; 0x00];   (* 104 *)
   [0x00; 0x10; 0x10; 0x00; 0x00; 0x30; 0x10; 0x10; 0x10; 0x10; 0x10; 0x10; 0x10; 0x38; 0x00; 0x00];   (* 105 *)
   [0x00; 0x04; 0x04; 0x00; 0x00; 0x0c; 0x04; 0x04; 0x04; 0x04; 0x04; 0x04; 0x04; 0x08; 0x08; 0x30];   (* 106 *)
   [0xc0; 0x40; 0x40; 0x40; 0x40; 0x4e; 0x44; 0x48; 0x50; 0x60; 0x50; 0x48; 0x44; 0xe6; 0x00; 0x00];   (* 107 *)
   [0x30; 0x10; 0x10; 0x10; 0x10; 0x10; 0x10; 0x10; 0x10; 0x10; 0x10; 0x10; 0x10; 0x38; 0x00; 0x00];   (* 108 *)
   [0x00; 0x00; 0x00; 0x00; 0x00; 0xf6; 0x49; 0x49; 0x49; 0x49; 0x49; 0x49; 0x49; 0xdb; 0x00; 0x00];   (* 109 *)
   [0x00; 0x00; 0x00; 0x00; 0x00; 0xd8; 0x64; 0x42; 0x42; 0x42; 0x42; 0x42; 0x42; 0xe3; 0x00; 0x00];   (* 110 *)
   [0x00; 0x00; 0x00; 0x00; 0x00; 0x38; 0x44; 0x82; 0x82; 0x82; 0x82; 0x82; 0x44; 0x38; 0x00; 0x00];   (* 111 *)
   [0x00; 0x00; 0x00; 0x00; 0xd8; 0x64; 0x42; 0x42; 0x42; 0x42; 0x42; 0x64; 0x58; 0x40; 0x40; 0xe0];   (* 112 *)
   [0x00; 0x00; 0x00; 0x00; 0x34; 0x4c; 0x84; 0x84; 0x84; 0x84; 0x84; 0x4c; 0x34; 0x04; 0x04; 0x0e];   (* 113 *)
   [0x00; 0x00; 0x00; 0x00; 0x00; 0xdc; 0x62; 0x42; 0x40; 0x40; 0x40; 0x40; 0x40; 0xe0; 0x00; 0x00];   (* 114 *)
   [0x00; 0x00; 0x00; 0x00; 0x00; 0x7a; 0x86; 0x82; 0xc0; 0x38; 0x06; 0x82; 0xc2; 0xbc; 0x00; 0x00];   (* 115 *)
   [0x00; 0x00; 0x10; 0x10; 0x10; 0x7c; 0x10; 0x10; 0x10; 0x10; 0x10; 0x10; 0x10; 0x0e; 0x00; 0x00];   (* 116 *)
   [0x00; 0x00; 0x00; 0x00; 0x00; 0xc6; 0x42; 0x42; 0x42; 0x42; 0x42; 0x42; 0x46; 0x3b; 0x00; 0x00];   (* 117 *)
   [0x00; 0x00; 0x00; 0x00; 0x00; 0xe7; 0x42; 0x42; 0x42; 0x24; 0x24; 0x24; 0x18; 0x18; 0x00; 0x00];   (* 118 *)
   [0x00; 0x00; 0x00; 0x00; 0x00; 0xe7; 0x42; 0x42; 0x5a; 0x5a; 0x5a; 0x24; 0x24; 0x24; 0x00; 0x00];   (* 119 *)
   [0x00; 0x00; 0x00; 0x00; 0x00; 0xc6; 0x44; 0x28; 0x28; 0x10; 0x28; 0x28; 0x44; 0xc6; 0x00; 0x00];   (* 120 *)
   [0x00; 0x00; 0x00; 0x00; 0x00; 0xe7; 0x42; 0x42; 0x24; 0x24; 0x24; 0x18; 0x18; 0x10; 0x10; 0x60];   (* 121 *)
   [0x00; 0x00; 0x00; 0x00; 0x00; 0xfe; 0x82; 0x84; 0x08; 0x10; 0x20; 0x42; 0x82; 0xfe; 0x00; 0x00];   (* 122 *)
   [0x00; 0x06; 0x08; 0x10; 0x10; 0x10; 0x10; 0x60; 0x10; 0x10; 0x10; 0x10; 0x08; 0x06; 0x00; 0x00];   (* 123 *)
   [0x10; 0x10; 0x10; 0x10; 0x10; 0x10; 0x10; 0x10; 0x10; 0x10; 0x10; 0x10; 0x10; 0x10; 0x10; 0x10];   (* 124 *)
   [0x00; 0x60; 0x10; 0x08; 0x08; 0x08; 0x08; 0x06; 0x08; 0x08; 0x08; 0x08; 0x10; 0x60; 0x00; 0x00];   (* 125 *)
   [0x00; 0x72; 0x8c; 0x00; 0x00; 0x00; 0x00; 0x00; 0x00; 0x00; 0x00; 0x00; 0x00; 0x00; 0x00; 0x00]   (* 126 *)].
(** veas.cpp: the table font_ascii, 256 rows *)
Definition font_ascii : list (list Z) := replicate 33 blank_glyph ++ printable_glyphs ++ replicate 129 blank_glyph.
(** 346, 355, 359: the byte of a row *)
Definition font (c i : Z) : Z := nth (Z.to_nat i) (nth (Z.to_nat c) font_ascii []) 0.

(** ** veas.cpp:325-332 *)
(** string_view.hpp:22-23, 30-36 and the loop of veas.cpp:379: the characters up to the NUL.  Every step of cstrlen reads
    another byte of [m], so the fuel is enough. *)
Definition view_of (m : gmap N N) (str : N) : outcome (list N) :=
  n <~ strlen (S (size m)) m str ; load_bytes m str (N.to_nat n).
(** model only: memory and screen *)
Record kernel := { k_mem : gmap N N; k_screen : vesa }.
(** [buf]: the address of the static array of 1024 characters (323) *)
Definition printf (buf : N) (fmt : list N) (args : list arg) (k : kernel) : outcome kernel :=
  match vslprintf (k_mem k) buf (buf + 1024)%N fmt args with
  | FErr _ => UB
  | FOk (m, _) =>
      str <~ view_of m buf ;
      s <~ color_print font WHITE (map Z.of_N str) (k_screen k) ;
      Ok {| k_mem := m; k_screen := s |}
  end.
(** model only: the operations of a program in order *)
Fixpoint printfs (buf : N) (calls : list (list N * list arg)) (k : kernel) : outcome kernel :=
  match calls with
  | [] => Ok k
  | (fmt, args) :: calls => k <~ printf buf fmt args k ; printfs buf calls k
  end.

(** ** The messages of the kernel *)
Definition bytes (s : string) : list N := map N_of_ascii (list_ascii_of_string s).
(** model only: a line feed *)
Definition newline : list N := [10%N].
(** interrupt.cpp:202-234 *)
Definition exceptions (n : N) : string :=
  nth (N.to_nat n)
    ["Division by zero"; "Debugger"; "NMI"; "Breakpoint"; "Overflow"; "Bounds"; "Invalid Opcode"; "Coprocessor not available";
     "Double fault"; "Coprocessor segment overrun"; "Invalid Task State Segment"; "Segment not present"; "Stack Fault";
     "General protection fault"; "Page Fault"; "Reserved"; "Math Fault"; "Alignment Check"; "Machine Check";
     "SIMD Floating Point Exception"; "Reserved"; "Reserved"; "Reserved"; "Reserved"; "Reserved"; "Reserved"; "Reserved"; "Reserved";
     "Reserved"; "Reserved"; "Reserved"; "Reserved"]%string ""%string.
(** interrupt.hpp:38-47 *)
Record fault_regs := { error_no : N; error_code : N; f_rip : N; f_cs : N; f_rflags : N; f_rsp : N; f_ss : N }.
(** interrupt.cpp:236-242 up to the endless loop; [ex n]: the pointer in exceptions[n] *)
Definition fault_handler (ex : N -> N) (buf : N) (r : fault_regs) (k : kernel) : outcome kernel :=
  if (error_no r <? 32)%N then
    printfs buf
      [(bytes "Exception %ul %s occured" ++ newline, [A64 (error_no r); APtr (ex (error_no r))]);
       (bytes "error_code = %ul rip = %xl rflags = %ul cs = %ul rsp = %xl ss = %ul" ++ newline,
        [A64 (error_code r); A64 (f_rip r); A64 (f_rflags r); A64 (f_cs r); A64 (f_rsp r); A64 (f_ss r)])] k
  else UB.
(** veas.cpp:334-343; the picture is left as it is *)
Definition vesa_init (s : vesa) : vesa := {| xpos := 0; ypos := 0; pix := pix s |}.
(** What main prints before the second write to the page: interrupt.cpp:7, e820.cpp:43, main.cpp:14, 38, 39.
    [size], [available]: length_ and avaliable_memory_ of the manager; [pde]: the entry read back. *)
Definition boot_prints (buf size available pde : N) (k : kernel) : outcome kernel :=
  printfs buf
    [(bytes "init Interrupt" ++ newline, []);
     (bytes "e820 size = %ul total avalible memory = %ulMB" ++ newline, [A64 size; A64 (available / 2 ^ 20)%N]);
     (bytes "A::A()" ++ newline, []);
     (bytes "*(&PDE + 2) = %xl" ++ newline, [A64 pde]);
     (bytes "page read only" ++ newline, [])] {| k_mem := k_mem k; k_screen := vesa_init (k_screen k) |}.
