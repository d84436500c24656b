(** The color presets of pytermor/color.py (class [Colors]), in the order of creation.
    L348-363: 16 colors; L365-604: 256 colors.  The names are left out, and so are the
    ColorRGB presets from L606 on, which are registered nowhere. *)
From Coq Require Import List NArith ZArith.
From Verif.Model Require Import Base Color.
Import ListNotations.
Local Open Scope Z_scope.

Definition c16 (h fg bg : Z) : pcolor := ColorIndexed16 (Some h) (Some fg) (Some bg).
Definition c256 (h code : Z) : pcolor := ColorIndexed256 (Some h) (Some code).

Definition presets16 : list pcolor :=
  [c16 0x000000 30 40;
   c16 0x800000 31 41;
   c16 0x008000 32 42;
   c16 0x808000 33 43;
   c16 0x000080 34 44;
   c16 0x800080 35 45;
   c16 0x008080 36 46;
   c16 0xc0c0c0 37 47;
   c16 0x808080 90 100;
   c16 0xff0000 91 101;
   c16 0x00ff00 92 102;
   c16 0xffff00 93 103;
   c16 0x0000ff 94 104;
   c16 0xff00ff 95 105;
   c16 0x00ffff 96 106;
   c16 0xffffff 97 107].

Definition presets256 : list pcolor :=
  [c256 0x000000 16; c256 0x00005f 17; c256 0x000087 18; c256 0x0000af 19; c256 0x0000d7 20; c256 0x0000ff 21;
   c256 0x005f00 22; c256 0x005f5f 23; c256 0x005f87 24; c256 0x005faf 25; c256 0x005fd7 26; c256 0x005fff 27;
   c256 0x008700 28; c256 0x00875f 29; c256 0x008787 30; c256 0x0087af 31; c256 0x0087d7 32; c256 0x0087ff 33;
   c256 0x00af00 34; c256 0x00af5f 35; c256 0x00af87 36; c256 0x00afaf 37; c256 0x00afd7 38; c256 0x00afff 39;
   c256 0x00d700 40; c256 0x00d75f 41; c256 0x00d787 42; c256 0x00d7af 43; c256 0x00d7d7 44; c256 0x00d7ff 45;
   c256 0x00ff00 46; c256 0x00ff5f 47; c256 0x00ff87 48; c256 0x00ffaf 49; c256 0x00ffd7 50; c256 0x00ffff 51;
   c256 0x5f0000 52; c256 0x5f005f 53; c256 0x5f0087 54; c256 0x5f00af 55; c256 0x5f00d7 56; c256 0x5f00ff 57;
   c256 0x5f5f00 58; c256 0x5f5f5f 59; c256 0x5f5f87 60; c256 0x5f5faf 61; c256 0x5f5fd7 62; c256 0x5f5fff 63;
   c256 0x5f8700 64; c256 0x5f875f 65; c256 0x5f8787 66; c256 0x5f87af 67; c256 0x5f87d7 68; c256 0x5f87ff 69;
   c256 0x5faf00 70; c256 0x5faf5f 71; c256 0x5faf87 72; c256 0x5fafaf 73; c256 0x5fafd7 74; c256 0x5fafff 75;
   c256 0x5fd700 76; c256 0x5fd75f 77; c256 0x5fd787 78; c256 0x5fd7af 79; c256 0x5fd7d7 80; c256 0x5fd7ff 81;
   c256 0x5fff00 82; c256 0x5fff5f 83; c256 0x5fff87 84; c256 0x5fffaf 85; c256 0x5fffd7 86; c256 0x5fffff 87;
   c256 0x870000 88; c256 0x87005f 89; c256 0x870087 90; c256 0x8700af 91; c256 0x8700d7 92; c256 0x8700ff 93;
   c256 0x875f00 94; c256 0x875f5f 95; c256 0x875f87 96; c256 0x875faf 97; c256 0x875fd7 98; c256 0x875fff 99;
   c256 0x878700 100; c256 0x87875f 101; c256 0x878787 102; c256 0x8787af 103; c256 0x8787d7 104; c256 0x8787ff 105;
   c256 0x87af00 106; c256 0x87af5f 107; c256 0x87af87 108; c256 0x87afaf 109; c256 0x87afd7 110; c256 0x87afff 111;
   c256 0x87d700 112; c256 0x87d75f 113; c256 0x87d787 114; c256 0x87d7af 115; c256 0x87d7d7 116; c256 0x87d7ff 117;
   c256 0x87ff00 118; c256 0x87ff5f 119; c256 0x87ff87 120; c256 0x87ffaf 121; c256 0x87ffd7 122; c256 0x87ffff 123;
   c256 0xaf0000 124; c256 0xaf005f 125; c256 0xaf0087 126; c256 0xaf00af 127; c256 0xaf00d7 128; c256 0xaf00ff 129;
   c256 0xaf5f00 130; c256 0xaf5f5f 131; c256 0xaf5f87 132; c256 0xaf5faf 133; c256 0xaf5fd7 134; c256 0xaf5fff 135;
   c256 0xaf8700 136; c256 0xaf875f 137; c256 0xaf8787 138; c256 0xaf87af 139; c256 0xaf87d7 140; c256 0xaf87ff 141;
   c256 0xafaf00 142; c256 0xafaf5f 143; c256 0xafaf87 144; c256 0xafafaf 145; c256 0xafafd7 146; c256 0xafafff 147;
   c256 0xafd700 148; c256 0xafd75f 149; c256 0xafd787 150; c256 0xafd7af 151; c256 0xafd7d7 152; c256 0xafd7ff 153;
   c256 0xafff00 154; c256 0xafff5f 155; c256 0xafff87 156; c256 0xafffaf 157; c256 0xafffd7 158; c256 0xafffff 159;
   c256 0xd70000 160; c256 0xd7005f 161; c256 0xd70087 162; c256 0xd700af 163; c256 0xd700d7 164; c256 0xd700ff 165;
   c256 0xd75f00 166; c256 0xd75f5f 167; c256 0xd75f87 168; c256 0xd75faf 169; c256 0xd75fd7 170; c256 0xd75fff 171;
   c256 0xd78700 172; c256 0xd7875f 173; c256 0xd78787 174; c256 0xd787af 175; c256 0xd787d7 176; c256 0xd787ff 177;
   c256 0xd7af00 178; c256 0xd7af5f 179; c256 0xd7af87 180; c256 0xd7afaf 181; c256 0xd7afd7 182; c256 0xd7afff 183;
   c256 0xd7d700 184; c256 0xd7d75f 185; c256 0xd7d787 186; c256 0xd7d7af 187; c256 0xd7d7d7 188; c256 0xd7d7ff 189;
   c256 0xd7ff00 190; c256 0xd7ff5f 191; c256 0xd7ff87 192; c256 0xd7ffaf 193; c256 0xd7ffd7 194; c256 0xd7ffff 195;
   c256 0xff0000 196; c256 0xff005f 197; c256 0xff0087 198; c256 0xff00af 199; c256 0xff00d7 200; c256 0xff00ff 201;
   c256 0xff5f00 202; c256 0xff5f5f 203; c256 0xff5f87 204; c256 0xff5faf 205; c256 0xff5fd7 206; c256 0xff5fff 207;
   c256 0xff8700 208; c256 0xff875f 209; c256 0xff8787 210; c256 0xff87af 211; c256 0xff87d7 212; c256 0xff87ff 213;
   c256 0xffaf00 214; c256 0xffaf5f 215; c256 0xffaf87 216; c256 0xffafaf 217; c256 0xffafd7 218; c256 0xffafff 219;
   c256 0xffd700 220; c256 0xffd75f 221; c256 0xffd787 222; c256 0xffd7af 223; c256 0xffd7d7 224; c256 0xffd7ff 225;
   c256 0xffff00 226; c256 0xffff5f 227; c256 0xffff87 228; c256 0xffffaf 229; c256 0xffffd7 230; c256 0xffffff 231;
   c256 0x080808 232; c256 0x121212 233; c256 0x1c1c1c 234; c256 0x262626 235; c256 0x303030 236; c256 0x3a3a3a 237;
   c256 0x444444 238; c256 0x4e4e4e 239; c256 0x585858 240; c256 0x626262 241; c256 0x6c6c6c 242; c256 0x767676 243;
   c256 0x808080 244; c256 0x8a8a8a 245; c256 0x949494 246; c256 0x9e9e9e 247; c256 0xa8a8a8 248; c256 0xb2b2b2 249;
   c256 0xbcbcbc 250; c256 0xc6c6c6 251; c256 0xd0d0d0 252; c256 0xdadada 253; c256 0xe4e4e4 254; c256 0xeeeeee 255].

(** The tables of the two classes when the library has been imported *)
Definition table16 : approximator := fold_left add_to_map presets16 approx_init.
Definition table256 : approximator := fold_left add_to_map presets256 approx_init.
