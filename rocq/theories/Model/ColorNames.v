(** The names of the color presets: pytermor/color.py:348-642 (class [Colors]), in the order of the
    source.  A class attribute per preset. *)
From Coq Require Import Ascii String.
From Coq Require Import List NArith ZArith.
From Verif.Model Require Import Base Color Presets.
Import ListNotations.
Local Open Scope Z_scope.

Definition color_names : list (string * pcolor) := (
  [
   ("BLACK", c16 0x000000 30 40);
   ("RED", c16 0x800000 31 41);
   ("GREEN", c16 0x008000 32 42);
   ("YELLOW", c16 0x808000 33 43);
   ("BLUE", c16 0x000080 34 44);
   ("MAGENTA", c16 0x800080 35 45);
   ("CYAN", c16 0x008080 36 46);
   ("WHITE", c16 0xc0c0c0 37 47);
   ("GREY", c16 0x808080 90 100);
   ("HI_RED", c16 0xff0000 91 101);
   ("HI_GREEN", c16 0x00ff00 92 102);
   ("HI_YELLOW", c16 0xffff00 93 103);
   ("HI_BLUE", c16 0x0000ff 94 104);
   ("HI_MAGENTA", c16 0xff00ff 95 105);
   ("HI_CYAN", c16 0x00ffff 96 106);
   ("HI_WHITE", c16 0xffffff 97 107);
   ("GREY_0", c256 0x000000 16);
   ("NAVY_BLUE", c256 0x00005f 17);
   ("DARK_BLUE", c256 0x000087 18);
   ("BLUE_3", c256 0x0000af 19);
   ("BLUE_2", c256 0x0000d7 20);
   ("BLUE_1", c256 0x0000ff 21);
   ("DARK_GREEN", c256 0x005f00 22);
   ("DEEP_SKY_BLUE_7", c256 0x005f5f 23);
   ("DEEP_SKY_BLUE_6", c256 0x005f87 24);
   ("DEEP_SKY_BLUE_5", c256 0x005faf 25);
   ("DODGER_BLUE_3", c256 0x005fd7 26);
   ("DODGER_BLUE_2", c256 0x005fff 27);
   ("GREEN_5", c256 0x008700 28);
   ("SPRING_GREEN_4", c256 0x00875f 29);
   ("TURQUOISE_4", c256 0x008787 30);
   ("DEEP_SKY_BLUE_4", c256 0x0087af 31);
   ("DEEP_SKY_BLUE_3", c256 0x0087d7 32);
   ("DODGER_BLUE_1", c256 0x0087ff 33);
   ("GREEN_4", c256 0x00af00 34);
   ("SPRING_GREEN_5", c256 0x00af5f 35);
   ("DARK_CYAN", c256 0x00af87 36);
   ("LIGHT_SEA_GREEN", c256 0x00afaf 37);
   ("DEEP_SKY_BLUE_2", c256 0x00afd7 38);
   ("DEEP_SKY_BLUE_1", c256 0x00afff 39);
   ("GREEN_3", c256 0x00d700 40);
   ("SPRING_GREEN_3", c256 0x00d75f 41);
   ("SPRING_GREEN_6", c256 0x00d787 42);
   ("CYAN_3", c256 0x00d7af 43);
   ("DARK_TURQUOISE", c256 0x00d7d7 44);
   ("TURQUOISE_2", c256 0x00d7ff 45);
   ("GREEN_2", c256 0x00ff00 46);
   ("SPRING_GREEN_2", c256 0x00ff5f 47);
   ("SPRING_GREEN_1", c256 0x00ff87 48);
   ("MEDIUM_SPRING_GREEN", c256 0x00ffaf 49);
   ("CYAN_2", c256 0x00ffd7 50);
   ("CYAN_1", c256 0x00ffff 51);
   ("DARK_RED_2", c256 0x5f0000 52);
   ("DEEP_PINK_8", c256 0x5f005f 53);
   ("PURPLE_5", c256 0x5f0087 54);
   ("PURPLE_4", c256 0x5f00af 55);
   ("PURPLE_3", c256 0x5f00d7 56);
   ("BLUE_VIOLET", c256 0x5f00ff 57);
   ("ORANGE_4", c256 0x5f5f00 58);
   ("GREY_37", c256 0x5f5f5f 59);
   ("MEDIUM_PURPLE_7", c256 0x5f5f87 60);
   ("SLATE_BLUE_3", c256 0x5f5faf 61);
   ("SLATE_BLUE_2", c256 0x5f5fd7 62);
   ("ROYAL_BLUE_1", c256 0x5f5fff 63);
   ("CHARTREUSE_6", c256 0x5f8700 64);
   ("DARK_SEA_GREEN_9", c256 0x5f875f 65);
   ("PALE_TURQUOISE_4", c256 0x5f8787 66);
   ("STEEL_BLUE", c256 0x5f87af 67);
   ("STEEL_BLUE_3", c256 0x5f87d7 68);
   ("CORNFLOWER_BLUE", c256 0x5f87ff 69);
   ("CHARTREUSE_5", c256 0x5faf00 70);
   ("DARK_SEA_GREEN_8", c256 0x5faf5f 71);
   ("CADET_BLUE_2", c256 0x5faf87 72);
   ("CADET_BLUE", c256 0x5fafaf 73);
   ("SKY_BLUE_3", c256 0x5fafd7 74);
   ("STEEL_BLUE_2", c256 0x5fafff 75);
   ("CHARTREUSE_4", c256 0x5fd700 76);
   ("PALE_GREEN_4", c256 0x5fd75f 77);
   ("SEA_GREEN_3", c256 0x5fd787 78);
   ("AQUAMARINE_3", c256 0x5fd7af 79);
   ("MEDIUM_TURQUOISE", c256 0x5fd7d7 80);
   ("STEEL_BLUE_1", c256 0x5fd7ff 81);
   ("CHARTREUSE_2", c256 0x5fff00 82);
   ("SEA_GREEN_4", c256 0x5fff5f 83);
   ("SEA_GREEN_2", c256 0x5fff87 84);
   ("SEA_GREEN_1", c256 0x5fffaf 85);
   ("AQUAMARINE_2", c256 0x5fffd7 86);
   ("DARK_SLATE_GRAY_2", c256 0x5fffff 87);
   ("DARK_RED", c256 0x870000 88);
   ("DEEP_PINK_7", c256 0x87005f 89);
   ("DARK_MAGENTA_2", c256 0x870087 90);
   ("DARK_MAGENTA", c256 0x8700af 91);
   ("DARK_VIOLET_2", c256 0x8700d7 92);
   ("PURPLE_2", c256 0x8700ff 93);
   ("ORANGE_3", c256 0x875f00 94);
   ("LIGHT_PINK_3", c256 0x875f5f 95);
   ("PLUM_4", c256 0x875f87 96);
   ("MEDIUM_PURPLE_6", c256 0x875faf 97);
   ("MEDIUM_PURPLE_5", c256 0x875fd7 98);
   ("SLATE_BLUE_1", c256 0x875fff 99);
   ("YELLOW_6", c256 0x878700 100);
   ("WHEAT_4", c256 0x87875f 101);
   ("GREY_53", c256 0x878787 102);
   ("LIGHT_SLATE_GREY", c256 0x8787af 103);
   ("MEDIUM_PURPLE_4", c256 0x8787d7 104);
   ("LIGHT_SLATE_BLUE", c256 0x8787ff 105);
   ("YELLOW_4", c256 0x87af00 106);
   ("DARK_OLIVE_GREEN_6", c256 0x87af5f 107);
   ("DARK_SEA_GREEN_7", c256 0x87af87 108);
   ("LIGHT_SKY_BLUE_3", c256 0x87afaf 109);
   ("LIGHT_SKY_BLUE_2", c256 0x87afd7 110);
   ("SKY_BLUE_2", c256 0x87afff 111);
   ("CHARTREUSE_3", c256 0x87d700 112);
   ("DARK_OLIVE_GREEN_4", c256 0x87d75f 113);
   ("PALE_GREEN_3", c256 0x87d787 114);
   ("DARK_SEA_GREEN_5", c256 0x87d7af 115);
   ("DARK_SLATE_GRAY_3", c256 0x87d7d7 116);
   ("SKY_BLUE_1", c256 0x87d7ff 117);
   ("CHARTREUSE_1", c256 0x87ff00 118);
   ("LIGHT_GREEN_2", c256 0x87ff5f 119);
   ("LIGHT_GREEN", c256 0x87ff87 120);
   ("PALE_GREEN_1", c256 0x87ffaf 121);
   ("AQUAMARINE_1", c256 0x87ffd7 122);
   ("DARK_SLATE_GRAY_1", c256 0x87ffff 123);
   ("RED_4", c256 0xaf0000 124);
   ("DEEP_PINK_6", c256 0xaf005f 125);
   ("MEDIUM_VIOLET_RED", c256 0xaf0087 126);
   ("MAGENTA_6", c256 0xaf00af 127);
   ("DARK_VIOLET", c256 0xaf00d7 128);
   ("PURPLE", c256 0xaf00ff 129);
   ("DARK_ORANGE_3", c256 0xaf5f00 130);
   ("INDIAN_RED_4", c256 0xaf5f5f 131);
   ("HOT_PINK_5", c256 0xaf5f87 132);
   ("MEDIUM_ORCHID_4", c256 0xaf5faf 133);
   ("MEDIUM_ORCHID_3", c256 0xaf5fd7 134);
   ("MEDIUM_PURPLE_2", c256 0xaf5fff 135);
   ("DARK_GOLDENROD", c256 0xaf8700 136);
   ("LIGHT_SALMON_3", c256 0xaf875f 137);
   ("ROSY_BROWN", c256 0xaf8787 138);
   ("GREY_63", c256 0xaf87af 139);
   ("MEDIUM_PURPLE_3", c256 0xaf87d7 140);
   ("MEDIUM_PURPLE_1", c256 0xaf87ff 141);
   ("GOLD_3", c256 0xafaf00 142);
   ("DARK_KHAKI", c256 0xafaf5f 143);
   ("NAVAJO_WHITE_3", c256 0xafaf87 144);
   ("GREY_69", c256 0xafafaf 145);
   ("LIGHT_STEEL_BLUE_3", c256 0xafafd7 146);
   ("LIGHT_STEEL_BLUE_2", c256 0xafafff 147);
   ("YELLOW_5", c256 0xafd700 148);
   ("DARK_OLIVE_GREEN_5", c256 0xafd75f 149);
   ("DARK_SEA_GREEN_6", c256 0xafd787 150);
   ("DARK_SEA_GREEN_4", c256 0xafd7af 151);
   ("LIGHT_CYAN_3", c256 0xafd7d7 152);
   ("LIGHT_SKY_BLUE_1", c256 0xafd7ff 153);
   ("GREEN_YELLOW", c256 0xafff00 154);
   ("DARK_OLIVE_GREEN_3", c256 0xafff5f 155);
   ("PALE_GREEN_2", c256 0xafff87 156);
   ("DARK_SEA_GREEN_3", c256 0xafffaf 157);
   ("DARK_SEA_GREEN_1", c256 0xafffd7 158);
   ("PALE_TURQUOISE_1", c256 0xafffff 159);
   ("RED_3", c256 0xd70000 160);
   ("DEEP_PINK_5", c256 0xd7005f 161);
   ("DEEP_PINK_3", c256 0xd70087 162);
   ("MAGENTA_3", c256 0xd700af 163);
   ("MAGENTA_5", c256 0xd700d7 164);
   ("MAGENTA_4", c256 0xd700ff 165);
   ("DARK_ORANGE_2", c256 0xd75f00 166);
   ("INDIAN_RED_3", c256 0xd75f5f 167);
   ("HOT_PINK_4", c256 0xd75f87 168);
   ("HOT_PINK_3", c256 0xd75faf 169);
   ("ORCHID_3", c256 0xd75fd7 170);
   ("MEDIUM_ORCHID_2", c256 0xd75fff 171);
   ("ORANGE_2", c256 0xd78700 172);
   ("LIGHT_SALMON_2", c256 0xd7875f 173);
   ("LIGHT_PINK_2", c256 0xd78787 174);
   ("PINK_3", c256 0xd787af 175);
   ("PLUM_3", c256 0xd787d7 176);
   ("VIOLET", c256 0xd787ff 177);
   ("GOLD_2", c256 0xd7af00 178);
   ("LIGHT_GOLDENROD_5", c256 0xd7af5f 179);
   ("TAN", c256 0xd7af87 180);
   ("MISTY_ROSE_3", c256 0xd7afaf 181);
   ("THISTLE_3", c256 0xd7afd7 182);
   ("PLUM_2", c256 0xd7afff 183);
   ("YELLOW_3", c256 0xd7d700 184);
   ("KHAKI_3", c256 0xd7d75f 185);
   ("LIGHT_GOLDENROD_3", c256 0xd7d787 186);
   ("LIGHT_YELLOW_3", c256 0xd7d7af 187);
   ("GREY_84", c256 0xd7d7d7 188);
   ("LIGHT_STEEL_BLUE_1", c256 0xd7d7ff 189);
   ("YELLOW_2", c256 0xd7ff00 190);
   ("DARK_OLIVE_GREEN_2", c256 0xd7ff5f 191);
   ("DARK_OLIVE_GREEN_1", c256 0xd7ff87 192);
   ("DARK_SEA_GREEN_2", c256 0xd7ffaf 193);
   ("HONEYDEW_2", c256 0xd7ffd7 194);
   ("LIGHT_CYAN_1", c256 0xd7ffff 195);
   ("RED_1", c256 0xff0000 196);
   ("DEEP_PINK_4", c256 0xff005f 197);
   ("DEEP_PINK_2", c256 0xff0087 198);
   ("DEEP_PINK_1", c256 0xff00af 199);
   ("MAGENTA_2", c256 0xff00d7 200);
   ("MAGENTA_1", c256 0xff00ff 201);
   ("ORANGE_RED_1", c256 0xff5f00 202);
   ("INDIAN_RED_1", c256 0xff5f5f 203);
   ("INDIAN_RED_2", c256 0xff5f87 204);
   ("HOT_PINK_2", c256 0xff5faf 205);
   ("HOT_PINK", c256 0xff5fd7 206);
   ("MEDIUM_ORCHID_1", c256 0xff5fff 207);
   ("DARK_ORANGE", c256 0xff8700 208);
   ("SALMON_1", c256 0xff875f 209);
   ("LIGHT_CORAL", c256 0xff8787 210);
   ("PALE_VIOLET_RED_1", c256 0xff87af 211);
   ("ORCHID_2", c256 0xff87d7 212);
   ("ORCHID_1", c256 0xff87ff 213);
   ("ORANGE_1", c256 0xffaf00 214);
   ("SANDY_BROWN", c256 0xffaf5f 215);
   ("LIGHT_SALMON_1", c256 0xffaf87 216);
   ("LIGHT_PINK_1", c256 0xffafaf 217);
   ("PINK_1", c256 0xffafd7 218);
   ("PLUM_1", c256 0xffafff 219);
   ("GOLD_1", c256 0xffd700 220);
   ("LIGHT_GOLDENROD_4", c256 0xffd75f 221);
   ("LIGHT_GOLDENROD_2", c256 0xffd787 222);
   ("NAVAJO_WHITE_1", c256 0xffd7af 223);
   ("MISTY_ROSE_1", c256 0xffd7d7 224);
   ("THISTLE_1", c256 0xffd7ff 225);
   ("YELLOW_1", c256 0xffff00 226);
   ("LIGHT_GOLDENROD_1", c256 0xffff5f 227);
   ("KHAKI_1", c256 0xffff87 228);
   ("WHEAT_1", c256 0xffffaf 229);
   ("CORNSILK_1", c256 0xffffd7 230);
   ("GREY_100", c256 0xffffff 231);
   ("GREY_3", c256 0x080808 232);
   ("GREY_7", c256 0x121212 233);
   ("GREY_11", c256 0x1c1c1c 234);
   ("GREY_15", c256 0x262626 235);
   ("GREY_19", c256 0x303030 236);
   ("GREY_23", c256 0x3a3a3a 237);
   ("GREY_27", c256 0x444444 238);
   ("GREY_30", c256 0x4e4e4e 239);
   ("GREY_35", c256 0x585858 240);
   ("GREY_39", c256 0x626262 241);
   ("GREY_42", c256 0x6c6c6c 242);
   ("GREY_46", c256 0x767676 243);
   ("GREY_50", c256 0x808080 244);
   ("GREY_54", c256 0x8a8a8a 245);
   ("GREY_58", c256 0x949494 246);
   ("GREY_62", c256 0x9e9e9e 247);
   ("GREY_66", c256 0xa8a8a8 248);
   ("GREY_70", c256 0xb2b2b2 249);
   ("GREY_74", c256 0xbcbcbc 250);
   ("GREY_78", c256 0xc6c6c6 251);
   ("GREY_82", c256 0xd0d0d0 252);
   ("GREY_85", c256 0xdadada 253);
   ("GREY_89", c256 0xe4e4e4 254);
   ("GREY_93", c256 0xeeeeee 255);
   ("TRUE_BLACK", ColorRGB (Some 0x000000));
   ("TRUE_WHITE", ColorRGB (Some 0xffffff));
   ("RGB_GREY_1", ColorRGB (Some 0x020202));
   ("RGB_GREY_2", ColorRGB (Some 0x050505));
   ("RGB_GREY_3", ColorRGB (Some 0x070707));
   ("RGB_GREY_4", ColorRGB (Some 0x0a0a0a));
   ("RGB_GREY_5", ColorRGB (Some 0x0c0c0c));
   ("RGB_GREY_6", ColorRGB (Some 0x0f0f0f));
   ("RGB_GREY_7", ColorRGB (Some 0x111111));
   ("RGB_GREY_8", ColorRGB (Some 0x141414));
   ("RGB_GREY_9", ColorRGB (Some 0x171717));
   ("RGB_GREY_10", ColorRGB (Some 0x191919));
   ("RGB_GREY_15", ColorRGB (Some 0x262626));
   ("RGB_GREY_20", ColorRGB (Some 0x333333));
   ("RGB_GREY_25", ColorRGB (Some 0x404040));
   ("RGB_GREY_30", ColorRGB (Some 0x4c4c4c));
   ("RGB_GREY_35", ColorRGB (Some 0x595959));
   ("RGB_GREY_40", ColorRGB (Some 0x666666));
   ("RGB_GREY_45", ColorRGB (Some 0x737373));
   ("RGB_GREY_50", ColorRGB (Some 0x808080));
   ("RGB_GREY_55", ColorRGB (Some 0x8c8c8c));
   ("RGB_GREY_60", ColorRGB (Some 0x999999));
   ("RGB_GREY_65", ColorRGB (Some 0xa6a6a6));
   ("RGB_GREY_70", ColorRGB (Some 0xb3b3b3));
   ("RGB_GREY_75", ColorRGB (Some 0xc0c0c0));
   ("RGB_GREY_80", ColorRGB (Some 0xcccccc));
   ("RGB_GREY_85", ColorRGB (Some 0xd9d9d9));
   ("RGB_GREY_90", ColorRGB (Some 0xe6e6e6));
   ("RGB_GREY_91", ColorRGB (Some 0xe8e8e8));
   ("RGB_GREY_92", ColorRGB (Some 0xebebeb));
   ("RGB_GREY_93", ColorRGB (Some 0xeeeeee));
   ("RGB_GREY_94", ColorRGB (Some 0xf1f1f1));
   ("RGB_GREY_95", ColorRGB (Some 0xf3f3f3));
   ("RGB_GREY_96", ColorRGB (Some 0xf5f5f5));
   ("RGB_GREY_97", ColorRGB (Some 0xf8f8f8));
   ("RGB_GREY_98", ColorRGB (Some 0xfafafa));
   ("RGB_GREY_99", ColorRGB (Some 0xfdfdfd))]
)%string.
