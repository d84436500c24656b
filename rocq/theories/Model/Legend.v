(** kolombos/legend.ansi and kolombos/runner/legend.py, version.py: what --legend and --version
    print. *)
From Coq Require Import Ascii String.
From Coq Require Import List NArith ZArith Bool.
From Verif.Model Require Import Base Settings Segment Reader Runner Render.
Import ListNotations.
Local Open Scope N_scope.

(** The lines of the file, byte by byte; ESC is written as a grave accent (which does not occur
    in the file).  The last line is not terminated by a line feed. *)
Definition legend_source : list string := [
  "`[1;92m    __         `[34m__                __`[m";
  "`[1;92m   / /`[92m__`[94m____  / /___  ____ ___  / /_  ____ `[93m _____`[m";
  "`[1;32m  / //_/`[36m __ \/ / __ \`[35m/ __ '__ \/ __ \/ __ \`[33m/ ___/`[m";
  "`[1;94m / ,< `[36m/ /_/ / / /_/ `[35m/ / / / / / /_/ / /_/ `[33m(__  )`[m";
  "`[1;34m/_/|_|`[34m\____/_/\____/_/ /_/ /_/\.___/\____`[33m/____/`[m";
  "                                            `[93mv1.5.3`[m";
  "";
  "`[97;1mCHARACTER CLASSES`[m";
  "  `[90m<`[m`[1mS`[m`[90m>`[m   ASCII whitespace chars   09-0d, 20      `[90;1m-s -S`[m";
  "  `[90m<`[m`[1mC`[m`[90m>`[m   ASCII control chars      01-08, 0e-1f   `[90;1m-c -C`[m";
  "  `[90m<`[m`[1mP`[m`[90m>`[m   ASCII printable chars    21-7e          `[90;1m-p -P`[m";
  "  `[90m<`[m`[1mI`[m`[90m>`[m   binary data              80-ff          `[90;1m-i -I`[m";
  "  `[90m<`[m`[1mU`[m`[90m>`[m   UTF-8 sequences          various        `[90;1m-u -U`[m";
  "  `[90m<`[m`[1mE`[m`[90m>`[m   ANSI escape sequences    1b[..]         `[90;1m-e -E`[m";
  "";
  "`[97;1mSIGILS`[m";
  " `[2mCHAR(s)`[m `[2mOUTPUT (regular/focused)`[m  `[2mCLS`[m `[2m             DESCRIPTION and NOTES                            `[m";
  "         `[2mTEXT mode`[m `[2m BINARY mode `[m";
  " `[38;2;51;51;51m─`[39m`[38;2;51;51;51m─`[39m`[38;2;51;51;51m─`[39m`[38;2;51;51;51m─`[39m`[38;2;51;51;51m─`[39m`[38;2;51;51;51m─`[39m`[38;2;51;51;51m─`[39m`[38;2;51;51;51m─`[39m`[38;2;51;51;51m─`[39m`[38;2;51;51;51m─`[39m`[38;2;51;51;51m─`[39m`[38;2;51;51;51m─`[39m`[38;2;51;51;51m─`[39m`[38;2;51;51;51m─`[39m`[38;2;51;51;51m─`[39m`[38;2;51;51;51m─`[39m`[38;2;51;51;51m─`[39m`[38;2;51;51;51m─`[39m`[38;2;51;51;51m─`[39m`[38;2;51;51;51m─`[39m`[38;2;51;51;51m─`[39m`[38;2;51;51;51m─`[39m`[38;2;51;51;51m─`[39m`[38;2;51;51;51m─`[39m`[38;2;51;51;51m─`[39m`[38;2;51;51;51m─`[39m`[38;2;51;51;51m─`[39m`[38;2;51;51;51m─`[39m`[38;2;51;51;51m─`[39m`[38;2;51;51;51m─`[39m`[38;2;51;51;51m─`[39m`[38;2;51;51;51m─`[39m`[38;2;51;51;51m─`[39m`[38;2;51;51;51m─`[39m`[38;2;51;51;51m─`[39m`[38;2;51;51;51m─`[39m`[38;2;51;51;51m─`[39m`[38;2;51;51;51m─`[39m`[38;2;51;51;51m─`[39m`[38;2;51;51;51m─`[39m`[38;2;51;51;51m─`[39m`[38;2;51;51;51m─`[39m`[38;2;51;51;51m─`[39m`[38;2;51;51;51m─`[39m`[38;2;51;51;51m─`[39m`[38;2;51;51;51m─`[39m`[38;2;51;51;51m─`[39m`[38;2;51;51;51m─`[39m`[38;2;51;51;51m─`[39m`[38;2;51;51;51m─`[39m`[38;2;51;51;51m─`[39m`[38;2;51;51;51m─`[39m`[38;2;51;51;51m─`[39m`[38;2;51;51;51m─`[39m`[38;2;51;51;51m─`[39m`[38;2;51;51;51m─`[39m`[38;2;51;51;51m─`[39m`[38;2;51;51;51m─`[39m`[38;2;51;51;51m─`[39m`[38;2;51;51;51m─`[39m`[38;2;51;51;51m─`[39m`[38;2;51;51;51m─`[39m`[38;2;51;51;51m─`[39m`[38;2;51;51;51m─`[39m`[38;2;51;51;51m─`[39m`[38;2;51;51;51m─`[39m`[38;2;51;51;51m─`[39m`[38;2;51;51;51m─`[39m`[38;2;51;51;51m─`[39m`[38;2;51;51;51m─`[39m`[38;2;51;51;51m─`[39m`[38;2;51;51;51m─`[39m`[38;2;51;51;51m─`[39m`[38;2;51;51;51m─`[39m`[38;2;51;51;51m─`[39m`[38;2;51;51;51m─`[39m`[38;2;51;51;51m─`[39m`[38;2;51;51;51m─`[39m`[38;2;51;51;51m─`[39m`[38;2;51;51;51m─`[39m`[38;2;51;51;51m─`[39m`[38;2;51;51;51m─`[39m`[38;2;51;51;51m─`[39m`[38;2;51;51;51m─`[39m`[38;2;51;51;51m─`[39m`[38;2;51;51;51m─`[39m`[38;2;51;51;51m─`[39m";
  "   `[1;38;2;255;255;255;48;2;0;0;0m ⇥ `[22;39;49m      `[96m⇥`[39m `[46;30m⇥`[49;39m       `[96m 09`[39m   `[46;30m 09`[49;39m    `[90m<`[m`[1m`[1mS`[m`[90m>`[m horizontal tab    `[90mHT  ""`[1m\t`[m`[90m""        origin is kept;`[m";
  "   `[1;38;2;255;255;255;48;2;0;0;0m ↵ `[22;39;49m      `[96m↵`[39m `[46;30m↵`[49;39m       `[96m 0a`[39m   `[46;30m 0a`[49;39m    `[90m<`[m`[1mS`[m`[90m>`[m line feed         `[90mLF  ""`[1m\n`[m`[90m""        origin is kept;`[m";
  "   `[1;38;2;255;255;255;48;2;0;0;0m ⤓ `[22;39;49m      `[96m⤓`[39m `[46;30m⤓`[49;39m       `[96m 0b`[39m   `[46;30m 0b`[49;39m    `[90m<`[m`[1mS`[m`[90m>`[m vertical tab      `[90mVT  ""`[1m\v`[m`[90m""`[m";
  "   `[1;38;2;255;255;255;48;2;0;0;0m ↡ `[22;39;49m      `[96m↡`[39m `[46;30m↡`[49;39m       `[96m 0c`[39m   `[46;30m 0c`[49;39m    `[90m<`[m`[1mS`[m`[90m>`[m form feed         `[90mFF  ""`[1m\f`[m`[90m""`[m";
  "   `[1;38;2;255;255;255;48;2;0;0;0m ⇤ `[22;39;49m      `[96m⇤`[39m `[46;30m⇤`[49;39m       `[96m 0d`[39m   `[46;30m 0d`[49;39m    `[90m<`[m`[1mS`[m`[90m>`[m carriage return   `[90mCR  ""`[1m\r`[m`[90m""`[m";
  " `[1;38;2;255;255;255;48;2;0;0;0m ␣ `[22;39;49m `[1;38;2;255;255;255;48;2;0;0;0m · `[22;39;49m    `[96m␣`[39m `[46;30m·`[49;39m       `[96m 20`[39m   `[46;30m 20`[49;39m    `[90m<`[m`[1mS`[m`[90m>`[m space             `[90mSP";
  " `[38;2;51;51;51m─`[39m`[38;2;51;51;51m─`[39m`[38;2;51;51;51m─`[39m`[38;2;51;51;51m─`[39m`[38;2;51;51;51m─`[39m`[38;2;51;51;51m─`[39m`[38;2;51;51;51m─`[39m`[38;2;51;51;51m─`[39m`[38;2;51;51;51m─`[39m`[38;2;51;51;51m─`[39m`[38;2;51;51;51m─`[39m`[38;2;51;51;51m─`[39m`[38;2;51;51;51m─`[39m`[38;2;51;51;51m─`[39m`[38;2;51;51;51m─`[39m`[38;2;51;51;51m─`[39m`[38;2;51;51;51m─`[39m`[38;2;51;51;51m─`[39m`[38;2;51;51;51m─`[39m`[38;2;51;51;51m─`[39m`[38;2;51;51;51m─`[39m`[38;2;51;51;51m─`[39m`[38;2;51;51;51m─`[39m`[38;2;51;51;51m─`[39m`[38;2;51;51;51m─`[39m`[38;2;51;51;51m─`[39m`[38;2;51;51;51m─`[39m`[38;2;51;51;51m─`[39m`[38;2;51;51;51m─`[39m`[38;2;51;51;51m─`[39m`[38;2;51;51;51m─`[39m`[38;2;51;51;51m─`[39m`[38;2;51;51;51m─`[39m`[38;2;51;51;51m─`[39m`[38;2;51;51;51m─`[39m`[38;2;51;51;51m─`[39m`[38;2;51;51;51m─`[39m`[38;2;51;51;51m─`[39m`[38;2;51;51;51m─`[39m`[38;2;51;51;51m─`[39m`[38;2;51;51;51m─`[39m`[38;2;51;51;51m─`[39m`[38;2;51;51;51m─`[39m`[38;2;51;51;51m─`[39m`[38;2;51;51;51m─`[39m`[38;2;51;51;51m─`[39m`[38;2;51;51;51m─`[39m`[38;2;51;51;51m─`[39m`[38;2;51;51;51m─`[39m`[38;2;51;51;51m─`[39m`[38;2;51;51;51m─`[39m`[38;2;51;51;51m─`[39m`[38;2;51;51;51m─`[39m`[38;2;51;51;51m─`[39m`[38;2;51;51;51m─`[39m`[38;2;51;51;51m─`[39m`[38;2;51;51;51m─`[39m`[38;2;51;51;51m─`[39m`[38;2;51;51;51m─`[39m`[38;2;51;51;51m─`[39m`[38;2;51;51;51m─`[39m`[38;2;51;51;51m─`[39m`[38;2;51;51;51m─`[39m`[38;2;51;51;51m─`[39m`[38;2;51;51;51m─`[39m`[38;2;51;51;51m─`[39m`[38;2;51;51;51m─`[39m`[38;2;51;51;51m─`[39m`[38;2;51;51;51m─`[39m`[38;2;51;51;51m─`[39m`[38;2;51;51;51m─`[39m`[38;2;51;51;51m─`[39m`[38;2;51;51;51m─`[39m`[38;2;51;51;51m─`[39m`[38;2;51;51;51m─`[39m`[38;2;51;51;51m─`[39m`[38;2;51;51;51m─`[39m`[38;2;51;51;51m─`[39m`[38;2;51;51;51m─`[39m`[38;2;51;51;51m─`[39m`[38;2;51;51;51m─`[39m`[38;2;51;51;51m─`[39m`[38;2;51;51;51m─`[39m`[38;2;51;51;51m─`[39m`[38;2;51;51;51m─`[39m`[38;2;51;51;51m─`[39m`[38;2;51;51;51m─`[39m";
  "   `[1;38;2;255;255;255;48;2;0;0;0m Ɐ `[22;39;49m      `[31mⱯ`[39m `[31;7mⱯ`[39;27m       `[31m 03`[39m   `[31;7m 1e`[39;27m    `[90m<`[m`[1mC`[m`[90m>`[m generic control char    `[90mCCs without unique sigil;`[m";
  "           `[31mⱯ`[39m`[31;48;5;16;4mC`[39;49;24m `[31;7mⱯ`[39;27m`[31;48;5;16;4m^`[39;49;24m                       `[90;1m--text --marker=`[38;5;117m1`[m   `[90mchar from caret notation: ^C;";
  "          `[31mⱯ`[39m`[31;48;5;16;4m03`[39;49;24m `[31;7mⱯ`[39;27m`[31;48;5;16;4m1e`[39;49;24m                      `[90;1m--text --marker=`[38;2;248;184;137m2`[m    `[90mreal char hexadecimal value;";
  "";
  "   `[1;38;2;255;255;255;48;2;0;0;0m Ø `[22;39;49m      `[91mØ`[39m `[91;7mØ`[39;27m       `[91m 00`[39m   `[91;7m 00`[39;27m    `[90m<`[m`[1mC`[m`[90m>`[m null byte        `[90mNUL  ""`[1m\0`[m`[90m""`[m";
  "   `[1;38;2;255;255;255;48;2;0;0;0m ← `[22;39;49m      `[31m←`[39m `[31;7m←`[39;27m       `[31m 08`[39m   `[31;7m 08`[39;27m    `[90m<`[m`[1mC`[m`[90m>`[m backspace        `[90m BS  ""`[1m\b`[m`[90m""`[m";
  "   `[1;38;2;255;255;255;48;2;0;0;0m → `[22;39;49m      `[31m→`[39m `[31;7m→`[39;27m       `[31m 7f`[39m   `[31;7m 7f`[39;27m    `[90m<`[m`[1mC`[m`[90m>`[m delete           `[90mDEL";
  "   `[1;38;2;255;255;255;48;2;0;0;0m ∌ `[22;39;49m      `[93m∌`[39m `[93;7m∌`[39;27m       `[93m 1b`[39m   `[93;7m 1b`[39;27m    `[90m<`[m`[1mC`[m`[90m>`[m escape           `[90mESC  ""`[1m\e`[m`[90m"" (shell)`[m";
  " `[38;2;51;51;51m─`[39m`[38;2;51;51;51m─`[39m`[38;2;51;51;51m─`[39m`[38;2;51;51;51m─`[39m`[38;2;51;51;51m─`[39m`[38;2;51;51;51m─`[39m`[38;2;51;51;51m─`[39m`[38;2;51;51;51m─`[39m`[38;2;51;51;51m─`[39m`[38;2;51;51;51m─`[39m`[38;2;51;51;51m─`[39m`[38;2;51;51;51m─`[39m`[38;2;51;51;51m─`[39m`[38;2;51;51;51m─`[39m`[38;2;51;51;51m─`[39m`[38;2;51;51;51m─`[39m`[38;2;51;51;51m─`[39m`[38;2;51;51;51m─`[39m`[38;2;51;51;51m─`[39m`[38;2;51;51;51m─`[39m`[38;2;51;51;51m─`[39m`[38;2;51;51;51m─`[39m`[38;2;51;51;51m─`[39m`[38;2;51;51;51m─`[39m`[38;2;51;51;51m─`[39m`[38;2;51;51;51m─`[39m`[38;2;51;51;51m─`[39m`[38;2;51;51;51m─`[39m`[38;2;51;51;51m─`[39m`[38;2;51;51;51m─`[39m`[38;2;51;51;51m─`[39m`[38;2;51;51;51m─`[39m`[38;2;51;51;51m─`[39m`[38;2;51;51;51m─`[39m`[38;2;51;51;51m─`[39m`[38;2;51;51;51m─`[39m`[38;2;51;51;51m─`[39m`[38;2;51;51;51m─`[39m`[38;2;51;51;51m─`[39m`[38;2;51;51;51m─`[39m`[38;2;51;51;51m─`[39m`[38;2;51;51;51m─`[39m`[38;2;51;51;51m─`[39m`[38;2;51;51;51m─`[39m`[38;2;51;51;51m─`[39m`[38;2;51;51;51m─`[39m`[38;2;51;51;51m─`[39m`[38;2;51;51;51m─`[39m`[38;2;51;51;51m─`[39m`[38;2;51;51;51m─`[39m`[38;2;51;51;51m─`[39m`[38;2;51;51;51m─`[39m`[38;2;51;51;51m─`[39m`[38;2;51;51;51m─`[39m`[38;2;51;51;51m─`[39m`[38;2;51;51;51m─`[39m`[38;2;51;51;51m─`[39m`[38;2;51;51;51m─`[39m`[38;2;51;51;51m─`[39m`[38;2;51;51;51m─`[39m`[38;2;51;51;51m─`[39m`[38;2;51;51;51m─`[39m`[38;2;51;51;51m─`[39m`[38;2;51;51;51m─`[39m`[38;2;51;51;51m─`[39m`[38;2;51;51;51m─`[39m`[38;2;51;51;51m─`[39m`[38;2;51;51;51m─`[39m`[38;2;51;51;51m─`[39m`[38;2;51;51;51m─`[39m`[38;2;51;51;51m─`[39m`[38;2;51;51;51m─`[39m`[38;2;51;51;51m─`[39m`[38;2;51;51;51m─`[39m`[38;2;51;51;51m─`[39m`[38;2;51;51;51m─`[39m`[38;2;51;51;51m─`[39m`[38;2;51;51;51m─`[39m`[38;2;51;51;51m─`[39m`[38;2;51;51;51m─`[39m`[38;2;51;51;51m─`[39m`[38;2;51;51;51m─`[39m`[38;2;51;51;51m─`[39m`[38;2;51;51;51m─`[39m`[38;2;51;51;51m─`[39m`[38;2;51;51;51m─`[39m`[38;2;51;51;51m─`[39m";
  "  `[38;2;102;102;102m (*) `[39m    `[38;5;102m!`[39m`[38;5;102m""`[39m `[47;30m1`[49;39m`[47;30m2`[49;39m   `[38;5;102m 21`[39m`[38;5;102m 22`[39m`[47;30m 31`[49;39m`[47;30m 32`[49;39m    `[90m<`[m`[1mP`[m`[90m>`[m ASCII printable char";
  "           `[38;5;102mA`[39m`[38;5;102mB`[39m `[47;30m}`[49;39m`[47;30m~`[49;39m   `[38;5;102m 41`[39m`[38;5;102m 42`[39m`[47;30m 7d`[49;39m`[47;30m 7e`[49;39m    ";
  " `[38;2;51;51;51m─`[39m`[38;2;51;51;51m─`[39m`[38;2;51;51;51m─`[39m`[38;2;51;51;51m─`[39m`[38;2;51;51;51m─`[39m`[38;2;51;51;51m─`[39m`[38;2;51;51;51m─`[39m`[38;2;51;51;51m─`[39m`[38;2;51;51;51m─`[39m`[38;2;51;51;51m─`[39m`[38;2;51;51;51m─`[39m`[38;2;51;51;51m─`[39m`[38;2;51;51;51m─`[39m`[38;2;51;51;51m─`[39m`[38;2;51;51;51m─`[39m`[38;2;51;51;51m─`[39m`[38;2;51;51;51m─`[39m`[38;2;51;51;51m─`[39m`[38;2;51;51;51m─`[39m`[38;2;51;51;51m─`[39m`[38;2;51;51;51m─`[39m`[38;2;51;51;51m─`[39m`[38;2;51;51;51m─`[39m`[38;2;51;51;51m─`[39m`[38;2;51;51;51m─`[39m`[38;2;51;51;51m─`[39m`[38;2;51;51;51m─`[39m`[38;2;51;51;51m─`[39m`[38;2;51;51;51m─`[39m`[38;2;51;51;51m─`[39m`[38;2;51;51;51m─`[39m`[38;2;51;51;51m─`[39m`[38;2;51;51;51m─`[39m`[38;2;51;51;51m─`[39m`[38;2;51;51;51m─`[39m`[38;2;51;51;51m─`[39m`[38;2;51;51;51m─`[39m`[38;2;51;51;51m─`[39m`[38;2;51;51;51m─`[39m`[38;2;51;51;51m─`[39m`[38;2;51;51;51m─`[39m`[38;2;51;51;51m─`[39m`[38;2;51;51;51m─`[39m`[38;2;51;51;51m─`[39m`[38;2;51;51;51m─`[39m`[38;2;51;51;51m─`[39m`[38;2;51;51;51m─`[39m`[38;2;51;51;51m─`[39m`[38;2;51;51;51m─`[39m`[38;2;51;51;51m─`[39m`[38;2;51;51;51m─`[39m`[38;2;51;51;51m─`[39m`[38;2;51;51;51m─`[39m`[38;2;51;51;51m─`[39m`[38;2;51;51;51m─`[39m`[38;2;51;51;51m─`[39m`[38;2;51;51;51m─`[39m`[38;2;51;51;51m─`[39m`[38;2;51;51;51m─`[39m`[38;2;51;51;51m─`[39m`[38;2;51;51;51m─`[39m`[38;2;51;51;51m─`[39m`[38;2;51;51;51m─`[39m`[38;2;51;51;51m─`[39m`[38;2;51;51;51m─`[39m`[38;2;51;51;51m─`[39m`[38;2;51;51;51m─`[39m`[38;2;51;51;51m─`[39m`[38;2;51;51;51m─`[39m`[38;2;51;51;51m─`[39m`[38;2;51;51;51m─`[39m`[38;2;51;51;51m─`[39m`[38;2;51;51;51m─`[39m`[38;2;51;51;51m─`[39m`[38;2;51;51;51m─`[39m`[38;2;51;51;51m─`[39m`[38;2;51;51;51m─`[39m`[38;2;51;51;51m─`[39m`[38;2;51;51;51m─`[39m`[38;2;51;51;51m─`[39m`[38;2;51;51;51m─`[39m`[38;2;51;51;51m─`[39m`[38;2;51;51;51m─`[39m`[38;2;51;51;51m─`[39m`[38;2;51;51;51m─`[39m`[38;2;51;51;51m─`[39m`[38;2;51;51;51m─`[39m";
  "   `[1;38;2;255;255;255;48;2;0;0;0m Ḇ `[22;39;49m     `[35mḆ`[39m`[35mḆ`[39m `[35;7mḆ`[39;27m`[35;7mḆ`[39;27m   `[35m c0`[39m`[35m ff`[39m`[35;7m ee`[39;27m`[35;7m da`[39;27m    `[90m<`[m`[1mI`[m`[90m>`[m binary data  `[90;1m-t`[m     `[90msequences that cannot be cla-`[m";
  "   `[1;38;2;255;255;255;48;2;0;0;0m ▯ `[22;39;49m     `[35m▯`[39m`[35m▯`[39m `[35;7m▯`[39;27m`[35;7m▯`[39;27m   `[35m ee`[39m`[35m b0`[39m`[35;7m c0`[39;27m`[35;7m cc`[39;27m                     `[90;1m-b`[m     `[90mssified as any of the others;`[m";
  " `[38;2;51;51;51m─`[39m`[38;2;51;51;51m─`[39m`[38;2;51;51;51m─`[39m`[38;2;51;51;51m─`[39m`[38;2;51;51;51m─`[39m`[38;2;51;51;51m─`[39m`[38;2;51;51;51m─`[39m`[38;2;51;51;51m─`[39m`[38;2;51;51;51m─`[39m`[38;2;51;51;51m─`[39m`[38;2;51;51;51m─`[39m`[38;2;51;51;51m─`[39m`[38;2;51;51;51m─`[39m`[38;2;51;51;51m─`[39m`[38;2;51;51;51m─`[39m`[38;2;51;51;51m─`[39m`[38;2;51;51;51m─`[39m`[38;2;51;51;51m─`[39m`[38;2;51;51;51m─`[39m`[38;2;51;51;51m─`[39m`[38;2;51;51;51m─`[39m`[38;2;51;51;51m─`[39m`[38;2;51;51;51m─`[39m`[38;2;51;51;51m─`[39m`[38;2;51;51;51m─`[39m`[38;2;51;51;51m─`[39m`[38;2;51;51;51m─`[39m`[38;2;51;51;51m─`[39m`[38;2;51;51;51m─`[39m`[38;2;51;51;51m─`[39m`[38;2;51;51;51m─`[39m`[38;2;51;51;51m─`[39m`[38;2;51;51;51m─`[39m`[38;2;51;51;51m─`[39m`[38;2;51;51;51m─`[39m`[38;2;51;51;51m─`[39m`[38;2;51;51;51m─`[39m`[38;2;51;51;51m─`[39m`[38;2;51;51;51m─`[39m`[38;2;51;51;51m─`[39m`[38;2;51;51;51m─`[39m`[38;2;51;51;51m─`[39m`[38;2;51;51;51m─`[39m`[38;2;51;51;51m─`[39m`[38;2;51;51;51m─`[39m`[38;2;51;51;51m─`[39m`[38;2;51;51;51m─`[39m`[38;2;51;51;51m─`[39m`[38;2;51;51;51m─`[39m`[38;2;51;51;51m─`[39m`[38;2;51;51;51m─`[39m`[38;2;51;51;51m─`[39m`[38;2;51;51;51m─`[39m`[38;2;51;51;51m─`[39m`[38;2;51;51;51m─`[39m`[38;2;51;51;51m─`[39m`[38;2;51;51;51m─`[39m`[38;2;51;51;51m─`[39m`[38;2;51;51;51m─`[39m`[38;2;51;51;51m─`[39m`[38;2;51;51;51m─`[39m`[38;2;51;51;51m─`[39m`[38;2;51;51;51m─`[39m`[38;2;51;51;51m─`[39m`[38;2;51;51;51m─`[39m`[38;2;51;51;51m─`[39m`[38;2;51;51;51m─`[39m`[38;2;51;51;51m─`[39m`[38;2;51;51;51m─`[39m`[38;2;51;51;51m─`[39m`[38;2;51;51;51m─`[39m`[38;2;51;51;51m─`[39m`[38;2;51;51;51m─`[39m`[38;2;51;51;51m─`[39m`[38;2;51;51;51m─`[39m`[38;2;51;51;51m─`[39m`[38;2;51;51;51m─`[39m`[38;2;51;51;51m─`[39m`[38;2;51;51;51m─`[39m`[38;2;51;51;51m─`[39m`[38;2;51;51;51m─`[39m`[38;2;51;51;51m─`[39m`[38;2;51;51;51m─`[39m`[38;2;51;51;51m─`[39m`[38;2;51;51;51m─`[39m`[38;2;51;51;51m─`[39m`[38;2;51;51;51m─`[39m";
  "  `[38;2;102;102;102m (*) `[39m      `[94m🐍`[39m    `[94m f0 9f 90 8d`[39m    `[90m<`[m`[1mU`[m`[90m>`[m UTF-8 sequence  `[90;1m--text`[m`[90m        decoded by default;`[m";
  "   `[1;38;2;255;255;255;48;2;0;0;0m ▯ `[22;39;49m     `[94m▯`[39m`[94m▯`[39m `[94;7m▯`[39;27m`[94;7m▯`[39;27m   `[94m d1`[39m`[94m 85`[39m`[94;7m d0`[39;27m`[94;7m b9`[39;27m                        `[90;1m--binary`[m";
  "   `[1;38;2;255;255;255;48;2;0;0;0m _ `[22;39;49m    `[94m_ы`[39m `[94;7m__世`[39;27m  `[94m d1 8b`[39m`[94;7m e4 b`[39;27m‥                        `[90;1m--binary`[m `[90;1m--decode`[m";
  " `[38;2;51;51;51m─`[39m`[38;2;51;51;51m─`[39m`[38;2;51;51;51m─`[39m`[38;2;51;51;51m─`[39m`[38;2;51;51;51m─`[39m`[38;2;51;51;51m─`[39m`[38;2;51;51;51m─`[39m`[38;2;51;51;51m─`[39m`[38;2;51;51;51m─`[39m`[38;2;51;51;51m─`[39m`[38;2;51;51;51m─`[39m`[38;2;51;51;51m─`[39m`[38;2;51;51;51m─`[39m`[38;2;51;51;51m─`[39m`[38;2;51;51;51m─`[39m`[38;2;51;51;51m─`[39m`[38;2;51;51;51m─`[39m`[38;2;51;51;51m─`[39m`[38;2;51;51;51m─`[39m`[38;2;51;51;51m─`[39m`[38;2;51;51;51m─`[39m`[38;2;51;51;51m─`[39m`[38;2;51;51;51m─`[39m`[38;2;51;51;51m─`[39m`[38;2;51;51;51m─`[39m`[38;2;51;51;51m─`[39m`[38;2;51;51;51m─`[39m`[38;2;51;51;51m─`[39m`[38;2;51;51;51m─`[39m`[38;2;51;51;51m─`[39m`[38;2;51;51;51m─`[39m`[38;2;51;51;51m─`[39m`[38;2;51;51;51m─`[39m`[38;2;51;51;51m─`[39m`[38;2;51;51;51m─`[39m`[38;2;51;51;51m─`[39m`[38;2;51;51;51m─`[39m`[38;2;51;51;51m─`[39m`[38;2;51;51;51m─`[39m`[38;2;51;51;51m─`[39m`[38;2;51;51;51m─`[39m`[38;2;51;51;51m─`[39m`[38;2;51;51;51m─`[39m`[38;2;51;51;51m─`[39m`[38;2;51;51;51m─`[39m`[38;2;51;51;51m─`[39m`[38;2;51;51;51m─`[39m`[38;2;51;51;51m─`[39m`[38;2;51;51;51m─`[39m`[38;2;51;51;51m─`[39m`[38;2;51;51;51m─`[39m`[38;2;51;51;51m─`[39m`[38;2;51;51;51m─`[39m`[38;2;51;51;51m─`[39m`[38;2;51;51;51m─`[39m`[38;2;51;51;51m─`[39m`[38;2;51;51;51m─`[39m`[38;2;51;51;51m─`[39m`[38;2;51;51;51m─`[39m`[38;2;51;51;51m─`[39m`[38;2;51;51;51m─`[39m`[38;2;51;51;51m─`[39m`[38;2;51;51;51m─`[39m`[38;2;51;51;51m─`[39m`[38;2;51;51;51m─`[39m`[38;2;51;51;51m─`[39m`[38;2;51;51;51m─`[39m`[38;2;51;51;51m─`[39m`[38;2;51;51;51m─`[39m`[38;2;51;51;51m─`[39m`[38;2;51;51;51m─`[39m`[38;2;51;51;51m─`[39m`[38;2;51;51;51m─`[39m`[38;2;51;51;51m─`[39m`[38;2;51;51;51m─`[39m`[38;2;51;51;51m─`[39m`[38;2;51;51;51m─`[39m`[38;2;51;51;51m─`[39m`[38;2;51;51;51m─`[39m`[38;2;51;51;51m─`[39m`[38;2;51;51;51m─`[39m`[38;2;51;51;51m─`[39m`[38;2;51;51;51m─`[39m`[38;2;51;51;51m─`[39m`[38;2;51;51;51m─`[39m`[38;2;51;51;51m─`[39m`[38;2;51;51;51m─`[39m";
  "   `[1;38;2;255;255;255;48;2;0;0;0m θ `[22;39;49m       `[38;5;255;48;5;16mθ`[39;49m        `[38;5;255;48;5;16m 1b`[39;49m`[38;5;255;48;5;16;48;5;16;4m 5b 6d`[39;49;49;24m    `[90m<`[m`[1mE`[m`[90m>`[m SGR reset sequence  `[90mall params always underlined;`[m";
  "            `[38;5;255m⢸`[39m`[38;5;255;48;5;16mθ`[39;49m`[38;5;255;48;5;16;48;5;16;4m`[39;49;49;24m`[38;5;255m⡇`[39m       `[38;5;255;48;5;16m 1b`[39;49m`[38;5;255;48;5;16;48;5;16;4m 5b 6d`[39;49;49;24m        `[90;1m-m1`[38;5;117m·`[m  `[90mseparators become visible when `[1mm`[m`[90m is 1 or 2;`[m";
  "           `[38;5;255m⢸`[39m`[38;5;255;48;5;16mθ`[39;49m`[38;5;255;48;5;16;48;5;16;4m[m`[39;49;49;24m`[38;5;255m⡇`[39m      `[38;5;255;48;5;16m 1b`[39;49m`[38;5;255;48;5;16;48;5;16;4m 5b 6d`[39;49;49;24m        `[90;1m-m2`[38;2;248;184;137m·`[m  `[90mreal SGR contents except ESC -> ""`[1mǝ`[m`[90m"" or ""`[1mθ`[m`[90m"";";
  "";
  "   `[1;38;2;255;255;255;48;2;0;0;0m ǝ `[22;39;49m       `[38;5;210;48;5;16mǝ`[39;49m     `[38;5;210;48;5;16m 1b`[39;49m`[48;5;16;4m 5b 33 3`[49;24m‥    `[90m<`[m`[1mE`[m`[90m>`[m SGR sequence    `[90mlabel color q to <`[m`[1mC`[m`[90m> class;`[m";
  "             `[33mǝ`[39m     `[33m 1b`[39m`[48;5;16;4;33m 5b 33 3`[49;24;39m‥              `[90;1m--color-markers`[m  `[90mmarker colors match SGR's;`[m";
  "          `[38;5;255m⢸`[39m`[93mǝ`[39m`[48;5;16;4;93m93`[24m･`[4m1`[49;24;39m`[38;5;255m⡇`[39m  `[93m 1b`[39m`[48;5;16;4;93m 5b 39 3`[49;24;39m‥        `[90;1m-m1`[38;5;117m·`[m  `[90;1m--color-markers`[m  `[90mindex-16 fg and bold code;`[m";
  "        `[38;5;255m⢸`[39m`[38;5;88;48;5;16mǝ`[39;49m`[48;5;16;4;38;5;88;48;5;16mF88`[24m･`[4mB16`[49;24;39;49m`[38;5;255m⡇`[39m `[38;5;88;48;5;16m 1b`[39;49m`[48;5;16;4;38;5;88;48;5;16m 5b 33 3`[49;24;39;49m‥        `[90;1m-m1`[38;5;117m·`[m  `[90;1m--color-markers`[m  `[90mindex-256 fg and bg codes;`[m";
  "        `[38;5;255m⢸`[39m`[38;2;170;106;106mǝ`[39m`[48;5;16;4;38;2;170;106;106mFAA6A6A`[49;24;39m`[38;5;255m⡇`[39m `[38;2;170;106;106m 1b`[39m`[48;5;16;4;38;2;170;106;106m 5b 33 3`[49;24;39m‥        `[90;1m-m1`[38;5;117m·`[m  `[90;1m--color-markers`[m  `[90mtrue color RGB hex. value;`[m";
  "        `[38;5;255m⢸`[39m`[38;5;210;48;5;16mǝ`[39;49m`[48;5;16;4m[38;2;170;106;106m`[49;24m`[38;5;255m⡇`[39m          `[90;1m-m2`[38;2;248;184;137m·`[m  `[90mreal SGR contents; same data as in prev.ex.`[m";
  "";
  "   `[1;38;2;255;255;255;48;2;0;0;0m Ͻ `[22;39;49m    `[38;5;255m⢸`[39m`[92mϽ`[39m`[92;48;5;16;4m[24d`[39;49;24m`[38;5;255m⡇`[39m  `[92m 1b`[39m`[92;48;5;16;4m 5b 32 3`[39;49;24m‥    `[90m<`[m`[1mE`[m`[90m>`[m CSI sequence  `[90;1m-m2`[38;2;248;184;137m·`[m     `[90mcolor depends on seq type,`[m";
  "   `[1;38;2;255;255;255;48;2;0;0;0m ꟻ `[22;39;49m     `[38;5;255m⢸`[39m`[32;7mꟻ`[39;27m`[32;48;5;16;4m(B`[39;49;24m`[38;5;255m⡇`[39m      `[32;7m 1b`[39;27m`[32;48;5;16;4m 28 42`[39;49;24m    `[90m<`[m`[1mE`[m`[90m>`[m  nF sequence  `[90;1m-m2`[38;2;248;184;137m·`[m  `[90;1m-e`[m     `[90mnot on seq params (in`[m";
  "   `[1;38;2;255;255;255;48;2;0;0;0m ꟼ `[22;39;49m     `[38;5;255m⢸`[39m`[33;7mꟼ`[39;27m`[33;48;5;16;4m2`[39;49;24m`[38;5;255m⡇`[39m          `[33;7m 1b`[39;27m`[33;48;5;16;4m 32`[39;49;24m    `[90m<`[m`[1mE`[m`[90m>`[m  Fp sequence  `[90;1m-m2`[38;2;248;184;137m·`[m  `[90;1m-e`[m       `[90mcontrast with SGRs).`[m";
  "   `[1;38;2;255;255;255;48;2;0;0;0m Ǝ `[22;39;49m      `[38;5;255m⢸`[39m`[33mƎ`[39m`[33;48;5;16;4m`[39;49;24m`[38;5;255m⡇`[39m          `[33m 1b`[39m`[33;48;5;16;4m 47`[39;49;24m    `[90m<`[m`[1mE`[m`[90m>`[m  Fe sequence  `[90;1m-m1`[38;5;117m·`[m";
  "   `[1;38;2;255;255;255;48;2;0;0;0m Ꙅ `[22;39;49m       `[33mꙄ`[39m           `[33m 1b`[39m`[33;48;5;16;4m 73`[39;49;24m    `[90m<`[m`[1mE`[m`[90m>`[m  Fs sequence";
  " `[38;2;51;51;51m─`[39m`[38;2;51;51;51m─`[39m`[38;2;51;51;51m─`[39m`[38;2;51;51;51m─`[39m`[38;2;51;51;51m─`[39m`[38;2;51;51;51m─`[39m`[38;2;51;51;51m─`[39m`[38;2;51;51;51m─`[39m`[38;2;51;51;51m─`[39m`[38;2;51;51;51m─`[39m`[38;2;51;51;51m─`[39m`[38;2;51;51;51m─`[39m`[38;2;51;51;51m─`[39m`[38;2;51;51;51m─`[39m`[38;2;51;51;51m─`[39m`[38;2;51;51;51m─`[39m`[38;2;51;51;51m─`[39m`[38;2;51;51;51m─`[39m`[38;2;51;51;51m─`[39m`[38;2;51;51;51m─`[39m`[38;2;51;51;51m─`[39m`[38;2;51;51;51m─`[39m`[38;2;51;51;51m─`[39m`[38;2;51;51;51m─`[39m`[38;2;51;51;51m─`[39m`[38;2;51;51;51m─`[39m`[38;2;51;51;51m─`[39m`[38;2;51;51;51m─`[39m`[38;2;51;51;51m─`[39m`[38;2;51;51;51m─`[39m`[38;2;51;51;51m─`[39m`[38;2;51;51;51m─`[39m`[38;2;51;51;51m─`[39m`[38;2;51;51;51m─`[39m`[38;2;51;51;51m─`[39m`[38;2;51;51;51m─`[39m`[38;2;51;51;51m─`[39m`[38;2;51;51;51m─`[39m`[38;2;51;51;51m─`[39m`[38;2;51;51;51m─`[39m`[38;2;51;51;51m─`[39m`[38;2;51;51;51m─`[39m`[38;2;51;51;51m─`[39m`[38;2;51;51;51m─`[39m`[38;2;51;51;51m─`[39m`[38;2;51;51;51m─`[39m`[38;2;51;51;51m─`[39m`[38;2;51;51;51m─`[39m`[38;2;51;51;51m─`[39m`[38;2;51;51;51m─`[39m`[38;2;51;51;51m─`[39m`[38;2;51;51;51m─`[39m`[38;2;51;51;51m─`[39m`[38;2;51;51;51m─`[39m`[38;2;51;51;51m─`[39m`[38;2;51;51;51m─`[39m`[38;2;51;51;51m─`[39m`[38;2;51;51;51m─`[39m`[38;2;51;51;51m─`[39m`[38;2;51;51;51m─`[39m`[38;2;51;51;51m─`[39m`[38;2;51;51;51m─`[39m`[38;2;51;51;51m─`[39m`[38;2;51;51;51m─`[39m`[38;2;51;51;51m─`[39m`[38;2;51;51;51m─`[39m`[38;2;51;51;51m─`[39m`[38;2;51;51;51m─`[39m`[38;2;51;51;51m─`[39m`[38;2;51;51;51m─`[39m`[38;2;51;51;51m─`[39m`[38;2;51;51;51m─`[39m`[38;2;51;51;51m─`[39m`[38;2;51;51;51m─`[39m`[38;2;51;51;51m─`[39m`[38;2;51;51;51m─`[39m`[38;2;51;51;51m─`[39m`[38;2;51;51;51m─`[39m`[38;2;51;51;51m─`[39m`[38;2;51;51;51m─`[39m`[38;2;51;51;51m─`[39m`[38;2;51;51;51m─`[39m`[38;2;51;51;51m─`[39m`[38;2;51;51;51m─`[39m`[38;2;51;51;51m─`[39m`[38;2;51;51;51m─`[39m`[38;2;51;51;51m─`[39m";
  "";
  "`[90mFor the best view your terminal should be `[1m88`[22m chars wide (or wider)`[m";
  "";
  "`[90mIs a part of `[1;37mes7s`[90m pack`[m";
  "`[90m(c) 2022—2023 A. Shavykin`[m";
  "`[90m<`[94m0`[90m.delameter@gmail.com>`[m";
  "# Generated at 22-May-23 04:12"
]%string.

Definition legend_byte (c : ascii) : N := let n := N_of_ascii c in if n =? 96 then 27 else n.
Definition legend_bytes : bytes := join [10] (map (fun l => map legend_byte (list_ascii_of_string l)) legend_source).

(** legend.py:16 [read_text]: UTF-8 is decoded (strictly).  [None]: UnicodeDecodeError.  The file
    has no carriage returns, so translating them to line feeds is not modelled. *)
Definition is_cont (b : N) : bool := (128 <=? b) && (b <=? 191).
Definition code2 (x y : N) : N := (x - 192) * 64 + (y - 128).
Definition code3 (x y z : N) : N := (x - 224) * 4096 + (y - 128) * 64 + (z - 128).
Definition code4 (x y z w : N) : N := (x - 240) * 262144 + (y - 128) * 4096 + (z - 128) * 64 + (w - 128).
Definition is_seq2 (x y : N) : bool := (194 <=? x) && (x <=? 223) && is_cont y.
Definition is_seq3 (x y z : N) : bool :=
  (224 <=? x) && (x <=? 239) && is_cont y && is_cont z
  && (0x800 <=? code3 x y z) && negb ((0xD800 <=? code3 x y z) && (code3 x y z <? 0xE000)).
Definition is_seq4 (x y z w : N) : bool :=
  (240 <=? x) && (x <=? 244) && is_cont y && is_cont z && is_cont w
  && (0x10000 <=? code4 x y z w) && (code4 x y z w <? 0x110000).
Fixpoint decode (b : bytes) : option str :=
  match b with
  | [] => Some []
  | x :: t =>
      if x <? 128 then option_map (cons x) (decode t)
      else match t with
           | [] => None
           | y :: t2 =>
               if is_seq2 x y then option_map (cons (code2 x y)) (decode t2)
               else match t2 with
                    | [] => None
                    | z :: t3 =>
                        if is_seq3 x y z then option_map (cons (code3 x y z)) (decode t3)
                        else match t3 with
                             | [] => None
                             | w :: t4 => if is_seq4 x y z w then option_map (cons (code4 x y z w)) (decode t4) else None
                             end
                    end
           end
  end.

(** [splitlines(keepends=True)]: line boundaries of Python texts *)
Definition is_boundary (c : N) : bool :=
  ((10 <=? c) && (c <=? 13)) || ((28 <=? c) && (c <=? 30)) || (c =? 0x85) || (c =? 0x2028) || (c =? 0x2029).
Fixpoint splitlines (s : str) : list str :=
  match s with
  | [] => []
  | c :: t =>
      match t with
      | 10 :: t2 => if c =? 13 then [13; 10] :: splitlines t2
                    else if is_boundary c then [c] :: splitlines t
                    else match splitlines t with l :: ls => (c :: l) :: ls | [] => [[c]] end
      | _ => if is_boundary c then [c] :: splitlines t
             else match splitlines t with l :: ls => (c :: l) :: ls | [] => [[c]] end
      end
  end.

(** runner/legend.py:14-18 [LegendRunner.run]; the translation of "\r\n" and "\r" by [read_text] is left out, the file has neither *)
Definition is_comment (l : str) : bool := match l with 35 :: _ => true | _ => false end.
Definition legend_run (file : bytes) : result str :=
  match decode file with
  | Some s => Ok (flat_map (fun l => if is_comment l then [] else l) (splitlines s))
  | None => Err ValueError
  end.

(** kolombos/version.py:1, pytermor/_version.py:5 *)
Definition kolombos_version : str := txt "1.5.4".
Definition pytermor_version : str := txt "2.1.0-dev15".
(** runner/version.py:15-17 [VersionRunner.run]; [ljust(16)] pads with spaces *)
Definition ljust16 (s : str) : str := s ++ repeat 32 (16 - List.length s).
Definition version_run : str :=
  ljust16 (txt "es7s/kolombos") ++ kolombos_version ++ [10] ++ ljust16 (txt "pytermor") ++ pytermor_version ++ [10].

(** app.py:15-31 for all runners; [app_run] covers the ones that read input.  Without debug
    output (printed at levels 3 and 4, see Trace.v for the rest). *)
Definition app_main (s : settings) (term_columns : Z) (src : source) (evs : list read_ev) (epilogue : str) : app_result :=
  match app_run s term_columns src evs epilogue with
  | Some r => r
  | None =>
      match create_runner s with
      | LegendRunner =>
          match legend_run legend_bytes with
          | Ok out => mkApp (out ++ [10]) None (Some 0%Z)
          | Err e => mkApp ((if (0 <? s_debug s)%nat then [] else debug_hint ++ [10]) ++ [10]) (Some e) (Some 1%Z)
          end
      | _ => mkApp (version_run ++ [10]) None (Some 0%Z)
      end
  end.
