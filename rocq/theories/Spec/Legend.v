(** Specification side: how the legend is to be read. *)
From Coq Require Import List NArith ZArith Bool.
From Verif.Model Require Import Base Settings.
From Verif.Spec Require Import Numbers Terminal Lexical SgrParams Display Output.
Import ListNotations.
Local Open Scope N_scope.

(** lines of a screen *)
Definition is_lf (x : cell) : bool := cell_char x =? 10.
Fixpoint screen_lines (l : list cell) : list (list cell) :=
  match l with
  | [] => []
  | x :: t => if is_lf x then [] :: screen_lines t
              else match screen_lines t with
                   | [] => [[x]]
                   | r :: rs => (x :: r) :: rs
                   end
  end.
(** [w] cells of a screen from line [y], column [x] on (both counted from 0) *)
Definition region (scr : list cell) (y x w : nat) : list cell := firstn w (skipn x (nth y (screen_lines scr) [])).

(** The columns of the table: the sigil, the example in text mode (or, in the rows about binary
    mode, the right column of its output), the example in hexadecimal notation.  The remarks
    and the heading tell which options an example is for: details level, --color-markers,
    --decode ([None]: any). *)
Inductive column :=
| In_text (lvl : option level) (colored : option bool)
| In_chars (decode : option bool)
| In_hex (colored : option bool).
Record sample := mkSample {
  sm_line : nat; sm_col : nat; sm_width : nat;
  sm_where : column;
  sm_kind : kind; sm_bytes : list N; sm_codes : list N;   (* the input it is an example of *)
  sm_focus : bool
}.

(** a line of the table with a regular and a focused example for each mode, details not relevant *)
Definition line_of (y : nat) (k : kind) (b1 b2 : list N) (x1 x2 h1 h2 w : nat) : list sample :=
  [ mkSample y x1 w (In_text (match k with K_run R_control => Some L_none | _ => None end) None) k b1 [] false;
    mkSample y x2 w (In_text (match k with K_run R_control => Some L_none | _ => None end) None) k b2 [] true;
    mkSample y h1 (3 * w) (In_hex None) k b1 [] false;
    mkSample y h2 (3 * w) (In_hex None) k b2 [] true ].

Definition legend_samples : list sample :=
  line_of 19 (K_run R_tab) [9] [9] 12 14 22 28 1
  ++ line_of 20 K_newline [10] [10] 12 14 22 28 1
  ++ line_of 21 (K_run R_vtab) [11] [11] 12 14 22 28 1
  ++ line_of 22 (K_run R_ff) [12] [12] 12 14 22 28 1
  ++ line_of 23 (K_run R_cr) [13] [13] 12 14 22 28 1
  ++ line_of 24 (K_run R_space) [32] [32] 12 14 22 28 1
  ++ line_of 26 (K_run R_control) [3] [30] 12 14 22 28 1
  ++ [ mkSample 27 11 2 (In_text (Some L_brief) None) (K_run R_control) [3] [] false;
       mkSample 27 14 2 (In_text (Some L_brief) None) (K_run R_control) [30] [] true;
       mkSample 28 10 3 (In_text (Some L_full) None) (K_run R_control) [3] [] false;
       mkSample 28 14 3 (In_text (Some L_full) None) (K_run R_control) [30] [] true ]
  ++ line_of 30 (K_run R_null) [0] [0] 12 14 22 28 1
  ++ line_of 31 (K_run R_backspace) [8] [8] 12 14 22 28 1
  ++ line_of 32 (K_run R_delete) [127] [127] 12 14 22 28 1
  ++ line_of 33 K_escape [27] [27] 12 14 22 28 1
  ++ line_of 35 (K_run R_printable) [0x21; 0x22] [0x31; 0x32] 11 14 19 25 2
  ++ line_of 36 (K_run R_printable) [0x41; 0x42] [0x7d; 0x7e] 11 14 19 25 2
  ++ line_of 38 K_binary [0xc0; 0xff] [0xee; 0xda] 11 14 19 25 2
  ++ [ mkSample 39 11 2 (In_chars None) K_binary [0xee; 0xb0] [] false;
       mkSample 39 14 2 (In_chars None) K_binary [0xc0; 0xcc] [] true;
       mkSample 39 19 6 (In_hex None) K_binary [0xee; 0xb0] [] false;
       mkSample 39 25 6 (In_hex None) K_binary [0xc0; 0xcc] [] true ]
  (* snake *)
  ++ [ mkSample 41 13 1 (In_text None None) (K_utf8 0x1F40D) [0xf0; 0x9f; 0x90; 0x8d] [] false;
       mkSample 41 18 12 (In_hex None) (K_utf8 0x1F40D) [0xf0; 0x9f; 0x90; 0x8d] [] false;
       mkSample 42 11 2 (In_chars (Some false)) (K_utf8 0x445) [0xd1; 0x85] [] false;
       mkSample 42 14 2 (In_chars (Some false)) (K_utf8 0x439) [0xd0; 0xb9] [] true;
       mkSample 42 19 6 (In_hex None) (K_utf8 0x445) [0xd1; 0x85] [] false;
       mkSample 42 25 6 (In_hex None) (K_utf8 0x439) [0xd0; 0xb9] [] true;
       mkSample 43 10 2 (In_chars (Some true)) (K_utf8 0x44B) [0xd1; 0x8b] [] false;
       mkSample 43 13 3 (In_chars (Some true)) (K_utf8 0x4E16) [0xe4; 0xb8; 0x96] [] true;
       mkSample 43 18 6 (In_hex None) (K_utf8 0x44B) [0xd1; 0x8b] [] false;
       mkSample 43 24 5 (In_hex None) (K_utf8 0x4E16) [0xe4; 0xb8; 0x96] [] true ]
  ++ let reset := K_csi [] [] 109 in
     [ mkSample 45 13 1 (In_text (Some L_none) None) reset [27; 91; 109] [] false;
       mkSample 45 22 9 (In_hex None) reset [27; 91; 109] [] false;
       mkSample 46 12 3 (In_text (Some L_brief) None) reset [27; 91; 109] [] false;
       mkSample 46 22 9 (In_hex None) reset [27; 91; 109] [] false;
       mkSample 47 11 5 (In_text (Some L_full) None) reset [27; 91; 109] [] false;
       mkSample 47 22 9 (In_hex None) reset [27; 91; 109] [] false ]
  ++ let sgr y x w h lvl col p codes :=
       [ mkSample y x w (In_text (Some lvl) (Some col)) (K_csi p [] 109) ([27; 91] ++ p ++ [109]) codes false;
         mkSample y h 11 (In_hex (Some col)) (K_csi p [] 109) ([27; 91] ++ p ++ [109]) codes false ] in
     sgr 49%nat 13%nat 1%nat 19%nat L_none false [51; 52] [34]
  ++ sgr 50%nat 13%nat 1%nat 19%nat L_none true [51; 51] [33]
  ++ sgr 51%nat 10%nat 7%nat 19%nat L_brief true [57; 51; 59; 49] [93; 1]
  ++ sgr 52%nat 8%nat 10%nat 19%nat L_brief true [51; 56; 59; 53; 59; 56; 56; 59; 52; 56; 59; 53; 59; 49; 54] [38; 5; 88; 48; 5; 16]
  ++ sgr 53%nat 8%nat 10%nat 19%nat L_brief true [51; 56; 59; 50; 59; 49; 55; 48; 59; 49; 48; 54; 59; 49; 48; 54] [38; 2; 170; 106; 106]
  ++ [ mkSample 54 8 21 (In_text (Some L_full) (Some false)) (K_csi [51; 56; 59; 50; 59; 49; 55; 48; 59; 49; 48; 54; 59; 49; 48; 54] [] 109)
         ([27; 91] ++ [51; 56; 59; 50; 59; 49; 55; 48; 59; 49; 48; 54; 59; 49; 48; 54] ++ [109]) [38; 2; 170; 106; 106] false ]
  ++ [ mkSample 56 10 7 (In_text (Some L_full) None) (K_csi [50; 52] [] 100) [27; 91; 50; 52; 100] [] false;
       mkSample 56 19 11 (In_hex None) (K_csi [50; 52] [] 100) [27; 91; 50; 52; 100] [] false;
       mkSample 57 11 5 (In_text (Some L_full) None) K_nF [27; 40; 66] [] true;
       mkSample 57 22 9 (In_hex None) K_nF [27; 40; 66] [] true;
       mkSample 58 11 4 (In_text (Some L_full) None) K_Fp [27; 50] [] true;
       mkSample 58 25 6 (In_hex None) K_Fp [27; 50] [] true;
       mkSample 59 12 3 (In_text (Some L_brief) None) K_Fe [27; 71] [] false;
       mkSample 59 25 6 (In_hex None) K_Fe [27; 71] [] false;
       mkSample 60 13 1 (In_text (Some L_none) None) K_Fs [27; 115] [] false;
       mkSample 60 25 6 (In_hex None) K_Fs [27; 115] [] false ].

(** the settings an example is for *)
Definition applies (x : sample) (s : settings) : Prop :=
  s_ignore s (class_of (sm_kind x)) = false /\ s_focus s (class_of (sm_kind x)) = sm_focus x /\
  match sm_where x with
  | In_text lvl col =>
      binary_mode s = false /\
      (forall l, lvl = Some l -> marker_level s = l /\ s_no_separators s = false) /\
      (forall c, col = Some c -> s_color_markers s = c)
  | In_chars dec => binary_mode s = true /\ (forall d, dec = Some d -> decoding s = d)
  | In_hex col => binary_mode s = true /\ (forall c, col = Some c -> s_color_markers s = c)
  end.
Definition is_text_sample (x : sample) : bool := match sm_where x with In_text _ _ => true | _ => false end.

(** the piece of the input an example is for *)
Definition sample_token (x : sample) : token := (sm_kind x, sm_bytes x, sm_codes x).
(** the part of the legend that is the example *)
Definition sample_region (scr : list cell) (x : sample) : list cell := region scr (sm_line x) (sm_col x) (sm_width x).

(** the column of sigils: line, column, binary mode ([None]: any), kind of input, focused *)
Definition sigils : list (nat * nat * option bool * kind * bool) :=
  let both y m k := [(y, 4%nat, m, k, false); (y, 4%nat, m, k, true)] in
  both 19%nat None (K_run R_tab) ++ both 20%nat None K_newline ++ both 21%nat None (K_run R_vtab) ++ both 22%nat None (K_run R_ff)
  ++ both 23%nat None (K_run R_cr) ++ [(24%nat, 2%nat, None, K_run R_space, false); (24%nat, 6%nat, None, K_run R_space, true)]
  ++ both 26%nat None (K_run R_control) ++ both 30%nat None (K_run R_null) ++ both 31%nat None (K_run R_backspace)
  ++ both 32%nat None (K_run R_delete) ++ both 33%nat None K_escape
  ++ both 38%nat (Some false) K_binary ++ both 39%nat (Some true) K_binary ++ both 42%nat (Some true) (K_utf8 0x445)
  ++ both 45%nat None (K_csi [] [] 109) ++ both 49%nat None (K_csi [51; 52] [] 109) ++ both 56%nat None (K_csi [50; 52] [] 100)
  ++ both 57%nat None K_nF ++ both 58%nat None K_Fp ++ both 59%nat None K_Fe ++ both 60%nat None K_Fs.

(** the table of character classes: notation of the bytes of a class, e.g. "01-08, 0e-1f" *)
Definition hexval (c : N) : N := if between 48 c 57 then c - 48 else if between 97 c 102 then c - 87 else 0.
Fixpoint read_ranges (l : list N) : list (N * N) :=
  match l with
  | [] => []
  | a :: t =>
      if (a =? 32) || (a =? 44) then read_ranges t
      else match t with
           | [] => []
           | b :: t2 =>
               let v := hexval a * 16 + hexval b in
               match t2 with
               | m :: c :: d :: r => if m =? 45 then (v, hexval c * 16 + hexval d) :: read_ranges r else (v, v) :: read_ranges t2
               | _ => [(v, v)]
               end
           end
  end.
Definition in_ranges (l : list (N * N)) (b : N) : Prop := exists r, In r l /\ fst r <= b /\ b <= snd r.
Definition class_ranges (scr : list cell) (y : nat) : list (N * N) := read_ranges (map cell_char (region scr y 33 15)).
