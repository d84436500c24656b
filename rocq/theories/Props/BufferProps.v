(** C18-C20, C30: the segment buffer *)
From Coq Require Import List NArith ZArith Bool.
From Verif.Model Require Import Base Ansi Segment.
From Verif.Spec Require Import History.
From Verif.Proof Require Import BufHistory BufMore.
Import ListNotations.
Local Open Scope Z_scope.

(** ** C18 *)

(** For any history of calls, with segments of any kind if only lines are taken, one-to-one
    segments if bytes are taken, too: the bytes handed out followed by the bytes held are the
    bytes attached, the reported length is that of the bytes held, and the only exceptions are
    the two by which the buffer says that there is nothing to hand out. *)
Theorem C18_fifo : forall ops, one_to_one ops \/ lines_only ops ->
  let '(rs, b) := history ops sbuf_init in
  handed_out rs ++ bytes_in (sb_chain b) = attached ops /\
  chain_len (sb_chain b) = zlen (attached ops) - zlen (handed_out rs) /\
  Forall (fun r => match r with Ok _ => True | Err e => e = WaitRequest \/ e = EOFError end) rs.
Proof. exact history_fifo. Qed.
Print Assumptions C18_fifo.

Definition seg1 : segment := mkSeg [31%N] [] [1; 2; 3]%N [97; 98; 99]%N.
Definition seg2 : segment := mkSeg [] [] [10]%N [8629; 10]%N.
Definition seg3 : segment := mkSeg [31%N] [] [10; 5]%N [10; 101]%N.
Definition ops1 : list op := [O_attach [seg1; seg3]; O_bytes 2 false; O_bytes 4 false; O_line false; O_bytes 9 true; O_bytes 1 true].
Definition ops2 : list op := [O_attach [seg1; seg2; seg1]; O_line false; O_line false; O_line true].

Example C18_example : one_to_one ops1 /\ lines_only ops2 /\
  handed_out (fst (history ops1 sbuf_init)) = [1; 2; 3; 10; 5]%N /\
  nth 2 (fst (history ops1 sbuf_init)) (Ok []) = Err WaitRequest /\
  nth 5 (fst (history ops1 sbuf_init)) (Ok []) = Err EOFError /\
  handed_out (fst (history ops2 sbuf_init)) = [1; 2; 3; 10; 1; 2; 3]%N.
Proof. repeat split; try (vm_compute; reflexivity); repeat constructor. Qed.

(** ** C19 *)

(** After any history: a request for [n] bytes yields exactly the next [n] bytes (all there are
    if forced), a request to wait iff there are fewer and it is not forced, and an end of file
    iff it is forced and there are no segments. *)
Theorem C19_detach_bytes : forall ops n force, one_to_one ops -> 0 < n ->
  let b := snd (history ops sbuf_init) in
  let held := bytes_in (sb_chain b) in
  match detach_bytes b n force with
  | (Ok els, b') => bytes_in els = firstn (Z.to_nat n) held /\ bytes_in (sb_chain b') = skipn (Z.to_nat n) held /\
                    sb_last b' = zlen (bytes_in els) /\ (n <= zlen held \/ force = true) /\ queue (sb_chain b) <> []
  | (Err WaitRequest, b') => b' = b /\ zlen held < n /\ force = false
  | (Err EOFError, b') => b' = b /\ queue (sb_chain b) = [] /\ force = true
  | (Err _, _) => False
  end.
Proof. exact take_bytes. Qed.
Print Assumptions C19_detach_bytes.

(** A request for nothing yields no bytes and leaves all of them. *)
Theorem C19_detach_none : forall ops force, one_to_one ops \/ lines_only ops ->
  let b := snd (history ops sbuf_init) in
  match detach_bytes b 0 force with
  | (Ok els, b') => bytes_in els = [] /\ els <> [] /\ bytes_in (sb_chain b') = bytes_in (sb_chain b)
  | (Err x, b') => x = EOFError /\ bytes_in (sb_chain b') = bytes_in (sb_chain b)
  end.
Proof. exact take_none. Qed.
Print Assumptions C19_detach_none.

(** After any history: a request for a line yields the segments up to and including the first
    one with a line break; without such a segment all of them if forced, else a request to wait;
    an end of file iff there are no bytes. *)
Theorem C19_detach_line : forall ops force, one_to_one ops \/ lines_only ops ->
  let b := snd (history ops sbuf_init) in
  let q := queue (sb_chain b) in
  Forall (fun g => breaks g -> seg_raw g <> []) q ->
  match detach_line b force with
  | (Ok els, b') =>
      queue els ++ queue (sb_chain b') = q /\ bytes_in els <> [] /\ sb_last b' = zlen (bytes_in els) /\
      ((exists pre g, queue els = pre ++ [g] /\ breaks g /\ Forall (fun x => ~ breaks x) pre)
       \/ (force = true /\ Forall (fun x => ~ breaks x) q /\ bytes_in (sb_chain b') = []))
  | (Err WaitRequest, b') => b' = b /\ force = false /\ Forall (fun x => ~ breaks x) q /\ bytes_in (sb_chain b) <> []
  | (Err EOFError, b') => b' = b /\ bytes_in (sb_chain b) = []
  | (Err _, _) => False
  end.
Proof. exact take_line. Qed.
Print Assumptions C19_detach_line.

Example C19_example :
  let b := snd (history [O_attach [seg1; seg3]; O_bytes 2 false] sbuf_init) in
  bytes_in (sb_chain b) = [3; 10; 5]%N /\
  match detach_bytes b 2 false with (Ok els, _) => bytes_in els = [3; 10]%N | _ => False end /\
  Forall (fun g => breaks g -> seg_raw g <> []) (queue (sb_chain b)) /\
  match detach_line b false with (Ok els, _) => bytes_in els = [3; 10; 5]%N | _ => False end.
Proof. vm_compute. repeat split; repeat constructor; discriminate. Qed.

(** ** C20 *)
Theorem C20_split : forall g n,
  (seg_split g n = Err BufferError <-> length (seg_raw g) <> length (seg_proc g)) /\
  forall l r, seg_split g n = Ok (l, r) ->
    seg_raw l ++ seg_raw r = seg_raw g /\ seg_proc l ++ seg_proc r = seg_proc g /\
    length (seg_raw l) = length (seg_proc l) /\ length (seg_raw r) = length (seg_proc r) /\
    seg_open l = seg_open g /\ seg_open r = seg_open g /\ seg_label l = seg_label g /\ seg_label r = seg_label g /\
    (0 <= n -> zlen (seg_raw l) = Z.min n (zlen (seg_raw g))).
Proof. exact split_spec. Qed.
Print Assumptions C20_split.

Example C20_example :
  seg_split seg1 2 = Ok (mkSeg [31%N] [] [1; 2]%N [97; 98]%N, mkSeg [31%N] [] [3]%N [99]%N) /\
  seg_split seg2 1 = Err BufferError.
Proof. split; reflexivity. Qed.

(** ** C30 *)

(** As long as only lines are taken, the segments handed out followed by the segments held are
    precisely the segments attached: none is cut, whether or not it is one-to-one. *)
Theorem C30_segments_whole : forall ops, lines_only ops ->
  let '(rs, b) := history ops sbuf_init in
  segments_out rs ++ queue (sb_chain b) = segments_in ops /\
  Forall (fun r => match r with Ok _ => True | Err e => e = WaitRequest \/ e = EOFError end) rs.
Proof. exact history_whole. Qed.
Print Assumptions C30_segments_whole.

Example C30_example : lines_only ops2 /\ segments_out (fst (history ops2 sbuf_init)) = [seg1; seg2; seg1].
Proof. split; [repeat constructor|reflexivity]. Qed.

(** ** C21, for the buffer: whatever is handed out, every segment comes with its own opening and
    closing sequences, wherever it was cut. *)
Theorem C21_detached_format : forall ops fn, one_to_one ops ->
  let b := snd (history ops sbuf_init) in
  (forall n force els b', 0 < n -> detach_bytes b n force = (Ok els, b') -> format_elems fn els = flat_map (in_format fn) (queue els)) /\
  (forall force els b', detach_line b force = (Ok els, b') -> format_elems fn els = flat_map (in_format fn) (queue els)).
Proof. exact taken_format. Qed.
Print Assumptions C21_detached_format.
Theorem C21_detached_lines_format : forall ops fn, lines_only ops ->
  let b := snd (history ops sbuf_init) in
  forall force els b', detach_line b force = (Ok els, b') -> format_elems fn els = flat_map (in_format fn) (queue els).
Proof. exact taken_format_lines. Qed.
Print Assumptions C21_detached_lines_format.
Example C21_detached_example :
  let b := snd (history [O_attach [seg1]; O_bytes 2 false] sbuf_init) in
  match detach_bytes b 1 false with
  | (Ok els, _) => format_elems seg_proc els = [27; 91; 51; 49; 109; 99; 27; 91; 51; 57; 109]%N
  | _ => False
  end.
Proof. vm_compute. reflexivity. Qed.
