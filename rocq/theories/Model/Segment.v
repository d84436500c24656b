(** kolombos/byteio/segment/: segments, sequence references, the segment buffer *)
From Coq Require Import List NArith ZArith Bool.
From Verif.Model Require Import Base Ansi.
Import ListNotations.

(** segment.py:12-17 *)
Record segment := mkSeg {
  seg_open : sgr;       (* _opening_seq *)
  seg_label : str;      (* _type_label *)
  seg_raw : bytes;      (* _raw *)
  seg_proc : str        (* _processed *)
}.

(** segment.py:31-33 *)
Definition data_len (s : segment) : Z := zlen (seg_raw s).
(** segment.py:35-37 *)
Definition seg_is_newline (s : segment) : bool := existsb (N.eqb 10) (seg_proc s).
(** segment.py:39-41 *)
Definition is_consistent (s : segment) : bool := Nat.eqb (length (seg_raw s)) (length (seg_proc s)).

(** segment.py:19-29 [split]: (left part, what remains in the object) *)
Definition seg_split (s : segment) (n : Z) : result (segment * segment) :=
  if negb (is_consistent s) then Err BufferError
  else Ok (mkSeg (seg_open s) (seg_label s) (py_take n (seg_raw s)) (py_take n (seg_proc s)),
           mkSeg (seg_open s) (seg_label s) (py_drop n (seg_raw s)) (py_drop n (seg_proc s))).

(** chainable.py, sequence_ref.py:12-46: the elements of the chain *)
Inductive elem :=
| ESeg (s : segment)
| EStart (r : sgr)   (* StartSequenceRef *)
| EStop (r : sgr)    (* StopSequenceRef *)
| EOnce (r : sgr).   (* OneUseSequenceRef *)

(** sequence_ref.py:28-31 [SequenceRef.__eq__] between two references (of any subclass):
    the comparison is literally [self._ref == self._ref] *)
Definition seqref_eqb (a b : sgr) : bool := eqb_list a a.

(** data_len / is_newline of a chain element (sequence_ref.py:16-22) *)
Definition el_len (e : elem) : Z := match e with ESeg s => data_len s | _ => 0 end.
Definition el_newline (e : elem) : bool := match e with ESeg s => seg_is_newline s | _ => false end.

(** [sum([el.data_len for el in l])] *)
Definition chain_len (l : list elem) : Z := fold_right (fun e acc => (el_len e + acc)%Z) 0%Z l.

(** buffer.py:19-25 *)
Record sbuf := mkSbuf {
  sb_chain : list elem;    (* _segment_chain *)
  sb_active : list sgr;    (* _active_sgrs *)
  sb_last : Z              (* _last_detached_data_len *)
}.
Definition sbuf_init : sbuf := mkSbuf [] [] 0.

(** buffer.py:38: [len(params) == 0 or set(params) == {0}] *)
Definition no_formatting (p : sgr) : bool := forallb (N.eqb 0) p.

(** buffer.py:36-47: the elements appended for one segment *)
Definition attach_elems (s : segment) : list elem :=
  if no_formatting (seg_open s) then [ESeg s]
  else [EStart (seg_open s); ESeg s; EStop (seg_open s); EOnce (closing_seq (seg_open s))].

(** buffer.py:35-47 [attach] *)
Definition attach (b : sbuf) (segs : list segment) : sbuf :=
  mkSbuf (sb_chain b ++ flat_map attach_elems segs) (sb_active b) (sb_last b).

(** [list.remove(x)]: removes the first equal element, [None] models ValueError *)
Fixpoint list_remove (x : sgr) (l : list sgr) : option (list sgr) :=
  match l with
  | [] => None
  | y :: t => if eqb_list x y then Some t
              else match list_remove x t with Some t' => Some (y :: t') | None => None end
  end.

(** Result of the loop: emitted elements, remaining chain, active sequences and the
    exception that ended it, if any. *)
Record dstate := mkD { d_out : list elem; d_chain : list elem; d_active : list sgr; d_err : option exn }.
Definition d_emit (e : elem) (d : dstate) : dstate :=
  mkD (e :: d_out d) (d_chain d) (d_active d) (d_err d).

(** buffer.py:118-148: the loop of [_detach] *)
Fixpoint detach_loop (chain : list elem) (req : Z) (active : list sgr) : dstate :=
  match chain with
  | [] => mkD [] [] active None
  | ESeg s :: t =>
      if (req =? 0)%Z then mkD [] chain active None
      else if (data_len s <=? req)%Z then d_emit (ESeg s) (detach_loop t (req - data_len s) active)
      else match seg_split s req with
           | Ok (l, r) => mkD [ESeg l] (ESeg r :: t) active None
           | Err e => mkD [] chain active (Some e)
           end
  | EStart r :: t =>
      if (req =? 0)%Z then mkD [] chain active None
      else d_emit (EStart r) (detach_loop t req (active ++ [r]))
  | EStop r :: t =>
      match list_remove r active with
      | Some active' => detach_loop t req active'
      | None => mkD [] chain active (Some ValueError)
      end
  | EOnce r :: t => d_emit (EOnce r) (detach_loop t req active)
  end.

(** buffer.py:110-155 [_detach] *)
Definition detach (b : sbuf) (req : Z) : result (list elem) * sbuf :=
  match sb_chain b with
  | [] => (Ok [], b)
  | _ =>
      let d := detach_loop (sb_chain b) req (sb_active b) in
      match d_err d with
      | Some e => (Err e, mkSbuf (d_chain d) (d_active d) (sb_last b))
      | None =>
          let out := map EOnce (sb_active b) ++ d_out d
                     ++ map (fun r => EOnce (closing_seq r)) (d_active d) in
          (Ok out, mkSbuf (d_chain d) (d_active d) (chain_len out))
      end
  end.

(** buffer.py:49-61 [detach_bytes] (the formatting with printers is [format_elems] below) *)
Definition detach_bytes (b : sbuf) (req : Z) (force : bool) : result (list elem) * sbuf :=
  if ((req <=? chain_len (sb_chain b))%Z || force)%bool then
    match detach b req with
    | (Ok [], b') => (Err EOFError, b')
    | r => r
    end
  else (Err WaitRequest, b).

(** buffer.py:64-70: data length up to and including the first newline, and whether there is one *)
Fixpoint line_scan (chain : list elem) : Z * bool :=
  match chain with
  | [] => (0%Z, false)
  | e :: t =>
      if el_newline e then (el_len e, true)
      else let '(n, nl) := line_scan t in ((el_len e + n)%Z, nl)
  end.

(** buffer.py:63-83 [detach_line] *)
Definition detach_line (b : sbuf) (force : bool) : result (list elem) * sbuf :=
  let '(avail, has_newline) := line_scan (sb_chain b) in
  if (avail =? 0)%Z then (Err EOFError, b)
  else if (has_newline || force)%bool then detach b avail
  else (Err WaitRequest, b).

(** buffer.py:160-177 [_format] with a printer that applies SGRs unencoded
    ([SegmentPrinter(True, False, fn)]); the printers that hide or encode SGRs are only used
    for debug traces, see Trace.v. *)
Definition format_elem (fn : segment -> str) (e : elem) : str :=
  match e with
  | ESeg s => fn s
  | EStart r => assemble r
  | EStop r => assemble r
  | EOnce r => assemble r
  end.
Definition format_elems (fn : segment -> str) (l : list elem) : str := flat_map (format_elem fn) l.
