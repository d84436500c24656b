(** kolombos/byteio/reader.py *)
From Coq Require Import List NArith ZArith Bool.
From Verif.Model Require Import Base Settings.
Import ListNotations.
Local Open Scope Z_scope.

(** What the environment does at one [self._io.read(chunk_size)] call (L43).  A schedule is a
    list of such events; a schedule that has run out means end of file.  How much a read
    returns is up to the environment (any fragmentation of the input is a schedule). *)
Inductive read_ev :=
| RData (b : bytes)    (* returns data; empty data means end of file *)
| RInterrupt           (* KeyboardInterrupt *)
| RFailure.            (* OSError *)

(** L78-84: stdin; a file that can be opened, seekable or not; a file that cannot be opened *)
Inductive source := SrcStdin | SrcFile (seekable : bool) | SrcMissing.

(** L30-32 [reading_stdin]: the name is absent, empty or '-' *)
Definition reading_stdin (filename : option str) : bool :=
  match filename with
  | None => true
  | Some [] => true
  | Some n => eqb_list n [45%N]
  end.

(** L86-91 [_get_chunk_size] *)
Definition READ_CHUNK_SIZE : Z := 4096.
Definition READ_CHUNK_SIZE_DEBUG : Z := 128.
Definition chunk_size (s : settings) : Z :=
  match s_buffer s with
  | Some n => if n =? 0 then (if (0 <? s_debug s)%nat then READ_CHUNK_SIZE_DEBUG else READ_CHUNK_SIZE) else n
  | None => if (0 <? s_debug s)%nat then READ_CHUNK_SIZE_DEBUG else READ_CHUNK_SIZE
  end.

(** L45: [self._io.tell()] is evaluated for every chunk of a named file, whatever the debug
    level (argument of an f-string) *)
Definition tell_fails (src : source) : bool :=
  match src with SrcFile false => true | _ => false end.

(** truthiness of an [int|None] limit *)
Definition limit_on (l : option Z) : option Z :=
  match l with Some n => if n =? 0 then None else Some n | None => None end.

(** L48-54: counts line feeds, crops before the one that reaches the limit *)
Fixpoint crop_lines (max_lines : Z) (raw : bytes) (lines : Z) : bytes * Z :=
  match raw with
  | [] => ([], lines)
  | b :: t =>
      if N.eqb b 10 then
        if max_lines <=? lines + 1 then ([], lines + 1)
        else let '(r, l) := crop_lines max_lines t (lines + 1) in (b :: r, l)
      else let '(r, l) := crop_lines max_lines t lines in (b :: r, l)
  end.

Definition apply_max_lines (max_lines : option Z) (raw : bytes) (lines : Z) : bytes * Z :=
  match limit_on max_lines with
  | None => (raw, lines)
  | Some m => crop_lines m raw lines
  end.

(** Result of the callback: it returns, raises an exception, is interrupted from the keyboard,
    or does not return *)
Inductive cb_res := CbOk | CbErr (e : exn) | CbInt | CbHang.

(** How [read] ends *)
Inductive reader_end := REnd | RError (e : exn) | RHang.

(** Observable actions of the reader *)
Inductive action :=
| AOpen
| ARead
| ACall (raw : bytes) (offset : Z) (finish : bool)
| AClose.

Section Reader.
  Context {St : Type}.
  Variable cb : St -> bytes -> Z -> bool -> St * cb_res.
  Variable max_bytes max_lines : option Z.
  Variable src : source.

  (** L71 the final callback, then L75-76 *)
  Definition read_finish (raw : bytes) (offset : Z) (st : St) : St * list action * reader_end :=
    let '(st', r) := cb st raw offset true in
    match r with
    | CbOk => (st', [ACall raw offset true; AClose], REnd)
    | CbErr e => (st', [ACall raw offset true; AClose], RError e)
    | CbInt => (st', [ACall raw offset true; AClose], REnd)
    | CbHang => (st', [ACall raw offset true], RHang)
    end.

  (** prepend actions *)
  Definition pre (a : list action) (x : St * list action * reader_end) : St * list action * reader_end :=
    let '(st, l, e) := x in (st, a ++ l, e).

  (** L43-76: the loop *)
  Fixpoint read_loop (evs : list read_ev) (offset lines : Z) (st : St) : St * list action * reader_end :=
    match evs with
    | [] => pre [ARead] (read_finish [] offset st)
    | RInterrupt :: _ => (st, [ARead; AClose], REnd)
    | RFailure :: _ => (st, [ARead; AClose], RError OSError)
    | RData [] :: _ => pre [ARead] (read_finish [] offset st)
    | RData raw :: rest =>
        if tell_fails src then (st, [ARead; AClose], RError OSError)
        else
          let '(raw1, lines1) := apply_max_lines max_lines raw lines in
          let over := match limit_on max_bytes with
                      | Some m => m <? offset + zlen raw1
                      | None => false
                      end in
          if over then
            let m := match max_bytes with Some m => m | None => 0 end in
            pre [ARead] (read_finish (py_take (m - offset) raw1) offset st)
          else
            let '(st1, r) := cb st raw1 offset false in
            match r with
            | CbErr e => (st1, [ARead; ACall raw1 offset false; AClose], RError e)
            | CbInt => (st1, [ARead; ACall raw1 offset false; AClose], REnd)
            | CbHang => (st1, [ARead; ACall raw1 offset false], RHang)
            | CbOk =>
                let offset1 := offset + zlen raw1 in
                let stop := (match limit_on max_bytes with Some m => m <=? offset1 | None => false end
                             || match limit_on max_lines with Some m => m <=? lines1 | None => false end)%bool in
                if stop then pre [ARead; ACall raw1 offset false] (read_finish [] offset1 st1)
                else pre [ARead; ACall raw1 offset false] (read_loop rest offset1 lines1 st1)
            end
    end.

  (** L34-76 [read] *)
  Definition read (evs : list read_ev) (st : St) : St * list action * reader_end :=
    match src with
    | SrcMissing => (st, [], RError OSError)
    | _ => pre [AOpen] (read_loop evs 0 0 st)
    end.
End Reader.
