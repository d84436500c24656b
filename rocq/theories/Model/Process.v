(** The whole program in its surroundings: files, standard input, command line options.

    What is read: kolombos/byteio/reader.py:43 [self._io.read(self._chunk_size)] on
    [sys.stdin.buffer] or on a file opened with mode 'rb' (L78-84), both of class
    [io.BufferedReader]: [read(n)] gives [n] bytes unless the input ends before ([n >= 0]), all of
    the input ([n = -1]), or raises ValueError ([n < -1]). *)
From Coq Require Import List NArith ZArith Bool.
From Verif.Model Require Import Base Settings Reader Runner Options Messages Legend.
Import ListNotations.
Local Open Scope Z_scope.

(** A file that can be opened for reading; [Pipe] is one that cannot be positioned (named pipes,
    terminals).  Other names are missing, forbidden or directories ([OSError] on opening). *)
Inductive file := Regular (content : bytes) | Pipe (content : bytes).
(** [w_typed]: what arrives on the standard input before it ends, or before the user
    presses ^C ([w_interrupted]) *)
Record world := mkWorld {
  w_files : list (str * file);
  w_demo : bytes;                      (* kolombos/demo.bin, runner/demo.py:15 *)
  w_typed : bytes;
  w_interrupted : bool;
  w_columns : Z                        (* width of the terminal *)
}.

(** Blocks of [n > 0] bytes, the last one may be shorter *)
Fixpoint blocks_fuel (fuel : nat) (n : nat) (l : bytes) : list bytes :=
  match fuel, l with
  | O, _ | _, [] => []
  | S fuel, _ => firstn n l :: blocks_fuel fuel n (skipn n l)
  end.
Definition blocks (n : nat) (l : bytes) : list bytes := blocks_fuel (length l) n l.

(** results of successive [read(n)], [n > 0] or [n = -1] *)
Definition file_reads (n : Z) (content : bytes) : list read_ev :=
  map RData (if n <? 0 then [content] else blocks (Z.to_nat n) content).
(** a block that is not complete when the user interrupts is lost *)
Definition stdin_reads (n : Z) (typed : bytes) (interrupted : bool) : list read_ev :=
  if interrupted then
    (if n <? 0 then [] else map RData (blocks (Z.to_nat n) (firstn (Z.to_nat n * (length typed / Z.to_nat n)) typed))) ++ [RInterrupt]
  else file_reads n typed.

Definition lookup_file (w : world) (name : str) : option file :=
  match find (fun x => eqb_list (fst x) name) (w_files w) with Some (_, f) => Some f | None => None end.

(** reader.py:78-84 with L43, [demo]: the name was set by runner/demo.py *)
Definition input_of (w : world) (demo : bool) (s : settings) : source * list read_ev :=
  let n := chunk_size s in
  if demo then (SrcFile true, file_reads n (w_demo w))
  else if reading_stdin (s_filename s) then (SrcStdin, stdin_reads n (w_typed w) (w_interrupted w))
  else match lookup_file w (match s_filename s with Some f => f | None => [] end) with
       | Some (Regular c) => (SrcFile true, file_reads n c)
       | Some (Pipe c) => (SrcFile false, file_reads n c)
       | None => (SrcMissing, [])
       end.

(** runner/byteio.py [ByteIoRunner.run] in a world *)
Definition byteio_main (w : world) (demo : bool) (s : settings) : proc * list action * reader_end :=
  let '(src, evs) := input_of w demo s in
  if (chunk_size s <? -1) && (match src with SrcMissing => false | _ => true end)
  then (proc_init, [AOpen; ARead; AClose], RError ValueError)
  else byteio_run s (w_columns w) src evs.

(** app.py:15-31 after the options have been read; debug traces are not included (Trace.v) *)
Definition kolombos_with (w : world) (s : settings) : app_result :=
  let s1 := after_parse_args s in
  match create_runner s1 with
  | ByteIoRunner => app_finish s1 [] (byteio_main w false s1)
  | DemoRunner => let s2 := demo_settings s1 in app_finish s2 demo_epilogue (byteio_main w true s2)
  | _ => app_main s (w_columns w) SrcStdin [] []
  end.
(** [None] in [parse_args]: argparse prints the usage on stderr and exits with 2. *)
Definition kolombos (w : world) (opts : list opt) : app_result :=
  match parse_args opts with
  | None => mkApp [] None (Some 2)
  | Some s => kolombos_with w s
  end.
