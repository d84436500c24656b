(** Specification side: what the program reads *)
From Coq Require Import List NArith ZArith Bool.
From Verif.Model Require Import Base Settings Reader Runner Options Process.
From Verif.Spec Require Import Input.
Import ListNotations.
Local Open Scope Z_scope.

(** no file name, an empty one, or "-" *)
Definition names_stdin (name : option (list N)) : Prop := name = None \/ name = Some [] \/ name = Some [45%N].
Definition file_at (w : world) (name : list N) (f : file) : Prop :=
  exists before after, w_files w = before ++ (name, f) :: after /\ ~ In name (map fst before).
Definition no_file (w : world) (name : list N) : Prop := ~ In name (map fst (w_files w)).

(** [content] is what the program is to read *)
Inductive Named (w : world) (name : option (list N)) : list N -> Prop :=
| Nm_stdin : names_stdin name -> w_interrupted w = false -> Named w name (w_typed w)
| Nm_file n c : name = Some n -> ~ names_stdin name -> file_at w n (Regular c) -> Named w name c.

(** the size of the read buffer: 4096, or 128 if debugging, unless another (not 0) is given *)
Definition buffer_size (s : settings) (n : Z) : Prop :=
  (s_buffer s = Some n /\ n <> 0) \/
  ((s_buffer s = None \/ s_buffer s = Some 0) /\ ((s_debug s = 0%nat /\ n = 4096) \/ ((0 < s_debug s)%nat /\ n = 128))).

(** content cut into blocks of [n] bytes, the last one may be shorter *)
Inductive Blocks (n : nat) : list N -> list (list N) -> Prop :=
| Bl_nil : Blocks n [] []
| Bl_last b : b <> [] -> (length b <= n)%nat -> Blocks n b [b]
| Bl_more b l cs : length b = n -> l <> [] -> Blocks n l cs -> Blocks n (b ++ l) (b :: cs).
(** buffer size -1 is without limit *)
Definition ReadBy (size : Z) (content : list N) (cs : list (list N)) : Prop :=
  (0 < size /\ Blocks (Z.to_nat size) content cs) \/
  (size = -1 /\ ((content = [] /\ cs = []) \/ (content <> [] /\ cs = [content]))).

(** the blocks that are processed, within the limits *)
Definition ToProcess (s : settings) (size : Z) (content : list N) (chunks : list (list N)) : Prop :=
  exists cs d, ReadBy size content cs /\ Limited (s_max_bytes s) (s_max_lines s) content d /\ chunks = first_bytes (length d) cs.

(** all blocks that were complete when reading was interrupted *)
Definition complete_blocks (n : nat) (typed : list N) (cs : list (list N)) : Prop :=
  exists k, Blocks n (firstn k typed) cs /\ Nat.divide n k /\ (k <= length typed < k + n)%nat.

(** options that do not select another action than reading *)
Definition reads_input (opts : list opt) : Prop := ~ In O_legend opts /\ ~ In O_version opts /\ ~ In O_demo opts.
Definition well_formed (w : world) : Prop :=
  Forall (fun b => (b < 256)%N) (w_typed w) /\ Forall (fun b => (b < 256)%N) (w_demo w) /\
  Forall (fun x => match snd x with Regular c | Pipe c => Forall (fun b => (b < 256)%N) c end) (w_files w).
(** the message, nothing else on the output *)
Definition failed (s1 : settings) (e : exn) (r : app_result) : Prop :=
  ap_err r = Some e /\ ap_code r = Some 1 /\ ap_out r = (if (0 <? s_debug s1)%nat then [10%N] else debug_hint ++ [10%N; 10%N]).
