(** What to expect of a reload when one of the two files of a dump, or both, have been cut short: the pieces of the files (SpecFile.v) in the
    order in which they are needed, each with what happens if it is not there entirely. *)
From Coq Require Import Strings.String.
From Verif Require Import Prelude Model Io SpecFile.
Local Open Scope list_scope.

Inductive file : Type := GraphFile | DataFile.
Inductive failure : Type := ReturnsErr | Panics | EndsProcess.
Record piece : Type := Piece { pc_file : file; pc_bytes : list Byte.byte; pc_failure : failure }.

Definition fails {A} (f : failure) : outcome A :=
  match f with ReturnsErr => Err | Panics => Panic | EndsProcess => Exit end.

Fixpoint points_pieces (mode : N) (l r : nat) (ps : list text_point) : list piece :=
  match ps with
  | [] => []
  | p :: ps => Piece GraphFile (point_text mode l r p) Panics :: Piece DataFile (record_text p) EndsProcess :: points_pieces mode l (S r) ps
  end.
Fixpoint layers_pieces (mode : N) (l : nat) (ls : list (list text_point)) : list piece :=
  match ls with
  | [] => []
  | ps :: ls => Piece GraphFile (u32_bytes 0x000a676f ++ u64_bytes (N.of_nat (length ps))) ReturnsErr ::
                points_pieces mode l 0 ps ++ layers_pieces mode (S l) ls
  end.
Definition pieces (t : text) : list piece :=
  Piece GraphFile (head_text t) Panics ::
  Piece DataFile (u32_bytes 0xa67f0000 ++ u64_bytes (tx_dim t)) ReturnsErr ::
  Piece GraphFile (u8_bytes (N.of_nat (length (tx_layers t)))) ReturnsErr ::
  layers_pieces (tx_mode t) 0 (tx_layers t) ++
  [Piece GraphFile (u64_bytes (tx_entry t).1.1 ++ u8_bytes (tx_entry t).1.2 ++ i32_bytes (tx_entry t).2) ReturnsErr].

(** the first piece that is not there entirely when [ng] bytes remain of the graph file and [nd] of the data file *)
Fixpoint first_short (ps : list piece) (ng nd : nat) : option failure :=
  match ps with
  | [] => None
  | Piece GraphFile b f :: ps => if (ng <? length b)%nat then Some f else first_short ps (ng - length b) nd
  | Piece DataFile b f :: ps => if (nd <? length b)%nat then Some f else first_short ps ng (nd - length b)
  end.
