(** Words for the statement of C93. *)
From Coq Require Import SpecFloat Reals.
From Flocq Require Import Core BinarySingleNaN.
From Verif Require Import Prelude Model Level.
Local Open Scope R_scope.

(** the real number that a finite f64 stands for *)
Notation value := (SF2R radix2).

(** f64::ln: -inf at zero, and a relative error of at most 2^-50 on [2^-52, 1 - 2^-52] *)
Definition ln_accurate (ln_f64 : f64 -> f64) : Prop :=
  ln_f64 (S754_zero false) = S754_infinity true /\
  forall x, valid_binary 53 1024 x = true -> / 2 ^ 52 <= value x <= 1 - / 2 ^ 52 ->
    valid_binary 53 1024 (ln_f64 x) = true /\ Rabs (value (ln_f64 x) - ln (value x)) <= / 2 ^ 50 * Rabs (ln (value x)).

(** the part of the draws for which [f] holds *)
Definition chance (ln_f64 : f64 -> f64) (maxlevel : nat) (f : draw -> bool) : R :=
  INR (length (List.filter f (draws ln_f64 maxlevel))) / INR (length (draws ln_f64 maxlevel)).

(** the insertion of [v], [id] with the draw [d] succeeds and adds a point to layer [n] *)
Definition adds_to_layer {T} (dist : list T -> list T -> Z) (so : StdOps) (h : hnsw) (v : list T) (id : dataid) (n : nat) (d : draw) : bool :=
  match insert_slice dist so h v id d with
  | Ok h' => (get_layer_nb_point h' n =? S (get_layer_nb_point h n))%nat
  | _ => false
  end.

(** the documented law (l.351-353), the levels that are too high being spread over all the levels *)
Definition law (s : R) (maxlevel n : nat) : R :=
  exp (- (INR n / s)) - exp (- (INR (S n) / s)) + exp (- (INR maxlevel / s)) / INR maxlevel.

(** with the default scale the levels thin out by a factor M *)
Definition thinning (M maxlevel n : nat) : R := / INR M ^ n - / INR M ^ S n + / INR M ^ maxlevel / INR maxlevel.
