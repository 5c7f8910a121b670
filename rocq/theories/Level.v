(** The random numbers of LayerGenerator (hnsw.rs l.317-370), drawn with rand 0.8. *)
From Coq Require Import SpecFloat.
From Verif Require Import Prelude Model.

(** l.333, l.361: sampling Uniform::<f64>::new(0., 1.) takes the 52 high bits [k] of a u64, makes them the mantissa of a number of
    [1, 2), subtracts 1, multiplies by 1 and adds 0: the result is k / 2^52, exactly. *)
Definition uniform_f64 (k : Z) : f64 := binary_normalize 53 1024 k (-52) false.

(** l.361-367: what a call of generate draws, when the generator gives [k] (52 bits) and then [j] (below maxlevel, used only when the
    level is too high). [ln_f64] stands for f64::ln of the platform. *)
Definition drawn (ln_f64 : f64 -> f64) (k : Z) (j : nat) : draw := Draw (SFopp (ln_f64 (uniform_f64 k))) j.

(** all the equally likely draws *)
Definition draws (ln_f64 : f64 -> f64) (maxlevel : nat) : list draw :=
  flat_map (fun k => map (drawn ln_f64 k) (seq 0 maxlevel)) (seqZ 0 (2 ^ 52)).
