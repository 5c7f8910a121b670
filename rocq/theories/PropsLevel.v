(** Property C93: how often an insertion puts its point in each layer. Model: Level.v; vocabulary: SpecLevel.v. *)
From Coq Require Import SpecFloat Reals Lra.
From stdpp Require Import relations.
From Flocq Require Import Core BinarySingleNaN.
From Verif Require Import Prelude Model Lib Table SearchProofs InsertProofs Spec SpecProofs StdInst Conc SpecConc SpecBuilt BuiltProofs PropsConc Examples ExamplesConc
  Level SpecLevel FloatMul LawProofs LevelExamples.
Local Open Scope R_scope.

(** the insertion lands where the draw says *)
Lemma adds_lands {T} (dist : list T -> list T -> Z) so (LAWS : StdLaws so) (Hnn : forall a b, (0 <= dist a b)%Z) h v id n d :
  lwf dist h -> (0 < max_layer h)%nat -> adds_to_layer dist so h v id n d = lands (level_scale h) (max_layer h) n d.
Proof.
  intros Hwf Hml. unfold adds_to_layer, lands.
  destruct (insert_lspec_level dist so LAWS Hnn h v id d Hwf Hml) as (h' & np & -> & [-> Hl] & _). rewrite Hl.
  destruct (Nat.eqb_spec n np.1) as [->|Hne].
  - rewrite Nat.eqb_refl. apply Nat.eqb_eq. lia.
  - destruct (Nat.eqb_spec np.1 n) as [E|_]; [congruence|]. apply Nat.eqb_neq. lia.
Qed.

Lemma filter_same {A} (f g : A -> bool) l : (forall x, f x = g x) -> List.filter f l = List.filter g l.
Proof. intros H. induction l as [|x l IH]; simpl; [done|]. by rewrite H, IH. Qed.

(** C93: the law of the levels is the documented one, whatever the vector and the index, up to 2^-45:
    P(l = n) = exp(-n/s) - exp(-(n+1)/s), where s is the scale of the index, plus an equal share of the levels that are too high.
    With the default scale 1/ln(M), M >= 2, each layer is M times rarer than the one below.
    With M = 1 the scale is infinite and all the levels are equally likely; with M = 0 every point goes to layer 0. *)
Theorem C93_level_law :
  forall {T} (dist : list T -> list T -> Z) so, StdLaws so -> (forall a b, (0 <= dist a b)%Z) ->
  forall inv_ln M ml ef hist h, used dist so inv_ln M ml ef hist h -> (1 <= ml)%nat ->
  forall ln_f64, ln_accurate ln_f64 ->
  forall v id n, (n < max_layer h)%nat ->
  (forall s, valid_binary 53 1024 (level_scale h) = true -> value (level_scale h) = s -> / 2 ^ 900 <= s <= 2 ^ 900 ->
    Rabs (chance ln_f64 (max_layer h) (adds_to_layer dist so h v id n) - law s (max_layer h) n) <= / 2 ^ 45 /\
    ((2 <= M)%nat -> Rabs (s * ln (INR M) - 1) <= / 2 ^ 50 ->
     Rabs (chance ln_f64 (max_layer h) (adds_to_layer dist so h v id n) - thinning M (max_layer h) n) <= / 2 ^ 44)) /\
  (level_scale h = S754_infinity false -> chance ln_f64 (max_layer h) (adds_to_layer dist so h v id n) = / INR (max_layer h)) /\
  (level_scale h = S754_zero true -> chance ln_f64 (max_layer h) (adds_to_layer dist so h v id 0) = 1).
Proof.
  intros T dist so LAWS Hnn inv_ln M ml ef hist h Hu Hml ln_f64 Hln v id n Hn.
  destruct (used_facts dist so LAWS Hnn _ _ _ _ _ _ Hu) as (Hwf & Eml & _).
  assert (Hpos : (0 < max_layer h)%nat) by lia.
  assert (H64 : (N.of_nat (max_layer h) < 2 ^ 64)%N). { rewrite Eml. unfold NB_LAYER_MAX. lia. }
  assert (Hc : forall i, chance ln_f64 (max_layer h) (adds_to_layer dist so h v id i) = chance ln_f64 (max_layer h) (lands (level_scale h) (max_layer h) i)).
  { intros i. unfold chance. rewrite (filter_same _ (lands (level_scale h) (max_layer h) i)); [done|]. intros d. by apply adds_lands. }
  split; [|split].
  - intros s Hv Hs Hr. rewrite Hc. pose proof (chance_law ln_f64 _ s _ n Hln Hv Hs Hr Hn H64) as H. split; [done|]. intros HM HsM.
    assert (0 < / 2 ^ 900) by (apply Rinv_0_lt_compat, pow_lt; lra).
    pose proof (law_thinning s M (max_layer h) n ltac:(lra) HM HsM ltac:(lia)) as H2.
    assert (E : / 2 ^ 44 = / 2 ^ 45 + / 2 ^ 45) by field. rewrite E.
    replace (chance ln_f64 (max_layer h) (lands (level_scale h) (max_layer h) n) - thinning M (max_layer h) n)
      with ((chance ln_f64 (max_layer h) (lands (level_scale h) (max_layer h) n) - law s (max_layer h) n) + (law s (max_layer h) n - thinning M (max_layer h) n)) by lra.
    eapply Rle_trans; [apply Rabs_triang|]. lra.
  - intros E. rewrite Hc, E. by apply chance_uniform.
  - intros E. rewrite Hc, E. by apply chance_flat.
Qed.
Print Assumptions C93_level_law.

(** The hypotheses hold for the correctly rounded logarithm and an index with scale 1; *)
Example C93_example : ln_accurate ln_near /\ built d1 simple_ops one_scale 2 16 10 exd_hist exd /\
  valid_binary 53 1024 (level_scale exd) = true /\ value (level_scale exd) = 1 /\ / 2 ^ 900 <= 1 <= 2 ^ 900 /\ max_layer exd = 16%nat.
Proof.
  split; [exact ln_near_accurate|]. split; [exact exd_built|]. split; [vm_compute; reflexivity|].
  split. { simpl level_scale. unfold SF2R, F2R. simpl. lra. }
  split; [|done]. assert (1 <= 2 ^ 900) by (apply pow_R1_Rle; lra). split; [|done]. rewrite <- Rinv_1. apply Rinv_le_contravar; lra.
Qed.
(** those of the second part, for a new index with M = 2. *)
Example C93_thinning : exists h, built d1 simple_ops (fun M => near (/ ln (INR M))) 2 16 10 [] h /\
  valid_binary 53 1024 (level_scale h) = true /\ / 2 ^ 900 <= value (level_scale h) <= 2 ^ 900 /\
  Rabs (value (level_scale h) * ln (INR 2) - 1) <= / 2 ^ 50.
Proof.
  eexists. split; [apply built_new; reflexivity|]. cbn [level_scale].
  pose proof ln_lt_2 as L1. assert (L2 : ln 2 <= 1). { rewrite <- (ln_exp 1). pose proof (exp_ge 1) as [H|H]; [apply Rlt_le, ln_increasing; lra|rewrite <- H; right; f_equal; lra]. }
  replace (INR 2) with 2 by (simpl; lra). set (L := ln 2) in *. set (x := / L).
  assert (X1 : 1 <= x <= 2). { unfold x. split; [rewrite <- Rinv_1; apply Rinv_le_contravar; lra|]. rewrite <- (Rinv_inv 2). apply Rinv_le_contravar; lra. }
  destruct (near_ok x) as [V H].
  { rewrite Rabs_pos_eq by lra. split; [apply Rle_trans with (bpow radix2 0); [by apply bpow_le|simpl; lra]|].
    apply Rle_trans with (bpow radix2 1); [simpl; lra|by apply bpow_le]. }
  split; [done|]. rewrite (Rabs_pos_eq x) in H by lra. apply Rabs_le_inv in H.
  assert (Hb : bpow radix2 (-53) = / 2 ^ 53). { change (-53)%Z with (- Z.of_nat 53)%Z. rewrite bpow_opp, bpow_powerRZ. simpl (IZR radix2). by rewrite <- pow_powerRZ. }
  rewrite Hb in H. assert (Q : 0 < / 2 ^ 53 <= / 8) by (split; [apply Rinv_0_lt_compat, pow_lt; lra|apply Rinv_le_contravar; lra]).
  assert (E50 : / 2 ^ 50 = 8 * / 2 ^ 53) by field. rewrite E50. set (q := / 2 ^ 53) in *. clearbody q. set (w := value (near x)) in *. clearbody w.
  assert (W : 1 / 2 <= w <= 3) by nra. assert (P900 : 4 <= 2 ^ 900). { apply Rle_trans with (2 ^ 2); [lra|]. apply Rle_pow; [lra|lia]. }
  split. { split; [|lra]. apply Rle_trans with (/ 4); [apply Rinv_le_contravar; lra|lra]. }
  assert (EL : x * L = 1) by (unfold x; apply Rinv_l; lra). apply Rabs_le. nra.
Qed.
