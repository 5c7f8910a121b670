(** A logarithm that is accurate enough exists. *)
From Coq Require Import SpecFloat Reals Lra Lia.
From Flocq Require Import Core Relative BinarySingleNaN.
From Verif Require Import Prelude Model Level SpecLevel FloatMul LawProofs.
Local Open Scope R_scope.

(** the f64 nearest to a real number *)
Definition near (x : R) : f64 :=
  B2SF (@binary_normalize 53 1024 prec53 emax1024 mode_NE (ZnearestE (scaled_mantissa radix2 (SpecFloat.fexp 53 1024) x)) (cexp radix2 (SpecFloat.fexp 53 1024) x) false).

Lemma near_ok x : bpow radix2 (-1000) <= Rabs x <= bpow radix2 1000 ->
  valid_binary 53 1024 (near x) = true /\ Rabs (value (near x) - x) <= bpow radix2 (-53) * Rabs x.
Proof.
  intros [Hlo Hhi]. unfold near. split; [apply valid_binary_B2SF|]. rewrite SF2R_B2SF.
  pose proof (@binary_normalize_correct 53 1024 prec53 emax1024 mode_NE (ZnearestE (scaled_mantissa radix2 (SpecFloat.fexp 53 1024) x))
     (cexp radix2 (SpecFloat.fexp 53 1024) x) false) as H. cbv zeta in H.
  change (F2R (Float radix2 (ZnearestE (scaled_mantissa radix2 (SpecFloat.fexp 53 1024) x)) (cexp radix2 (SpecFloat.fexp 53 1024) x)))
    with (round radix2 (SpecFloat.fexp 53 1024) ZnearestE x) in H.
  change (SpecFloat.fexp 53 1024) with (FLT_exp (-1074) 53) in *.
  assert (V : Valid_exp (FLT_exp (-1074) 53)) by (apply FLT_exp_valid; done).
  rewrite (round_generic radix2 (FLT_exp (-1074) 53)) in H; [|apply valid_rnd_round_mode|apply generic_format_round; [done|apply valid_rnd_N]].
  pose proof (relative_error_N_FLT radix2 (-1074) 53 prec53 (fun x => negb (Z.even x)) x) as He.
  change (Znearest (fun x => negb (Z.even x))) with ZnearestE in He.
  assert (Hb : / 2 * bpow radix2 (-53 + 1) = bpow radix2 (-53)).
  { change (-53 + 1)%Z with (-52)%Z. replace (-52)%Z with (1 + -53)%Z by done. rewrite bpow_plus. simpl (bpow radix2 1). lra. }
  assert (He1 : Rabs (round radix2 (FLT_exp (-1074) 53) ZnearestE x - x) <= bpow radix2 (-53) * Rabs x).
  { rewrite <- Hb. apply He. eapply Rle_trans; [|exact Hlo]. by apply bpow_le. }
  clear He. assert (Hs : bpow radix2 (-53) <= /2). { change (/2) with (bpow radix2 (-1)). by apply bpow_le. }
  rewrite Rlt_bool_true in H; [destruct H as [-> _]; done|].
  apply Rle_lt_trans with (2 * Rabs x).
  - pose proof (Rabs_triang (round radix2 (FLT_exp (-1074) 53) ZnearestE x - x) x) as Ht. replace (round radix2 (FLT_exp (-1074) 53) ZnearestE x - x + x) with (round radix2 (FLT_exp (-1074) 53) ZnearestE x) in Ht by lra.
    pose proof (Rabs_pos x). nra.
  - apply Rle_lt_trans with (bpow radix2 (1000 + 1)); [rewrite bpow_plus; simpl (bpow radix2 1); lra|]. by apply bpow_lt.
Qed.

(** a correctly rounded logarithm *)
Definition ln_near (x : f64) : f64 := match x with S754_zero _ => S754_infinity true | _ => near (ln (value x)) end.

Lemma ln_near_accurate : ln_accurate ln_near.
Proof.
  split; [done|]. intros f Vf [F1 F2]. assert (P : 0 < 2 ^ 52) by (apply pow_lt; lra). assert (Q : 0 < / 2 ^ 52) by (by apply Rinv_0_lt_compat).
  assert (E : ln_near f = near (ln (value f))). { destruct f; try done. exfalso. simpl in F1. lra. }
  rewrite E. set (v := value f) in *. set (x := ln v) in *.
  assert (X1 : x <= - / 2 ^ 52).
  { unfold x. assert (v <= exp (- / 2 ^ 52)) as [H|H]; [pose proof (exp_ge (- / 2 ^ 52)); lra| |].
    - rewrite <- (ln_exp (- / 2 ^ 52)). apply Rlt_le, ln_increasing; lra.
    - rewrite H, ln_exp. lra. }
  assert (X2 : Ropp 52 <= x).
  { assert (H2 : 2 ^ 52 <= exp 52).
    { assert (E2 : forall n, 2 ^ n <= exp (INR n)).
      { induction n as [|n IH]; [simpl; rewrite exp_0; lra|]. rewrite S_INR, exp_plus. simpl. rewrite Rmult_comm.
        apply Rmult_le_compat; [apply pow_le; lra|lra|exact IH|]. pose proof (exp_ge 1). lra. }
      specialize (E2 52%nat). replace (INR 52) with 52 in E2 by (simpl; lra). exact E2. }
    unfold x. assert (H3 : exp (Ropp 52) <= v). { rewrite exp_Ropp. apply Rle_trans with (/ 2 ^ 52); [|done]. by apply Rinv_le_contravar. }
    rewrite <- (ln_exp (Ropp 52)). destruct H3 as [H3|H3]; [apply Rlt_le, ln_increasing; [apply exp_pos|done]|rewrite H3; lra]. }
  assert (Ea : Rabs x = - x) by (apply Rabs_left; lra).
  assert (Hb : forall n, bpow radix2 (Z.of_nat n) = 2 ^ n). { intros n. rewrite bpow_powerRZ. simpl (IZR radix2). by rewrite <- pow_powerRZ. }
  destruct (near_ok x) as [V H].
  { rewrite Ea. split.
    - apply Rle_trans with (/ 2 ^ 52); [|lra]. change (-1000)%Z with (- Z.of_nat 1000)%Z. rewrite bpow_opp, Hb. apply Rinv_le_contravar; [done|]. apply Rle_pow; [lra|lia].
    - apply Rle_trans with (bpow radix2 6); [simpl; lra|]. by apply bpow_le. }
  split; [done|]. eapply Rle_trans; [exact H|]. apply Rmult_le_compat_r; [apply Rabs_pos|].
  change (-53)%Z with (- Z.of_nat 53)%Z. rewrite bpow_opp, Hb. apply Rinv_le_contravar; [apply pow_lt; lra|]. apply Rle_pow; [lra|lia].
Qed.
