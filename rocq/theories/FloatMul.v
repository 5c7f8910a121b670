(** The product of Model.v is the real product up to one rounding (Flocq). *)
From Coq Require Import SpecFloat Reals Lra.
From Flocq Require Import Core Relative BinarySingleNaN.
From Verif Require Import Prelude Model Level SpecLevel.
Local Open Scope R_scope.

Lemma round_nearest_even_NE s m l : round_nearest_even m l = choice_mode mode_NE s m l.
Proof. destruct l as [|c]; [done|]. destruct c; try done. simpl. unfold Round.cond_incr. by destruct (Z.even m). Qed.

Lemma binary_round_aux_NE sx mx ex lx : SpecFloat.binary_round_aux 53 1024 sx mx ex lx = BinarySingleNaN.binary_round_aux 53 1024 mode_NE sx mx ex lx.
Proof.
  unfold SpecFloat.binary_round_aux, BinarySingleNaN.binary_round_aux. destruct (shr_fexp 53 1024 mx ex lx) as [mrs e]. cbv zeta.
  by rewrite (round_nearest_even_NE sx).
Qed.

Lemma prec53 : Prec_gt_0 53. Proof. done. Qed.
Lemma emax1024 : Prec_lt_emax 53 1024. Proof. done. Qed.

Lemma mul_value x y : valid_binary 53 1024 x = true -> valid_binary 53 1024 y = true ->
  0 < value x -> 0 < value y -> bpow radix2 (-1000) <= value x * value y <= bpow radix2 1000 ->
  exists eps, Rabs eps <= bpow radix2 (-53) /\ value (f64_mul x y) = value x * value y * (1 + eps) /\
    exists m e, f64_mul x y = S754_finite false m e.
Proof.
  intros Hx Hy Px Py [Hlo Hhi]. destruct x as [sx|sx| |sx mx ex]; simpl in Px; try lra. destruct y as [sy|sy| |sy my ey]; simpl in Py; try lra.
  assert (sx = false) as ->. { destruct sx; [|done]. exfalso. apply (Rlt_not_le _ _ Px). apply Rlt_le. by apply F2R_lt_0. }
  assert (sy = false) as ->. { destruct sy; [|done]. exfalso. apply (Rlt_not_le _ _ Py). apply Rlt_le. by apply F2R_lt_0. }
  pose proof (@Bmult_correct_aux 53 1024 prec53 emax1024 mode_NE false mx ex Hx false my ey Hy) as H.
  cbv zeta in H. destruct H as [_ H].
  set (p := F2R (Float radix2 (cond_Zopp false (Zpos mx)) ex) * F2R (Float radix2 (cond_Zopp false (Zpos my)) ey)) in *.
  destruct (relative_error_N_FLT_ex radix2 (SpecFloat.emin 53 1024) 53 prec53 (fun x => negb (Z.even x)) p) as (eps & He & Er).
  { change (SpecFloat.emin 53 1024 + 53 - 1)%Z with (-1022)%Z. eapply Rle_trans; [|apply Rle_abs]. eapply Rle_trans; [|exact Hlo]. by apply bpow_le. }
  assert (Hb : / 2 * bpow radix2 (-53 + 1) = bpow radix2 (-53)).
  { change (-53 + 1)%Z with (-52)%Z. replace (-52)%Z with (1 + -53)%Z by done. rewrite bpow_plus. simpl (bpow radix2 1). lra. }
  assert (He' : Rabs eps <= bpow radix2 (-53)) by (rewrite <- Hb; exact He). clear He. rename He' into He. change (round_mode mode_NE) with ZnearestE in H. change (SpecFloat.fexp 53 1024) with (FLT_exp (SpecFloat.emin 53 1024) 53) in H.
  change (Znearest (fun x => negb (Z.even x))) with ZnearestE in Er.
  assert (Hs : bpow radix2 (-53) <= /2). { change (/2) with (bpow radix2 (-1)). by apply bpow_le. }
  assert (He2 : -/2 <= eps <= /2). { apply Rabs_le_inv. lra. }
  assert (Hhi2 : p <= bpow radix2 1000) by exact Hhi. assert (P : 0 < p) by (by apply Rmult_lt_0_compat).
  rewrite Rlt_bool_true in H.
  2:{ rewrite Er, Rabs_pos_eq by (apply Rmult_le_pos; lra). apply Rle_lt_trans with (p * 2); [apply Rmult_le_compat_l; lra|].
      apply Rle_lt_trans with (bpow radix2 1000 * 2); [lra|]. replace (bpow radix2 1000 * 2) with (bpow radix2 (1000 + 1)) by (rewrite bpow_plus; simpl (bpow radix2 1); lra). by apply bpow_lt. }
  destruct H as (H1 & H2 & H3). exists eps. split; [done|]. cbn [f64_mul SFmul]. unfold f64_mul, SFmul. simpl (xorb false false) in *. rewrite binary_round_aux_NE.
  set (z := BinarySingleNaN.binary_round_aux 53 1024 mode_NE false (Z.pos (mx * my)) (ex + ey) loc_Exact) in *.
  split; [by rewrite H1, Er|]. assert (0 < value z). { rewrite H1, Er. apply Rmult_lt_0_compat; lra. }
  destruct z as [s|s| |s m e]; simpl in *; try done; try lra. subst s. eauto.
Qed.
