(** The product of two canonical binary64 numbers is canonical. *)
From Coq Require Import SpecFloat.
From Verif Require Import Prelude Model Io IoBase.

Lemma digits_bounds p : (2 ^ (Zpos (digits2_pos p) - 1) <= Zpos p < 2 ^ Zpos (digits2_pos p))%Z.
Proof.
  induction p as [p IH|p IH|]; [| |by vm_compute].
  - cbn [digits2_pos]. rewrite Pos2Z.inj_succ.
    assert (E : (2 ^ Z.succ (Z.pos (digits2_pos p)) = 2 * 2 ^ Z.pos (digits2_pos p))%Z) by (apply Z.pow_succ_r; lia).
    replace (Z.succ (Z.pos (digits2_pos p)) - 1)%Z with (Z.succ (Z.pos (digits2_pos p) - 1)) by lia.
    rewrite E, Z.pow_succ_r by lia. lia.
  - cbn [digits2_pos]. rewrite Pos2Z.inj_succ.
    assert (E : (2 ^ Z.succ (Z.pos (digits2_pos p)) = 2 * 2 ^ Z.pos (digits2_pos p))%Z) by (apply Z.pow_succ_r; lia).
    replace (Z.succ (Z.pos (digits2_pos p)) - 1)%Z with (Z.succ (Z.pos (digits2_pos p) - 1)) by lia.
    rewrite E, Z.pow_succ_r by lia. lia.
Qed.

Lemma shr_1_half r : (0 <= shr_m r)%Z -> (shr_m (shr_1 r) = shr_m r / 2)%Z.
Proof.
  destruct r as [m r s]. cbn [shr_m]. intros H. destruct m as [|[p|p|]|p]; try done.
  - cbn [shr_1 shr_m]. change (Z.pos p~1) with (2 * Z.pos p + 1)%Z. apply Z.div_unique with 1%Z; lia.
  - cbn [shr_1 shr_m]. change (Z.pos p~0) with (2 * Z.pos p)%Z. apply Z.div_unique with 0%Z; lia.
Qed.

Lemma shr_iter n : forall r, (0 <= shr_m r)%Z -> (shr_m (SpecFloat.iter_pos shr_1 n r) = shr_m r / 2 ^ Zpos n)%Z.
Proof.
  assert (Hnn : forall m k, (0 <= m)%Z -> (0 <= k)%Z -> (0 <= m / 2 ^ k)%Z).
  { intros. apply Z.div_pos; [lia|]. by apply Z.pow_pos_nonneg. }
  assert (Hdd : forall m a b, (0 <= a)%Z -> (0 <= b)%Z -> (m / 2 ^ a / 2 ^ b = m / 2 ^ (a + b))%Z).
  { intros m a b Ha Hb. rewrite Z.pow_add_r by lia. apply Z.div_div; [pose proof (Z.pow_pos_nonneg 2 a)|pose proof (Z.pow_pos_nonneg 2 b)]; lia. }
  induction n as [n IH|n IH|]; intros r Hr; cbn [SpecFloat.iter_pos].
  - assert (H1 : (0 <= shr_m (shr_1 r))%Z) by (rewrite shr_1_half by done; apply Z.div_pos; lia).
    rewrite IH by (rewrite IH by done; by apply Hnn). rewrite IH by done. rewrite shr_1_half by done.
    change 2%Z with (2 ^ 1)%Z at 1. rewrite !Hdd by lia. do 2 f_equal. lia.
  - rewrite IH by (rewrite IH by done; by apply Hnn). rewrite IH by done. rewrite !Hdd by lia. do 2 f_equal. lia.
  - rewrite shr_1_half by done. done.
Qed.

Lemma binary_round_ok s m e : (53 <= Zpos (digits2_pos m) \/ e <= -1074)%Z ->
  f64_ok (binary_round_aux 53 1024 s (Zpos m) e loc_Exact) = true.
Proof.
  intros Hc. unfold binary_round_aux. unfold shr_fexp at 1. cbn [shr_record_of_loc Zdigits2].
  pose proof (digits_bounds m) as Hd. set (d := Zpos (digits2_pos m)) in *. assert (Hd1 : (1 <= d)%Z) by (unfold d; lia).
  unfold fexp. change (emin 53 1024) with (-1074)%Z.
  set (k := (Z.max (d + e - 53) (-1074) - e)%Z). assert (Hk : (0 <= k)%Z) by (unfold k; lia).
  assert (Hs : exists mrs, shr {| shr_m := Z.pos m; shr_r := false; shr_s := false |} e k = (mrs, (e + k)%Z) /\ shr_m mrs = (Zpos m / 2 ^ k)%Z).
  { unfold shr. destruct k as [|n|n] eqn:Ek; [| |lia].
    - eexists. split; [f_equal; lia|]. cbn [shr_m]. by rewrite Z.pow_0_r, Z.div_1_r.
    - eexists. split; [done|]. by rewrite shr_iter by done. }
  destruct Hs as (mrs & -> & Em). set (e1 := (e + k)%Z). set (m1 := (Zpos m / 2 ^ k)%Z) in *.
  assert (He1 : (e1 = Z.max (d + e - 53) (-1074))%Z) by (unfold e1, k; lia).
  assert (Hp : (0 < 2 ^ k)%Z) by (by apply Z.pow_pos_nonneg).
  assert (Hm1 : (0 <= m1 < 2 ^ 53)%Z).
  { split; [apply Z.div_pos; lia|]. apply Z.div_lt_upper_bound; [lia|]. rewrite <- Z.pow_add_r by lia.
    eapply Z.lt_le_trans; [apply Hd|]. apply Z.pow_le_mono_r; unfold k; lia. }
  assert (Hm1' : (-1074 < e1 -> 2 ^ 52 <= m1)%Z).
  { intros He. apply Z.div_le_lower_bound; [lia|]. rewrite <- Z.pow_add_r by lia. etransitivity; [|apply Hd].
    apply Z.pow_le_mono_r; unfold k; lia. }
  set (m2 := round_nearest_even (shr_m mrs) (loc_of_shr_record mrs)).
  assert (Hm2 : m2 = m1 \/ m2 = (m1 + 1)%Z).
  { unfold m2. rewrite Em. destruct (loc_of_shr_record mrs) as [|[]]; cbn [round_nearest_even]; try (by left); try (by right).
    destruct (Z.even m1); auto. }
  unfold shr_fexp. cbn [shr_record_of_loc]. unfold fexp. change (emin 53 1024) with (-1074)%Z.
  change (1024 - 53)%Z with 971%Z. clearbody m2. clear Em mrs Hc. clearbody e1 m1 k.
  destruct m2 as [|p|p]; [| |lia].
  { cbn [Zdigits2]. replace (shr _ e1 _) with ({| shr_m := 0%Z; shr_r := false; shr_s := false |}, e1); [done|].
    unfold shr. destruct (Z.max (0 + e1 - 53) (-1074) - e1)%Z eqn:E; [done| |done]. lia. }
  cbn [Zdigits2]. pose proof (digits_bounds p) as Hdp. set (d2 := Zpos (digits2_pos p)) in *.
  assert (Hd2 : (1 <= d2)%Z) by (unfold d2; lia). clearbody d2.
  destruct (Z_le_gt_dec d2 53) as [Hle|Hgt].
  - replace (shr _ e1 _) with ({| shr_m := Zpos p; shr_r := false; shr_s := false |}, e1).
    2:{ unfold shr. destruct (Z.max (d2 + e1 - 53) (-1074) - e1)%Z eqn:E; [done| |done]. lia. }
    cbn [shr_m]. destruct (Zle_bool e1 971) eqn:Ee; [|done]. cbn [f64_ok].
    assert (Hlt : (Zpos p < 2 ^ 53)%Z) by (eapply Z.lt_le_trans; [apply Hdp|apply Z.pow_le_mono_r; lia]).
    change (Z.leb e1 971 = true) in Ee.
    destruct (Z.ltb_spec (Zpos p) (2 ^ 52)) as [Hs|Hs].
    + replace (e1 =? -1074)%Z with true by lia. done.
    + apply orb_true_iff. right. lia.
  - assert (Ep : Zpos p = (2 ^ 53)%Z).
    { assert (2 ^ 53 <= Zpos p)%Z; [|lia]. etransitivity; [|apply Hdp]. apply Z.pow_le_mono_r; lia. }
    assert (d2 = 54%Z) as ->.
    { destruct (Z_le_gt_dec d2 54) as [H|H]; [lia|]. exfalso. assert (2 ^ 54 <= Zpos p)%Z; [|lia]. etransitivity; [|apply Hdp]. apply Z.pow_le_mono_r; lia. }
    replace (Z.max (54 + e1 - 53) (-1074) - e1)%Z with 1%Z by lia.
    assert (E0 : shr {| shr_m := Z.pos p; shr_r := false; shr_s := false |} e1 1
      = (shr_1 {| shr_m := Z.pos p; shr_r := false; shr_s := false |}, (e1 + 1)%Z)) by done.
    rewrite E0. assert (E1 : shr_m (shr_1 {| shr_m := Z.pos p; shr_r := false; shr_s := false |}) = (2 ^ 52)%Z).
    { rewrite shr_1_half by done. cbn [shr_m]. rewrite Ep. done. }
    rewrite E1. destruct (Zle_bool (e1 + 1) 971) eqn:Ee; [|done]. change (2 ^ 52)%Z with (Zpos 4503599627370496).
    cbn [f64_ok]. change (Z.leb (e1 + 1) 971 = true) in Ee. lia.
Qed.

Theorem f64_mul_ok x y : f64_ok x = true -> f64_ok y = true -> f64_ok (f64_mul x y) = true.
Proof.
  destruct x as [a|a| |a m e], y as [b|b| |b m' e']; try done. intros Hx Hy. unfold f64_mul, SFmul. apply binary_round_ok.
  pose proof (digits_bounds (m * m')) as Hd. set (d := Zpos (digits2_pos (m * m'))) in *. clearbody d.
  destruct (Z_le_gt_dec 53 d) as [H|H]; [by left|right].
  assert (Hlt : (Zpos (m * m') < 2 ^ 52)%Z).
  { eapply Z.lt_le_trans; [apply Hd|]. apply Z.pow_le_mono_r; lia. }
  rewrite Pos2Z.inj_mul in Hlt. unfold f64_ok in Hx, Hy.
  assert (Zpos m < 2 ^ 52)%Z by nia. assert (Zpos m' < 2 ^ 52)%Z by nia. lia.
Qed.
