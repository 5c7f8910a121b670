(** How often generate gives each level. *)
From Coq Require Import SpecFloat Reals Lra Lia.
From Flocq Require Import Core BinarySingleNaN.
From Verif Require Import Prelude Model Level SpecLevel FloatMul.
Local Open Scope R_scope.

(** ** Counting *)
Definition cnt (f : Z -> bool) (N : Z) : Z := Z.of_nat (length (List.filter f (seqZ 0 N))).

Lemma filter_mono {A} (f g : A -> bool) l : (forall x, List.In x l -> f x = true -> g x = true) ->
  (length (List.filter f l) <= length (List.filter g l))%nat.
Proof.
  induction l as [|x l IH]; intros H; simpl; [lia|]. pose proof (IH (fun y Hy => H y (or_intror Hy))) as H1.
  pose proof (H x (or_introl eq_refl)) as H2. destruct (f x), (g x); simpl; try lia.
Qed.
Lemma cnt_mono f g N : (forall k, (0 <= k < N)%Z -> f k = true -> g k = true) -> (cnt f N <= cnt g N)%Z.
Proof.
  intros H. unfold cnt. apply inj_le, filter_mono. intros x Hx%elem_of_list_In%elem_of_seqZ. apply H. lia.
Qed.
Lemma filter_all {A} (f : A -> bool) l : (forall x, List.In x l -> f x = true) -> List.filter f l = l.
Proof. induction l as [|x l IH]; intros H; simpl; [done|]. rewrite (H x) by (by left). f_equal. apply IH. intros y Hy. apply H. by right. Qed.
Lemma filter_none {A} (f : A -> bool) l : (forall x, List.In x l -> f x = false) -> List.filter f l = [].
Proof. induction l as [|x l IH]; intros H; simpl; [done|]. rewrite (H x) by (by left). apply IH. intros y Hy. apply H. by right. Qed.
Lemma cnt_below a N : (0 <= a <= N)%Z -> cnt (fun k => (k <? a)%Z) N = a.
Proof.
  intros H. unfold cnt. replace N with (a + (N - a))%Z by lia. rewrite seqZ_app by lia. rewrite List.filter_app, app_length.
  rewrite filter_all, filter_none, seqZ_length; [simpl; lia| |].
  - intros x Hx%elem_of_list_In%elem_of_seqZ. lia.
  - intros x Hx%elem_of_list_In%elem_of_seqZ. lia.
Qed.
Lemma cnt_all N f : (0 <= N)%Z -> (forall k, (0 <= k < N)%Z -> f k = true) -> cnt f N = N.
Proof.
  intros HN H. unfold cnt. rewrite filter_all, seqZ_length; [lia|]. intros x Hx%elem_of_list_In%elem_of_seqZ. apply H. lia.
Qed.
Lemma cnt_none N f : (forall k, (0 <= k < N)%Z -> f k = false) -> cnt f N = 0%Z.
Proof. intros H. unfold cnt. rewrite filter_none; [done|]. intros x Hx%elem_of_list_In%elem_of_seqZ. apply H. lia. Qed.
Lemma cnt_ext f g N : (forall k, (0 <= k < N)%Z -> f k = g k) -> cnt f N = cnt g N.
Proof. intros H. apply Z.le_antisymm; apply cnt_mono; intros k Hk; rewrite (H k Hk); done. Qed.

(** a set of integers that contains those up to A and none beyond B *)
Lemma cnt_between f N A B : (0 < N)%Z -> 0 <= A < IZR N -> 0 <= B < IZR N ->
  (forall k, (0 <= k < N)%Z -> IZR k <= A -> f k = true) -> (forall k, (0 <= k < N)%Z -> f k = true -> IZR k <= B) ->
  A <= IZR (cnt f N) <= B + 1.
Proof.
  intros HN HA HB Hf Hg. split.
  - pose proof (archimed A) as [A1 A2]. assert (Ha : (0 <= up A <= N)%Z).
    { split; [apply le_IZR; simpl; lra|]. assert (up A - 1 < N)%Z; [|lia]. apply lt_IZR. rewrite minus_IZR. lra. }
    assert (H : (cnt (fun k => (k <? up A)%Z) N <= cnt f N)%Z).
    { apply cnt_mono. intros k Hk Hlt%Z.ltb_lt. apply Hf; [done|]. assert (Hk1 : (k <= up A - 1)%Z) by lia. apply IZR_le in Hk1. rewrite minus_IZR in Hk1. lra. }
    rewrite cnt_below in H by done. apply IZR_le in H. lra.
  - pose proof (archimed B) as [B1 B2]. assert (Hb : (0 <= up B <= N)%Z).
    { split; [apply le_IZR; simpl; lra|]. assert (up B - 1 < N)%Z; [|lia]. apply lt_IZR. rewrite minus_IZR. lra. }
    assert (H : (cnt f N <= cnt (fun k => (k <? up B)%Z) N)%Z).
    { apply cnt_mono. intros k Hk Hfk. apply Z.ltb_lt. apply lt_IZR. pose proof (Hg k Hk Hfk). lra. }
    rewrite cnt_below in H by done. apply IZR_le in H. lra.
Qed.

(** ** exp *)
Lemma exp_ge y : 1 + y <= exp y.
Proof. destruct (Req_dec y 0) as [->|Hy]; [rewrite exp_0; lra|]. apply Rlt_le, exp_ineq1. done. Qed.
Lemma exp_le_1 y : y <= 0 -> exp y <= 1.
Proof. intros [H| ->]; [|rewrite exp_0; lra]. rewrite <- exp_0. apply Rlt_le, exp_increasing. done. Qed.
Lemma exp_mono a b : a <= b -> exp a <= exp b.
Proof. intros [H| ->]; [|lra]. by apply Rlt_le, exp_increasing. Qed.
Lemma y_exp y : 0 <= y -> y * exp (- y) <= 1.
Proof.
  intros Hy. rewrite exp_Ropp. pose proof (exp_ge y). pose proof (exp_pos y). apply Rmult_le_reg_r with (exp y); [done|].
  rewrite Rmult_assoc, Rinv_l by lra. lra.
Qed.

(** a relative change of the exponent changes the exponential little *)
Lemma exp_near y t : 0 <= y -> - / 2 <= t -> Rabs (exp (- (y * (1 + t))) - exp (- y)) <= 2 * Rabs t.
Proof.
  intros Hy Ht. destruct (Rle_lt_dec 0 t) as [H|H].
  - assert (E : exp (- (y * (1 + t))) = exp (- y) * exp (- (y * t))) by (rewrite <- exp_plus; f_equal; lra).
    rewrite E. pose proof (exp_pos (- y)) as P1. assert (Hyt : 0 <= y * t) by (by apply Rmult_le_pos).
    pose proof (exp_ge (- (y * t))) as P2. assert (P3 : exp (- (y * t)) <= 1) by (apply exp_le_1; lra).
    rewrite (Rabs_pos_eq t), Rabs_left1 by nra. pose proof (y_exp y Hy). nra.
  - assert (E : exp (- y) = exp (- (y * (1 + t))) * exp (y * t)) by (rewrite <- exp_plus; f_equal; lra).
    rewrite E. set (a := exp (- (y * (1 + t)))). assert (P1 : 0 < a) by apply exp_pos.
    pose proof (exp_ge (y * t)) as P2. assert (P3 : exp (y * t) <= 1) by (apply exp_le_1; nra).
    assert (Ha : a <= exp (- (y / 2))) by (apply exp_mono; nra). pose proof (y_exp (y / 2) ltac:(lra)) as P4.
    assert (P5 : y * a <= 2) by nra. rewrite (Rabs_left t), Rabs_pos_eq by nra. nra.
Qed.

(** ** The floor *)
Lemma floor_spec m e n : (n < 2 ^ 64)%N ->
  (n <= f64_floor_as_usize (S754_finite false m e))%N <-> IZR (Z.of_N n) <= value (S754_finite false m e).
Proof.
  intros Hn. unfold f64_floor_as_usize. simpl SF2R. unfold F2R, cond_Zopp. cbn [Fnum Fexp].
  assert (E : (n <= N.min (2 ^ 64 - 1) (match e with Z0 => Npos m | Zpos e => (Npos m * 2 ^ Npos e)%N | Zneg e => (Npos m / 2 ^ Npos e)%N end))%N <->
     (n <= match e with Z0 => Npos m | Zpos e => (Npos m * 2 ^ Npos e)%N | Zneg e => (Npos m / 2 ^ Npos e)%N end)%N).
  { rewrite N.min_glb_iff. split; [by intros []|]. intros H. split; [|done]. lia. }
  rewrite E. clear E Hn. destruct e as [|e|e].
  - simpl bpow. rewrite Rmult_1_r. split; intros H.
    + apply IZR_le. lia.
    + apply le_IZR in H. lia.
  - rewrite <- IZR_Zpower by lia. rewrite <- mult_IZR. change (radix2 ^ Zpos e)%Z with (2 ^ Zpos e)%Z.
    assert (E : Z.of_N (Npos m * 2 ^ Npos e) = (Zpos m * 2 ^ Zpos e)%Z) by (rewrite N2Z.inj_mul, N2Z.inj_pow; done).
    split; intros H.
    + apply IZR_le. lia.
    + apply le_IZR in H. lia.
  - change (Z.neg e) with (- Zpos e)%Z. rewrite bpow_opp, <- IZR_Zpower by lia. change (radix2 ^ Zpos e)%Z with (2 ^ Zpos e)%Z.
    assert (Hp : (0 < 2 ^ Zpos e)%Z) by (apply Z.pow_pos_nonneg; lia).
    assert (Hp' : 0 < IZR (2 ^ Zpos e)) by (by apply IZR_lt).
    assert (E : Z.of_N (Npos m / 2 ^ Npos e) = (Zpos m / 2 ^ Zpos e)%Z) by (rewrite N2Z.inj_div, N2Z.inj_pow; done).
    assert (EE : (n <= Npos m / 2 ^ Npos e)%N <-> (Z.of_N n * 2 ^ Zpos e <= Zpos m)%Z).
    { rewrite N2Z.inj_le, E. split; intros H.
      - etransitivity; [apply Z.mul_le_mono_nonneg_r; [lia|exact H]|]. rewrite Z.mul_comm. by apply Z.mul_div_le.
      - apply Z.div_le_lower_bound; [done|]. lia. }
    rewrite EE. split; intros H.
    + apply Rmult_le_reg_r with (IZR (2 ^ Zpos e)); [done|]. rewrite Rmult_assoc, Rinv_l by lra. rewrite Rmult_1_r, <- mult_IZR. by apply IZR_le.
    + apply le_IZR. rewrite mult_IZR. apply Rmult_le_reg_r with (/ IZR (2 ^ Zpos e)); [by apply Rinv_0_lt_compat|].
      rewrite Rmult_assoc, Rinv_r by lra. by rewrite Rmult_1_r.
Qed.

(** ** The draws *)
Definition raw (ln_f64 : f64 -> f64) (scale : f64) (k : Z) : N := f64_floor_as_usize (f64_mul (dr_nln (drawn ln_f64 k 0)) scale).

Lemma pow2_Z n : 2 ^ n = IZR (2 ^ Z.of_nat n).
Proof. rewrite <- pow_IZR. done. Qed.

Lemma minus_ln_bounds k : (0 < k < 2 ^ 52)%Z -> / 2 ^ 52 <= - ln (IZR k / 2 ^ 52) <= 52.
Proof.
  intros Hk. assert (K1 : 1 <= IZR k) by (apply IZR_le; lia). assert (K2 : IZR k <= 2 ^ 52 - 1).
  { rewrite (pow2_Z 52). replace (IZR (2 ^ Z.of_nat 52) - 1) with (IZR (2 ^ 52 - 1)) by (rewrite minus_IZR; done). apply IZR_le. lia. }
  assert (P : 0 < 2 ^ 52) by (apply pow_lt; lra). set (W := 2 ^ 52) in *.
  assert (Hq : 0 < IZR k / W) by (apply Rdiv_lt_0_compat; lra). split.
  - assert (H : ln (IZR k / W) <= IZR k / W - 1).
    { pose proof (exp_ge (IZR k / W - 1)) as H. replace (1 + (IZR k / W - 1)) with (IZR k / W) in H by lra.
      rewrite <- (ln_exp (IZR k / W - 1)). destruct H as [H|H]; [by apply Rlt_le, ln_increasing|by rewrite <- H; right]. }
    assert (IZR k / W <= 1 - / W); [|lra]. apply Rmult_le_reg_r with W; [done|]. unfold Rdiv. rewrite Rmult_assoc, Rmult_minus_distr_r, Rinv_l by lra. lra.
  - rewrite <- ln_Rinv by done. replace (/ (IZR k / W)) with (W / IZR k) by (field; lra).
    assert (H : W / IZR k <= exp 52).
    { apply Rle_trans with W.
      - apply Rmult_le_reg_r with (IZR k); [lra|]. unfold Rdiv. rewrite Rmult_assoc, Rinv_l by lra. nra.
      - assert (E : forall n, 2 ^ n <= exp (INR n)).
        { induction n as [|n IH]; [simpl; rewrite exp_0; lra|]. rewrite S_INR, exp_plus. simpl. rewrite Rmult_comm.
          apply Rmult_le_compat; [apply pow_le; lra|lra|exact IH|]. pose proof (exp_ge 1). lra. }
        specialize (E 52%nat). replace (INR 52) with 52 in E by (simpl; lra). exact E. }
    assert (0 < W / IZR k) by (apply Rdiv_lt_0_compat; lra).
    rewrite <- (ln_exp 52). destruct H as [H|H]; [by apply Rlt_le, ln_increasing|by rewrite <- H; right].
Qed.

Lemma binary_round_NE s m e : SpecFloat.binary_round 53 1024 s m e = BinarySingleNaN.binary_round 53 1024 mode_NE s m e.
Proof. unfold SpecFloat.binary_round, BinarySingleNaN.binary_round, shl_align_fexp. destruct (shl_align _ _ _) as [mz ez]. apply binary_round_aux_NE. Qed.

Lemma uniform_value k : (0 < k < 2 ^ 52)%Z -> valid_binary 53 1024 (uniform_f64 k) = true /\ value (uniform_f64 k) = IZR k / 2 ^ 52.
Proof.
  intros Hk. destruct k as [|m|m]; try lia. change (uniform_f64 (Zpos m)) with (SpecFloat.binary_round 53 1024 false m (-52)). rewrite binary_round_NE.
  pose proof (@binary_round_correct 53 1024 prec53 emax1024 mode_NE false m (-52)) as H. cbv zeta in H. destruct H as [V H]. split; [done|]. clear V.
  set (x := F2R (Float radix2 (cond_Zopp false (Zpos m)) (-52))) in *.
  assert (Ex : x = IZR (Zpos m) / 2 ^ 52).
  { unfold x, F2R. cbn [Fnum Fexp cond_Zopp]. unfold Rdiv. f_equal. change (-52)%Z with (- (52))%Z. rewrite bpow_opp. f_equal.
    change 52%Z with (Z.of_nat 52). rewrite bpow_powerRZ. simpl (IZR radix2). by rewrite <- pow_powerRZ. }
  assert (G : generic_format radix2 (SpecFloat.fexp 53 1024) x).
  { change (SpecFloat.fexp 53 1024) with (FLT_exp (-1074) 53). apply generic_format_FLT. exists (Float radix2 (Zpos m) (-52)); [done| |simpl; lia].
    simpl. change (Z.pow_pos 2 53) with (2 ^ 53)%Z. lia. }
  rewrite round_generic in H; [|apply valid_rnd_round_mode|done]. assert (P : 0 < 2 ^ 52) by (apply pow_lt; lra).
  assert (M0 : 0 < IZR (Zpos m)) by (by apply IZR_lt).
  rewrite Rlt_bool_true in H; [destruct H as [H _]; by rewrite H|].
  rewrite Ex, Rabs_pos_eq by (apply Rlt_le, Rdiv_lt_0_compat; lra).
  apply Rle_lt_trans with 1; [|change 1 with (bpow radix2 0); by apply bpow_lt].
  apply Rmult_le_reg_r with (2 ^ 52); [done|]. unfold Rdiv. rewrite Rmult_assoc, Rinv_l by lra.
  rewrite Rmult_1_r, Rmult_1_l, (pow2_Z 52). apply IZR_le. lia.
Qed.

(** the logarithm of a drawn number *)
Lemma ln_drawn ln_f64 k : ln_accurate ln_f64 -> (0 < k < 2 ^ 52)%Z ->
  valid_binary 53 1024 (ln_f64 (uniform_f64 k)) = true /\
  Rabs (value (ln_f64 (uniform_f64 k)) - ln (IZR k / 2 ^ 52)) <= / 2 ^ 50 * Rabs (ln (IZR k / 2 ^ 52)).
Proof.
  intros [_ Hacc] Hk. destruct (uniform_value k Hk) as [V E]. rewrite <- E. apply Hacc; [done|]. rewrite E.
  assert (P : 0 < 2 ^ 52) by (apply pow_lt; lra). assert (K1 : 1 <= IZR k) by (apply IZR_le; lia). assert (K2 : IZR k <= 2 ^ 52 - 1).
  { rewrite (pow2_Z 52). replace (IZR (2 ^ Z.of_nat 52) - 1) with (IZR (2 ^ 52 - 1)) by (rewrite minus_IZR; done). apply IZR_le. lia. }
  set (W := 2 ^ 52) in *. clearbody W.
  split; (apply Rmult_le_reg_r with W; [done|]); unfold Rdiv; rewrite ?Rmult_minus_distr_r, ?Rmult_assoc, Rinv_l by lra; lra.
Qed.

Lemma opp_valid x : valid_binary 53 1024 x = true -> valid_binary 53 1024 (SFopp x) = true.
Proof. by destruct x. Qed.
Lemma opp_value x : value (SFopp x) = - value x.
Proof.
  destruct x as [s|s| |s m e]; simpl; try lra. unfold F2R, cond_Zopp. cbn [Fnum Fexp].
  pose proof (opp_IZR (Z.pos m)) as H. cbn [Z.opp] in H. destruct s; cbn [negb Z.opp]; rewrite ?H; lra.
Qed.

Definition delta : R := / 2 ^ 49.
Lemma delta_small : 0 < delta < / 1000.
Proof. unfold delta. split; [apply Rinv_0_lt_compat, pow_lt; lra|]. apply Rinv_lt_contravar; lra. Qed.

Section Scale.
Context (ln_f64 : f64 -> f64) (Hln : ln_accurate ln_f64) (scale : f64) (s : R).
Context (Hv : valid_binary 53 1024 scale = true) (Hs : value scale = s) (Hr : / 2 ^ 900 <= s <= 2 ^ 900).

Lemma s_pos : 0 < s.
Proof. assert (0 < / 2 ^ 900) by (apply Rinv_0_lt_compat, pow_lt; lra). lra. Qed.

(** the level before it is bounded, up to a relative error *)
Lemma raw_near k : (0 < k < 2 ^ 52)%Z -> exists eta, Rabs eta <= delta /\
  forall n, (n < 2 ^ 64)%N -> (n <= raw ln_f64 scale k)%N <-> IZR (Z.of_N n) <= - ln (IZR k / 2 ^ 52) * s * (1 + eta).
Proof.
  intros Hk. destruct (ln_drawn ln_f64 k Hln Hk) as [V A]. pose proof (minus_ln_bounds k Hk) as [B1 B2].
  set (x := - ln (IZR k / 2 ^ 52)) in *. replace (ln (IZR k / 2 ^ 52)) with (- x) in A by (unfold x; lra).
  set (u := SFopp (ln_f64 (uniform_f64 k))). assert (Eu : value u = - value (ln_f64 (uniform_f64 k))) by apply opp_value.
  assert (Q : 0 < / 2 ^ 52) by (apply Rinv_0_lt_compat, pow_lt; lra). assert (Hx : 0 < x) by lra.
  assert (Q2 : 0 < / 2 ^ 50 < /1000) by (split; [apply Rinv_0_lt_compat, pow_lt; lra|apply Rinv_lt_contravar; lra]).
  rewrite Rabs_Ropp, (Rabs_pos_eq x) in A by lra.
  assert (Hu : Rabs (value u - x) <= / 2 ^ 50 * x). { rewrite Eu, <- Rabs_Ropp. replace (- (- value (ln_f64 (uniform_f64 k)) - x)) with (value (ln_f64 (uniform_f64 k)) - - x) by lra. done. }
  clear A Eu. apply Rabs_le_inv in Hu.
  assert (U1 : x / 2 <= value u <= 2 * x) by nra. pose proof s_pos as Sp.
  assert (P1 : bpow radix2 (-1000) <= value u * value scale <= bpow radix2 1000).
  { rewrite Hs. split.
    - apply Rle_trans with (/ 2 ^ 53 * / 2 ^ 900).
      + change (-1000)%Z with (- (1000))%Z. rewrite bpow_opp, <- Rinv_mult, <- pow_add. change (53 + 900)%nat with 953%nat.
        apply Rinv_le_contravar; [apply pow_lt; lra|]. change 1000%Z with (Z.of_nat 1000). rewrite bpow_powerRZ. simpl (IZR radix2). rewrite <- pow_powerRZ.
        apply Rle_pow; [lra|lia].
      + apply Rmult_le_compat; try (apply Rlt_le, Rinv_0_lt_compat, pow_lt; lra); [|lra].
        apply Rle_trans with (/ 2 ^ 52 / 2); [|lra]. right. rewrite <- tech_pow_Rmult. rewrite Rinv_mult. lra.
    - apply Rle_trans with (104 * 2 ^ 900); [apply Rmult_le_compat; lra|]. apply Rle_trans with (2 ^ 7 * 2 ^ 900).
      + apply Rmult_le_compat_r; [apply pow_le; lra|lra].
      + rewrite <- pow_add. change 1000%Z with (Z.of_nat 1000). rewrite bpow_powerRZ. simpl (IZR radix2). rewrite <- pow_powerRZ. apply Rle_pow; [lra|lia]. }
  destruct (mul_value u scale) as (eps & He & Em & m & e & Ef); [by apply opp_valid|done|lra|lra|done|].
  assert (Hb : bpow radix2 (-53) = / 2 ^ 53).
  { change (-53)%Z with (- (53))%Z. rewrite bpow_opp. change 53%Z with (Z.of_nat 53). rewrite bpow_powerRZ. simpl (IZR radix2). by rewrite <- pow_powerRZ. }
  rewrite Hb in He. apply Rabs_le_inv in He.
  exists (value u / x * (1 + eps) - 1). split.
  - assert (V1 : 1 - / 2 ^ 50 <= value u / x <= 1 + / 2 ^ 50).
    { split; [apply Rmult_le_reg_r with x; [done|]|apply Rmult_le_reg_r with x; [done|]]; unfold Rdiv; rewrite Rmult_assoc, Rinv_l by lra; lra. }
    assert (E50 : / 2 ^ 50 = 8 * / 2 ^ 53) by (field). assert (E49 : delta = 16 * / 2 ^ 53) by (unfold delta; field).
    rewrite E49. rewrite E50 in V1, Q2. set (q := / 2 ^ 53) in *. set (w := value u / x) in *. apply Rabs_le. nra.
  - intros n Hn. unfold raw. cbn [drawn dr_nln]. fold u. rewrite Ef. rewrite floor_spec by done. rewrite <- Ef, Em, Hs.
    replace (x * s * (1 + (value u / x * (1 + eps) - 1))) with (value u * s * (1 + eps)) by (field; lra). done.
Qed.

Lemma raw_zero n : (n < 2 ^ 64)%N -> (n <= raw ln_f64 scale 0)%N.
Proof.
  intros Hn. unfold raw, drawn. cbn [dr_nln]. change (uniform_f64 0) with (S754_zero false). destruct Hln as [-> _]. cbn [SFopp negb].
  pose proof s_pos as Sp. rewrite <- Hs in Sp. destruct scale as [b|b| |b m e]; simpl in Sp; try lra.
  destruct b; [|simpl; lia]. exfalso. apply (Rlt_not_le _ _ Sp). apply Rlt_le. by apply F2R_lt_0.
Qed.

(** how many of the 2^52 numbers give a level of at least [n] *)
Lemma count_ge n : (n < 2 ^ 64)%N ->
  Rabs (IZR (cnt (fun k => (n <=? raw ln_f64 scale k)%N) (2 ^ 52)) / 2 ^ 52 - exp (- (IZR (Z.of_N n) / s))) <= 4 * delta + / 2 ^ 52.
Proof.
  intros Hn. pose proof delta_small as D. pose proof s_pos as Sp.
  assert (P : 0 < 2 ^ 52) by (apply pow_lt; lra). assert (P' : 0 < / 2 ^ 52) by (by apply Rinv_0_lt_compat).
  assert (EW : 2 ^ 52 = IZR (2 ^ 52)) by apply (pow2_Z 52).
  destruct (N.eq_dec n 0%N) as [->|Hn0].
  { rewrite cnt_all; [|lia|intros k _; by apply N.leb_le, N.le_0_l]. rewrite <- EW. unfold Rdiv. rewrite Rinv_r by lra.
    simpl (IZR (Z.of_N 0)). rewrite Rmult_0_l, Ropp_0, exp_0, Rminus_eq_0, Rabs_R0. lra. }
  assert (N1 : 1 <= IZR (Z.of_N n)) by (apply IZR_le; lia). set (y := IZR (Z.of_N n) / s).
  assert (Hy : 0 < y) by (apply Rdiv_lt_0_compat; lra).
  set (lo := exp (- (y / (1 - delta)))). set (hi := exp (- (y / (1 + delta)))).
  assert (Ld : forall c, 0 < c -> 0 < exp (- (y / c)) < 1).
  { intros c Hc. split; [apply exp_pos|]. rewrite <- exp_0. apply exp_increasing. assert (0 < y / c) by (by apply Rdiv_lt_0_compat). lra. }
  assert (Hlo : 0 < lo < 1) by (apply Ld; lra). assert (Hhi : 0 < hi < 1) by (apply Ld; lra).
  (* a number up to c gives x >= y / (1 + t) *)
  assert (Hcut : forall k c, (0 < k)%Z -> 0 < c -> IZR k <= 2 ^ 52 * exp (- (y / c)) <-> y <= - ln (IZR k / 2 ^ 52) * c).
  { intros k c Hk Hc. assert (K : 0 < IZR k) by (by apply IZR_lt). assert (Q : 0 < IZR k / 2 ^ 52) by (by apply Rdiv_lt_0_compat).
    rewrite <- (exp_ln (IZR k / 2 ^ 52)) in Q by done. split; intros H.
    - assert (H1 : IZR k / 2 ^ 52 <= exp (- (y / c))).
      { apply Rmult_le_reg_r with (2 ^ 52); [done|]. unfold Rdiv at 1. rewrite Rmult_assoc, Rinv_l by lra. lra. }
      assert (H2 : ln (IZR k / 2 ^ 52) <= - (y / c)).
      { rewrite <- (ln_exp (- (y / c))). assert (0 < IZR k / 2 ^ 52) by (by apply Rdiv_lt_0_compat). destruct H1 as [H1|H1]; [by apply Rlt_le, ln_increasing|rewrite H1; lra]. }
      replace y with (y / c * c) by (field; lra). apply Rmult_le_compat_r; lra.
    - assert (H1 : y / c <= - ln (IZR k / 2 ^ 52)). { apply Rmult_le_reg_r with c; [done|]. unfold Rdiv at 1. rewrite Rmult_assoc, Rinv_l by lra. lra. }
      assert (H2 : IZR k / 2 ^ 52 <= exp (- (y / c))). { rewrite <- (exp_ln (IZR k / 2 ^ 52)) at 1 by (by apply Rdiv_lt_0_compat). apply exp_mono. lra. }
      replace (IZR k) with (2 ^ 52 * (IZR k / 2 ^ 52)) by (field; lra). apply Rmult_le_compat_l; lra. }
  assert (HC : 2 ^ 52 * lo <= IZR (cnt (fun k => (n <=? raw ln_f64 scale k)%N) (2 ^ 52)) <= 2 ^ 52 * hi + 1).
  { apply cnt_between; [lia|rewrite <- EW; nra|rewrite <- EW; nra| |].
    - intros k Hk Hle. apply N.leb_le. destruct (Z.eq_dec k 0%Z) as [->|Hk0]; [by apply raw_zero|].
      destruct (raw_near k) as (eta & He & Hraw); [lia|]. apply Hraw; [done|]. apply Rabs_le_inv in He.
      apply Hcut in Hle; [|lia|lra]. pose proof (minus_ln_bounds k ltac:(lia)) as [Hx _]. set (x := - ln (IZR k / 2 ^ 52)) in *.
      replace (IZR (Z.of_N n)) with (y * s) by (unfold y; field; lra). assert (y <= x * (1 + eta)); [|nra].
      apply Rle_trans with (x * (1 - delta)); [done|]. apply Rmult_le_compat_l; lra.
    - intros k Hk Hf%N.leb_le. destruct (Z.eq_dec k 0%Z) as [->|Hk0]; [simpl; nra|].
      destruct (raw_near k) as (eta & He & Hraw); [lia|]. apply Hraw in Hf; [|done]. apply Rabs_le_inv in He.
      apply Hcut; [lia|lra|]. pose proof (minus_ln_bounds k ltac:(lia)) as [Hx _]. set (x := - ln (IZR k / 2 ^ 52)) in *.
      replace (IZR (Z.of_N n)) with (y * s) in Hf by (unfold y; field; lra). assert (Hyx : y <= x * (1 + eta)). { apply Rmult_le_reg_r with s; [done|]. lra. }
      apply Rle_trans with (x * (1 + eta)); [done|]. apply Rmult_le_compat_l; lra. }
  assert (H1 : Rabs (lo - exp (- y)) <= 4 * delta).
  { unfold lo. replace (y / (1 - delta)) with (y * (1 + delta / (1 - delta))) by (field; lra).
    assert (T : 0 <= delta / (1 - delta) <= 2 * delta).
    { split; [apply Rlt_le, Rdiv_lt_0_compat; lra|]. apply Rmult_le_reg_r with (1 - delta); [lra|]. unfold Rdiv. rewrite Rmult_assoc, Rinv_l by lra. nra. }
    pose proof (exp_near y (delta / (1 - delta)) ltac:(lra) ltac:(lra)) as H. rewrite (Rabs_pos_eq (delta / (1 - delta))) in H by lra. lra. }
  assert (H2 : Rabs (hi - exp (- y)) <= 4 * delta).
  { unfold hi. replace (y / (1 + delta)) with (y * (1 + - (delta / (1 + delta)))) by (field; lra).
    assert (T : 0 <= delta / (1 + delta) <= delta).
    { split; [apply Rlt_le, Rdiv_lt_0_compat; lra|]. apply Rmult_le_reg_r with (1 + delta); [lra|]. unfold Rdiv. rewrite Rmult_assoc, Rinv_l by lra. nra. }
    pose proof (exp_near y (- (delta / (1 + delta))) ltac:(lra) ltac:(lra)) as H. rewrite Rabs_Ropp, (Rabs_pos_eq (delta / (1 + delta))) in H by lra. lra. }
  apply Rabs_le_inv in H1, H2. set (C := IZR (cnt _ _)) in *.
  assert (HC1 : lo <= C / 2 ^ 52 <= hi + / 2 ^ 52).
  { split; (apply Rmult_le_reg_r with (2 ^ 52); [done|]); unfold Rdiv; rewrite ?Rmult_plus_distr_r, Rmult_assoc, ?Rinv_l by lra; lra. }
  apply Rabs_le. lra.
Qed.
End Scale.

(** ** From the numbers to the levels *)
Definition lands (scale : f64) (maxlevel n : nat) (d : draw) : bool :=
  match generate scale maxlevel d with Ok l => (l =? n)%nat | _ => false end.

Lemma filter_mod m n : (n < m)%nat -> length (List.filter (fun j => (j mod m =? n)%nat) (seq 0 m)) = 1%nat.
Proof.
  intros H. rewrite (List.filter_ext_in _ (fun j => (j =? n)%nat)).
  - replace m with (n + S (m - S n))%nat by lia. rewrite seq_app. cbn [Nat.add seq]. rewrite List.filter_app. cbn [List.filter]. rewrite Nat.eqb_refl.
    rewrite (filter_none _ (seq 0 n)), (filter_none _ (seq (S n) _)); [done| |]; intros x Hx%List.in_seq; apply Nat.eqb_neq; lia.
  - intros j Hj%List.in_seq. by rewrite Nat.mod_small by lia.
Qed.

Lemma filter_map {A B} (g : A -> B) f l : length (List.filter f (map g l)) = length (List.filter (fun x => f (g x)) l).
Proof. induction l as [|x l IH]; simpl; [done|]. destruct (f (g x)); simpl; auto. Qed.

Lemma lands_of ln_f64 scale ml n k : (n < ml)%nat ->
  length (List.filter (lands scale ml n) (map (drawn ln_f64 k) (seq 0 ml))) =
  (ml * (if (raw ln_f64 scale k =? N.of_nat n)%N then 1 else 0) + if (N.of_nat ml <=? raw ln_f64 scale k)%N then 1 else 0)%nat.
Proof.
  intros Hn. rewrite filter_map. unfold lands, generate, raw, drawn. cbn [dr_nln dr_unif].
  set (r := f64_floor_as_usize (f64_mul (SFopp (ln_f64 (uniform_f64 k))) scale)).
  destruct (N.leb_spec (N.of_nat ml) r) as [Hr|Hr].
  - destruct (N.eqb_spec r (N.of_nat n)) as [E|_]; [lia|]. destruct ml as [|ml]; [lia|]. etransitivity; [apply (filter_mod (S ml) n Hn)|lia].
  - destruct (N.eqb_spec r (N.of_nat n)) as [E|E].
    + rewrite filter_all, seq_length; [lia|]. intros x _. apply Nat.eqb_eq. lia.
    + rewrite filter_none; [simpl; lia|]. intros x _. apply Nat.eqb_neq. lia.
Qed.

Lemma count_lands ln_f64 scale ml n : (n < ml)%nat ->
  Z.of_nat (length (List.filter (lands scale ml n) (draws ln_f64 ml))) =
  (Z.of_nat ml * (cnt (fun k => (N.of_nat n <=? raw ln_f64 scale k)%N) (2 ^ 52) - cnt (fun k => (N.of_nat (S n) <=? raw ln_f64 scale k)%N) (2 ^ 52))
   + cnt (fun k => (N.of_nat ml <=? raw ln_f64 scale k)%N) (2 ^ 52))%Z.
Proof.
  intros Hn. unfold draws, cnt. generalize (seqZ 0 (2 ^ 52)). intros l. induction l as [|k l IH]; [simpl; lia|].
  cbn [flat_map]. rewrite List.filter_app, app_length, Nat2Z.inj_add, IH, lands_of by done. clear IH. cbn [List.filter].
  destruct (N.eqb_spec (raw ln_f64 scale k) (N.of_nat n)), (N.leb_spec (N.of_nat ml) (raw ln_f64 scale k)),
    (N.leb_spec (N.of_nat n) (raw ln_f64 scale k)), (N.leb_spec (N.of_nat (S n)) (raw ln_f64 scale k)); try lia; cbn [length]; lia.
Qed.

Lemma draws_length ln_f64 ml : INR (length (draws ln_f64 ml)) = INR ml * 2 ^ 52.
Proof.
  assert (H : forall l, length (flat_map (fun k => map (drawn ln_f64 k) (seq 0 ml)) l) = (ml * length l)%nat).
  { induction l as [|k l IH]; [simpl; lia|]. cbn [flat_map length]. rewrite app_length, map_length, seq_length, IH. lia. }
  unfold draws. rewrite H, seqZ_length, mult_INR. f_equal. rewrite INR_IZR_INZ, Z2Nat.id by lia. symmetry. apply (pow2_Z 52).
Qed.

Lemma law_arith q W m c0 c1 c2 e0 e1 e2 : q = / W -> 0 < W -> 1 <= m -> Rabs (c0 / W - e0) <= 4 * (8 * q) + q -> Rabs (c1 / W - e1) <= 4 * (8 * q) + q ->
  Rabs (c2 / W - e2) <= 4 * (8 * q) + q -> Rabs ((m * (c0 - c1) + c2) / (m * W) - (e0 - e1 + e2 / m)) <= 128 * q.
Proof.
  intros Eq P Hm H0 H1 H2.
  replace ((m * (c0 - c1) + c2) / (m * W) - (e0 - e1 + e2 / m)) with ((c0 / W - e0) - (c1 / W - e1) + (c2 / W - e2) * / m) by (field; lra).
  assert (Q : 0 < q) by (rewrite Eq; by apply Rinv_0_lt_compat).
  eapply Rle_trans; [apply Rabs_triang|]. rewrite Rabs_mult, (Rabs_pos_eq (/ m)) by (apply Rlt_le, Rinv_0_lt_compat; lra).
  assert (I : 0 < / m <= 1). { split; [apply Rinv_0_lt_compat; lra|]. rewrite <- Rinv_1. apply Rinv_le_contravar; lra. }
  pose proof (Rabs_pos (c2 / W - e2)).
  assert (Rabs (c0 / W - e0 - (c1 / W - e1)) <= 66 * q); [|nra].
  unfold Rminus at 1. eapply Rle_trans; [apply Rabs_triang|]. rewrite Rabs_Ropp. lra.
Qed.

Lemma delta_W : / 2 ^ 45 = 128 * / 2 ^ 52 /\ delta = 8 * / 2 ^ 52.
Proof. unfold delta. split; field. Qed.

Lemma chance_law ln_f64 scale s ml n : ln_accurate ln_f64 -> valid_binary 53 1024 scale = true -> value scale = s -> / 2 ^ 900 <= s <= 2 ^ 900 ->
  (n < ml)%nat -> (N.of_nat ml < 2 ^ 64)%N -> Rabs (chance ln_f64 ml (lands scale ml n) - law s ml n) <= / 2 ^ 45.
Proof.
  intros Hln Hv Hs Hr Hn Hml. unfold chance. rewrite draws_length, INR_IZR_INZ, count_lands by done.
  assert (HI : forall i, IZR (Z.of_N (N.of_nat i)) = INR i) by (intros i; by rewrite nat_N_Z, <- INR_IZR_INZ).
  pose proof (count_ge ln_f64 Hln scale s Hv Hs Hr (N.of_nat n) ltac:(lia)) as H0. pose proof (count_ge ln_f64 Hln scale s Hv Hs Hr (N.of_nat (S n)) ltac:(lia)) as H1.
  pose proof (count_ge ln_f64 Hln scale s Hv Hs Hr (N.of_nat ml) ltac:(lia)) as H2. rewrite HI in H0, H1, H2.
  unfold law. rewrite plus_IZR, mult_IZR, minus_IZR, <- INR_IZR_INZ. destruct delta_W as [E E2]. rewrite E. rewrite E2 in H0, H1, H2.
  refine (law_arith _ _ _ _ _ _ _ _ _ eq_refl _ _ H0 H1 H2); [apply pow_lt; lra|]. change 1 with (INR 1). apply le_INR. lia.
Qed.

Lemma law_thinning s M ml n : 0 < s -> (2 <= M)%nat -> Rabs (s * ln (INR M) - 1) <= / 2 ^ 50 -> (1 <= ml)%nat ->
  Rabs (law s ml n - thinning M ml n) <= / 2 ^ 45.
Proof.
  intros Sp HM Hs Hml. assert (Q : 0 < / 2 ^ 50 < / 1000) by (split; [apply Rinv_0_lt_compat, pow_lt; lra|apply Rinv_lt_contravar; lra]).
  apply Rabs_le_inv in Hs. assert (M2 : 2 <= INR M) by (change 2 with (INR 2); by apply le_INR).
  assert (L : 0 < ln (INR M)) by (rewrite <- ln_1; apply ln_increasing; lra). set (w := s * ln (INR M)) in *.
  assert (HE : forall i, Rabs (exp (- (INR i / s)) - / INR M ^ i) <= 4 * / 2 ^ 50).
  { intros i. assert (E1 : / INR M ^ i = exp (- (INR i * ln (INR M)))).
    { rewrite exp_Ropp. f_equal. rewrite <- (Rpower_pow i (INR M)) by lra. done. }
    rewrite E1. replace (INR i / s) with (INR i * ln (INR M) * (1 + (1 - w) / w)).
    2:{ unfold w. field. split; lra. }
    assert (T : Rabs ((1 - w) / w) <= 2 * / 2 ^ 50).
    { apply Rabs_le. split; apply Rmult_le_reg_r with w; try lra; unfold Rdiv; rewrite Rmult_assoc, Rinv_l by lra; nra. }
    eapply Rle_trans; [apply exp_near|lra].
    - apply Rmult_le_pos; [apply pos_INR|lra].
    - apply Rabs_le_inv in T. lra. }
  unfold law, thinning. pose proof (HE n) as H0. pose proof (HE (S n)) as H1. pose proof (HE ml) as H2.
  set (e0 := exp (- (INR n / s))) in *. set (e1 := exp (- (INR (S n) / s))) in *. set (e2 := exp (- (INR ml / s))) in *.
  set (m0 := / INR M ^ n) in *. set (m1 := / INR M ^ S n) in *. set (m2 := / INR M ^ ml) in *.
  assert (E : / 2 ^ 45 = 32 * / 2 ^ 50) by field. rewrite E. set (q := / 2 ^ 50) in *. clearbody q e0 e1 e2 m0 m1 m2.
  assert (Hm : 1 <= INR ml). { change 1 with (INR 1). by apply le_INR. }
  replace (e0 - e1 + e2 / INR ml - (m0 - m1 + m2 / INR ml)) with ((e0 - m0) - (e1 - m1) + (e2 - m2) * / INR ml) by (field; lra).
  eapply Rle_trans; [apply Rabs_triang|]. rewrite Rabs_mult, (Rabs_pos_eq (/ INR ml)) by (apply Rlt_le, Rinv_0_lt_compat; lra).
  assert (I : 0 < / INR ml <= 1). { split; [apply Rinv_0_lt_compat; lra|]. rewrite <- Rinv_1. apply Rinv_le_contravar; lra. }
  pose proof (Rabs_pos (e2 - m2)).
  assert (Rabs (e0 - m0 - (e1 - m1)) <= 8 * q); [|nra].
  unfold Rminus at 1. eapply Rle_trans; [apply Rabs_triang|]. rewrite Rabs_Ropp. lra.
Qed.

(** the two degenerate scales: 1 / ln 1 and 1 / ln 0 *)
Lemma chance_uniform ln_f64 ml n : ln_accurate ln_f64 -> (n < ml)%nat -> (N.of_nat ml < 2 ^ 64)%N ->
  chance ln_f64 ml (lands (S754_infinity false) ml n) = / INR ml.
Proof.
  intros Hln Hn Hml. unfold chance. rewrite draws_length, INR_IZR_INZ, count_lands by done.
  assert (P : 0 < 2 ^ 52) by (apply pow_lt; lra). assert (Hm : 1 <= INR ml). { change 1 with (INR 1). apply le_INR. lia. }
  assert (H : forall i, (N.of_nat i < 2 ^ 64)%N -> cnt (fun k => (N.of_nat i <=? raw ln_f64 (S754_infinity false) k)%N) (2 ^ 52) = (2 ^ 52)%Z).
  { intros i Hi. apply cnt_all; [lia|]. intros k Hk. apply N.leb_le. unfold raw, drawn. cbn [dr_nln]. destruct (Z.eq_dec k 0%Z) as [->|Hk0].
    - change (uniform_f64 0) with (S754_zero false). destruct Hln as [-> _]. simpl. lia.
    - destruct (ln_drawn ln_f64 k Hln ltac:(lia)) as [_ A]. pose proof (minus_ln_bounds k ltac:(lia)) as [B _].
      assert (Q : 0 < / 2 ^ 52) by (by apply Rinv_0_lt_compat). set (x := ln (IZR k / 2 ^ 52)) in *. rewrite (Rabs_left x) in A by lra. apply Rabs_le_inv in A.
      assert (Q2 : 0 < / 2 ^ 50 < / 1000) by (split; [apply Rinv_0_lt_compat, pow_lt; lra|apply Rinv_lt_contravar; lra]).
      assert (V : value (ln_f64 (uniform_f64 k)) < 0) by nra.
      destruct (ln_f64 (uniform_f64 k)) as [b|b| |b m e]; simpl in V; try lra. destruct b; [simpl; lia|].
      exfalso. apply (Rlt_not_le _ _ V). apply Rlt_le. by apply F2R_gt_0. }
  rewrite !H by lia. rewrite Z.sub_diag, Z.mul_0_r, Z.add_0_l. replace (IZR (2 ^ 52)) with (2 ^ 52) by apply (pow2_Z 52). field. lra.
Qed.
Lemma chance_flat ln_f64 ml : (1 <= ml)%nat -> chance ln_f64 ml (lands (S754_zero true) ml 0) = 1.
Proof.
  intros Hml. unfold chance. rewrite draws_length, INR_IZR_INZ, count_lands by lia.
  assert (P : 0 < 2 ^ 52) by (apply pow_lt; lra). assert (Hm : 1 <= INR ml). { change 1 with (INR 1). by apply le_INR. }
  assert (H : forall k, raw ln_f64 (S754_zero true) k = 0%N).
  { intros k. unfold raw, drawn. cbn [dr_nln]. by destruct (ln_f64 (uniform_f64 k)) as [| | |]. }
  rewrite (cnt_all _ (fun k => (N.of_nat 0 <=? raw ln_f64 (S754_zero true) k)%N)), !cnt_none; [|intros k _; apply N.leb_gt; rewrite H; lia..|lia|intros k _; by rewrite H].
  rewrite Z.sub_0_r, Z.add_0_r, mult_IZR, <- INR_IZR_INZ. replace (IZR (2 ^ 52)) with (2 ^ 52) by apply (pow2_Z 52). field. lra.
Qed.
