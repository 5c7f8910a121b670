(** Encodings and readers: round trips, extension, consumption. *)
From Coq Require Import SpecFloat Strings.Byte.
From stdpp Require Import strings.
From Verif Require Import Prelude Model Lib Io.

(* ------------------------------------------------------------------ *)
(** * Numbers *)
Lemma byte_of_N_to_N n : Byte.to_N (byte_of_N n) = (n mod 256)%N.
Proof.
  unfold byte_of_N. destruct (Byte.of_N (n mod 256)) as [b|] eqn:E.
  - by apply Byte.to_of_N.
  - apply Byte.of_N_None_iff in E. pose proof (N.mod_lt n 256). lia.
Qed.

Lemma le_bytes_length k n : length (le_bytes k n) = k.
Proof. revert n. induction k; intros n; simpl; auto. Qed.

Lemma le_val_bytes k n : (n < 256 ^ N.of_nat k)%N -> le_val (le_bytes k n) = n.
Proof.
  revert n. induction k as [|k IH]; intros n Hn.
  - simpl in *. lia.
  - rewrite Nat2N.inj_succ, N.pow_succ_r' in Hn. cbn [le_bytes le_val].
    rewrite byte_of_N_to_N, IH by (apply N.div_lt_upper_bound; lia).
    pose proof (N.div_mod n 256). lia.
Qed.

Lemma le_val_lt b : (le_val b < 256 ^ N.of_nat (length b))%N.
Proof.
  induction b as [|x b IH]; [simpl; lia|].
  cbn [length]. rewrite Nat2N.inj_succ, N.pow_succ_r'. cbn [le_val].
  pose proof (Byte.to_N_bounded x). lia.
Qed.

Lemma i32_round z : (- 2 ^ 31 <= z < 2 ^ 31)%Z -> i32_of (le_val (i32_bytes z)) = z.
Proof.
  intros Hz. unfold i32_bytes. 
  assert (Hm : (z mod 2 ^ 32 = if (z <? 0) then z + 2 ^ 32 else z)%Z).
  { destruct (Z.ltb_spec z 0).
    - symmetry. apply Z.mod_unique with (-1)%Z; lia.
    - apply Z.mod_small. lia. }
  rewrite Hm. rewrite le_val_bytes.
  2:{ change (256 ^ N.of_nat 4)%N with (2 ^ 32)%N. destruct (Z.ltb_spec z 0); lia. }
  unfold i32_of. destruct (Z.ltb_spec z 0).
  - destruct (N.ltb_spec (Z.to_N (z + 2 ^ 32)) (2 ^ 31)); lia.
  - destruct (N.ltb_spec (Z.to_N z) (2 ^ 31)); lia.
Qed.

Lemma f32_round z : (0 <= z <= 2139095040)%Z -> f32_of (le_val (f32_bytes z)) = Some z.
Proof.
  intros Hz. unfold f32_bytes. replace (z <? 0)%Z with false by lia.
  unfold u32_bytes. rewrite le_val_bytes by (change (256 ^ N.of_nat 4)%N with (2 ^ 32)%N; lia).
  unfold f32_of, F32_INF. rewrite N.mod_small by lia.
  replace (2139095040 <? Z.to_N z)%N with false by lia.
  replace (Z.to_N z <? 2 ^ 31)%N with true by lia. f_equal. lia.
Qed.

(** the canonical representations of binary64 *)
Definition f64_ok (x : f64) : bool :=
  match x with
  | S754_finite _ m e =>
      ((e =? -1074) && (Zpos m <? 2 ^ 52))%Z ||
      ((2 ^ 52 <=? Zpos m) && (Zpos m <? 2 ^ 53) && (-1074 <=? e) && (e <=? 971))%Z
  | _ => true
  end.

Lemma f64_bits_lt x : f64_ok x = true -> (f64_bits x < 2 ^ 64)%N.
Proof.
  destruct x as [s|s| |s m e]; unfold f64_bits; cbv zeta.
  - destruct s; lia.
  - destruct s; lia.
  - lia.
  - intros H. unfold f64_ok in H.
    assert (Hm : (Npos m < 2 ^ 53)%N) by lia. assert (He : (-1074 <= e <= 971)%Z) by lia.
    destruct s; destruct (N.ltb_spec (Npos m) (2 ^ 52)); nia.
Qed.

Lemma f64_round x : f64_ok x = true -> f64_of_bits (f64_bits x) = x.
Proof.
  destruct x as [s|s| |s m e]; intros H.
  - destruct s; vm_compute; reflexivity.
  - destruct s; vm_compute; reflexivity.
  - vm_compute; reflexivity.
  - unfold f64_ok in H.
    assert (Hm : (Npos m < 2 ^ 53)%N) by lia. assert (He : (-1074 <= e <= 971)%Z) by lia.
    set (body := (if (Npos m <? 2 ^ 52)%N then Npos m
               else Z.to_N (e + 1075) * 2 ^ 52 + (Npos m - 2 ^ 52))%N).
    assert (Hb : (body < 2 ^ 63)%N) by (unfold body; destruct (N.ltb_spec (Npos m) (2 ^ 52)); nia).
    assert (Hbits : f64_bits (S754_finite s m e) = ((if s then 2 ^ 63 else 0) + body)%N) by reflexivity.
    rewrite Hbits. unfold f64_of_bits.
    assert (E1 : (2 ^ 63 <=? (if s then 2 ^ 63 else 0) + body)%N = s) by (destruct s; lia).
    assert (E2 : (((if s then 2 ^ 63 else 0) + body) mod 2 ^ 63 = body)%N).
    { symmetry. apply N.mod_unique with (if s then 1 else 0)%N; [done|]. destruct s; lia. }
    rewrite E1, E2. unfold body in *. clear E1 E2 Hbits body.
    destruct (N.ltb_spec (Npos m) (2 ^ 52)) as [Hlt|Hge].
    + rewrite N.div_small, N.mod_small by lia. simpl. f_equal. lia.
    + assert (D : ((Z.to_N (e + 1075) * 2 ^ 52 + (N.pos m - 2 ^ 52)) / 2 ^ 52 = Z.to_N (e + 1075))%N).
      { symmetry. apply N.div_unique with (N.pos m - 2 ^ 52)%N; lia. }
      assert (R : ((Z.to_N (e + 1075) * 2 ^ 52 + (N.pos m - 2 ^ 52)) mod 2 ^ 52 = N.pos m - 2 ^ 52)%N).
      { symmetry. apply N.mod_unique with (Z.to_N (e + 1075))%N; lia. }
      rewrite D, R.
      replace (Z.to_N (e + 1075) =? 0)%N with false by lia.
      replace (Z.to_N (e + 1075) =? 2047)%N with false by lia.
      replace (N.pos m - 2 ^ 52 + 2 ^ 52)%N with (N.pos m) by lia. f_equal. lia.
Qed.

(* ------------------------------------------------------------------ *)
(** * Readers *)

(** [p] reads exactly [g] and [d] and returns [a] *)
Definition pars {A} (p : rd A) (g d : bytes) (a : A) : Prop :=
  forall rg rdd, p (g ++ rg, d ++ rdd) = Ok (a, (rg, rdd)).

Lemma pars_ret {A} (a : A) : pars (rret a) [] [] a.
Proof. done. Qed.
Lemma pars_bind {A B} (p : rd A) (k : A -> rd B) g1 g2 d1 d2 a b :
  pars p g1 d1 a -> pars (k a) g2 d2 b -> pars (rbind p k) (g1 ++ g2) (d1 ++ d2) b.
Proof. intros H1 H2 rg rdd. unfold rbind. rewrite <- !app_assoc, H1. simpl. apply H2. Qed.
Lemma pars_bind_g {A B} (p : rd A) (k : A -> rd B) g1 g2 d2 a b :
  pars p g1 [] a -> pars (k a) g2 d2 b -> pars (rbind p k) (g1 ++ g2) d2 b.
Proof. intros H1 H2. exact (pars_bind p k g1 g2 [] d2 a b H1 H2). Qed.
Lemma pars_bind_d {A B} (p : rd A) (k : A -> rd B) g2 d1 d2 a b :
  pars p [] d1 a -> pars (k a) g2 d2 b -> pars (rbind p k) g2 (d1 ++ d2) b.
Proof. intros H1 H2. exact (pars_bind p k [] g2 d1 d2 a b H1 H2). Qed.
Lemma pars_bind_0 {A B} (p : rd A) (k : A -> rd B) g2 d2 a b :
  pars p [] [] a -> pars (k a) g2 d2 b -> pars (rbind p k) g2 d2 b.
Proof. intros H1 H2. exact (pars_bind p k [] g2 [] d2 a b H1 H2). Qed.
(** the last step of a sequence does not read *)
Lemma pars_bind_last {A B} (p : rd A) (k : A -> rd B) g1 d1 a b :
  pars p g1 d1 a -> pars (k a) [] [] b -> pars (rbind p k) g1 d1 b.
Proof.
  intros H1 H2. rewrite <- (app_nil_r g1), <- (app_nil_r d1). by eapply pars_bind.
Qed.
Lemma pars_lift {A} (o : outcome A) a : o = Ok a -> pars (rlift o) [] [] a.
Proof. intros ->. done. Qed.
Lemma pars_panic {A} (p : rd A) g d a : pars p g d a -> pars (or_panic p) g d a.
Proof. intros H rg rdd. unfold or_panic. by rewrite H. Qed.
Lemma pars_exit {A} (p : rd A) g d a : pars p g d a -> pars (or_exit p) g d a.
Proof. intros H rg rdd. unfold or_exit. by rewrite H. Qed.
Lemma pars_gread k b : length b = k -> pars (gread k) b [] b.
Proof.
  intros <- rg rdd. unfold gread. cbn [fst snd]. rewrite app_length.
  replace (length b + length rg <? length b)%nat with false by lia.
  by rewrite take_app, drop_app.
Qed.
Lemma pars_dread k b : length b = k -> pars (dread k) [] b b.
Proof.
  intros <- rg rdd. unfold dread. cbn [fst snd app]. rewrite app_length.
  replace (length b + length rdd <? length b)%nat with false by lia.
  by rewrite take_app, drop_app.
Qed.
Lemma pars_gnum k n : (n < 256 ^ N.of_nat k)%N -> pars (gnum k) (le_bytes k n) [] n.
Proof.
  intros Hn. unfold gnum. eapply pars_bind_last; [apply pars_gread, le_bytes_length|].
  rewrite le_val_bytes by done. apply pars_ret.
Qed.
Lemma pars_gnum_val k b : length b = k -> pars (gnum k) b [] (le_val b).
Proof. intros Hn. unfold gnum. eapply pars_bind_last; [by apply pars_gread|]. apply pars_ret. Qed.
Lemma pars_dnum k n : (n < 256 ^ N.of_nat k)%N -> pars (dnum k) [] (le_bytes k n) n.
Proof.
  intros Hn. unfold dnum. eapply pars_bind_last; [apply pars_dread, le_bytes_length|].
  rewrite le_val_bytes by done. apply pars_ret.
Qed.
Lemma pars_rrep {A X} (p : rd A) (f : X -> bytes) (v : X -> A) (l : list X) :
  (forall x, x ∈ l -> pars p (f x) [] (v x)) ->
  pars (rrep (length l) p) (concat (f <$> l)) [] (v <$> l).
Proof.
  induction l as [|x l IH]; intros H; [apply pars_ret|]. cbn [length rrep fmap list_fmap concat].
  eapply pars_bind_g; [apply H; by left|]. eapply pars_bind_last; [apply IH; intros; apply H; by right|].
  apply pars_ret.
Qed.

(** [p] gives the same result when the files are longer *)
Definition ext {A} (p : rd A) : Prop :=
  forall g d a g' d' tg td, p (g, d) = Ok (a, (g', d')) -> p (g ++ tg, d ++ td) = Ok (a, (g' ++ tg, d' ++ td)).

Lemma ext_ret {A} (a : A) : ext (rret a).
Proof. intros g d x g' d' tg td [= <- <- <-]. done. Qed.
Lemma ext_lift {A} (o : outcome A) : ext (rlift o).
Proof. intros g d x g' d' tg td. unfold rlift. destruct o; try done. by intros [= <- <- <-]. Qed.
Lemma ext_bind {A B} (p : rd A) (k : A -> rd B) : ext p -> (forall a, ext (k a)) -> ext (rbind p k).
Proof.
  intros Hp Hk g d x g' d' tg td. unfold rbind. intros H. apply bind_inv in H as ([a [g1 d1]] & H1 & H2).
  rewrite (Hp _ _ _ _ _ tg td H1). simpl. by apply Hk.
Qed.
Lemma ext_panic {A} (p : rd A) : ext p -> ext (or_panic p).
Proof.
  intros Hp g d a g' d' tg td. unfold or_panic. destruct (p (g, d)) as [[x [g1 d1]]| | | | |] eqn:E; try done.
  intros [= <- <- <-]. by rewrite (Hp _ _ _ _ _ tg td E).
Qed.
Lemma ext_exit {A} (p : rd A) : ext p -> ext (or_exit p).
Proof.
  intros Hp g d a g' d' tg td. unfold or_exit. destruct (p (g, d)) as [[x [g1 d1]]| | | | |] eqn:E; try done.
  intros [= <- <- <-]. by rewrite (Hp _ _ _ _ _ tg td E).
Qed.
Lemma ext_gread k : ext (gread k).
Proof.
  intros g d a g' d' tg td. unfold gread. cbn [fst snd]. rewrite app_length.
  destruct (Nat.ltb_spec (length g) k) as [H|H]; [done|]. intros [= <- <- <-].
  replace (length g + length tg <? k)%nat with false by lia.
  by rewrite take_app_le, drop_app_le by done.
Qed.
Lemma ext_dread k : ext (dread k).
Proof.
  intros g d a g' d' tg td. unfold dread. cbn [fst snd]. rewrite app_length.
  destruct (Nat.ltb_spec (length d) k) as [H|H]; [done|]. intros [= <- <- <-].
  replace (length d + length td <? k)%nat with false by lia.
  by rewrite take_app_le, drop_app_le by done.
Qed.
Lemma ext_gnum k : ext (gnum k).
Proof. apply ext_bind; [apply ext_gread|]. intros; apply ext_ret. Qed.
Lemma ext_dnum k : ext (dnum k).
Proof. apply ext_bind; [apply ext_dread|]. intros; apply ext_ret. Qed.
Lemma ext_rrep {A} n (p : rd A) : ext p -> ext (rrep n p).
Proof.
  intros Hp. induction n; [apply ext_ret|]. simpl. apply ext_bind; [done|]. intros.
  apply ext_bind; [done|]. intros; apply ext_ret.
Qed.

(** two readers consume the same when both succeed *)
Definition same_rest {A B} (R : A -> B -> Prop) (p : rd A) (q : rd B) : Prop :=
  forall s a b s1 s2, p s = Ok (a, s1) -> q s = Ok (b, s2) -> s1 = s2 /\ R a b.

Lemma same_rest_refl {A} (p : rd A) : same_rest eq p p.
Proof. intros s a b s1 s2 H1 H2. split; congruence. Qed.
Lemma same_rest_bind {A A' B B'} (R : A -> A' -> Prop) (S : B -> B' -> Prop) p p' k k' :
  same_rest R p p' -> (forall a a', R a a' -> same_rest S (k a) (k' a')) ->
  same_rest S (rbind p k) (rbind p' k').
Proof.
  intros Hp Hk s a b s1 s2 H1 H2. unfold rbind in *.
  apply bind_inv in H1 as ([x t1] & E1 & H1). apply bind_inv in H2 as ([y t2] & E2 & H2).
  destruct (Hp _ _ _ _ _ E1 E2) as [-> HR]. by eapply Hk.
Qed.
Lemma same_rest_ret {A B} (R : A -> B -> Prop) a b : R a b -> same_rest R (rret a) (rret b).
Proof. intros HR s x y s1 s2 [= <- <-] [= <- <-]. done. Qed.
Lemma same_rest_lift {A B} (R : A -> B -> Prop) (o : outcome A) (o' : outcome B) :
  (forall a b, o = Ok a -> o' = Ok b -> R a b) -> same_rest R (rlift o) (rlift o').
Proof.
  intros HR s x y s1 s2. unfold rlift. destruct o; try done. destruct o'; try done.
  intros [= <- <-] [= <- <-]. auto.
Qed.
Lemma same_rest_lift_l {A B C} (R : A -> B -> Prop) (o : outcome C) k q :
  (forall c, o = Ok c -> same_rest R (k c) q) -> same_rest R (rbind (rlift o) k) q.
Proof.
  intros HR s x y s1 s2. unfold rbind, rlift. destruct o as [c| | | | |]; try done. simpl. by apply HR.
Qed.
Lemma same_rest_lift_r {A B C} (R : A -> B -> Prop) (o : outcome C) p k :
  (forall c, o = Ok c -> same_rest R p (k c)) -> same_rest R p (rbind (rlift o) k).
Proof.
  intros HR s x y s1 s2. unfold rbind, rlift. destruct o as [c| | | | |]; try done. simpl. by apply HR.
Qed.
Lemma same_rest_exit_l {A B} (R : A -> B -> Prop) p (q : rd B) : same_rest R p q -> same_rest R (or_exit (A:=A) p) q.
Proof.
  intros H s x y s1 s2. unfold or_exit. destruct (p s) as [[u v]| | | | |] eqn:E; try done.
  intros [= <- <-]. by apply H.
Qed.
Lemma same_rest_exit_r {A B} (R : A -> B -> Prop) p q : same_rest R p q -> same_rest R (p : rd A) (or_exit (A:=B) q).
Proof.
  intros H s x y s1 s2 H1. unfold or_exit. destruct (q s) as [[u v]| | | | |] eqn:E; try done.
  intros [= <- <-]. by eapply H.
Qed.
Lemma same_rest_err_l {A B} (R : A -> B -> Prop) (q : rd B) : same_rest R (rlift Err : rd A) q.
Proof. by intros s x y s1 s2. Qed.
