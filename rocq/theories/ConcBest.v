(** What a search that runs beside other threads owes to the entry point it started from. Used by PropsConcBest.v (C109). *)
From stdpp Require Import relations.
From Verif Require Import Prelude Model Lib Table Conc.
Local Open Scope list_scope.

(** ** Programs that only read, at moments that satisfy [I] *)
Section Gives.
Context {T : Type} (I : hnsw (T:=T) -> Prop).
Fixpoint gives {A} (Q : A -> Prop) (p : prog (T:=T) A) : Prop :=
  match p with
  | Halt o => forall a, o = Ok a -> Q a
  | Lock _ _ k | Pend _ k | Unlock _ _ k => gives Q k
  | Do f k => forall h, I h -> gives Q (k h)
  end.
Lemma gives_bind {A B} (Q : A -> Prop) (R : B -> Prop) p (k : A -> prog (T:=T) B) :
  gives Q p -> (forall a, Q a -> gives R (k a)) -> gives R (p ≫= k).
Proof.
  intros Hp Hk. unfold mbind, prog_bind. induction p as [o|m l p IH|l p IH|m l p IH|f p IH]; cbn [pbind gives] in *; auto.
  destruct o as [a| | | | |]; cbn [of_outcome gives]; [by apply Hk, Hp|done..].
Qed.
Lemma gives_impl {A} (Q R : A -> Prop) p : (forall a, Q a -> R a) -> gives Q p -> gives R p.
Proof. intros H. induction p as [o|m l p IH|l p IH|m l p IH|f p IH]; cbn [gives] in *; auto. Qed.
Lemma gives_any {A} (p : prog (T:=T) A) : gives (fun _ => True) p.
Proof. induction p as [o|m l p IH|l p IH|m l p IH|f p IH]; cbn [gives] in *; auto. Qed.
Lemma gives_ret {A} (Q : A -> Prop) a : Q a -> gives Q (ret (T:=T) a).
Proof. by intros H a' [= <-]. Qed.
Lemma gives_peek {A} (Q : A -> Prop) f : (forall h a, I h -> f h = Ok a -> Q a) -> gives Q (peek (T:=T) f).
Proof. intros H h Hh a E. by eapply H. Qed.
Lemma gives_read {A} (Q : A -> Prop) l f : (forall h a, I h -> f h = Ok a -> Q a) -> gives Q (with_read (T:=T) l f).
Proof. intros H h Hh a E. by eapply H. Qed.

(** a thread that runs until [c]: [I] holds at the moments before [c] *)
Lemma gives_run (Q : tres (T:=T) -> Prop) c0 c i : (forall c1, rtc cstep c0 c1 -> rtc cstep c1 c -> I (c_sh c1)) ->
  (forall p, c_threads c0 !! i = Some p -> gives Q p) -> rtc cstep c0 c ->
  forall p, c_threads c !! i = Some p -> gives Q p.
Proof.
  intros HI H0 Hr. induction Hr as [c0|c0 c1 c2 Hs Hr IH]; [done|]. apply IH.
  - intros c' H1 H2. apply HI; [by eapply rtc_l|done].
  - intros p Hp. destruct Hs as (j & Hs). unfold step in Hs. destruct (c_threads c0 !! j) as [q|] eqn:Eq; [|done]. simpl in Hs.
    assert (Hins : forall k, (j = i -> gives Q k) -> <[j:=k]> (c_threads c0) !! i = Some p -> gives Q p).
    { intros k Hk Hi. apply list_lookup_insert_Some in Hi as [(-> & <- & _)|(_ & Hi)]; [by apply Hk|by apply H0]. }
    assert (Hq : j = i -> gives Q q) by (intros ->; by apply H0).
    destruct q as [o|[|] l k|l k|[|] l k|f k]; cbn [gives] in Hq.
    + done.
    + destruct (lk_writer _); [done|]. injection Hs as <-. by eapply Hins.
    + destruct (lk_writer _); [done|]. injection Hs as <-. by eapply (Hins (Pend l k)).
    + destruct (lk_readers _); [|done]. injection Hs as <-. by eapply Hins.
    + injection Hs as <-. by eapply Hins.
    + injection Hs as <-. by eapply Hins.
    + injection Hs as <-. eapply Hins; [|exact Hp]. intros E. apply Hq; [done|]. apply HI; [done|]. eapply rtc_l; [|exact Hr].
      exists j. unfold step. by rewrite Eq.
Qed.
End Gives.

Section Best.
Context {T : Type} (dist : list T -> list T -> Z) (so : StdOps) (LAWS : StdLaws so).
Local Notation hnsw := (hnsw (T:=T)).
Local Notation heap := (heap so).

Definition best (B : Z) (hp : heap) : Prop := exists x, x ∈ h_iter so hp /\ (n_dist x <= B)%Z.
Lemma best_push B x hp : best B hp -> best B (h_push so x hp).
Proof using LAWS. intros (y & Hy & Hd). exists y. split; [|done]. rewrite (law_push _ LAWS). by right. Qed.
Lemma best_shrink B ef hp : (1 <= ef)%nat -> best B hp -> best B (shrink_ret so ef hp).
Proof using LAWS.
  intros Hef (y & Hy & Hd). unfold shrink_ret. destruct (Nat.ltb_spec ef (h_len so hp)) as [Hlt|_]; [|by exists y].
  destruct (h_pop so hp) as [[m r]|] eqn:E; [|by exists y]. destruct (law_pop_some _ LAWS _ _ _ E) as [Hp Hf].
  rewrite Hp in Hy. apply elem_of_cons in Hy as [->|Hy]; [|by exists y].
  unfold h_len in Hlt. rewrite Hp in Hlt. simpl in Hlt. destruct (h_iter so r) as [|z zs] eqn:Er; [simpl in Hlt; lia|].
  exists z. rewrite Er. split; [left|]. inversion Hf; subst. lia.
Qed.
Lemma best_scan B h q ef nbs s b s' : (1 <= ef)%nat ->
  scan_neighbours dist so h q ef None nbs s = Ok (b, s') -> best B (s_ret so s) -> best B (s_ret so s').
Proof using LAWS.
  intros Hef. revert s. induction nbs as [|e nbs IH]; intros s H Hb; simpl in H; [by injection H as <- <-|].
  case_bool_decide; [by eapply IH|]. destruct (h_peek so (s_ret so s)) as [f|]; [|by injection H as <- <-].
  apply bind_inv in H as (ept & _ & H). destruct (_ || _).
  - apply (IH _ H). simpl. apply best_shrink; [done|]. by apply best_push.
  - by apply (IH _ H).
Qed.
Definition best_state (B : Z) (r : heap + sst so) : Prop := match r with inl hp => best B hp | inr s => best B (s_ret so s) end.
Lemma best_iter B h q ef layer s r : (1 <= ef)%nat ->
  search_iter dist so h q ef layer None s = Ok r -> best B (s_ret so s) -> best_state B r.
Proof using LAWS.
  intros Hef H Hb. unfold search_iter in H. destruct (h_pop so (s_cand so s)) as [[c cand']|]; [|by injection H as <-].
  apply bind_inv in H as (f & _ & H). apply bind_inv in H as ([] & _ & H). apply bind_inv in H as ([] & _ & H).
  destruct (_ && _); [by injection H as <-|]. apply bind_inv in H as (cpt & _ & H). apply bind_inv in H as (nbs & _ & H).
  apply bind_inv in H as ([stop s'] & Hs & H). pose proof (best_scan B _ _ _ _ _ _ _ Hef Hs Hb) as Hb'.
  destruct stop; injection H as <-; done.
Qed.

Context (I : hnsw -> Prop).
Lemma best_loop B fuel q ef layer s : (1 <= ef)%nat -> best B (s_ret so s) ->
  gives I (best B) (search_loop_p dist so fuel q ef layer None s).
Proof using LAWS.
  intros Hef. revert s. induction fuel as [|fuel IH]; intros s Hb; cbn [search_loop_p]; [done|].
  apply (gives_bind I (fun r : heap + pid => match r with inl hp => best B hp | _ => True end)).
  { intros r Hr. unfold next_candidate in Hr. destruct (h_pop so (s_cand so s)) as [[c cand']|]; [|by injection Hr as <-].
    apply bind_inv in Hr as (f & _ & Hr). apply bind_inv in Hr as ([] & _ & Hr). apply bind_inv in Hr as ([] & _ & Hr).
    destruct (_ && _); by injection Hr as <-. }
  intros [res|c] Hr; [by apply gives_ret|].
  apply (gives_bind I (best_state B)).
  { apply gives_read. intros h r _ E. by eapply best_iter. }
  intros [res|s'] Hr'; [by apply gives_ret|by apply IH].
Qed.

(** the vectors, which do not change *)
Context (V : pid -> option (list T)) (HV : forall h p pt, I h -> get_pt h p = Some pt -> V p = Some (pt_data pt)).
Definition at_most (B : Z) (q : list T) (p : pid) : Prop := exists w, V p = Some w /\ (dist q w <= B)%Z.

Lemma best_layer B fuel q ep ef layer : (1 <= ef)%nat -> at_most B q ep ->
  gives I (fun hp => h_iter so hp = [] \/ best B hp) (search_layer_p dist so fuel q ep ef layer None).
Proof using LAWS HV.
  intros Hef (w & Hw & HB). unfold search_layer_p. apply (gives_bind I (fun _ => True)); [apply gives_any|].
  intros [|] _; [apply gives_ret; left; apply (law_iter_empty _ LAWS)|].
  apply (gives_bind I (fun s => best B (s_ret so s))).
  { apply gives_peek. intros h s Hh E. unfold search_init in E. apply bind_inv in E as (ept & He & E). apply unwrap_inv in He.
    injection E as <-. cbn [s_ret]. eexists. split; [rewrite (law_push _ LAWS); left|]. simpl.
    rewrite (HV h ep ept Hh He) in Hw. injection Hw as ->. done. }
  intros s Hs. eapply gives_impl; [|by apply best_loop]. by right.
Qed.

Definition pivot_at (B : Z) (q : list T) (r : pid * Z) : Prop := exists w, V r.1 = Some w /\ r.2 = dist q w /\ (r.2 <= B)%Z.
Lemma best_scan_pivot B q h nbs pv d r : I h -> pivot_at B q (pv, d) -> pivot_scan dist h q nbs pv d = Ok r -> pivot_at B q r.
Proof using HV.
  intros Hh. unfold pivot_scan. revert pv d. induction nbs as [|n nbs IH]; intros pv d Hp E; cbn [foldl] in E.
  - by injection E as <-.
  - cbn [mbind outcome_bind] in E. destruct (get_pt h (n_pid n)) as [npt|] eqn:En; cbn [unwrap mbind outcome_bind] in E.
    + destruct (dist q (pt_data npt) <? d)%Z eqn:Et; [|by eapply IH].
      eapply IH; [|exact E]. exists (pt_data npt). cbn [fst snd]. split; [by eapply HV|]. split; [done|].
      destruct Hp as (w & _ & _ & Hd). cbn [snd] in Hd. apply Z.ltb_lt in Et. lia.
    + exfalso. clear -E. assert (HN : forall l, foldl (fun (acc : outcome (pid * Z)) (n : nbr) =>
        '(pv, d) ← acc; npt ← unwrap (get_pt h (n_pid n)); let tmp := dist q (pt_data npt) in
        Ok (if (tmp <? d)%Z then (n_pid n, tmp) else (pv, d))) Panic l = Panic) by (induction l; done).
      rewrite HN in E. done.
Qed.
Lemma best_pivot B q ls pv d : pivot_at B q (pv, d) -> gives I (at_most B q) (pivot_descend_p dist ls q pv d).
Proof using HV.
  revert pv d. induction ls as [|l ls IH]; intros pv d Hp; cbn [pivot_descend_p].
  - apply gives_ret. destruct Hp as (w & Hw & Hd & HB). exists w. split; [done|]. simpl in *. lia.
  - apply (gives_bind I (pivot_at B q)).
    { apply gives_read. intros h r Hh E. apply bind_inv in E as (nbs & _ & E). by eapply best_scan_pivot. }
    intros [pv' d'] Hr. by apply IH.
Qed.

Lemma best_sorted B hp : best B hp -> exists a l, h_sorted so hp = a :: l /\ (n_dist a <= B)%Z.
Proof using LAWS.
  intros (x & Hx & Hd). pose proof (law_sorted _ LAWS hp) as Hs. rewrite <- (law_sorted_perm _ LAWS hp) in Hx.
  destruct (h_sorted so hp) as [|a l]; [by apply elem_of_nil in Hx|]. exists a, l. split; [done|].
  apply elem_of_cons in Hx as [->|Hx]; [done|]. inversion Hs as [|? ? _ Hf]; subst. rewrite Forall_forall in Hf. specialize (Hf x Hx). lia.
Qed.

Lemma best_search fuel q knbn ef : gives I (fun ns => forall a ns', ns = a :: ns' ->
    exists h ep v, I h /\ entry_point h = Some ep /\ V ep = Some v /\ (distance a <= dist q v)%Z)
  (search_filter_p dist so fuel q knbn ef None).
Proof using LAWS HV.
  unfold search_filter_p.
  apply (gives_bind I (fun eo => forall ep, eo = Some ep -> exists h, I h /\ entry_point h = Some ep)).
  { apply gives_read. intros h eo Hh [= <-] ep He. eauto. }
  intros [ep|] He; [|by apply gives_ret]. destruct (He ep eq_refl) as (h0 & Hh0 & Hep). clear He.
  apply (gives_bind I (fun d => exists v, V ep = Some v /\ d = dist q v)).
  { apply gives_peek. intros h d Hh E. apply bind_inv in E as (ept & Ht & E). apply unwrap_inv in Ht. injection E as <-. eauto. }
  intros dte (v & Hv & ->).
  apply (gives_bind I (at_most (dist q v) q)).
  { apply best_pivot. exists v. split; [done|]. split; [done|]. simpl. lia. }
  intros pv Hpv. cbv zeta. apply (gives_bind I (fun _ => True)); [apply gives_any|]. intros l _.
  destruct (decide (1 <= Nat.max ef knbn)%nat) as [Hef|Hef].
  - apply (gives_bind I (fun hp => h_iter so hp = [] \/ best (dist q v) hp)); [by apply best_layer|].
    intros hp Hhp. apply gives_peek. intros h ns Hh E a ns' ->.
    destruct Hhp as [Hnil|Hb].
    + pose proof (law_sorted_perm _ LAWS hp) as Hp. rewrite Hnil in Hp. symmetry in Hp. apply Permutation_nil in Hp.
      rewrite Hp in E. simpl in E. rewrite take_nil in E. done.
    + destruct (best_sorted _ _ Hb) as (x & xs & Ex & Hx). rewrite Ex in E.
      destruct (_ `min` length (x :: xs))%nat as [|m]; [done|]. simpl in E.
      apply bind_inv in E as (y & Hy & E). apply bind_inv in E as (ys & _ & E). injection E as <- <-.
      unfold to_answer in Hy. apply bind_inv in Hy as (pt & _ & Hy). injection Hy as <-. simpl.
      exists h0, ep, v. done.
  - apply (gives_bind I (fun _ => True)); [apply gives_any|]. intros hp _.
    apply gives_peek. intros h ns Hh E a ns' ->. replace (Nat.max ef knbn) with 0%nat in E by lia.
    rewrite Nat.min_0_r in E. simpl in E. done.
Qed.
End Best.
