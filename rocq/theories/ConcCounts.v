(** What the index reports only grows while threads use it. Used by PropsConcCounts.v (C110). *)
From stdpp Require Import relations.
From Verif Require Import Prelude Model Lib Table Conc SpecConc ConcSafe ConcSafe2 ConcSafe3 ConcGlobal ConcLinks.
Local Open Scope list_scope.

Section Counts.
Context {T : Type} (dist : list T -> list T -> Z) (so : StdOps).
Local Notation hnsw := (hnsw (T:=T)).

Record up (h h' : hnsw) : Prop := {
  up_ids : same_ids h h';
  up_nb : (nb_point h <= nb_point h')%nat;
  up_entry : entry_mono h h'
}.
Lemma up_refl h : up h h.
Proof. constructor; [apply same_ids_refl|lia|apply entry_mono_refl]. Qed.
Lemma up_trans h1 h2 h3 : up h1 h2 -> up h2 h3 -> up h1 h3.
Proof. intros [] []. constructor; [by eapply same_ids_trans|lia|by eapply entry_mono_trans]. Qed.
Lemma up_table h h' : same_table h h' -> up h h'.
Proof.
  intros H. constructor; [by apply same_ids_table|..]; destruct H as ((_ & _ & _ & _ & _ & _ & H1 & H2 & _) & _).
  - lia.
  - intros ep He. exists ep. split; [congruence|lia].
Qed.

(** programs whose accesses only make the index grow *)
Fixpoint rises {A} (p : prog (T:=T) A) : Prop :=
  match p with
  | Halt _ => True
  | Lock _ _ k | Pend _ k | Unlock _ _ k => rises k
  | Do f k => forall h, up h (f h) /\ rises (k h)
  end.
Lemma rises_bind {A B} p (k : A -> prog (T:=T) B) : rises p -> (forall a, rises (k a)) -> rises (p ≫= k).
Proof.
  intros Hp Hk. unfold mbind, prog_bind. induction p as [o|m l p IH|l p IH|m l p IH|f p IH]; cbn [pbind rises] in *; auto.
  - destruct o as [a| | | | |]; cbn [of_outcome rises]; [by apply Hk|done..].
  - intros h. destruct (Hp h) as [? ?]. split; [done|]. by apply IH.
Qed.
Lemma rises_quiet {A} (p : prog (T:=T) A) : quiet p -> rises p.
Proof.
  induction p as [o|m l p IH|l p IH|m l p IH|f p IH]; cbn [quiet rises]; auto.
  intros Hp h. destruct (Hp h) as [-> ?]. split; [apply up_refl|auto].
Qed.
Lemma rises_read {A B} p (k : A -> prog (T:=T) B) : quiet p -> (forall a, rises (k a)) -> rises (p ≫= k).
Proof. intros Hp. apply rises_bind. by apply rises_quiet. Qed.
Lemma rises_write {A} l (f : hnsw -> outcome (hnsw * A)) :
  (forall h h' a, f h = Ok (h', a) -> up h h') -> rises (with_write l f).
Proof.
  intros H. unfold with_write. cbn [rises]. intros h. destruct (f h) as [[h' a]| | | | |] eqn:E; try (split; [apply up_refl|done]).
  split; [by eapply H|done].
Qed.
Lemma rises_upd p l g : rises (with_write (LPoint p) (fun h => h1 ← upd_nbs h p l g; Ok (h1, tt))).
Proof.
  apply rises_write. intros h h' [] E. apply bind_inv in E as (h1 & E & [= <-]).
  apply upd_nbs_inv in E as (pt & nbs & _ & _ & _ & Ho & Hst). by apply up_table.
Qed.
Lemma rises_rev_one np q : rises (rev_one_p so np q).
Proof.
  unfold rev_one_p. case_bool_decide as E1; [done|].
  apply rises_write. intros h h' [] E. apply bind_inv in E as (h1 & E & [= <-]).
  unfold rev_one in E. rewrite bool_decide_eq_false_2 in E by done.
  apply upd_nbs_inv in E as (pt & nbs & _ & _ & _ & _ & Hst). by apply up_table.
Qed.
Lemma rises_rev_many np qs : rises (rev_many_p so np qs).
Proof. induction qs as [|q qs IH]; cbn [rev_many_p]; [done|]. apply rises_bind; [apply rises_rev_one|]. done. Qed.
Lemma rises_rev_layer np l : rises (rev_layer_p so np l).
Proof.
  unfold rev_layer_p. change (rises (qs ← peek (read_list np l); _ ← rev_many_p so np qs; Unlock Rd (LPoint np) (ret tt))).
  apply rises_read; [apply quiet_peek|]. intros qs. apply rises_bind; [apply rises_rev_many|]. done.
Qed.
Lemma rises_rev_layers np ls : rises (rev_layers_p so ls np).
Proof. induction ls as [|l ls IH]; cbn [rev_layers_p]; [done|]. apply rises_bind; [apply rises_rev_layer|]. done. Qed.
Lemma rises_check np : rises (check_entry_point_p np).
Proof.
  apply rises_write. intros h h' [] [= <-]. unfold check_entry_point.
  destruct (entry_point h) as [ep|] eqn:E; [destruct (Nat.ltb_spec ep.1 np.1)|]; [|apply up_refl|].
  - constructor; [intros p pt ?; eauto|done|]. intros ep' He. rewrite E in He. injection He as <-. exists np. split; [done|lia].
  - constructor; [intros p pt ?; eauto|done|]. intros ep' He. congruence.
Qed.
Lemma rises_descend_use np data l sorted ep dte : rises (descend_use_p dist so np data l sorted ep dte).
Proof.
  unfold descend_use_p. destruct (1 <? _)%nat; [done|]. destruct (h_pop so sorted) as [[e rst]|]; [|done].
  apply rises_read; [apply quiet_read|]. intros short.
  apply rises_bind; [destruct short; [apply rises_upd|done]|]. intros _.
  apply rises_read; [apply quiet_peek|]. done.
Qed.
Lemma rises_descend fuel ls np data ep dte : rises (descend_p dist so fuel ls np data ep dte).
Proof.
  revert ep dte. induction ls as [|l ls IH]; intros ep dte; cbn [descend_p]; [done|].
  apply rises_read; [apply quiet_layer|]. intros sorted. apply rises_bind; [apply rises_descend_use|]. intros r. apply IH.
Qed.
Lemma rises_connect_use np data l found ep : rises (connect_use_p dist so np data l found ep).
Proof.
  unfold connect_use_p. apply rises_read; [apply quiet_halt|]. intros neg. destruct (_ =? 0)%nat; [done|].
  apply rises_read; [apply quiet_peek|]. intros cfg. apply rises_read; [apply quiet_select|]. intros nv.
  apply rises_bind; [apply rises_upd|]. done.
Qed.
Lemma rises_connect fuel ls np data ep : rises (connect_p dist so fuel ls np data ep).
Proof.
  revert ep. induction ls as [|l ls IH]; intros ep; cbn [connect_p]; [done|].
  apply rises_read; [apply quiet_peek|]. intros ef. apply rises_read; [apply quiet_layer|]. intros found.
  apply rises_bind; [apply rises_connect_use|]. intros ep1. apply IH.
Qed.
Lemma rises_insert fuel data oid d : rises (insert_p dist so fuel data oid d).
Proof.
  unfold insert_p. apply rises_read; [apply quiet_peek|]. intros level. apply rises_bind.
  { apply rises_write. intros h h' np E. apply push_point_inv in E as (_ & _ & Hn & Hs & Ho & Hm & _).
    constructor.
    - intros p pt Hp. exists pt. rewrite Ho by congruence. done.
    - destruct Hm as (_ & _ & _ & _ & _ & _ & H1 & _). lia.
    - intros ep He. exists ep. destruct Hm as (_ & _ & _ & _ & _ & _ & _ & H2 & _). split; [congruence|lia]. }
  intros np. apply rises_bind.
  { apply rises_write. intros h h' a [= <- <-]. constructor; [intros p pt ?; eauto|simpl; lia|]. intros ep He. exists ep. done. }
  intros rank. apply rises_read; [apply quiet_read|]. intros [ep|].
  - destruct (rank =? 1)%nat; [done|].
    apply rises_read; [apply quiet_peek|]. intros dte. cbv zeta. apply rises_bind; [apply rises_descend|]. intros ep1.
    apply rises_bind; [apply rises_connect|]. intros _. apply rises_bind; [apply rises_rev_layers|]. intros _.
    apply rises_bind; [apply rises_check|]. done.
  - apply rises_bind; [apply rises_check|]. done.
Qed.
Lemma rises_task fuel t : rises (start dist so fuel t).
Proof.
  destruct t as [data oid d|q k ef f| |]; cbn [start].
  - apply rises_bind; [apply rises_insert|]. done.
  - apply rises_read; [apply quiet_search|]. done.
  - apply rises_read; [apply quiet_iter|]. done.
  - apply rises_read; [apply quiet_dump|]. done.
Qed.

Definition all_rise (c : config (T:=T)) : Prop := forall i p, c_threads c !! i = Some p -> rises p.
Lemma rise_step c c' : all_rise c -> cstep c c' -> all_rise c' /\ up (c_sh c) (c_sh c').
Proof.
  intros Ha (i & Hs). unfold step in Hs. destruct (c_threads c !! i) as [p|] eqn:Ep; [|done]. simpl in Hs.
  pose proof (Ha i p Ep) as Hp.
  assert (Hin : forall q, rises q -> forall j r, <[i:=q]> (c_threads c) !! j = Some r -> rises r).
  { intros q Hq j r Hj. apply list_lookup_insert_Some in Hj as [(<- & <- & _)|(_ & Hj)]; [done|by eapply Ha]. }
  destruct p as [o|[|] l k|l k|[|] l k|f k]; try done;
    repeat match type of Hs with context [match ?x with _ => _ end] => destruct x end; try done;
    injection Hs as <-; cbn [rises] in Hp; 
    try (split; [intros j r Hj; refine (Hin _ _ j r Hj); exact Hp|apply up_refl]).
  destruct (Hp (c_sh c)) as [H1 H2]. split; [intros j r Hj; exact (Hin _ H2 j r Hj)|done].
Qed.
Lemma rise_initial h ts : all_rise (initial dist so h ts).
Proof.
  intros i p Hp. unfold initial in Hp. cbn [c_threads] in Hp. rewrite list_lookup_fmap in Hp.
  destruct (ts !! i) as [t|]; [|done]. injection Hp as <-. apply rises_task.
Qed.
Lemma rise_run c c' : all_rise c -> rtc cstep c c' -> all_rise c' /\ up (c_sh c) (c_sh c').
Proof.
  intros Ha. revert c'. apply (rtc_ind_r (fun c' => all_rise c' /\ up (c_sh c) (c_sh c'))); [split; [done|apply up_refl]|].
  intros c1 c2 _ Hs [H1 H2]. destruct (rise_step _ _ H1 Hs). split; [done|by eapply up_trans].
Qed.

Lemma up_layer h h' l : up h h' -> (get_layer_nb_point h l <= get_layer_nb_point h' l)%nat.
Proof.
  intros [Hi _ _]. unfold get_layer_nb_point. destruct (points_by_layer h !! l) as [ly|] eqn:E; [|lia].
  destruct (length ly) as [|n] eqn:En; [lia|]. destruct (lookup_lt_is_Some_2 ly n) as [pt Hpt]; [lia|].
  destruct (Hi (l, n) pt) as (pt' & Hp' & _); [apply get_pt_lookup; eauto|].
  apply get_pt_lookup in Hp' as (ly' & E' & Hl). cbn [fst snd] in *. rewrite E'. apply lookup_lt_Some in Hl. lia.
Qed.
Lemma up_level h h' : up h h' -> (get_max_level_observed h <= get_max_level_observed h')%nat.
Proof.
  intros [_ _ He]. unfold get_max_level_observed. destruct (entry_point h) as [ep|] eqn:E; [|lia].
  destruct (He ep E) as (ep' & -> & ?). done.
Qed.

Lemma snoc_lookup {A} (l : list A) x i y : (l ++ [x]) !! i = Some y -> l !! i = Some y \/ (i = length l /\ y = x).
Proof.
  intros H. apply lookup_app_Some in H as [?|[Hle H]]; [by left|]. right. apply list_lookup_singleton_Some in H as [E <-]. split; [lia|done].
Qed.

(** counting *)
Lemma count_at_least (f : phase -> bool) phs js : NoDup js ->
  (forall j, j ∈ js -> exists ph, phs !! j = Some ph /\ f ph = true) -> (length js <= count f phs)%nat.
Proof.
  revert js. induction phs as [|ph phs IH] using rev_ind; intros js Hnd Hj.
  - destruct js as [|j js]; [done|]. destruct (Hj j) as (ph & Hl & _); [left|]. done.
  - assert (E : count f (phs ++ [ph]) = (count f phs + if f ph then 1 else 0)%nat).
    { unfold count. rewrite filter_app, app_length, filter_cons, filter_nil. destruct (f ph); case_decide; simpl in *; try done; lia. }
    rewrite E. set (n := length phs).
    assert (Hlt : forall j, j ∈ js -> j <> n -> exists a, phs !! j = Some a /\ f a = true).
    { intros j Hin Hne. destruct (Hj j Hin) as (a & Ha & Hf). exists a. split; [|done].
      by apply snoc_lookup in Ha as [?|[-> _]]. }
    destruct (decide (n ∈ js)) as [Hin|Hin].
    + assert (f ph = true) as ->.
      { destruct (Hj n Hin) as (a & Ha & Hf). apply snoc_lookup in Ha as [Ha|[_ ->]]; [apply lookup_lt_Some in Ha; lia|done]. }
      apply elem_of_Permutation in Hin as [js' Hp]. rewrite Hp in Hnd |- *. apply NoDup_cons in Hnd as [Hn Hnd].
      simpl. enough (length js' <= count f phs)%nat by lia. apply IH; [done|].
      intros j Hin. apply Hlt; [rewrite Hp; by right|by intros ->].
    + enough (length js <= count f phs)%nat by (destruct (f ph); lia). apply IH; [done|].
      intros j Hin'. apply Hlt; [done|by intros ->].
Qed.
Lemma count_at_most (f : phase -> bool) phs (ts : list (task (T:=T))) : length phs = length ts ->
  (forall i t ph, ts !! i = Some t -> phs !! i = Some ph -> f ph = true -> is_insertion t) ->
  (count f phs <= length (inserts ts))%nat.
Proof.
  revert ts. induction phs as [|ph phs IH]; intros [|t ts] E H; try done.
  assert (IH' : (count f phs <= length (inserts ts))%nat).
  { apply IH; [simpl in E; lia|]. intros i t' ph' H1 H2. by apply (H (S i)). }
  unfold count in *. rewrite filter_cons. pose proof (H 0%nat t ph eq_refl eq_refl) as H0.
  destruct t as [v id d|q k e fl| |]; csimpl; case_decide as Hf; simpl in *; try lia;
    (destruct (f ph); [destruct H0; done|done]).
Qed.
End Counts.
