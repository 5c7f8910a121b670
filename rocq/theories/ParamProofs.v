(** Searches with different arguments: filters that agree, filters that accept everything, the number of answers asked for. *)
From Verif Require Import Prelude Model Lib Table SearchProofs IoProofs4.
Local Open Scope list_scope.

Section Filters.
Context {T : Type} (dist : list T -> list T -> Z) (so : StdOps) (h : hnsw (T:=T)).

Lemma mapM_take {A B} (f : A -> outcome B) n l r : mapM f l = Ok r -> mapM f (take n l) = Ok (take n r).
Proof.
  revert n r. induction l as [|x l IH]; intros n r; simpl.
  - intros [= <-]. by rewrite !take_nil.
  - intros H. apply bind_inv in H as (y & Hy & H). apply bind_inv in H as (ys & Hys & [= <-]).
    destruct n as [|n]; [done|]. simpl. rewrite Hy, bind_Ok, (IH n ys Hys). done.
Qed.

(** the prefix *)
Lemma search_take q k1 k2 e1 e2 f r2 : (k1 <= k2)%nat -> Nat.max e1 k1 = Nat.max e2 k2 ->
  search_filter dist so h q k2 e2 f = Ok r2 -> search_filter dist so h q k1 e1 f = Ok (take k1 r2).
Proof.
  intros Hk He. unfold search_filter. destruct (entry_point h) as [ep|]; [|intros [= <-]; by rewrite take_nil].
  intros H. apply bind_inv in H as (pv & -> & H). rewrite bind_Ok. cbv zeta in *.
  apply bind_inv in H as (l & -> & H). rewrite bind_Ok. rewrite <- He in H.
  apply bind_inv in H as (hp & -> & H). rewrite bind_Ok.
  rewrite <- (mapM_take _ k1 _ _ H). rewrite take_take. f_equal. f_equal. lia.
Qed.

Section Agree.
Context (f g : dataid -> bool) (Hfg : forall p pt, get_pt h p = Some pt -> f (pt_oid pt) = g (pt_oid pt)).

Lemma push_ret_agree e pt ed ret : get_pt h e = Some pt -> push_ret so h (Some f) e (pt_oid pt) ed ret = push_ret so h (Some g) e (pt_oid pt) ed ret.
Proof using Hfg.
  intros He. unfold push_ret. rewrite (Hfg e pt He). destruct (g (pt_oid pt)); [|done]. f_equal.
  destruct (h_len so ret =? 1)%nat; [|done]. apply bind_ext. intros o.
  destruct (get_pt h (n_pid o)) as [opt|] eqn:Ho; [|done]. cbn. by rewrite (Hfg _ _ Ho).
Qed.

Lemma scan_agree q ef nbs s : scan_neighbours dist so h q ef (Some f) nbs s = scan_neighbours dist so h q ef (Some g) nbs s.
Proof using Hfg.
  revert s. induction nbs as [|e nbs IH]; intros s; [done|]. cbn [scan_neighbours].
  case_bool_decide; [apply IH|]. cbv zeta. destruct (h_peek _ _); [|done].
  destruct (get_pt h (n_pid e)) as [pt|] eqn:He; [|done]. cbn [unwrap]. rewrite !bind_Ok.
  destruct (_ || _); [|apply IH]. rewrite (push_ret_agree _ _ _ _ He). apply bind_ext. intros r. apply IH.
Qed.

Lemma search_iter_agree q ef l s : search_iter dist so h q ef l (Some f) s = search_iter dist so h q ef l (Some g) s.
Proof using Hfg.
  unfold search_iter. destruct (h_pop so (s_cand so s)) as [[c cand]|]; [|done].
  apply bind_ext. intros x. apply bind_ext. intros []. apply bind_ext. intros [].
  destruct (_ && _); [done|]. apply bind_ext. intros pt. apply bind_ext. intros nbs. by rewrite scan_agree.
Qed.

Lemma search_loop_agree fuel q ef l s : search_loop dist so fuel h q ef l (Some f) s = search_loop dist so fuel h q ef l (Some g) s.
Proof using Hfg.
  revert s. induction fuel as [|fuel IH]; intros s; [done|]. cbn [search_loop]. rewrite search_iter_agree.
  apply bind_ext. intros [?|?]; [done|]. apply IH.
Qed.

Lemma search_agree q k e : search_filter dist so h q k e (Some f) = search_filter dist so h q k e (Some g).
Proof using Hfg.
  unfold search_filter. destruct (entry_point h) as [ep|]; [|done]. apply bind_ext. intros pv. cbv zeta.
  apply bind_ext. intros l. f_equal. unfold search_layer. destruct (points_by_layer h !! l) as [[|x ly]|]; try done.
  apply bind_ext. intros s. apply search_loop_agree.
Qed.
End Agree.

(** a filter that accepts everything *)
Section All.
Context (LAWS : StdLaws so).
Context (f : dataid -> bool) (Hf : forall p pt, get_pt h p = Some pt -> f (pt_oid pt) = true).

(** what is kept is in the table, and as long as there is room every candidate is kept *)
Definition roomy (ef : nat) (ret cand : heap so) : Prop :=
  (forall x, x ∈ h_iter so ret -> is_Some (get_pt h (n_pid x))) /\
  ((h_len so ret < ef)%nat -> forall c, c ∈ h_iter so cand -> exists r, r ∈ h_iter so ret /\ n_dist r = (- n_dist c)%Z).

Lemma push_ret_all e pt ed ret : get_pt h e = Some pt -> (forall x, x ∈ h_iter so ret -> is_Some (get_pt h (n_pid x))) ->
  push_ret so h (Some f) e (pt_oid pt) ed ret = Ok (h_push so (Nbr e ed) ret).
Proof using Hf LAWS.
  intros He Hv. unfold push_ret. rewrite (Hf e pt He). destruct (Nat.eqb_spec (h_len so ret) 1) as [E|E]; [|done].
  destruct (h_peek so ret) as [o|] eqn:Ho.
  2:{ apply (h_peek_none so LAWS) in Ho. unfold h_len in E. by rewrite Ho in E. }
  cbn [unwrap]. rewrite bind_Ok. apply (h_peek_some so LAWS) in Ho as [Hin _]. destruct (Hv o Hin) as [opt Hopt].
  rewrite Hopt. cbn [unwrap]. rewrite bind_Ok. by rewrite (Hf _ _ Hopt).
Qed.

Lemma roomy_push ef e pt ed ret cand : get_pt h e = Some pt -> roomy ef ret cand ->
  roomy ef (shrink_ret so ef (h_push so (Nbr e ed) ret)) (h_push so (Nbr e (- ed)) cand).
Proof using LAWS.
  clear Hf. intros He [Hv Hr]. unfold shrink_ret. pose proof (law_push _ LAWS (Nbr e ed) ret) as Hp.
  assert (Hv' : forall x, x ∈ h_iter so (h_push so (Nbr e ed) ret) -> is_Some (get_pt h (n_pid x))).
  { intros x. rewrite Hp. intros [->|Hx]%elem_of_cons; [by exists pt|auto]. }
  assert (El : h_len so (h_push so (Nbr e ed) ret) = S (h_len so ret)) by (unfold h_len; by rewrite Hp).
  destruct (Nat.ltb_spec ef (h_len so (h_push so (Nbr e ed) ret))) as [Hlt|Hge].
  - destruct (h_pop so (h_push so (Nbr e ed) ret)) as [[y r']|] eqn:Ep.
    + destruct (law_pop_some _ LAWS _ _ _ Ep) as [Hq _]. split.
      * intros x Hx. apply Hv'. rewrite Hq. by right.
      * intros Hl. exfalso. unfold h_len in Hl, Hlt. rewrite Hq in Hlt. simpl in Hlt. lia.
    + apply (law_pop_none _ LAWS) in Ep. unfold h_len in El. by rewrite Ep in El.
  - split; [done|]. intros Hl c. rewrite (law_push _ LAWS). intros [->|Hc]%elem_of_cons.
    + exists (Nbr e ed). split; [rewrite Hp; left|]. simpl. lia.
    + rewrite El in Hl. destruct (Hr ltac:(lia) c Hc) as (r & Hin & E). exists r. split; [rewrite Hp; by right|done].
Qed.

Lemma scan_all q ef nbs s : roomy ef (s_ret so s) (s_cand so s) ->
  scan_neighbours dist so h q ef (Some f) nbs s = scan_neighbours dist so h q ef None nbs s /\
  forall b s', scan_neighbours dist so h q ef None nbs s = Ok (b, s') -> roomy ef (s_ret so s') (s_cand so s').
Proof using Hf LAWS.
  revert s. induction nbs as [|e nbs IH]; intros s Hr; [split; [done|by intros b s' [= <- <-]]|]. cbn [scan_neighbours].
  case_bool_decide; [by apply IH|]. cbv zeta. destruct (h_peek _ _) as [x|]; [|split; [done|by intros b s' [= <- <-]]].
  destruct (get_pt h (n_pid e)) as [pt|] eqn:He; [|done]. cbn [unwrap]. rewrite !bind_Ok.
  destruct (_ || _); [|by apply IH].
  rewrite (push_ret_all _ _ _ _ He (proj1 Hr)). cbn [push_ret]. rewrite !bind_Ok. apply IH. cbn. by apply (roomy_push _ _ pt).
Qed.

Lemma search_iter_all q ef l s : roomy ef (s_ret so s) (s_cand so s) ->
  search_iter dist so h q ef l (Some f) s = search_iter dist so h q ef l None s /\
  forall s', search_iter dist so h q ef l None s = Ok (inr s') -> roomy ef (s_ret so s') (s_cand so s').
Proof using Hf LAWS.
  intros [Hv Hr]. unfold search_iter. destruct (h_pop so (s_cand so s)) as [[c cand]|] eqn:Ec; [|done].
  destruct (h_peek so (s_ret so s)) as [x|] eqn:Ex; [|done]. cbn [unwrap]. rewrite !bind_Ok.
  destruct (assert_ (0 <=? n_dist x)%Z) as [[]| | | | |]; try done. rewrite !bind_Ok.
  destruct (assert_ (n_dist c <=? 0)%Z) as [[]| | | | |]; try done. rewrite !bind_Ok.
  destruct (law_pop_some _ LAWS _ _ _ Ec) as [Hc _].
  assert (E : ((n_dist x <? - n_dist c)%Z && (ef <=? h_len so (s_ret so s))%nat) = ((n_dist x <? - n_dist c)%Z && true)).
  { destruct (Nat.leb_spec ef (h_len so (s_ret so s))) as [?|Hlt]; [done|]. rewrite andb_true_r, andb_false_r. symmetry. apply Z.ltb_ge.
    destruct (Hr Hlt c) as (r & Hin & Er); [rewrite Hc; left|]. apply (h_peek_some so LAWS) in Ex as [_ Hm].
    rewrite Forall_forall in Hm. specialize (Hm r Hin). lia. }
  rewrite E. destruct (_ && true); [done|].
  destruct (unwrap (get_pt h (n_pid c))) as [cpt| | | | |]; try done. rewrite !bind_Ok.
  destruct (unwrap (pt_nbs cpt !! l)) as [nbs| | | | |]; try done. rewrite !bind_Ok.
  destruct (scan_all q ef nbs (SST so (s_ret so s) cand (s_vis so s))) as [-> Hs].
  { split; [done|]. intros Hl c' Hc'. apply (Hr Hl). cbn in Hc'. rewrite Hc. by right. }
  split; [done|]. intros s' H. apply bind_inv in H as ([b s1] & Hb & H). destruct b; [done|]. injection H as <-. by eapply Hs.
Qed.

Lemma search_loop_all fuel q ef l s : roomy ef (s_ret so s) (s_cand so s) ->
  search_loop dist so fuel h q ef l (Some f) s = search_loop dist so fuel h q ef l None s.
Proof using Hf LAWS.
  revert s. induction fuel as [|fuel IH]; intros s Hr; [done|]. cbn [search_loop].
  destruct (search_iter_all q ef l s Hr) as [-> Hn].
  destruct (search_iter dist so h q ef l None s) as [[?|s']| | | | |]; try done. rewrite !bind_Ok. apply IH. by apply Hn.
Qed.

Lemma search_all q k e : search_filter dist so h q k e (Some f) = search_filter dist so h q k e None.
Proof using Hf LAWS.
  unfold search_filter. destruct (entry_point h) as [ep|]; [|done]. apply bind_ext. intros pv. cbv zeta.
  apply bind_ext. intros l. f_equal. unfold search_layer. destruct (points_by_layer h !! l) as [[|x ly]|]; try done.
  unfold search_init. destruct (get_pt h pv) as [pt|] eqn:Hp; [|done]. cbn [unwrap]. rewrite !bind_Ok. apply search_loop_all. cbn.
  pose proof (law_push _ LAWS (Nbr pv (dist q (pt_data pt))) (h_empty so)) as H1.
  pose proof (law_push _ LAWS (Nbr pv (- dist q (pt_data pt))) (h_empty so)) as H2.
  rewrite (law_iter_empty _ LAWS) in H1, H2. split.
  - intros y. rewrite H1. intros ->%elem_of_list_singleton. by exists pt.
  - intros _ c. rewrite H2. intros ->%elem_of_list_singleton. exists (Nbr pv (dist q (pt_data pt))). split; [rewrite H1; left|]. simpl. lia.
Qed.
End All.
End Filters.
