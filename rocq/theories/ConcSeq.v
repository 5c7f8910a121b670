(** A thread that runs alone computes what the sequential model computes. *)
From Verif Require Import Prelude Model Lib Table SearchProofs SelectProofs InsertProofs Conc.

Section Seq.
Context {T : Type} (dist : list T -> list T -> Z) (so : StdOps).
Implicit Types (h : hnsw (T:=T)) (p np ep : pid).

Lemma run_bind {A B} (p : prog (T:=T) A) (k : A -> prog B) h :
  run (p ≫= k) h = ('(h', a) ← run p h; run (k a) h').
Proof.
  revert h. induction p as [o|m l p IH|l p IH|m l p IH|f q IH]; intros h; simpl.
  - by destruct o.
  - apply IH.
  - apply IH.
  - apply IH.
  - apply IH.
Qed.

Lemma run_bind_Ok {A B} (p : prog (T:=T) A) (k : A -> prog B) h h' a :
  run p h = Ok (h', a) -> run (p ≫= k) h = run (k a) h'.
Proof. intros E. by rewrite run_bind, E. Qed.

Lemma run_peek {A} (f : hnsw -> outcome A) h a : f h = Ok a -> run (peek (T:=T) f) h = Ok (h, a).
Proof. intros E. simpl. by rewrite E. Qed.
Lemma run_read {A} l (f : hnsw -> outcome A) h a : f h = Ok a -> run (with_read (T:=T) l f) h = Ok (h, a).
Proof. intros E. simpl. by rewrite E. Qed.
Lemma run_write {A} l (f : hnsw -> outcome (hnsw * A)) h h' a :
  f h = Ok (h', a) -> run (with_write (T:=T) l f) h = Ok (h', a).
Proof. intros E. simpl. by rewrite E. Qed.

(** ** search_layer *)
Lemma run_search_loop fuel fuel' h q ef l filter s r :
  search_loop dist so fuel h q ef l filter s = Ok r -> (fuel <= fuel')%nat ->
  run (search_loop_p dist so fuel' q ef l filter s) h = Ok (h, r).
Proof.
  revert fuel' s. induction fuel as [|fuel IH]; intros fuel' s H Hle; [done|].
  destruct fuel' as [|fuel']; [lia|].
  cbn [search_loop] in H. apply bind_inv in H as (x & Hx & H).
  cbn [search_loop_p]. unfold search_iter in Hx.
  destruct (h_pop so (s_cand so s)) as [[c cand']|] eqn:Epop.
  2: { injection Hx as <-. injection H as <-. unfold next_candidate. rewrite Epop. done. }
  apply bind_inv in Hx as (f & Hf & Hx). apply bind_inv in Hx as ([] & H1 & Hx).
  apply bind_inv in Hx as ([] & H2 & Hx).
  destruct ((n_dist f <? - n_dist c)%Z &&
         match filter with None => true | Some _ => (ef <=? h_len so (s_ret so s))%nat end) eqn:Eb.
  - injection Hx as <-. injection H as <-. unfold next_candidate.
    rewrite Epop, Hf, bind_Ok, H1, bind_Ok, H2, bind_Ok, Eb. done.
  - assert (Hn : next_candidate so ef filter s = Ok (inr (n_pid c))).
    { unfold next_candidate. rewrite Epop, Hf, bind_Ok, H1, bind_Ok, H2, bind_Ok, Eb. done. }
    rewrite Hn.
    erewrite run_bind_Ok by done. cbn beta iota.
    erewrite run_bind_Ok.
    2: { apply run_read. unfold search_iter. rewrite Epop, Hf, bind_Ok, H1, bind_Ok, H2, bind_Ok, Eb.
         exact Hx. }
    destruct x as [res|s'].
    + injection H as <-. done.
    + apply IH; [done|lia].
Qed.

Lemma run_search_layer F h q ep ef l filter r :
  search_layer dist so h q ep ef l filter = Ok r -> (table_size h < F)%nat ->
  run (search_layer_p dist so F q ep ef l filter) h = Ok (h, r).
Proof.
  intros H HF. unfold search_layer in H. unfold search_layer_p.
  destruct (points_by_layer h !! l) as [ly|] eqn:El; [|done].
  erewrite run_bind_Ok; [|by apply run_read; rewrite El].
  destruct ly as [|p0 ly]; cbn [is_empty].
  - injection H as <-. done.
  - apply bind_inv in H as (s & Hs & H).
    erewrite run_bind_Ok; [|by apply run_peek].
    eapply run_search_loop; [done|lia].
Qed.

(** ** select_neighbours *)
Lemma read_list_inv h p l nbs pt : get_pt h p = Some pt -> pt_nbs pt !! l = Some nbs -> read_list p l h = Ok nbs.
Proof. intros H1 H2. unfold read_list. rewrite H1. simpl. by rewrite H2. Qed.

Lemma run_collect h l cset todo acc r :
  collect_new_candidates h l cset todo acc = Ok r ->
  run (collect_p (T:=T) l cset todo acc) h = Ok (h, r).
Proof.
  revert acc. induction todo as [|p todo IH]; intros acc H; cbn [collect_new_candidates collect_p] in *.
  - by injection H as <-.
  - apply bind_inv in H as (pt & Hpt & H). apply bind_inv in H as (nbs & Hn & H).
    apply unwrap_inv in Hpt, Hn.
    erewrite run_bind_Ok; [|apply run_read; by eapply read_list_inv]. by apply IH.
Qed.

Lemma run_select h data cand asked ext l keep r :
  select_neighbours dist so h data cand asked ext l keep = Ok r ->
  run (select_neighbours_p dist so data cand asked ext l keep) h = Ok (h, r).
Proof.
  unfold select_neighbours, select_neighbours_p. destruct (_ && _).
  { intros H. simpl. by rewrite H. }
  intros H. apply bind_inv in H as (cand1 & Hc & H).
  erewrite run_bind_Ok; [by apply run_peek|].
  destruct (_ <=? _)%nat.
  - unfold extend_cands in Hc. apply bind_inv in Hc as (news & Hn & Hc).
    unfold extend_cands_p. erewrite run_bind_Ok; [|by apply run_collect]. by apply run_peek.
  - by injection Hc as <-.
Qed.

(** ** Insertion *)
Lemma upd_nbs_same h p l h' f :
  upd_nbs h p l f = Ok h' -> (forall pt nbs, get_pt h p = Some pt -> pt_nbs pt !! l = Some nbs -> f nbs = nbs) ->
  h' = h.
Proof.
  unfold upd_nbs. intros H Hf.
  apply bind_inv in H as (ly & Hly & H). apply bind_inv in H as (pt & Hpt & H).
  apply bind_inv in H as (nbs & Hn & H). apply unwrap_inv in Hly, Hpt, Hn. injection H as <-.
  rewrite (Hf pt nbs) by (try apply get_pt_lookup; eauto).
  unfold set_pt_nbs. rewrite (list_insert_id (pt_nbs pt)) by done.
  replace (Point (pt_data pt) (pt_oid pt) (pt_pid pt) (pt_nbs pt)) with pt by (by destruct pt).
  rewrite (list_insert_id ly), list_insert_id by done. by destruct h.
Qed.

Lemma run_descend_use h np data l sorted ep dte h' ep' dte' :
  descend_use dist so h np data l sorted ep dte = Ok (h', ep', dte') ->
  run (descend_use_p dist so np data l sorted ep dte) h = Ok (h', (ep', dte')) /\ same_table h h'.
Proof.
  unfold descend_use, descend_use_p. destruct (1 <? _)%nat; [done|].
  destruct (h_pop so sorted) as [[e r]|].
  2: { intros [= <- <- <-]. split; [done|]. apply same_table_refl. }
  intros H. apply bind_inv in H as (h1 & Hu & H). apply bind_inv in H as (ept & He & H).
  unfold push_upper in Hu.
  destruct (upd_nbs_inv _ _ _ _ _ Hu) as (pt & nbs & Hg & Hn & _ & _ & Hst).
  erewrite run_bind_Ok.
  2: { apply run_read. by rewrite (read_list_inv h np l nbs pt Hg Hn), bind_Ok. }
  assert (Hh' : h' = h1 /\ (ep', dte') = if (dist data (pt_data ept) <? dte)%Z
            then (n_pid e, dist data (pt_data ept)) else (ep, dte)).
  { destruct (_ <? dte)%Z; by injection H as <- <- <-. }
  destruct Hh' as [-> ->]. split; [|done].
  erewrite (run_bind_Ok _ _ h h1 tt).
  - erewrite run_bind_Ok; [done|]. apply run_peek. by rewrite He.
  - destruct (length nbs <? get_max_nb_connection h)%nat eqn:E.
    + apply run_write.
      rewrite (upd_nbs_const _ _ _ _ _ _ Hg Hn) in Hu. cbn beta in Hu. rewrite E in Hu.
      rewrite (upd_nbs_const _ _ _ _ _ _ Hg Hn). by rewrite Hu.
    + rewrite (upd_nbs_same _ _ _ _ _ Hu); [done|].
      intros pt' nbs' Hg' Hn'. rewrite Hg in Hg'. injection Hg' as <-. rewrite Hn in Hn'. injection Hn' as <-.
      by rewrite E.
Qed.

Lemma run_descend F ls h np data ep dte h' ep' :
  descend dist so ls h np data ep dte = Ok (h', ep') -> (table_size h < F)%nat ->
  run (descend_p dist so F ls np data ep dte) h = Ok (h', ep') /\ table_size h' = table_size h.
Proof.
  revert h ep dte. induction ls as [|l ls IH]; intros h ep dte H HF; cbn [descend descend_p] in *.
  - by injection H as <- <-.
  - apply bind_inv in H as (sorted & Hs & H).
    apply bind_inv in H as ([[h1 ep1] dte1] & Hd & H). cbn beta iota in H.
    destruct (run_descend_use _ _ _ _ _ _ _ _ _ _ Hd) as [Hr Hst].
    erewrite run_bind_Ok; [|by eapply run_search_layer].
    erewrite run_bind_Ok; [|exact Hr].
    pose proof (same_table_size _ _ Hst) as E. rewrite <- E. apply IH; [done|lia].
Qed.

Lemma run_connect_use h np data l found ep h' ep' :
  connect_use dist so h np data l found ep = Ok (h', ep') ->
  run (connect_use_p dist so np data l found ep) h = Ok (h', ep') /\ same_table h h'.
Proof.
  unfold connect_use, connect_use_p. intros H. apply bind_inv in H as (neg & Hneg & H).
  rewrite Hneg. erewrite (run_bind_Ok (Halt (Ok neg))) by done.
  destruct (h_len so neg =? 0)%nat.
  { injection H as <- <-. split; [done|]. apply same_table_refl. }
  apply bind_inv in H as (nv & Hnv & H). apply bind_inv in H as (h1 & Hu & H). injection H as <- <-.
  destruct (upd_nbs_inv _ _ _ _ _ Hu) as (? & ? & _ & _ & _ & _ & Hst). split; [|done].
  erewrite run_bind_Ok; [|by apply run_peek].
  erewrite run_bind_Ok; [|by apply run_select].
  cbv zeta. erewrite run_bind_Ok; [done|]. apply run_write. by rewrite Hu.
Qed.

Lemma run_connect F ls h np data ep h' :
  connect dist so ls h np data ep = Ok h' -> (table_size h < F)%nat ->
  run (connect_p dist so F ls np data ep) h = Ok (h', tt).
Proof.
  revert h ep. induction ls as [|l ls IH]; intros h ep H HF; cbn [connect connect_p] in *.
  - by injection H as <-.
  - apply bind_inv in H as (found & Hs & H).
    apply bind_inv in H as ([h1 ep1] & Hd & H). cbn beta iota in H.
    destruct (run_connect_use _ _ _ _ _ _ _ _ Hd) as [Hr Hst].
    erewrite run_bind_Ok; [|by apply run_peek].
    erewrite run_bind_Ok; [|by eapply run_search_layer].
    erewrite run_bind_Ok; [|exact Hr].
    pose proof (same_table_size _ _ Hst) as E. apply IH; [done|lia].
Qed.

Lemma run_rev_many h np qs h' :
  rev_many so h np qs = Ok h' -> run (rev_many_p so np qs) h = Ok (h', tt).
Proof.
  revert h. induction qs as [|q qs IH]; intros h H; cbn [rev_many rev_many_p] in *.
  - by injection H as <-.
  - apply bind_inv in H as (h1 & H1 & H). erewrite run_bind_Ok; [by apply IH|].
    unfold rev_one_p. destruct (bool_decide (np = n_pid q)) eqn:E.
    + unfold rev_one in H1. rewrite E in H1. by injection H1 as <-.
    + apply run_write. by rewrite H1.
Qed.

Lemma run_rev_layers ls h np h' :
  rev_layers so ls h np = Ok h' -> run (rev_layers_p so ls np) h = Ok (h', tt).
Proof.
  revert h. induction ls as [|l ls IH]; intros h H; cbn [rev_layers rev_layers_p] in *.
  - by injection H as <-.
  - apply bind_inv in H as (pt & Hpt & H). apply bind_inv in H as (qs & Hqs & H).
    apply bind_inv in H as (h1 & H1 & H). apply unwrap_inv in Hpt, Hqs.
    erewrite run_bind_Ok; [by apply IH|].
    unfold rev_layer_p. cbn [run].
    erewrite run_bind_Ok; [|apply run_peek; by eapply read_list_inv].
    erewrite run_bind_Ok; [|by apply run_rev_many]. done.
Qed.

Theorem run_insert F h data oid d h' :
  insert_slice dist so h data oid d = Ok h' -> (S (table_size h) < F)%nat ->
  exists np, run (insert_p dist so F data oid d) h = Ok (h', np).
Proof.
  unfold insert_slice, insert_p, generate_new_point. intros H HF.
  apply bind_inv in H as ([[h0 np] rank] & H0 & H).
  apply bind_inv in H0 as (level & Hl & H0). apply bind_inv in H0 as ([h1 p] & Hp & H0).
  unfold incr_nb_point in H0. injection H0 as <- <- <-. exists p.
  erewrite run_bind_Ok; [|by apply run_peek].
  erewrite run_bind_Ok; [|by apply run_write].
  erewrite run_bind_Ok; [|by apply run_write].
  erewrite run_bind_Ok; [|by apply run_read].
  cbn beta iota in H. simpl entry_point in H |- *.
  destruct (entry_point h1) as [ep|].
  2: { injection H as <-. done. }
  destruct (S (nb_point h1) =? 1)%nat.
  { injection H as <-. done. }
  apply bind_inv in H as (ept & He & H). apply bind_inv in H as ([h2 ep2] & Hd & H).
  apply bind_inv in H as (h3 & Hc & H). apply bind_inv in H as (h4 & Hr & H). injection H as <-.
  destruct (push_point_inv _ _ _ _ _ _ Hp) as (_ & _ & _ & _ & _ & _ & _ & Hsz).
  erewrite run_bind_Ok; [|apply run_peek; by rewrite He].
  destruct (run_descend F _ _ _ _ _ _ _ _ Hd) as [Hrd Hsz2]; [by rewrite <- Hsz in HF|].
  cbv zeta. erewrite run_bind_Ok; [|exact Hrd].
  erewrite run_bind_Ok; [|eapply run_connect; [exact Hc|]; rewrite Hsz2; by rewrite <- Hsz in HF].
  erewrite run_bind_Ok; [|by apply run_rev_layers].
  erewrite run_bind_Ok; [|by apply run_write]. done.
Qed.

(** ** Searching *)
Lemma run_pivot_descend ls h data pivot dte p :
  pivot_descend dist ls h data pivot dte = Ok p ->
  run (pivot_descend_p dist ls data pivot dte) h = Ok (h, p).
Proof.
  revert pivot dte. induction ls as [|l ls IH]; intros pivot dte H; cbn [pivot_descend pivot_descend_p] in *.
  - by injection H as <-.
  - apply bind_inv in H as (pt & Hpt & H). apply bind_inv in H as (nbs & Hn & H).
    apply bind_inv in H as ([pv d] & Hs & H). apply unwrap_inv in Hpt, Hn.
    erewrite (run_bind_Ok _ _ h h (pv, d)); [by apply IH|]. apply run_read.
    rewrite (read_list_inv h pivot l nbs pt) by done. done.
Qed.

Lemma run_lowest ls : forall h n k l,
  drop k (points_by_layer h) = ls -> lowest_from ls k = Ok l ->
  (length ls <= n)%nat -> run (lowest_p n k) h = Ok (h, l).
Proof.
  induction ls as [|ly ls IH]; intros h n k l Hd H Hn; [done|].
  destruct n as [|n]; [simpl in Hn; lia|].
  assert (Hk : points_by_layer h !! k = Some ly).
  { rewrite <- (Nat.add_0_r k), <- lookup_drop, Hd. done. }
  assert (Hd' : drop (S k) (points_by_layer h) = ls).
  { rewrite <- Nat.add_1_r, <- drop_drop, Hd. done. }
  cbn [lowest_p]. unfold layer_nb_point_p.
  erewrite (run_bind_Ok _ _ h h (length ly)).
  2: { erewrite run_bind_Ok; [|by apply run_read].
       pose proof (lookup_lt_Some _ _ _ Hk) as Hlt. apply Nat.ltb_lt in Hlt. rewrite Hlt.
       apply run_read. unfold get_layer_nb_point. by rewrite Hk. }
  destruct ly as [|p ly]; simpl in *.
  - apply IH; [done|done|lia].
  - by injection H as <-.
Qed.

Theorem run_search_filter F h data knbn ef filter r :
  search_filter dist so h data knbn ef filter = Ok r -> (table_size h < F)%nat ->
  (length (points_by_layer h) <= NB_LAYER_MAX)%nat ->
  run (search_filter_p dist so F data knbn ef filter) h = Ok (h, r).
Proof.
  unfold search_filter, search_filter_p. intros H HF Hlen.
  erewrite run_bind_Ok; [|by apply run_read].
  destruct (entry_point h) as [ep|]; [|by injection H as <-].
  apply bind_inv in H as (pivot & Hp & H). apply bind_inv in H as (l & Hl & H).
  apply bind_inv in H as (hp & Hs & H).
  unfold find_pivot in Hp. apply bind_inv in Hp as (ept & He & Hp).
  erewrite run_bind_Ok; [|apply run_peek; by rewrite He].
  erewrite run_bind_Ok; [|by apply run_pivot_descend].
  erewrite run_bind_Ok; [|by apply (run_lowest (points_by_layer h))].
  erewrite run_bind_Ok; [|by apply run_search_layer].
  by apply run_peek.
Qed.

(** ** Iterating *)
Lemma run_iter_next h st r : iter_next h st = Ok r -> run (iter_next_p st) h = Ok (h, r).
Proof.
  intros H0. pose proof H0 as H. unfold iter_next in H. unfold iter_next_p.
  destruct (match st with None => (0, 0) | Some s => s end) as [layer slot].
  apply bind_inv in H as (ly & Hly & H).
  erewrite run_bind_Ok; [|apply run_peek; by rewrite Hly].
  destruct (ly !! slot) as [pt|].
  - by injection H as <-.
  - cbn [run]. erewrite run_bind_Ok; [|by apply run_peek]. done.
Qed.

Lemma run_iter_collect fuel fuel' h st r :
  iter_collect fuel h st = Ok r -> (fuel <= fuel')%nat -> run (iter_collect_p fuel' st) h = Ok (h, r).
Proof.
  revert fuel' st r. induction fuel as [|fuel IH]; intros fuel' st r H Hle; [done|].
  destruct fuel' as [|fuel']; [lia|]. cbn [iter_collect iter_collect_p] in *.
  apply bind_inv in H as ([o st'] & Hn & H).
  erewrite run_bind_Ok; [|by apply run_iter_next]. cbn [fst snd].
  destruct o as [pt|].
  - apply bind_inv in H as (rest & Hr & H). injection H as <-.
    erewrite run_bind_Ok; [|eapply IH; [done|lia]]. done.
  - by injection H as <-.
Qed.

Theorem run_iter_points F h r :
  iter_points h = Ok r -> (table_size h < F)%nat -> run (iter_points_p F) h = Ok (h, r).
Proof.
  intros H HF. unfold iter_points_p. cbn [run].
  erewrite run_bind_Ok; [|eapply run_iter_collect; [exact H|lia]]. done.
Qed.

End Seq.
