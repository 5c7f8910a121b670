(** Distances that may be negative: what a search or an insertion that completes has recorded. No hypothesis on the index. *)
From stdpp Require Import relations.
From Verif Require Import Prelude Model Lib Table.
Local Open Scope list_scope.

Section Neg.
Context {T : Type} (dist : list T -> list T -> Z) (so : StdOps) (LAWS : StdLaws so).
Implicit Types (h : hnsw (T:=T)).

Definition nn (n : nbr) : Prop := (0 <= n_dist n)%Z.

(** a negative answer still has its candidate waiting *)
Definition pending (s : sst so) : Prop :=
  forall x, x ∈ h_iter so (s_ret so s) -> (n_dist x < 0)%Z -> exists c, c ∈ h_iter so (s_cand so s) /\ (0 < n_dist c)%Z.

Lemma shrink_sub ef hp x : x ∈ h_iter so (shrink_ret so ef hp) -> x ∈ h_iter so hp.
Proof using LAWS.
  destruct (shrink_ret_spec so LAWS ef hp) as [[_ ->]|(_ & y & Hp & _)]; [done|]. intros H. rewrite Hp. by right.
Qed.

Lemma push_ret_sub h filter e oid ed ret ret' x : push_ret so h filter e oid ed ret = Ok ret' -> x ∈ h_iter so ret' ->
  x = Nbr e ed \/ x ∈ h_iter so ret.
Proof using LAWS.
  unfold push_ret. destruct filter as [flt|].
  - destruct (flt oid); [|intros [= ->]; auto].
    intros H. apply bind_inv in H as (r1 & H1 & [= <-]). rewrite (law_push _ LAWS). intros [->|Hx]%elem_of_cons; [by left|]. right.
    destruct (h_len so ret =? 1)%nat; [|by injection H1 as <-].
    apply bind_inv in H1 as (o & _ & H1). apply bind_inv in H1 as (opt & _ & H1).
    destruct (flt (pt_oid opt)); injection H1 as <-; [done|]. rewrite (law_iter_empty _ LAWS) in Hx. by apply elem_of_nil in Hx.
  - intros [= <-]. rewrite (law_push _ LAWS). intros [->|Hx]%elem_of_cons; auto.
Qed.

Lemma scan_pending h q ef filter nbs : forall s b s', pending s -> scan_neighbours dist so h q ef filter nbs s = Ok (b, s') ->
  pending s' /\ (b = true -> h_iter so (s_ret so s') = []).
Proof using LAWS.
  induction nbs as [|e nbs IH]; intros s b s' Hp H; cbn [scan_neighbours] in H; [injection H as <- <-; split; [exact Hp|discriminate]|].
  case_bool_decide; [by eapply IH|].
  destruct (h_peek so (s_ret so s)) as [f|] eqn:Ef.
  - apply bind_inv in H as (ept & _ & H).
    destruct ((dist q (pt_data ept) <? n_dist f)%Z || (h_len so (s_ret so s) <? ef)%nat).
    + apply bind_inv in H as (ret & Hret & H). eapply IH; [|exact H].
      intros x Hx Hneg. cbn [s_ret s_cand] in *. apply shrink_sub in Hx. destruct (push_ret_sub _ _ _ _ _ _ _ x Hret Hx) as [E|Hx1]; [subst x|clear Hx; rename Hx1 into Hx].
      * exists (Nbr (n_pid e) (- dist q (pt_data ept))). rewrite (law_push _ LAWS). split; [left|]. cbn in *. lia.
      * destruct (Hp x Hx Hneg) as (c & Hc & Hpos). exists c. rewrite (law_push _ LAWS). split; [by right|done].
    + eapply IH; [|exact H]. exact Hp.
  - injection H as <- <-. split; [exact Hp|]. intros _. by apply (h_peek_none so LAWS).
Qed.

Lemma search_loop_nn h q ef layer filter fuel : forall s r, pending s -> search_loop dist so fuel h q ef layer filter s = Ok r ->
  Forall nn (h_iter so r).
Proof using LAWS.
  induction fuel as [|fuel IH]; intros s r Hp H; cbn [search_loop] in H; [done|].
  apply bind_inv in H as (x & Hx & H). unfold search_iter in Hx.
  destruct (h_pop so (s_cand so s)) as [[c cand']|] eqn:Ec.
  - apply bind_inv in Hx as (f & _ & Hx). apply bind_inv in Hx as (? & _ & Hx). apply bind_inv in Hx as (? & Hc & Hx).
    destruct (n_dist c <=? 0)%Z eqn:Ecz; [|done]. clear Hc.
    destruct (law_pop_some _ LAWS _ _ _ Ec) as [Hpm Hmax].
    assert (Hnn : Forall nn (h_iter so (s_ret so s))).
    { apply Forall_forall. intros y Hy. unfold nn. destruct (decide (n_dist y < 0)%Z) as [Hneg|]; [|lia].
      destruct (Hp y Hy Hneg) as (d & Hd & Hpos). rewrite Hpm in Hd. rewrite Forall_forall in Hmax.
      apply elem_of_cons in Hd as [->|Hd]; [lia|]. specialize (Hmax d Hd). lia. }
    destruct ((n_dist f <? - n_dist c)%Z && _); [injection Hx as <-; by injection H as <-|].
    apply bind_inv in Hx as (cpt & _ & Hx). apply bind_inv in Hx as (nbs & _ & Hx).
    apply bind_inv in Hx as ([b s'] & Hs & Hx).
    apply scan_pending in Hs as [Hp' Hb].
    + injection Hx as <-. destruct b; cbn in H; [injection H as <-; by rewrite Hb|]. by eapply IH.
    + intros y Hy Hneg. cbn [s_ret] in Hy. rewrite Forall_forall in Hnn. specialize (Hnn y Hy). unfold nn in Hnn. lia.
  - injection Hx as <-. injection H as <-. apply (law_pop_none _ LAWS) in Ec. apply Forall_forall. intros y Hy. unfold nn.
    destruct (decide (n_dist y < 0)%Z) as [Hneg|]; [|lia]. destruct (Hp y Hy Hneg) as (d & Hd & _). rewrite Ec in Hd. by apply elem_of_nil in Hd.
Qed.

Lemma search_layer_nn h q ep ef layer filter r : search_layer dist so h q ep ef layer filter = Ok r -> Forall nn (h_iter so r).
Proof using LAWS.
  unfold search_layer. destruct (points_by_layer h !! layer) as [[|x ly]|]; [|..|done].
  - intros [= <-]. rewrite (law_iter_empty _ LAWS). constructor.
  - intros H. apply bind_inv in H as (s & Hs & H). apply search_loop_nn in H; [done|].
    unfold search_init in Hs. apply bind_inv in Hs as (ept & _ & [= <-]).
    intros y Hy Hneg. cbn [s_ret s_cand] in *. rewrite (law_push _ LAWS), (law_iter_empty _ LAWS) in Hy. apply elem_of_list_singleton in Hy as ->.
    exists (Nbr ep (- dist q (pt_data ept))). rewrite (law_push _ LAWS). split; [left|]. cbn in *. lia.
Qed.

Lemma search_filter_nn h q k ef filter r : search_filter dist so h q k ef filter = Ok r -> Forall (fun a => (0 <= distance a)%Z) r.
Proof using LAWS.
  unfold search_filter. destruct (entry_point h) as [ep|]; [|intros [= <-]; constructor].
  intros H. apply bind_inv in H as (pv & _ & H). apply bind_inv in H as (l & _ & H). apply bind_inv in H as (hp & Hs & H).
  apply search_layer_nn in Hs. apply mapM_outcome_inv in H. apply Forall_forall. intros a Ha.
  apply elem_of_list_lookup in Ha as [i Hi]. destruct (Forall2_lookup_r _ _ _ _ _ H Hi) as (n & Hn & Hna).
  unfold to_answer in Hna. apply bind_inv in Hna as (pt & _ & [= <-]). cbn.
  apply elem_of_list_lookup_2, elem_of_take in Hn as (j & Hn & _). apply elem_of_list_lookup_2 in Hn.
  rewrite (law_sorted_perm _ LAWS) in Hn. rewrite Forall_forall in Hs. by apply Hs.
Qed.

(** a search that starts from a point at a negative distance does not return *)
Lemma search_layer_start h q ep ept ef layer filter r x ly : points_by_layer h !! layer = Some (x :: ly) -> get_pt h ep = Some ept ->
  (dist q (pt_data ept) < 0)%Z -> search_layer dist so h q ep ef layer filter <> Ok r.
Proof using LAWS.
  intros Hl Hep Hneg H. unfold search_layer in H. rewrite Hl in H. unfold search_init in H. rewrite Hep in H. cbn in H.
  unfold search_iter in H. cbn [s_cand s_ret] in H.
  destruct (h_pop so (h_push so (Nbr ep (- dist q (pt_data ept))) (h_empty so))) as [[c cand']|] eqn:Ec.
  2: { apply (law_pop_none _ LAWS) in Ec. pose proof (law_push _ LAWS (Nbr ep (- dist q (pt_data ept))) (h_empty so)) as Hp.
       rewrite Ec in Hp. by apply Permutation_nil_cons in Hp. }
  destruct (law_pop_some _ LAWS _ _ _ Ec) as [Hpm _]. rewrite (law_push _ LAWS), (law_iter_empty _ LAWS) in Hpm.
  assert (Hc : c ∈ [Nbr ep (- dist q (pt_data ept))]) by (rewrite Hpm; left). apply elem_of_list_singleton in Hc as ->.
  apply bind_inv in H as (z & H & _). apply bind_inv in H as (f & _ & H). apply bind_inv in H as (? & _ & H). apply bind_inv in H as (? & H & _).
  cbn in H. destruct (- dist q (pt_data ept) <=? 0)%Z eqn:E; [lia|done].
Qed.

Lemma pivot_valid_scan h q nbs : forall pv d pv' d', valid h pv -> pivot_scan dist h q nbs pv d = Ok (pv', d') -> valid h pv'.
Proof using.
  unfold pivot_scan. induction nbs as [|n nbs IH] using rev_ind; intros pv d pv' d' Hv H; [by injection H as <- <-|].
  rewrite foldl_app in H. cbn in H. apply bind_inv in H as ([p1 d1] & H1 & H). apply bind_inv in H as (npt & Hn & H).
  apply unwrap_inv in Hn. apply IH in H1; [|done]. destruct (_ <? _)%Z; injection H as <- <-; [by exists npt|done].
Qed.
Lemma pivot_valid_descend h q ls : forall pv d pv', valid h pv -> pivot_descend dist ls h q pv d = Ok pv' -> valid h pv'.
Proof using.
  induction ls as [|l ls IH]; intros pv d pv' Hv H; cbn in H; [by injection H as <-|].
  apply bind_inv in H as (pt & _ & H). apply bind_inv in H as (nbs & _ & H). apply bind_inv in H as ([p1 d1] & H1 & H).
  apply pivot_valid_scan in H1; [|done]. by eapply IH.
Qed.

Lemma lowest_nonempty (ls : list (list (point (T:=T)))) : forall l0 l, lowest_from ls l0 = Ok l ->
  exists x ly, ls !! (l - l0)%nat = Some (x :: ly) /\ (l0 <= l)%nat.
Proof using.
  clear. induction ls as [|[|x ly] ls IH]; intros l0 l H; cbn in H; [done|..].
  - apply IH in H as (x & ly & H & Hle). exists x, ly. replace (l - l0)%nat with (S (l - S l0)) by lia. split; [done|lia].
  - injection H as <-. rewrite Nat.sub_diag. eauto.
Qed.

Lemma search_all_negative h q k ef filter r : entry_point h <> None ->
  (forall p pt, get_pt h p = Some pt -> (dist q (pt_data pt) < 0)%Z) -> search_filter dist so h q k ef filter <> Ok r.
Proof using LAWS.
  intros He Hneg H. unfold search_filter in H. destruct (entry_point h) as [ep|]; [|done].
  apply bind_inv in H as (pv & Hpv & H). apply bind_inv in H as (l & Hl & H). apply bind_inv in H as (hp & Hs & H).
  unfold find_pivot in Hpv. apply bind_inv in Hpv as (ept & Hep & Hpv). apply unwrap_inv in Hep.
  apply pivot_valid_descend in Hpv as [pvt Hpvt]; [|by exists ept].
  apply lowest_nonempty in Hl as (x & ly & Hl & _). rewrite Nat.sub_0_r in Hl.
  eapply search_layer_start in Hs; eauto.
Qed.

(** ** Insertions *)
Definition recorded (P : Z -> Prop) h : Prop :=
  forall p pt nbs n, get_pt h p = Some pt -> nbs ∈ pt_nbs pt -> n ∈ nbs -> P (n_dist n).
Local Notation rec0 := (recorded (fun d => 0 <= d)%Z).

Lemma upd_rec h p l f h' : upd_nbs h p l f = Ok h' -> (forall nbs, Forall nn nbs -> Forall nn (f nbs)) -> rec0 h -> rec0 h'.
Proof using.
  clear. unfold upd_nbs. intros H Hf Hr. apply bind_inv in H as (ly & Hly & H). apply bind_inv in H as (pt & Hpt & H).
  apply bind_inv in H as (nbs0 & Hnbs & [= <-]). apply unwrap_inv in Hly, Hpt, Hnbs.
  intros p1 pt1 nbs n Hg Hn Hin. apply get_pt_lookup in Hg as (ly1 & Hly1 & Hg). cbn in Hly1.
  destruct (decide (p1.1 = p.1)) as [E1|E1].
  2: { rewrite list_lookup_insert_ne in Hly1 by done. eapply Hr; eauto. apply get_pt_lookup. eauto. }
  rewrite E1, list_lookup_insert in Hly1 by (by eapply lookup_lt_Some). injection Hly1 as <-.
  destruct (decide (p1.2 = p.2)) as [E2|E2].
  2: { rewrite list_lookup_insert_ne in Hg by done. eapply (Hr p1); eauto. apply get_pt_lookup. exists ly. by rewrite E1. }
  rewrite E2, list_lookup_insert in Hg by (by eapply lookup_lt_Some). injection Hg as <-. cbn in Hn.
  assert (Hold : get_pt h p = Some pt) by (apply get_pt_lookup; eauto).
  apply elem_of_list_lookup in Hn as [i Hi]. apply list_lookup_insert_Some in Hi as [(-> & <- & _)|(Hne & Hi)].
  - cut (Forall nn (f nbs0)); [rewrite Forall_forall; unfold nn; auto|]. apply Hf. apply Forall_forall. intros y Hy.
    eapply Hr; eauto. by eapply elem_of_list_lookup_2.
  - eapply (Hr p pt); eauto. by eapply elem_of_list_lookup_2.
Qed.

Lemma descend_rec ls : forall h np data ep dte h' ep', descend dist so ls h np data ep dte = Ok (h', ep') -> rec0 h -> rec0 h'.
Proof using LAWS.
  induction ls as [|l ls IH]; intros h np data ep dte h' ep' H Hr; cbn in H; [by injection H as <- _|].
  apply bind_inv in H as (sorted & Hs & H). apply bind_inv in H as ([[h1 e1] d1] & H1 & H). eapply IH; [exact H|].
  unfold descend_use in H1. destruct (1 <? h_len so sorted)%nat; [done|].
  destruct (h_pop so sorted) as [[e r]|] eqn:Ep; [|by injection H1 as <- _ _].
  apply bind_inv in H1 as (h2 & Hu & H1). apply bind_inv in H1 as (ept & _ & H1).
  assert (Hr2 : rec0 h2).
  { unfold push_upper in Hu. eapply upd_rec; [exact Hu| |done]. intros nbs Hn. cbv beta. destruct (_ <? _)%nat; [|done]. apply Forall_app. split; [done|].
    constructor; [|constructor]. apply search_layer_nn in Hs. rewrite Forall_forall in Hs. apply Hs.
    destruct (law_pop_some _ LAWS _ _ _ Ep) as [-> _]. left. }
  by destruct (_ <? _)%Z; injection H1 as <- _ _.
Qed.

Lemma transfer_nn fuel : forall cand acc r, transfer so fuel cand acc = Ok r -> Forall nn acc -> Forall nn r.
Proof using.
  clear. induction fuel as [|fuel IH]; intros cand acc r H Ha; cbn in H; destruct (h_pop so cand) as [[p c']|]; try (by injection H as <-); [done|].
  apply bind_inv in H as (? & Hz & H). destruct (0 <=? - n_dist p)%Z eqn:E; [|done]. eapply IH; [exact H|].
  apply Forall_app. split; [done|]. constructor; [|constructor]. unfold nn. cbn. lia.
Qed.
Lemma select_loop_nn fuel : forall h asked keep cand nv disc nv' disc', select_loop dist so fuel h asked keep cand nv disc = Ok (nv', disc') ->
  Forall nn nv -> Forall nn nv'.
Proof using.
  clear. induction fuel as [|fuel IH]; intros h asked keep cand nv disc nv' disc' H Ha; cbn [select_loop keep_loop] in H; (destruct (length nv <? asked)%nat; [|by injection H as <- _]);
    destruct (h_pop so cand) as [[p c']|]; try (by injection H as <- _); [done|].
  apply bind_inv in H as (ept & _ & H). apply bind_inv in H as (? & Hz & H). destruct (n_dist p <=? 0)%Z eqn:E; [|done].
  apply bind_inv in H as (dom & _ & H). destruct dom; (eapply IH; [exact H|]); [done|].
  apply Forall_app. split; [done|]. constructor; [|constructor]. unfold nn. cbn. lia.
Qed.
Lemma keep_loop_nn fuel : forall asked nv disc r, keep_loop so fuel asked nv disc = Ok r -> Forall nn nv -> Forall nn r.
Proof using.
  clear. induction fuel as [|fuel IH]; intros asked nv disc r H Ha; cbn [select_loop keep_loop] in H; (destruct (length nv <? asked)%nat; [|by injection H as <-]);
    destruct (h_pop so disc) as [[p c']|]; try (by injection H as <-); [done|].
  apply bind_inv in H as (? & Hz & H). destruct (n_dist p <=? 0)%Z eqn:E; [|done]. eapply IH; [exact H|].
  apply Forall_app. split; [done|]. constructor; [|constructor]. unfold nn. cbn. lia.
Qed.
Lemma select_nn h data cand asked ext layer keep nv : select_neighbours dist so h data cand asked ext layer keep = Ok nv -> Forall nn nv.
Proof using.
  clear. unfold select_neighbours. destruct (_ && _); [intros H; eapply transfer_nn; [exact H|constructor]|].
  intros H. apply bind_inv in H as (c1 & _ & H). apply bind_inv in H as ([nv1 disc] & H1 & H).
  apply select_loop_nn in H1; [|constructor]. destruct keep; [by eapply keep_loop_nn|by injection H as <-].
Qed.

Lemma usort_nn (nv : list nbr) : Forall nn nv -> Forall nn (u_sort so nbr n_dist nv).
Proof using LAWS. intros H. by rewrite (law_usort_perm _ LAWS). Qed.

Lemma connect_rec ls : forall h np data ep h', connect dist so ls h np data ep = Ok h' -> rec0 h -> rec0 h'.
Proof using LAWS.
  induction ls as [|l ls IH]; intros h np data ep h' H Hr; cbn in H; [by injection H as <-|].
  apply bind_inv in H as (found & Hs & H). apply bind_inv in H as ([h1 e1] & H1 & H). eapply IH; [exact H|].
  unfold connect_use in H1. apply bind_inv in H1 as (neg & _ & H1). destruct (_ =? 0)%nat; [by injection H1 as <- <-|].
  apply bind_inv in H1 as (nv & Hn & H1). apply bind_inv in H1 as (h2 & Hu & [= <- _]).
  eapply upd_rec; [exact Hu| |done]. intros ? _. apply usort_nn. by eapply select_nn.
Qed.

Lemma rev_list_nn thr np d nbs : (0 <= d)%Z -> Forall nn nbs -> Forall nn (rev_list so thr np d nbs).
Proof using LAWS.
  intros Hd Hn. unfold rev_list. case_bool_decide; [done|].
  assert (Hs : Forall nn (u_sort so nbr n_dist (nbs ++ [Nbr np d]))).
  { apply usort_nn. apply Forall_app. split; [done|]. by repeat constructor. }
  destruct (_ <? _)%nat; [by apply Forall_take|done].
Qed.

Lemma rev_many_rec qs : forall h np h', rev_many so h np qs = Ok h' -> Forall nn qs -> rec0 h -> rec0 h'.
Proof using LAWS.
  induction qs as [|q qs IH]; intros h np h' H Hq Hr; cbn in H; [by injection H as <-|].
  inversion Hq as [|? ? Hq1 Hq2]; subst. apply bind_inv in H as (h1 & H1 & H). eapply IH; [exact H|done|].
  unfold rev_one in H1. case_bool_decide; [by injection H1 as <-|]. eapply upd_rec; [exact H1| |done]. intros nbs. by apply rev_list_nn.
Qed.

Lemma rev_layers_rec ls : forall h np h', rev_layers so ls h np = Ok h' -> rec0 h -> rec0 h'.
Proof using LAWS.
  induction ls as [|l ls IH]; intros h np h' H Hr; cbn in H; [by injection H as <-|].
  apply bind_inv in H as (pt & Hpt & H). apply bind_inv in H as (qs & Hqs & H). apply bind_inv in H as (h1 & H1 & H).
  apply unwrap_inv in Hpt, Hqs. eapply IH; [exact H|]. eapply rev_many_rec; [exact H1| |done].
  apply Forall_forall. intros n Hn. eapply Hr; eauto. by eapply elem_of_list_lookup_2.
Qed.

Lemma push_point_rec h data oid level h' p : push_point h data oid level = Ok (h', p) -> rec0 h -> rec0 h'.
Proof using.
  clear. unfold push_point. intros H Hr. apply bind_inv in H as (ly & Hly & [= <- <-]). apply unwrap_inv in Hly.
  intros p1 pt1 nbs n Hg Hn Hin. apply get_pt_lookup in Hg as (ly1 & Hly1 & Hg). cbn in Hly1.
  destruct (decide (p1.1 = level)) as [E1|E1].
  2: { rewrite list_lookup_insert_ne in Hly1 by done. eapply Hr; eauto. apply get_pt_lookup. eauto. }
  rewrite E1, list_lookup_insert in Hly1 by (by eapply lookup_lt_Some). injection Hly1 as <-.
  apply lookup_app_Some in Hg as [Hg|[_ Hg]].
  - eapply (Hr p1 pt1); eauto. apply get_pt_lookup. exists ly. by rewrite E1.
  - apply list_lookup_singleton_Some in Hg as [_ <-]. unfold new_pt in Hn. cbn [pt_nbs] in Hn. apply elem_of_replicate in Hn as [-> _]. by apply elem_of_nil in Hin.
Qed.

Lemma check_rec P h np : recorded P h -> recorded P (check_entry_point h np).
Proof using. clear. unfold check_entry_point. intros H. destruct (entry_point h) as [e|]; [destruct (_ <? _)%nat|]; exact H. Qed.

Lemma insert_rec h v id d h' : insert_slice dist so h v id d = Ok h' -> rec0 h -> rec0 h'.
Proof using LAWS.
  intros H Hr. unfold insert_slice in H. apply bind_inv in H as ([[h0 np] rank] & H0 & H).
  unfold generate_new_point in H0. apply bind_inv in H0 as (lv & _ & H0). apply bind_inv in H0 as ([h1 p1] & H1 & H0). cbn in H0. injection H0 as <- <- _.
  apply push_point_rec in H1; [|done].
  assert (Hr0 : rec0 (set_nb_point (S (nb_point h1)) h1)) by exact H1.
  destruct (entry_point _) as [ep|]; [|injection H as <-; by apply check_rec].
  destruct (_ =? 1)%nat; [by injection H as <-|].
  apply bind_inv in H as (ept & _ & H). apply bind_inv in H as ([h2 ep1] & H2 & H). apply bind_inv in H as (h3 & H3 & H).
  apply bind_inv in H as (h4 & H4 & [= <-]).
  apply check_rec. eapply rev_layers_rec; [exact H4|]. eapply connect_rec; [exact H3|]. eapply descend_rec; [exact H2|]. exact Hr0.
Qed.
(** an index with a point has an entry point *)
Lemma insert_entry h v id d h' : insert_slice dist so h v id d = Ok h' -> (nb_point h <> 0%nat -> entry_point h <> None) -> entry_point h' <> None.
Proof using.
  clear. intros H Hr. unfold insert_slice in H. apply bind_inv in H as ([[h0 np] rank] & H0 & H).
  assert (Hce : forall h1 : hnsw (T:=T), entry_point (check_entry_point h1 np) <> None).
  { intros h1. unfold check_entry_point. destruct (entry_point h1) as [e|] eqn:E; [destruct (_ <? _)%nat; cbn; congruence|done]. }
  destruct (entry_point h0) as [ep|] eqn:E; [|injection H as <-; apply Hce].
  destruct (rank =? 1)%nat; [injection H as <-; congruence|].
  apply bind_inv in H as (ept & _ & H). apply bind_inv in H as ([h2 ep1] & H2 & H). apply bind_inv in H as (h3 & H3 & H).
  apply bind_inv in H as (h4 & H4 & [= <-]). apply Hce.
Qed.
End Neg.
