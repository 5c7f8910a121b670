(** Insertions that fail and insertions that return, on the same index. The table [g] has the points of [h], those of [J] (left behind by
    insertions that failed) without their links. *)
From stdpp Require Import relations.
From Verif Require Import Prelude Model Lib Table InsertProofs NegProofs Nan NanProofs.
Local Open Scope list_scope.

Section Rel.
Context {T : Type} (ndist : list T -> list T -> outcome (option Z)) (dist : list T -> list T -> Z) (so : StdOps) (LAWS : StdLaws so) (no : NanOps).
Context (NL : NanLaws so no).
Context (good : list T -> Prop).
Context (Hd : forall a b, good a -> good b -> ndist a b = Ok (Some (dist a b))).
Implicit Types (g h : hnsw (T:=T)).
Local Notation E := (emb so no NL).

Record rel (J : list pid) g h : Prop := {
  r_meta : same_meta g h;
  r_len : length <$> points_by_layer h = length <$> points_by_layer g;
  r_pt : forall p pt, p ∉ J -> get_pt g p = Some pt -> get_pt h p = Some pt /\ good (pt_data pt);
  r_link : forall p pt l nbs n, p ∉ J -> get_pt g p = Some pt -> pt_nbs pt !! l = Some nbs -> n ∈ nbs -> n_pid n ∉ J;
  r_junk : forall p, p ∈ J -> exists pt, get_pt g p = Some pt /\ (forall l nbs, pt_nbs pt !! l = Some nbs -> nbs = []);
  r_entry : forall ep, entry_point g = Some ep -> ep ∉ J
}.
Context (J : list pid).
Local Notation L := (fun p => p ∉ J).
Local Notation V := (vheap so L).

Lemma emptiness_rel g h l : rel J g h -> emptiness h l = emptiness g l.
Proof using.
  clear. intros [_ H _ _ _ _]. unfold emptiness. apply (f_equal (.!! l)) in H. rewrite !list_lookup_fmap in H.
  destruct (points_by_layer h !! l) as [[|]|], (points_by_layer g !! l) as [[|]|]; done.
Qed.
Lemma size_rel g h : rel J g h -> table_size h = table_size g.
Proof using. clear. intros H. apply table_size_fmap, H. Qed.

Lemma search_layer_R g h q ep ef layer filter r : rel J g h -> good q -> ep ∉ J ->
  search_layer dist so g q ep ef layer filter = Ok r -> nsearch_layer ndist no h q ep ef layer filter = Ok (E r) /\ V r.
Proof using Hd LAWS NL.
  intros H Hq Hep Hs. apply (search_layer_B ndist dist so LAWS no NL good Hd L g h); try done.
  - intros p pt Hp Hg. by apply (r_pt _ _ _ H).
  - intros p pt l nbs n Hp. by apply (r_link _ _ _ H).
  - by apply emptiness_rel.
  - by rewrite (size_rel _ _ H).
Qed.

Lemma upd_rel g h p l f g' : rel J g h -> p ∉ J -> upd_nbs g p l f = Ok g' ->
  (forall pt nbs n, get_pt g p = Some pt -> pt_nbs pt !! l = Some nbs -> n ∈ f nbs -> n_pid n ∉ J) ->
  exists h', upd_nbs h p l f = Ok h' /\ rel J g' h'.
Proof using.
  clear Hd LAWS. intros [R1 R2 R3 R4 R5 R6] Hp Hu Hf. apply upd_nbs_inv in Hu as (pt & nbs & G1 & G2 & G3 & G4 & (G5 & G6 & _)).
  destruct (R3 _ _ Hp G1) as [H1 Hgd]. destruct (upd_nbs_ok h p l f pt nbs H1 G2) as [h' Hu]. exists h'. split; [done|].
  apply upd_nbs_inv in Hu as (pt' & nbs' & H1' & H2 & H3 & H4 & (H5 & H6 & _)). assert (pt' = pt) as -> by congruence. assert (nbs' = nbs) as -> by congruence.
  split.
  - eapply same_meta_trans; [|exact H5]. eapply same_meta_trans; [|exact R1]. clear -G5. unfold same_meta in *. intuition congruence.
  - congruence.
  - intros p1 pt1 Hp1 Hg1. destruct (decide (p1 = p)) as [->|Hne].
    + rewrite G3 in Hg1. injection Hg1 as <-. split; [done|]. by destruct pt.
    + rewrite G4 in Hg1 by done. rewrite H4 by done. by apply R3.
  - intros p1 pt1 l1 nbs1 n Hp1 Hg1 Hn1 Hin. destruct (decide (p1 = p)) as [->|Hne].
    + rewrite G3 in Hg1. injection Hg1 as <-. cbn [set_pt_nbs pt_nbs] in Hn1. destruct (decide (l1 = l)) as [->|Hl].
      * rewrite list_lookup_insert in Hn1 by (by eapply lookup_lt_Some). injection Hn1 as <-. by eapply Hf.
      * rewrite list_lookup_insert_ne in Hn1 by done. by eapply R4.
    + rewrite G4 in Hg1 by done. by eapply R4.
  - intros p1 Hp1. rewrite G4 by (intros ->; done). by apply R5.
  - destruct G5 as (_ & _ & _ & _ & _ & _ & _ & -> & _). done.
Qed.

(** ** selection *)
Lemma V_pop c x c' : V c -> h_pop so c = Some (x, c') -> n_pid x ∉ J /\ V c'.
Proof using LAWS.
  clear Hd. intros Hv Hp. destruct (law_pop_some _ LAWS _ _ _ Hp) as [Hi _]. split.
  - apply Hv. rewrite Hi. by left.
  - intros y Hy. apply Hv. rewrite Hi. by right.
Qed.
Lemma V_push x c : n_pid x ∉ J -> V c -> V (h_push so x c).
Proof using LAWS. clear Hd. intros Hx Hv y Hy. rewrite (law_push _ LAWS) in Hy. apply elem_of_cons in Hy as [->|Hy]; [done|by apply Hv]. Qed.
Lemma V_empty : V (h_empty so).
Proof using LAWS. clear Hd. intros y Hy. rewrite (law_iter_empty _ LAWS) in Hy. by apply elem_of_nil in Hy. Qed.
Local Notation VL nv := (forall n, n ∈ nv -> n_pid n ∉ J).

Lemma from_positive_V hp neg : V hp -> from_positive_to_negative so hp = Ok neg -> V neg.
Proof using LAWS.
  clear Hd. unfold from_positive_to_negative. intros Hv. assert (Hv' : VL (h_iter so hp)) by done. clear Hv. revert neg Hv'.
  induction (h_iter so hp) as [|n l IH] using rev_ind; intros neg Hv H; [injection H as <-; apply V_empty|].
  rewrite foldl_app in H. cbn [foldl] in H. apply bind_inv in H as (n1 & H1 & H). apply IH in H1; [|intros; apply Hv; set_solver].
  apply bind_inv in H as (u & _ & [= <-]). apply V_push; [|done]. cbn. apply Hv. set_solver.
Qed.
Lemma transfer_V fuel : forall cand acc nv, V cand -> VL acc -> transfer so fuel cand acc = Ok nv -> VL nv.
Proof using LAWS.
  clear Hd. induction fuel as [|fuel IH]; intros cand acc nv Hv Ha H; cbn [transfer] in H; destruct (h_pop so cand) as [[p c']|] eqn:Ep; try done;
    try (by injection H as <-).
  destruct (V_pop _ _ _ Hv Ep) as [Hp Hc']. apply bind_inv in H as (u & _ & H). eapply IH; [exact Hc'| |exact H].
  intros n Hn. apply elem_of_app in Hn as [Hn| ->%elem_of_list_singleton]; [by apply Ha|done].
Qed.
Lemma add_new_V cset nbs : VL nbs -> forall acc, (forall p, p ∈ acc -> p ∉ J) -> forall p, p ∈ add_new_candidates cset nbs acc -> p ∉ J.
Proof using.
  clear. unfold add_new_candidates. induction nbs as [|n nbs IH] using rev_ind; intros Hn acc Ha p Hp; [by apply Ha|].
  rewrite foldl_app in Hp. cbn [foldl] in Hp. assert (Hn' : VL nbs) by (intros; apply Hn; set_solver).
  destruct (_ || _); [by eapply IH|]. apply elem_of_cons in Hp as [->|Hp]; [apply Hn; set_solver|by eapply IH].
Qed.
Lemma collect_R g h layer cset todo : rel J g h -> (forall p, p ∈ todo -> p ∉ J) -> forall acc news, (forall p, p ∈ acc -> p ∉ J) ->
  collect_new_candidates g layer cset todo acc = Ok news ->
  collect_new_candidates h layer cset todo acc = Ok news /\ (forall p, p ∈ news -> p ∉ J).
Proof using.
  clear Hd LAWS. intros R. induction todo as [|p todo IH]; intros Ht acc news Ha H; cbn [collect_new_candidates] in *; [by injection H as <-|].
  assert (Hp : p ∉ J) by (apply Ht; by left).
  apply bind_inv in H as (pt & Hpt & H). apply unwrap_inv in Hpt. destruct (r_pt _ _ _ R _ _ Hp Hpt) as [-> _]. cbn [unwrap mbind outcome_bind].
  apply bind_inv in H as (nbs & Hn & H). apply unwrap_inv in Hn. rewrite Hn. cbn [unwrap mbind outcome_bind].
  apply IH; [intros; apply Ht; by right| |done]. apply add_new_V; [|done]. intros n Hin. by eapply (r_link _ _ _ R).
Qed.
Lemma push_candidates_R g h data ps : rel J g h -> good data -> (forall p, p ∈ ps -> p ∉ J) -> forall cand c, V cand ->
  push_candidates dist so g data ps cand = Ok c -> npush_candidates ndist no h data ps (E cand) = Ok (E c) /\ V c.
Proof using Hd LAWS NL.
  intros R Hq. induction ps as [|p ps IH]; intros Hps cand c Hv H; cbn [npush_candidates push_candidates] in *; [by injection H as <-|].
  assert (Hp : p ∉ J) by (apply Hps; by left).
  apply bind_inv in H as (pt & Hpt & H). apply unwrap_inv in Hpt. destruct (r_pt _ _ _ R _ _ Hp Hpt) as [-> Hgd]. cbn [unwrap mbind outcome_bind].
  rewrite (Hd data (pt_data pt)) by done. cbn [mbind outcome_bind nneg fmap option_fmap option_map]. rewrite (emb_push _ _ NL). cbn [mbind outcome_bind].
  apply IH; [intros; apply Hps; by right| |done]. by apply V_push.
Qed.
Lemma extend_R g h data layer cand c : rel J g h -> good data -> V cand ->
  extend_cands dist so g data layer cand = Ok c -> nextend ndist so no h data layer (E cand) = Ok (E c) /\ V c.
Proof using Hd LAWS NL.
  intros R Hq Hv H. unfold nextend. unfold extend_cands in H. rewrite (emb_iter _ _ NL).
  replace (fst <$> (lift_nbr <$> h_iter so cand)) with (n_pid <$> h_iter so cand) by (rewrite <- list_fmap_compose; done).
  assert (Hcs : forall p, p ∈ remove_dups (n_pid <$> h_iter so cand) -> p ∉ J).
  { intros p Hp. apply elem_of_remove_dups, elem_of_list_fmap in Hp as (x & -> & Hx). by apply Hv. }
  apply bind_inv in H as (news & Hn & H). apply (collect_R g h) in Hn as [-> Hnw]; [|done| |by intros ? ?%elem_of_nil].
  2: { intros p Hp. apply Hcs. by rewrite (law_miter _ LAWS) in Hp. }
  cbn [mbind outcome_bind]. apply (push_candidates_R g h); try done. intros p Hp. apply Hnw. by rewrite (law_miter _ LAWS) in Hp.
Qed.
Lemma dominated_R g h ev b nv r : rel J g h -> good ev -> VL nv -> dominated dist g ev b nv = Ok r -> ndominated ndist h ev b nv = Ok r.
Proof using Hd.
  intros R Hq. induction nv as [|d nv IH]; intros Hv H; cbn [ndominated dominated] in *; [done|].
  apply bind_inv in H as (pt & Hpt & H). apply unwrap_inv in Hpt. destruct (r_pt _ _ _ R _ _ (Hv d (elem_of_list_here _ _)) Hpt) as [-> Hgd].
  cbn [unwrap mbind outcome_bind]. rewrite (Hd ev (pt_data pt)) by done. cbn [mbind outcome_bind nle]. destruct (_ <=? _)%Z; [done|].
  apply IH; [|done]. intros n Hn. apply Hv. by right.
Qed.
Lemma select_loop_R g h asked keep fuel : rel J g h -> forall cand nv disc nv' disc', V cand -> VL nv -> V disc ->
  select_loop dist so fuel g asked keep cand nv disc = Ok (nv', disc') ->
  nselect_loop ndist no fuel h asked keep (E cand) nv (E disc) = Ok (nv', E disc') /\ VL nv' /\ V disc'.
Proof using Hd LAWS NL.
  intros R. induction fuel as [|fuel IH]; intros cand nv disc nv' disc' Hc Hv Hdi H; cbn [nselect_loop select_loop] in *;
    (destruct (length nv <? asked)%nat; [|by injection H as <- <-]); rewrite (emb_pop _ _ NL); cbn [mbind outcome_bind];
    destruct (h_pop so cand) as [[e c']|] eqn:Ep; try done; try (by injection H as <- <-).
  cbn [fmap option_fmap option_map fst snd lift_nbr]. destruct (V_pop _ _ _ Hc Ep) as [He Hc'].
  apply bind_inv in H as (ept & Hept & H). apply unwrap_inv in Hept. destruct (r_pt _ _ _ R _ _ He Hept) as [-> Hgd].
  cbn [unwrap mbind outcome_bind passed]. apply bind_inv in H as (u & Hu & H). destruct (n_dist e <=? 0)%Z; [|done]. clear Hu. cbn [mbind outcome_bind].
  apply bind_inv in H as (dom & Hdom & H). rewrite (dominated_R g h _ _ _ _ R Hgd Hv Hdom). cbn [mbind outcome_bind]. destruct dom.
  - destruct keep; cbn [mbind outcome_bind]; [|by apply IH]. unfold lift_nbr. rewrite (emb_push _ _ NL). cbn [mbind outcome_bind].
    apply IH; try done. by apply V_push.
  - apply IH; try done. intros n Hn. apply elem_of_app in Hn as [Hn| ->%elem_of_list_singleton]; [by apply Hv|done].
Qed.
Lemma keep_loop_V asked fuel : forall nv disc r, VL nv -> V disc -> keep_loop so fuel asked nv disc = Ok r -> VL r.
Proof using LAWS.
  clear Hd. induction fuel as [|fuel IH]; intros nv disc r Hv Hdi H; cbn [keep_loop] in H;
    (destruct (length nv <? asked)%nat; [|by injection H as <-]);
    destruct (h_pop so disc) as [[e c']|] eqn:Ep; try done; try (by injection H as <-).
  destruct (V_pop _ _ _ Hdi Ep) as [He Hc']. apply bind_inv in H as (u & Hu & H). eapply IH; [|exact Hc'|exact H].
  intros n Hn. apply elem_of_app in Hn as [Hn| ->%elem_of_list_singleton]; [by apply Hv|done].
Qed.
Lemma select_R g h data cand asked ext layer keep nv : rel J g h -> good data -> V cand ->
  select_neighbours dist so g data cand asked ext layer keep = Ok nv ->
  nselect ndist so no h data (E cand) asked ext layer keep = Ok nv /\ VL nv.
Proof using Hd LAWS NL.
  intros R Hq Hv H. unfold nselect. unfold select_neighbours in H. rewrite !(len_E so no NL). destruct (_ && _).
  { rewrite (transfer_E so no NL). split; [done|]. eapply transfer_V; [exact Hv| |exact H]. by intros ? ?%elem_of_nil. }
  apply bind_inv in H as (c1 & Hc1 & H).
  assert (H1 : (if (h_len so cand <=? asked)%nat then nextend ndist so no h data layer (E cand) else Ok (E cand)) = Ok (E c1) /\ V c1).
  { destruct (h_len so cand <=? asked)%nat; [by apply (extend_R g h)|]. by injection Hc1 as <-. }
  destruct H1 as [-> Hv1]. cbn [mbind outcome_bind]. rewrite (len_E so no NL), <- (emb_empty _ _ NL).
  apply bind_inv in H as ([nv1 disc] & Hs & H). destruct (select_loop_R g h _ _ _ R _ _ _ _ _ Hv1 ltac:(by intros ? ?%elem_of_nil) V_empty Hs) as (-> & Hn1 & Hd1).
  cbn [mbind outcome_bind]. rewrite (len_E so no NL). destruct keep; [|by injection H as <-]. rewrite (keep_loop_E so no NL). split; [done|].
  eapply keep_loop_V; [exact Hn1|exact Hd1|exact H].
Qed.

(** ** insertion *)
Lemma descend_use_R g h np data l sorted ep dte g1 ep1 d1 : rel J g h -> good data -> np ∉ J -> V sorted -> ep ∉ J ->
  descend_use dist so g np data l sorted ep dte = Ok (g1, ep1, d1) ->
  exists h1, ndescend_use ndist no np data l (E sorted) ep (Some dte) h = (Ok (ep1, Some d1), h1) /\ rel J g1 h1 /\ ep1 ∉ J.
Proof using Hd LAWS NL.
  intros R Hq Hnp Hv Hep H. unfold ndescend_use. unfold descend_use in H. rewrite (len_E so no NL). destruct (1 <? h_len so sorted)%nat; [done|].
  unfold sbind, sread, sput, sret. rewrite (emb_pop _ _ NL). destruct (h_pop so sorted) as [[e r]|] eqn:Ep; cbn [fmap option_fmap option_map].
  2: { injection H as <- <- <-. eexists; done. }
  cbn [fst snd lift_nbr unwrap]. destruct (V_pop _ _ _ Hv Ep) as [He _].
  assert (Hee : Nbr (n_pid e) (n_dist e) = e) by (by destruct e). rewrite Hee. clear Hee.
  apply bind_inv in H as (g2 & Hg2 & H). unfold push_upper in Hg2.
  assert (HM : get_max_nb_connection h = get_max_nb_connection g).
  { unfold get_max_nb_connection. destruct (r_meta _ _ _ R) as (_ & -> & _). done. }
  destruct (upd_rel g h np l _ g2 R Hnp Hg2) as (h2 & Hh2 & R2).
  { intros pt nbs n Hpt Hn Hin. destruct (_ <? _)%nat; [|exact (r_link _ _ _ R _ _ _ _ _ Hnp Hpt Hn Hin)].
    apply elem_of_app in Hin as [Hin| ->%elem_of_list_singleton]; [exact (r_link _ _ _ R _ _ _ _ _ Hnp Hpt Hn Hin)|done]. }
  unfold push_upper. rewrite HM, Hh2. cbn [mbind outcome_bind]. apply bind_inv in H as (ept & Hept & H). apply unwrap_inv in Hept.
  destruct (r_pt _ _ _ R2 _ _ He Hept) as [-> Hgd]. cbn [unwrap mbind outcome_bind]. rewrite (Hd data (pt_data ept)) by done. cbn [mbind outcome_bind nlt].
  destruct (dist data (pt_data ept) <? dte)%Z; injection H as <- <- <-; eexists; done.
Qed.
Lemma descend_R ls : forall g h np data ep dte g1 ep1, rel J g h -> good data -> np ∉ J -> ep ∉ J ->
  descend dist so ls g np data ep dte = Ok (g1, ep1) ->
  exists h1, ndescend ndist no ls np data ep (Some dte) h = (Ok ep1, h1) /\ rel J g1 h1 /\ ep1 ∉ J.
Proof using Hd LAWS NL.
  induction ls as [|l ls IH]; intros g h np data ep dte g1 ep1 R Hq Hnp Hep H; cbn [ndescend descend] in *; [injection H as <- <-; eexists; done|].
  apply bind_inv in H as (sorted & Hs & H). unfold sbind at 1, sread at 1.
  destruct (search_layer_R g h _ _ _ _ _ _ R Hq Hep Hs) as [-> Hv]. apply bind_inv in H as ([[g2 ep2] d2] & Hu & H).
  destruct (descend_use_R g h np data l sorted ep dte g2 ep2 d2 R Hq Hnp Hv Hep Hu) as (h2 & Hh2 & R2 & Hep2).
  unfold sbind. rewrite Hh2. cbn [fst snd]. by eapply IH.
Qed.
Lemma connect_use_R g h np data l found ep g1 ep1 : rel J g h -> good data -> np ∉ J -> V found -> ep ∉ J ->
  connect_use dist so g np data l found ep = Ok (g1, ep1) ->
  exists h1, nconnect_use ndist so no np data l (E found) ep h = (Ok ep1, h1) /\ rel J g1 h1 /\ ep1 ∉ J.
Proof using Hd LAWS NL.
  intros R Hq Hnp Hv Hep H. unfold nconnect_use. unfold connect_use in H. unfold sbind, sread, sput, sret. rewrite (from_positive_E so no NL).
  apply bind_inv in H as (neg & Hneg & H). rewrite Hneg. cbn [fmap outcome_fmap mbind outcome_bind]. rewrite (len_E so no NL).
  destruct (h_len so neg =? 0)%nat; [injection H as <- <-; eexists; done|]. apply bind_inv in H as (nv & Hnv & H).
  assert (Hc : nb_conn h l = nb_conn g l /\ extend_c h l = extend_c g l /\ keep_pruned h = keep_pruned g).
  { destruct (r_meta _ _ _ R) as (_ & H1 & H2 & H3 & _). unfold nb_conn, extend_c. by rewrite H1, H2, H3. }
  destruct Hc as (-> & -> & ->). destruct (select_R g h _ _ _ _ _ _ _ R Hq (from_positive_V _ _ Hv Hneg) Hnv) as [-> Hvn].
  cbn [mbind outcome_bind]. apply bind_inv in H as (g2 & Hg2 & [= <- <-]).
  assert (Hvs : VL (u_sort so nbr n_dist nv)) by (intros n Hn; apply Hvn; by rewrite (law_usort_perm _ LAWS) in Hn).
  destruct (upd_rel g h np l _ g2 R Hnp Hg2) as (h2 & Hh2 & R2); [intros; by apply Hvs|].
  rewrite Hh2. cbn [mbind outcome_bind]. exists h2. split_and!; [done|done|]. destruct (u_sort so nbr n_dist nv) as [|n nv']; [done|]. apply Hvs. by left.
Qed.
Lemma connect_R ls : forall g h np data ep g1, rel J g h -> good data -> np ∉ J -> ep ∉ J ->
  connect dist so ls g np data ep = Ok g1 -> exists h1, nconnect ndist so no ls np data ep h = (Ok tt, h1) /\ rel J g1 h1.
Proof using Hd LAWS NL.
  induction ls as [|l ls IH]; intros g h np data ep g1 R Hq Hnp Hep H; cbn [nconnect connect] in *; [injection H as <-; eexists; done|].
  apply bind_inv in H as (found & Hs & H). unfold sbind at 1, sread at 1.
  assert (Hef : ef_construction h = ef_construction g) by (by destruct (r_meta _ _ _ R) as (? & _)). rewrite Hef.
  destruct (search_layer_R g h _ _ _ _ _ _ R Hq Hep Hs) as [-> Hv]. apply bind_inv in H as ([g2 ep2] & Hu & H).
  destruct (connect_use_R g h np data l found ep g2 ep2 R Hq Hnp Hv Hep Hu) as (h2 & Hh2 & R2 & Hep2).
  unfold sbind. rewrite Hh2. by eapply IH.
Qed.
Lemma rev_list_V th np d nbs : np ∉ J -> VL nbs -> VL (rev_list so th np d nbs).
Proof using LAWS.
  clear Hd. intros Hnp Hv. unfold rev_list. case_bool_decide; [done|].
  assert (H1 : VL (u_sort so nbr n_dist (nbs ++ [Nbr np d]))).
  { intros n Hn. rewrite (law_usort_perm _ LAWS) in Hn. apply elem_of_app in Hn as [Hn| ->%elem_of_list_singleton]; [by apply Hv|done]. }
  destruct (_ <? _)%nat; [|done]. intros n Hn. apply H1. by eapply elem_of_take in Hn as (? & ? & _); eauto using elem_of_list_lookup_2.
Qed.
Lemma rev_one_R g h np q g1 : rel J g h -> np ∉ J -> n_pid q ∉ J -> rev_one so g np q = Ok g1 ->
  exists h1, rev_one so h np q = Ok h1 /\ rel J g1 h1.
Proof using LAWS.
  clear Hd. intros R Hnp Hq H. unfold rev_one in *. case_bool_decide; [injection H as <-; eauto|].
  destruct (r_meta _ _ _ R) as (_ & -> & _). eapply upd_rel; [exact R|done|exact H|]. intros pt nbs n Hpt Hn. apply rev_list_V; [done|].
  intros n' Hn'. exact (r_link _ _ _ R _ _ _ _ _ Hq Hpt Hn Hn').
Qed.
Lemma rev_many_R qs : forall g h np g1, rel J g h -> np ∉ J -> VL qs -> rev_many so g np qs = Ok g1 ->
  exists h1, nrev_many so np qs h = (Ok tt, h1) /\ rel J g1 h1.
Proof using LAWS.
  clear Hd. induction qs as [|q qs IH]; intros g h np g1 R Hnp Hv H; cbn [nrev_many rev_many] in *; [injection H as <-; eexists; done|].
  apply bind_inv in H as (g2 & H1 & H). destruct (rev_one_R g h np q g2 R Hnp (Hv q (elem_of_list_here _ _)) H1) as (h2 & Hh2 & R2).
  unfold sbind, sput. rewrite Hh2. cbn [mbind outcome_bind]. eapply IH; [exact R2|done| |exact H]. intros n Hn. apply Hv. by right.
Qed.
Lemma rev_layers_R ls : forall g h np g1, rel J g h -> np ∉ J -> rev_layers so ls g np = Ok g1 ->
  exists h1, nrev_layers so ls np h = (Ok tt, h1) /\ rel J g1 h1.
Proof using LAWS.
  clear Hd. induction ls as [|l ls IH]; intros g h np g1 R Hnp H; cbn [nrev_layers rev_layers] in *; [injection H as <-; eexists; done|].
  apply bind_inv in H as (pt & Hpt & H). apply unwrap_inv in Hpt. apply bind_inv in H as (qs & Hqs & H). apply unwrap_inv in Hqs.
  apply bind_inv in H as (g2 & H1 & H). destruct (r_pt _ _ _ R _ _ Hnp Hpt) as [Hpt' _]. unfold sbind, sread. rewrite Hpt'. cbn [unwrap mbind outcome_bind].
  rewrite Hqs. cbn [unwrap mbind outcome_bind]. destruct (rev_many_R qs g h np g2 R Hnp) as (h2 & -> & R2); [intros n Hn; exact (r_link _ _ _ R _ _ _ _ _ Hnp Hpt Hqs Hn)|done|].
  by eapply IH.
Qed.
Lemma check_entry_R g h np : rel J g h -> np ∉ J -> rel J (check_entry_point g np) (check_entry_point h np).
Proof using.
  clear Hd LAWS. intros [R1 R2 R3 R4 R5 R6] Hnp. unfold check_entry_point. assert (He : entry_point h = entry_point g) by (by destruct R1 as (_ & _ & _ & _ & _ & _ & _ & ? & _)).
  assert (HS : rel J (set_entry (Some np) g) (set_entry (Some np) h)).
  { split; try done. - unfold same_meta in *. cbn. intuition congruence. - by intros ep [= <-]. }
  rewrite He. destruct (entry_point g) as [ep|] eqn:Eg; [|done]. destruct (_ <? _)%nat; [done|]. split; auto. by rewrite Eg.
Qed.

(** adding the same new point to both *)
Lemma generate_R g h data oid d g0 np rank : rel J g h -> good data -> generate_new_point g data oid d = Ok (g0, np, rank) ->
  exists h0, generate_new_point h data oid d = Ok (h0, np, rank) /\ rel J g0 h0 /\ np ∉ J.
Proof using.
  clear Hd LAWS. intros [R1 R2 R3 R4 R5 R6] Hq H. unfold generate_new_point in *. apply bind_inv in H as (lv & Hlv & H).
  pose proof R1 as (M1 & M2 & M3 & M4 & M5 & M6 & M7 & M8 & M9 & M10). rewrite M5, M6, Hlv. cbn [mbind outcome_bind].
  apply bind_inv in H as ([g1 p] & Hp & H). unfold incr_nb_point in *. cbn beta iota zeta in H. injection H as <- <- <-.
  assert (Hlen : length (points_by_layer h) = length (points_by_layer g)).
  { apply (f_equal length) in R2. by rewrite !fmap_length in R2. }
  assert (Hp' := Hp). apply push_point_inv in Hp' as (P1 & P2 & P3 & P4 & P5 & P6 & P7 & P8).
  destruct (push_point_ok h data oid lv) as [[h1 p'] Hh]; [by rewrite Hlen|].
  assert (Hh' := Hh). apply push_point_inv in Hh' as (Q1 & Q2 & Q3 & Q4 & Q5 & Q6 & Q7 & Q8).
  assert (Hsame : p' = p /\ length <$> points_by_layer h1 = length <$> points_by_layer g1).
  { unfold push_point in Hp, Hh. apply bind_inv in Hp as (ly & Hly & [= <- <-]). apply bind_inv in Hh as (ly' & Hly' & [= <- <-]).
    apply unwrap_inv in Hly, Hly'. assert (Hll : length ly' = length ly).
    { apply (f_equal (.!! lv)) in R2. rewrite !list_lookup_fmap, Hly, Hly' in R2. by injection R2. }
    cbn [points_by_layer set_layers]. rewrite !list_fmap_insert, !app_length, R2, Hll. done. }
  destruct Hsame as [-> Hfl]. rewrite Hh. cbn [mbind outcome_bind]. 
  assert (Hnp : p ∉ J). { intros Hin. destruct (R5 p Hin) as (pt & Hpt & _). congruence. }
  destruct P6 as (N1 & N2 & N3 & N4 & N5 & N6 & N7 & N8 & N9 & N10). destruct Q6 as (O1 & O2 & O3 & O4 & O5 & O6 & O7 & O8 & O9 & O10).
  assert (HG : forall x, get_pt (set_nb_point (S (nb_point g1)) g1) x = get_pt g1 x) by done.
  assert (HH : forall x, get_pt (set_nb_point (S (nb_point h1)) h1) x = get_pt h1 x) by done.
  exists (set_nb_point (S (nb_point h1)) h1). split; [do 3 f_equal; congruence|]. split; [|done]. split.
  - unfold same_meta. cbn. split_and!; congruence.
  - done.
  - intros p1 pt1 Hp1. rewrite HG, HH. destruct (decide (p1 = p)) as [->|Hne].
    + rewrite P4. intros [= <-]. done.
    + rewrite P5, Q5 by done. by apply R3.
  - intros p1 pt1 l nbs n Hp1. rewrite HG. destruct (decide (p1 = p)) as [->|Hne].
    + rewrite P4. intros [= <-] Hn Hin. apply new_pt_nbs in Hn as ->. by apply elem_of_nil in Hin.
    + rewrite P5 by done. by apply R4.
  - intros p1 Hp1. rewrite HG, P5 by congruence. by apply R5.
  - cbn. by rewrite N8.
Qed.

(** An insertion that returns on [g] returns on [h]. *)
Lemma insert_R g h data oid d g1 : rel J g h -> good data -> insert_slice dist so g data oid d = Ok g1 ->
  exists h1, ninsert ndist so no data oid d h = (Ok tt, h1) /\ rel J g1 h1.
Proof using Hd LAWS NL.
  intros R Hq H. unfold insert_slice in H. apply bind_inv in H as ([[g0 np] rank] & Hg & H).
  destruct (generate_R g h data oid d g0 np rank R Hq Hg) as (h0 & Hh & R0 & Hnp). unfold ninsert. unfold sbind at 1, sput at 1. rewrite Hh. cbn [mbind outcome_bind].
  unfold sbind at 1, sread at 1. assert (He : entry_point h0 = entry_point g0) by (by destruct (r_meta _ _ _ R0) as (_ & _ & _ & _ & _ & _ & _ & ? & _)).
  rewrite He. destruct (entry_point g0) as [ep|] eqn:Eg.
  2: { injection H as <-. unfold sput. eexists. split; [done|]. by apply check_entry_R. }
  assert (Hep := r_entry _ _ _ R0 _ Eg).
  destruct (rank =? 1)%nat; [injection H as <-; eexists; done|]. apply bind_inv in H as (ept & Hept & H). apply unwrap_inv in Hept.
  unfold sbind at 1, sread at 1. destruct (r_pt _ _ _ R0 _ _ Hep Hept) as [-> Hge]. cbn [unwrap].
  unfold sbind at 1, sread at 1. rewrite (Hd data (pt_data ept)) by done.
  apply bind_inv in H as ([g2 ep2] & H2 & H). apply bind_inv in H as (g3 & H3 & H). apply bind_inv in H as (g4 & H4 & [= <-]).
  destruct (descend_R _ g0 h0 np data ep _ g2 ep2 R0 Hq Hnp Hep H2) as (h2 & Hh2 & R2 & Hep2). unfold sbind at 1. rewrite Hh2.
  destruct (connect_R _ g2 h2 np data ep2 g3 R2 Hq Hnp Hep2 H3) as (h3 & Hh3 & R3). unfold sbind at 1. rewrite Hh3.
  destruct (rev_layers_R _ g3 h3 np g4 R3 Hnp H4) as (h4 & Hh4 & R4). unfold sbind. rewrite Hh4. unfold sput.
  eexists. split; [done|]. by apply check_entry_R.
Qed.

Lemma search_R g h q k ef filter r : rel J g h -> good q -> search_filter dist so g q k ef filter = Ok r ->
  nsearch_filter ndist no h q k ef filter = Ok (En <$> r) /\ (forall a, a ∈ r -> p_id a ∉ J).
Proof using Hd LAWS NL.
  intros R Hq Hs. pose proof (r_meta _ _ _ R) as (M1 & M2 & M3 & M4 & M5 & M6 & M7 & M8 & M9 & M10).
  apply (search_B ndist dist so LAWS no NL good Hd L g h); try done.
  - intros p pt Hp Hg. by apply (r_pt _ _ _ R).
  - intros p pt l nbs n Hp. by apply (r_link _ _ _ R).
  - intros ep. apply (r_entry _ _ _ R).
  - unfold layer_to_search. pose proof (r_len _ _ _ R) as Hl. generalize 0%nat. revert Hl. generalize (points_by_layer h), (points_by_layer g). clear.
    intros l1. induction l1 as [|x l1 IH]; intros [|y l2] Hl n; try done. injection Hl as H1 H2. cbn [lowest_from].
    destruct x, y; try done. by apply IH.
  - intros l _. by apply emptiness_rel.
  - by rewrite (size_rel _ _ R).
Qed.
End Rel.
