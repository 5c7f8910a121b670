(** Nan.v agrees with Model.v when no distance is a NaN; what a NaN does at the start of a search. *)
From stdpp Require Import relations.
From Verif Require Import Prelude Model Lib Table NegProofs Nan.
Local Open Scope list_scope.

Section Agree.
Context {T : Type} (ndist : list T -> list T -> outcome (option Z)) (dist : list T -> list T -> Z) (so : StdOps) (no : NanOps).
Context (NL : NanLaws so no).
Context (good : list T -> Prop).
Context (Hd : forall a b, good a -> good b -> ndist a b = Ok (Some (dist a b))).
Implicit Types (h : hnsw (T:=T)).
Local Notation E := (emb so no NL).
Definition all_good h : Prop := forall p pt, get_pt h p = Some pt -> good (pt_data pt).

Lemma peek_E hp : nh_peek no (E hp) = Ok (lift_nbr <$> h_peek so hp).
Proof using. clear. unfold nh_peek, h_peek. rewrite (emb_pop _ _ NL). by destruct (h_pop so hp) as [[x r]|]. Qed.
Lemma len_E hp : nh_len no (E hp) = h_len so hp.
Proof using. clear. unfold nh_len, h_len. rewrite (emb_iter _ _ NL). by rewrite fmap_length. Qed.
Lemma shrink_E ef r : nshrink no ef (E r) = Ok (E (shrink_ret so ef r)).
Proof using.
  clear. unfold nshrink, shrink_ret. rewrite len_E. destruct (ef <? h_len so r)%nat; [|done]. rewrite (emb_pop _ _ NL).
  by destruct (h_pop so r) as [[x r']|].
Qed.
Lemma push_ret_E h filter e oid ed ret : npush_ret no h filter e oid (Some ed) (E ret) = E <$> push_ret so h filter e oid ed ret.
Proof using.
  clear. unfold npush_ret, push_ret. destruct filter as [flt|]; [|apply (emb_push _ _ NL)].
  destruct (flt oid); [|done]. rewrite len_E. destruct (h_len so ret =? 1)%nat.
  - rewrite peek_E. cbn [mbind outcome_bind]. destruct (h_peek so ret) as [o|]; [|done].
    cbn [mbind outcome_bind fmap option_fmap option_map unwrap]. cbn [lift_nbr fst]. destruct (get_pt h (n_pid o)) as [opt|]; [|done].
    cbn [mbind outcome_bind unwrap]. destruct (flt (pt_oid opt)); [apply (emb_push _ _ NL)|].
    rewrite <- (emb_empty _ _ NL). apply (emb_push _ _ NL).
  - cbn [mbind outcome_bind]. apply (emb_push _ _ NL).
Qed.

Definition Es (s : sst so) : nsst no := NSST no (E (s_ret so s)) (E (s_cand so s)) (s_vis so s).

Lemma scan_E h q ef filter nbs : all_good h -> good q -> forall s,
  nscan ndist no h q ef filter nbs (Es s) = (fun x => (x.1, Es x.2)) <$> scan_neighbours dist so h q ef filter nbs s.
Proof using Hd.
  intros Hg Hq. induction nbs as [|e nbs IH]; intros s; cbn [nscan scan_neighbours]; [done|].
  cbn [Es ns_ret ns_cand ns_vis]. case_bool_decide; [apply IH|].
  rewrite peek_E. cbn [mbind outcome_bind]. destruct (h_peek so (s_ret so s)) as [f|]; [|done].
  cbn [fmap option_fmap option_map]. destruct (get_pt h (n_pid e)) as [ept|] eqn:Ee; [|done].
  cbn [mbind outcome_bind unwrap]. rewrite (Hd q (pt_data ept)) by eauto. cbn [mbind outcome_bind]. cbn [nlt lift_nbr snd]. rewrite len_E.
  destruct ((dist q (pt_data ept) <? n_dist f)%Z || (h_len so (s_ret so s) <? ef)%nat).
  - cbn [nneg fmap option_fmap option_map ns_cand]. rewrite (emb_push _ _ NL). cbn [mbind outcome_bind]. rewrite push_ret_E.
    destruct (push_ret so h filter (n_pid e) (pt_oid ept) (dist q (pt_data ept)) (s_ret so s)) as [ret| | | | |]; try done.
    cbn [fmap outcome_fmap mbind outcome_bind]. rewrite shrink_E. cbn [mbind outcome_bind]. apply (IH (SST so _ _ _)).
  - apply (IH (SST so _ _ _)).
Qed.

Definition Er (x : heap so + sst so) : nheap no + nsst no := match x with inl r => inl (E r) | inr s => inr (Es s) end.
Lemma iter_E h q ef layer filter s : all_good h -> good q ->
  nsearch_iter ndist no h q ef layer filter (Es s) = Er <$> search_iter dist so h q ef layer filter s.
Proof using Hd.
  intros Hg Hq. unfold nsearch_iter, search_iter. cbn [Es ns_cand ns_ret]. rewrite (emb_pop _ _ NL). cbn [mbind outcome_bind].
  destruct (h_pop so (s_cand so s)) as [[c cand']|]; [|done]. cbn [fmap option_fmap option_map fst snd].
  rewrite peek_E. cbn [mbind outcome_bind]. destruct (h_peek so (s_ret so s)) as [f|]; [|done].
  cbn [fmap option_fmap option_map unwrap mbind outcome_bind lift_nbr fst snd nle nlt nneg].
  destruct (0 <=? n_dist f)%Z; [|done]. cbn [assert_ mbind outcome_bind]. destruct (n_dist c <=? 0)%Z; [|done]. cbn [assert_ mbind outcome_bind].
  rewrite len_E. destruct ((n_dist f <? - n_dist c)%Z && _); [done|].
  destruct (get_pt h (n_pid c)) as [cpt|]; [|done]. cbn [unwrap mbind outcome_bind].
  destruct (pt_nbs cpt !! layer) as [nbs|]; [|done]. cbn [unwrap mbind outcome_bind]. cbn [ns_vis].
  pose proof (scan_E h q ef filter nbs Hg Hq (SST so (s_ret so s) cand' (s_vis so s))) as Hs. unfold Es in Hs at 1. cbn [s_ret s_cand s_vis] in Hs.
  cbn [ns_vis Es]. rewrite Hs. destruct (scan_neighbours _ _ _ _ _ _ _ _) as [[b s']| | | | |]; try done.
  by destruct b.
Qed.
Lemma loop_E h q ef layer filter fuel : all_good h -> good q -> forall s,
  nsearch_loop ndist no fuel h q ef layer filter (Es s) = E <$> search_loop dist so fuel h q ef layer filter s.
Proof using Hd.
  intros Hg Hq. induction fuel as [|fuel IH]; intros s; cbn [nsearch_loop search_loop]; [done|].
  rewrite iter_E by done. destruct (search_iter dist so h q ef layer filter s) as [[r|s']| | | | |]; try done. apply IH.
Qed.
Lemma search_layer_E h q ep ef layer filter : all_good h -> good q ->
  nsearch_layer ndist no h q ep ef layer filter = E <$> search_layer dist so h q ep ef layer filter.
Proof using Hd.
  intros Hg Hq. unfold nsearch_layer, search_layer. destruct (points_by_layer h !! layer) as [[|x ly]|]; [|..|done].
  { cbn [fmap outcome_fmap]. by rewrite (emb_empty _ _ NL). }
  unfold nsearch_init, search_init. destruct (get_pt h ep) as [ept|] eqn:Ee; [|done]. cbn [unwrap mbind outcome_bind].
  rewrite (Hd q (pt_data ept)) by eauto. cbn [mbind outcome_bind]. cbn [nneg fmap option_fmap option_map]. rewrite <- (emb_empty _ _ NL), !(emb_push _ _ NL).
  cbn [mbind outcome_bind]. apply (loop_E h q ef layer filter (S (table_size h)) Hg Hq (SST so _ _ _)).
Qed.

(** ** search *)
Definition En (n : neighbour) : nneighbour := NNeighbour (d_id n) (Some (distance n)) (p_id n).
Lemma pivot_scan_E h q nbs pv d : all_good h -> good q ->
  npivot_scan ndist h q nbs pv (Some d) = (fun x : pid * Z => (x.1, Some x.2)) <$> pivot_scan dist h q nbs pv d.
Proof using Hd.
  intros Hg Hq. unfold npivot_scan, pivot_scan. induction nbs as [|n nbs IH] using rev_ind; [done|].
  rewrite !foldl_app. cbn [foldl]. rewrite IH. destruct (foldl _ (Ok (pv, d)) nbs) as [[p1 d1]| | | | |]; try done.
  cbn [fmap outcome_fmap mbind outcome_bind fst snd]. destruct (get_pt h (n_pid n)) as [npt|] eqn:En; [|done].
  cbn [unwrap mbind outcome_bind]. rewrite (Hd q (pt_data npt)) by eauto. cbn [mbind outcome_bind]. cbn [nlt]. by destruct (_ <? _)%Z.
Qed.
Lemma pivot_descend_E h q ls : all_good h -> good q -> forall pv d,
  npivot_descend ndist ls h q pv (Some d) = pivot_descend dist ls h q pv d.
Proof using Hd.
  intros Hg Hq. induction ls as [|l ls IH]; intros pv d; cbn [npivot_descend pivot_descend]; [done|].
  destruct (get_pt h pv) as [pt|]; [|done]. cbn [unwrap mbind outcome_bind]. destruct (pt_nbs pt !! l) as [nbs|]; [|done].
  cbn [unwrap mbind outcome_bind]. rewrite pivot_scan_E by done. destruct (pivot_scan dist h q nbs pv d) as [[p1 d1]| | | | |]; try done.
  apply IH.
Qed.
Lemma find_pivot_E h q ep : all_good h -> good q -> nfind_pivot ndist h q ep = find_pivot dist h q ep.
Proof using Hd.
  intros Hg Hq. unfold nfind_pivot, find_pivot. destruct (get_pt h ep) as [ept|] eqn:Ee; [|done]. cbn [unwrap mbind outcome_bind].
  rewrite (Hd q (pt_data ept)) by eauto. cbn [mbind outcome_bind]. by apply pivot_descend_E.
Qed.
Lemma answers_E h l : mapM (nto_answer h) (lift_nbr <$> l) = fmap (M:=list) En <$> mapM (to_answer h) l.
Proof using.
  clear. induction l as [|n l IH]; [done|]. rewrite fmap_cons. cbn [mapM]. rewrite IH.
  assert (H1 : nto_answer h (lift_nbr n) = En <$> to_answer h n).
  { unfold nto_answer, to_answer. cbn [lift_nbr fst snd]. by destruct (get_pt h (n_pid n)). }
  rewrite H1. destruct (to_answer h n); try done. cbn [fmap outcome_fmap mbind outcome_bind]. by destruct (mapM (to_answer h) l).
Qed.
Lemma search_E h q k ef filter : all_good h -> good q ->
  nsearch_filter ndist no h q k ef filter = fmap (M:=list) En <$> search_filter dist so h q k ef filter.
Proof using Hd NL.
  intros Hg Hq. unfold nsearch_filter, search_filter. destruct (entry_point h) as [ep|]; [|done].
  rewrite find_pivot_E by done. destruct (find_pivot dist h q ep) as [pv| | | | |]; try done. cbn [mbind outcome_bind].
  destruct (layer_to_search h) as [l| | | | |]; try done. cbn [mbind outcome_bind]. rewrite search_layer_E by done.
  destruct (search_layer dist so h q pv _ l filter) as [hp| | | | |]; try done. cbn [fmap outcome_fmap mbind outcome_bind].
  rewrite (emb_sorted _ _ NL). cbn [mbind outcome_bind]. rewrite fmap_length, <- fmap_take. apply answers_E.
Qed.

(** ** insertion *)
Lemma from_positive_E hp : nfrom_positive no (E hp) = E <$> from_positive_to_negative so hp.
Proof using.
  clear. unfold nfrom_positive, from_positive_to_negative. rewrite (emb_iter _ _ NL).
  induction (h_iter so hp) as [|n l IH] using rev_ind; [cbn; by rewrite (emb_empty _ _ NL)|].
  rewrite fmap_app, !foldl_app. cbn [fmap list_fmap foldl]. rewrite IH. destruct (foldl _ (Ok (h_empty so)) l) as [neg| | | | |]; try done.
  cbn [fmap outcome_fmap mbind outcome_bind lift_nbr fst snd nle]. destruct (0 <=? n_dist n)%Z; [|done]. cbn [assert_ mbind outcome_bind].
  cbn [nneg fmap option_fmap option_map]. apply (emb_push _ _ NL).
Qed.
Lemma transfer_E fuel : forall cand acc, ntransfer no fuel (E cand) acc = transfer so fuel cand acc.
Proof using.
  clear. induction fuel as [|fuel IH]; intros cand acc; cbn [ntransfer transfer]; rewrite (emb_pop _ _ NL); cbn [mbind outcome_bind];
    destruct (h_pop so cand) as [[p c']|]; try done.
  cbn [fmap option_fmap option_map fst snd lift_nbr passed]. 
  replace (0 <=? - n_dist p)%Z with (n_dist p <=? 0)%Z by lia. destruct (n_dist p <=? 0)%Z; [|done]. cbn [assert_ mbind outcome_bind]. apply IH.
Qed.
Lemma push_candidates_E h data ps : all_good h -> good data -> forall cand,
  npush_candidates ndist no h data ps (E cand) = E <$> push_candidates dist so h data ps cand.
Proof using Hd.
  intros Hg Hq. induction ps as [|p ps IH]; intros cand; cbn [npush_candidates push_candidates]; [done|].
  destruct (get_pt h p) as [pt|] eqn:Ep; [|done]. cbn [unwrap mbind outcome_bind]. rewrite (Hd data (pt_data pt)) by eauto. cbn [mbind outcome_bind].
  cbn [nneg fmap option_fmap option_map]. rewrite (emb_push _ _ NL). cbn [mbind outcome_bind]. apply IH.
Qed.
Lemma extend_E h data layer cand : all_good h -> good data -> nextend ndist so no h data layer (E cand) = E <$> extend_cands dist so h data layer cand.
Proof using Hd.
  intros Hg Hq. unfold nextend, extend_cands. rewrite (emb_iter _ _ NL).
  replace (fst <$> (lift_nbr <$> h_iter so cand)) with (n_pid <$> h_iter so cand) by (rewrite <- list_fmap_compose; done).
  destruct (collect_new_candidates _ _ _ _ _) as [news| | | | |]; try done. cbn [mbind outcome_bind]. by apply push_candidates_E.
Qed.
Lemma dominated_E h ev b nv : all_good h -> good ev -> ndominated ndist h ev b nv = dominated dist h ev b nv.
Proof using Hd.
  intros Hg Hq. induction nv as [|d nv IH]; cbn [ndominated dominated]; [done|].
  destruct (get_pt h (n_pid d)) as [dpt|] eqn:Ep; [|done]. cbn [unwrap mbind outcome_bind]. rewrite (Hd ev (pt_data dpt)) by eauto. cbn [mbind outcome_bind].
  cbn [nle]. by rewrite IH.
Qed.
Lemma select_loop_E h asked keep fuel : all_good h -> forall cand nv disc,
  nselect_loop ndist no fuel h asked keep (E cand) nv (E disc) = (fun x : list nbr * heap so => (x.1, E x.2)) <$> select_loop dist so fuel h asked keep cand nv disc.
Proof using Hd.
  intros Hg. induction fuel as [|fuel IH]; intros cand nv disc; cbn [nselect_loop select_loop];
    (destruct (length nv <? asked)%nat; [|done]); rewrite (emb_pop _ _ NL); cbn [mbind outcome_bind];
    destruct (h_pop so cand) as [[e c']|]; try done.
  cbn [fmap option_fmap option_map fst snd lift_nbr]. destruct (get_pt h (n_pid e)) as [ept|] eqn:Ep; [|done].
  cbn [unwrap mbind outcome_bind passed]. destruct (n_dist e <=? 0)%Z; [|done]. cbn [assert_ mbind outcome_bind].
  rewrite dominated_E by eauto. destruct (dominated dist h (pt_data ept) (- n_dist e) nv) as [[]| | | | |]; try done.
  - cbn [mbind outcome_bind]. destruct keep; cbn [mbind outcome_bind]; [|apply IH]. unfold lift_nbr. rewrite (emb_push _ _ NL). cbn [mbind outcome_bind]. apply IH.
  - cbn [mbind outcome_bind]. apply IH.
Qed.
Lemma keep_loop_E asked fuel : forall nv disc, nkeep_loop no fuel asked nv (E disc) = keep_loop so fuel asked nv disc.
Proof using.
  clear. induction fuel as [|fuel IH]; intros nv disc; cbn [nkeep_loop keep_loop];
    (destruct (length nv <? asked)%nat; [|done]); rewrite (emb_pop _ _ NL); cbn [mbind outcome_bind];
    destruct (h_pop so disc) as [[e c']|]; try done.
  cbn [fmap option_fmap option_map fst snd lift_nbr passed]. destruct (n_dist e <=? 0)%Z; [|done]. cbn [assert_ mbind outcome_bind]. apply IH.
Qed.
Lemma select_E h data cand asked ext layer keep : all_good h -> good data ->
  nselect ndist so no h data (E cand) asked ext layer keep = select_neighbours dist so h data cand asked ext layer keep.
Proof using Hd.
  intros Hg Hq. unfold nselect, select_neighbours. rewrite !len_E. destruct (_ && _); [apply transfer_E|].
  assert (H1 : (if (h_len so cand <=? asked)%nat then nextend ndist so no h data layer (E cand) else Ok (E cand)) =
               E <$> (if (h_len so cand <=? asked)%nat then extend_cands dist so h data layer cand else Ok cand)).
  { destruct (_ <=? _)%nat; [by apply extend_E|done]. }
  rewrite H1. clear H1. destruct (if (h_len so cand <=? asked)%nat then extend_cands dist so h data layer cand else Ok cand) as [c1| | | | |]; try done. cbn [fmap outcome_fmap mbind outcome_bind].
  rewrite len_E, <- (emb_empty _ _ NL), select_loop_E by done. destruct (select_loop _ _ _ _ _ _ _ _ _) as [[nv disc]| | | | |]; try done.
  cbn [fmap outcome_fmap mbind outcome_bind fst snd]. rewrite len_E. destruct keep; [|done]. apply keep_loop_E.
Qed.

(** the computation [m] on the index [h] gives what [o] gives: same outcome, and the state of [o] if it is Ok *)
Definition runs {A} (m : outcome A * hnsw (T:=T)) (o : outcome (hnsw (T:=T) * A)) : Prop :=
  match o with
  | Ok (h', a) => m = (Ok a, h')
  | Err => m.1 = Err
  | Panic => m.1 = Panic
  | Exit => m.1 = Exit
  | Fuel => m.1 = Fuel
  | UB => m.1 = UB
  end.
Lemma runs_bind {A B} (m : st (T:=T) A) (k : A -> st (T:=T) B) h o f :
  runs (m h) o -> (forall h' a, o = Ok (h', a) -> runs (k a h') (f (h', a))) -> runs (sbind m k h) (o ≫= f).
Proof using.
  clear. unfold sbind. intros H1 H2. destruct o as [[h' a]| | | | |]; cbn [runs] in H1; [rewrite H1; by apply H2|..];
    destruct (m h) as [r h1]; cbn [fst] in H1; subst r; done.
Qed.
Lemma runs_read {A} (f : hnsw (T:=T) -> outcome A) h : runs (sread f h) (a ← f h; Ok (h, a)).
Proof using. clear. unfold sread. by destruct (f h). Qed.
Lemma runs_put {A} (f : hnsw (T:=T) -> outcome (hnsw (T:=T) * A)) h : runs (sput f h) (f h).
Proof using. clear. unfold sput. by destruct (f h) as [[]| | | | |]. Qed.

Lemma bind_assoc {A B C} (m : outcome A) (f : A -> outcome B) (g : B -> outcome C) : ((m ≫= f) ≫= g) = (m ≫= fun a => f a ≫= g).
Proof using. clear. by destruct m. Qed.

Lemma good_upd h p l f h' : upd_nbs h p l f = Ok h' -> all_good h -> all_good h'.
Proof using.
  clear. intros H Hg. apply upd_nbs_inv in H as (pt & nbs & _ & _ & _ & _ & Hst). intros p1 pt1 Hp1.
  apply same_table_sym in Hst. destruct (same_table_get _ _ _ _ Hst Hp1) as (pt2 & Hp2 & <- & _). by apply (Hg p1).
Qed.

Lemma descend_use_E h np data l sorted ep dte : all_good h -> good data ->
  runs (ndescend_use ndist no np data l (E sorted) ep (Some dte) h)
       ('(h1, ep1, d1) ← descend_use dist so h np data l sorted ep dte; Ok (h1, (ep1, Some d1))) /\
  (forall h1 ep1 d1, descend_use dist so h np data l sorted ep dte = Ok (h1, ep1, d1) -> all_good h1).
Proof using Hd.
  intros Hg Hq. unfold ndescend_use, descend_use. rewrite len_E. destruct (1 <? h_len so sorted)%nat; [done|].
  unfold sbind, sread, sput, sret. rewrite (emb_pop _ _ NL). destruct (h_pop so sorted) as [[e r]|]; cbn [fmap option_fmap option_map].
  2: { split; [done|]. by intros ? ? ? [= <- _ _]. }
  cbn [fst snd lift_nbr unwrap].
  assert (He : Nbr (n_pid e) (n_dist e) = e) by (by destruct e). rewrite He. clear He.
  destruct (push_upper h np l e) as [h1| | | | |] eqn:Eu; try done. cbn [mbind outcome_bind].
  assert (Hg1 : all_good h1) by (by eapply good_upd).
  destruct (get_pt h1 (n_pid e)) as [ept|] eqn:Ee; [|done]. cbn [unwrap mbind outcome_bind].
  rewrite (Hd data (pt_data ept)) by eauto. cbn [mbind outcome_bind]. cbn [nlt]. destruct (dist data (pt_data ept) <? dte)%Z; (split; [done|]); by intros ? ? ? [= <- _ _].
Qed.

Lemma descend_E ls : forall h np data ep dte, all_good h -> good data ->
  runs (ndescend ndist no ls np data ep (Some dte) h) (descend dist so ls h np data ep dte) /\
  (forall h1 ep1, descend dist so ls h np data ep dte = Ok (h1, ep1) -> all_good h1).
Proof using Hd NL.
  induction ls as [|l ls IH]; intros h np data ep dte Hg Hq; cbn [ndescend descend]; [split; [done|]; by intros ? ? [= <- _]|].
  unfold sbind at 1, sread at 1. rewrite search_layer_E by done. destruct (search_layer dist so h data ep 1 l None) as [sorted| | | | |]; try done.
  cbn [fmap outcome_fmap mbind outcome_bind]. destruct (descend_use_E h np data l sorted ep dte Hg Hq) as [H1 H2].
  unfold sbind. destruct (descend_use dist so h np data l sorted ep dte) as [[[h1 ep1] d1]| | | | |]; cbn [mbind outcome_bind runs] in *.
  { rewrite H1. cbn [fst snd]. apply IH; [|done]. by eapply H2. }
  all: destruct (ndescend_use _ _ _ _ _ _ _ _ _) as [o hx]; cbn [fst] in H1; subst o; done.
Qed.

Lemma connect_use_E h np data l found ep : all_good h -> good data ->
  runs (nconnect_use ndist so no np data l (E found) ep h) (connect_use dist so h np data l found ep) /\
  (forall h1 ep1, connect_use dist so h np data l found ep = Ok (h1, ep1) -> all_good h1).
Proof using Hd.
  intros Hg Hq. unfold nconnect_use, connect_use. unfold sbind, sread, sput, sret. rewrite from_positive_E.
  destruct (from_positive_to_negative so found) as [neg| | | | |]; try done. cbn [fmap outcome_fmap mbind outcome_bind]. rewrite len_E.
  destruct (h_len so neg =? 0)%nat; [split; [done|]; by intros ? ? [= <- _]|]. rewrite select_E by done.
  destruct (select_neighbours _ _ _ _ _ _ _ _ _) as [nv| | | | |]; try done. cbn [mbind outcome_bind].
  destruct (upd_nbs h np l _) as [h1| | | | |] eqn:Eu; try done. cbn [mbind outcome_bind]. split; [done|]. intros ? ? [= <- _]. by eapply good_upd.
Qed.

Lemma connect_E ls : forall h np data ep, all_good h -> good data ->
  runs (nconnect ndist so no ls np data ep h) (h1 ← connect dist so ls h np data ep; Ok (h1, tt)) /\
  (forall h1, connect dist so ls h np data ep = Ok h1 -> all_good h1).
Proof using Hd NL.
  induction ls as [|l ls IH]; intros h np data ep Hg Hq; cbn [nconnect connect]; [split; [done|]; by intros ? [= <-]|].
  unfold sbind at 1, sread at 1. rewrite search_layer_E by done. destruct (search_layer dist so h data ep _ l None) as [found| | | | |]; try done.
  cbn [fmap outcome_fmap mbind outcome_bind]. destruct (connect_use_E h np data l found ep Hg Hq) as [H1 H2].
  unfold sbind. destruct (connect_use dist so h np data l found ep) as [[h1 ep1]| | | | |]; cbn [mbind outcome_bind runs] in *.
  { rewrite H1. apply IH; [|done]. by eapply H2. }
  all: destruct (nconnect_use _ _ _ _ _ _ _ _ _) as [o hx]; cbn [fst] in H1; subst o; done.
Qed.

Lemma rev_many_E qs : forall h np, runs (nrev_many (T:=T) so np qs h) (h1 ← rev_many so h np qs; Ok (h1, tt)).
Proof using.
  clear. induction qs as [|q qs IH]; intros h np; cbn [nrev_many rev_many]; [done|]. unfold sbind, sput.
  destruct (rev_one so h np q) as [h1| | | | |]; try done. apply IH.
Qed.
Lemma rev_layers_E ls : forall h np, runs (nrev_layers (T:=T) so ls np h) (h1 ← rev_layers so ls h np; Ok (h1, tt)).
Proof using.
  clear. induction ls as [|l ls IH]; intros h np; cbn [nrev_layers rev_layers]; [done|]. unfold sbind, sread.
  destruct (get_pt h np) as [pt|]; [|done]. cbn [unwrap mbind outcome_bind]. destruct (pt_nbs pt !! l) as [qs|]; [|done].
  cbn [unwrap mbind outcome_bind]. pose proof (rev_many_E qs h np) as H1.
  destruct (rev_many so h np qs) as [h1| | | | |]; cbn [mbind outcome_bind runs] in *.
  { rewrite H1. apply IH. }
  all: destruct (nrev_many _ _ _ _) as [o hx]; cbn [fst] in H1; subst o; done.
Qed.

Lemma insert_E h data oid d : all_good h -> good data ->
  runs (ninsert ndist so no data oid d h) (h1 ← insert_slice dist so h data oid d; Ok (h1, tt)).
Proof using Hd NL.
  intros Hg Hq. unfold ninsert, insert_slice. unfold sbind at 1, sput at 1.
  destruct (generate_new_point h data oid d) as [[[h0 np] rank]| | | | |] eqn:Eg; try done. cbn [mbind outcome_bind].
  assert (Hg0 : all_good h0).
  { unfold generate_new_point in Eg. apply bind_inv in Eg as (lv & _ & Eg). apply bind_inv in Eg as ([h1 p1] & H1 & [= <- <- _]).
    intros p pt Hp. change (get_pt h1 p = Some pt) in Hp. apply push_point_inv in H1 as (_ & _ & _ & Hn & Ho & _).
    destruct (decide (p = p1)) as [->|Hne]; [|rewrite Ho in Hp by done; by apply (Hg p)]. rewrite Hn in Hp. by injection Hp as <-. }
  unfold sbind at 1, sread at 1. destruct (entry_point h0) as [ep|]; [|done].
  destruct (rank =? 1)%nat; [done|]. unfold sbind at 1, sread at 1. destruct (get_pt h0 ep) as [ept|] eqn:Ee; [|done]. cbn [unwrap mbind outcome_bind].
  unfold sbind at 1, sread at 1. rewrite (Hd data (pt_data ept)) by eauto. cbn [mbind outcome_bind].
  destruct (descend_E (rev (seq (S np.1) (ep.1 - np.1))) h0 np data ep (dist data (pt_data ept)) Hg0 Hq) as [H1 H2].
  unfold sbind at 1. destruct (descend dist so _ h0 np data ep _) as [[h1 ep1]| | | | |]; cbn [mbind outcome_bind runs] in *.
  2-6: destruct (ndescend _ _ _ _ _ _ _ _) as [o hx]; cbn [fst] in H1; subst o; done.
  rewrite H1. destruct (connect_E (rev (seq 0 (S np.1))) h1 np data ep1) as [H3 H4]; [by eapply H2|done|].
  unfold sbind at 1. destruct (connect dist so _ h1 np data ep1) as [h2| | | | |]; cbn [mbind outcome_bind runs] in *.
  2-6: destruct (nconnect _ _ _ _ _ _ _ _) as [o hx]; cbn [fst] in H3; subst o; done.
  rewrite H3. pose proof (rev_layers_E (rev (seq 0 (S np.1))) h2 np) as H5. unfold reverse_update.
  unfold sbind. destruct (rev_layers so _ h2 np) as [h3| | | | |]; cbn [mbind outcome_bind runs] in *.
  2-6: destruct (nrev_layers _ _ _ _) as [o hx]; cbn [fst] in H5; subst o; done.
  rewrite H5. done.
Qed.
End Agree.

Section Start.
Context {T : Type} (ndist : list T -> list T -> outcome (option Z)) (so : StdOps) (LAWS : StdLaws so) (no : NanOps) (NL : NanLaws so no).
Implicit Types (h : hnsw (T:=T)).

(** what a distance function that gives no number does: NaN, or a panic *)
Definition no_number (d : outcome (option Z)) : Prop := d = Ok None \/ d = Panic.

(** a search that starts at a distance that is not a number panics *)
Lemma nan_start h q ep ept ef layer filter x ly : points_by_layer h !! layer = Some (x :: ly) -> get_pt h ep = Some ept ->
  no_number (ndist q (pt_data ept)) -> nsearch_layer ndist no h q ep ef layer filter = Panic.
Proof using NL.
  intros Hl Hep Hn. unfold nsearch_layer. rewrite Hl. unfold nsearch_init. rewrite Hep. cbn [unwrap mbind outcome_bind].
  destruct Hn as [-> | ->]; [|done]. cbn [mbind outcome_bind].
  cbn [nneg fmap option_fmap option_map]. rewrite (single_push _ _ NL). cbn [mbind outcome_bind nsearch_loop].
  unfold nsearch_iter. cbn [ns_cand ns_ret]. rewrite (single_pop _ _ NL). cbn [mbind outcome_bind]. unfold nh_peek.
  by rewrite (single_pop _ _ NL).
Qed.

Lemma nan_pivot h q nbs pv r : npivot_scan ndist h q nbs pv None = Ok r -> r = (pv, None).
Proof using.
  clear. unfold npivot_scan. revert r. induction nbs as [|n nbs IH] using rev_ind; intros r H; [by injection H as <-|].
  rewrite foldl_app in H. cbn [foldl] in H. apply bind_inv in H as (a & Ha & H). apply IH in Ha as ->.
  apply bind_inv in H as (npt & _ & H). apply bind_inv in H as (tmp & _ & [= <-]). by destruct tmp.
Qed.
Lemma nan_pivot_descend h q ls : forall pv r, npivot_descend ndist ls h q pv None = Ok r -> r = pv.
Proof using.
  clear. induction ls as [|l ls IH]; intros pv r H; cbn [npivot_descend] in H; [by injection H as <-|].
  apply bind_inv in H as (pt & _ & H). apply bind_inv in H as (nbs & _ & H). apply bind_inv in H as ([p1 d1] & H1 & H).
  apply nan_pivot in H1 as [= -> ->]. by apply IH.
Qed.

Lemma nan_search h q k ef filter ep ept : entry_point h = Some ep -> get_pt h ep = Some ept -> no_number (ndist q (pt_data ept)) ->
  forall r, nsearch_filter ndist no h q k ef filter <> Ok r.
Proof using NL.
  intros He Hep Hn r H. unfold nsearch_filter in H. rewrite He in H. apply bind_inv in H as (pv & Hpv & H).
  unfold nfind_pivot in Hpv. rewrite Hep in Hpv. cbn [unwrap mbind outcome_bind] in Hpv. apply bind_inv in Hpv as ([z|] & Hz & Hpv); [destruct Hn; congruence|].
  apply nan_pivot_descend in Hpv as ->.
  apply bind_inv in H as (l & Hl & H). apply lowest_nonempty in Hl as (x & ly & Hl & _). rewrite Nat.sub_0_r in Hl.
  apply bind_inv in H as (hp & Hhp & _). by rewrite (nan_start h q ep ept _ l filter x ly) in Hhp.
Qed.

(** a search with ef = 1, as made by the descent (l.1097-1104), gives no NaN *)
Lemma scan_found h q nbs : forall s r, nscan ndist no h q 1 None nbs (Es so no NL s) = Ok r -> exists s', r.2 = Es so no NL s'.
Proof using NL LAWS.
  induction nbs as [|e nbs IH]; intros s r H; cbn [nscan] in H; [injection H as <-; by exists s|].
  cbn [Es ns_ret ns_cand ns_vis] in H. case_bool_decide; [by apply (IH s)|].
  rewrite (peek_E so no NL) in H. cbn [mbind outcome_bind] in H. destruct (h_peek so (s_ret so s)) as [f|] eqn:Ef; cbn [fmap option_fmap option_map] in H.
  2: { injection H as <-. by exists (SST so (s_ret so s) (s_cand so s) (n_pid e :: s_vis so s)). }
  apply bind_inv in H as (ept & _ & H). apply bind_inv in H as ([ed|] & _ & H); rewrite (len_E so no NL) in H.
  - destruct (_ || _); [|by apply (IH (SST so (s_ret so s) (s_cand so s) (n_pid e :: s_vis so s)))].
    cbn [nneg fmap option_fmap option_map] in H. rewrite (emb_push _ _ NL) in H. cbn [mbind outcome_bind npush_ret] in H.
    rewrite (emb_push _ _ NL) in H. cbn [mbind outcome_bind] in H. rewrite (shrink_E so no NL) in H. cbn [mbind outcome_bind] in H.
    by apply (IH (SST so _ _ _)) in H.
  - cbn [nlt orb] in H. assert (Hl : (h_len so (s_ret so s) <? 1)%nat = false).
    { apply Nat.ltb_ge. unfold h_peek in Ef. destruct (h_pop so (s_ret so s)) as [[y hp]|] eqn:Ep; [|done].
      destruct (law_pop_some _ LAWS _ _ _ Ep) as [Hp _]. unfold h_len. rewrite Hp. cbn. lia. }
    rewrite Hl in H. by apply (IH (SST so (s_ret so s) (s_cand so s) (n_pid e :: s_vis so s))).
Qed.
Lemma descend_found h q ep layer r : nsearch_layer ndist no h q ep 1 layer None = Ok r -> exists hp, r = emb so no NL hp.
Proof using NL LAWS.
  intros H. unfold nsearch_layer in H. destruct (points_by_layer h !! layer) as [[|x ly]|] eqn:Hl; [..|done].
  { injection H as <-. exists (h_empty so). symmetry. apply emb_empty. }
  destruct (get_pt h ep) as [ept|] eqn:Hep.
  2: { unfold nsearch_init in H. rewrite Hep in H. done. }
  destruct (ndist q (pt_data ept)) as [[d|]| | | | |] eqn:En.
  2: { exfalso. enough (nsearch_layer ndist no h q ep 1 layer None = Ok r) as H'; [|unfold nsearch_layer; by rewrite Hl].
       rewrite (nan_start h q ep ept 1 layer None x ly Hl Hep) in H'; [done|by left]. }
  2-6: unfold nsearch_init in H; rewrite Hep in H; cbn [unwrap mbind outcome_bind] in H; by rewrite En in H.
  unfold nsearch_init in H. rewrite Hep in H. cbn [unwrap mbind outcome_bind] in H. rewrite En in H. cbn [mbind outcome_bind nneg fmap option_fmap option_map] in H.
  rewrite <- (emb_empty _ _ NL), !(emb_push _ _ NL) in H. cbn [mbind outcome_bind] in H.
  change (nsearch_loop ndist no (S (table_size h)) h q 1 layer None
    (Es so no NL (SST so (h_push so (Nbr ep d) (h_empty so)) (h_push so (Nbr ep (- d)) (h_empty so)) [ep])) = Ok r) in H.
  revert H. generalize (S (table_size h)) (SST so (h_push so (Nbr ep d) (h_empty so)) (h_push so (Nbr ep (- d)) (h_empty so)) [ep]).
  intros fuel. induction fuel as [|fuel IH]; intros s H; [done|]. cbn [nsearch_loop] in H. apply bind_inv in H as (y & Hy & H).
  unfold nsearch_iter in Hy. cbn [Es ns_ret ns_cand ns_vis] in Hy. rewrite (emb_pop _ _ NL) in Hy. cbn [mbind outcome_bind] in Hy.
  destruct (h_pop so (s_cand so s)) as [[c cand']|]; cbn [fmap option_fmap option_map fst snd] in Hy.
  2: { injection Hy as <-. injection H as <-. eauto. }
  rewrite (peek_E so no NL) in Hy. cbn [mbind outcome_bind] in Hy. apply bind_inv in Hy as (f & _ & Hy). apply bind_inv in Hy as (? & _ & Hy).
  apply bind_inv in Hy as (? & _ & Hy). rewrite andb_true_r in Hy. destruct (nlt _ _); [injection Hy as <-; injection H as <-; eauto|].
  apply bind_inv in Hy as (cpt & _ & Hy). apply bind_inv in Hy as (nbs & _ & Hy). apply bind_inv in Hy as ([b s1] & Hs & Hy).
  destruct (scan_found h q nbs (SST so (s_ret so s) cand' (s_vis so s)) (b, s1) Hs) as [s' E1]. cbn in E1. subst s1. injection Hy as <-.
  destruct b; [injection H as <-; eauto|]. by apply (IH s').
Qed.

Lemma rev_seq_cons a n : exists l, rev (seq a (S n)) = (a + n)%nat :: l.
Proof using. clear. rewrite seq_S, rev_app_distr. cbn. eauto. Qed.

(** an insertion at such a distance from the entry point panics, having stored the point but no link *)
Lemma nan_insert h v id d ep ept h0 np rank : entry_point h = Some ep -> get_pt h ep = Some ept -> nb_point h <> 0%nat ->
  no_number (ndist v (pt_data ept)) -> generate_new_point h v id d = Ok (h0, np, rank) ->
  ninsert ndist so no v id d h = (Panic, h0).
Proof using NL.
  intros He Hep Hnb Hn Hg.
  unfold ninsert. unfold sbind at 1, sput at 1. rewrite Hg. cbn [mbind outcome_bind].
  unfold generate_new_point in Hg. apply bind_inv in Hg as (lv & _ & Hg). apply bind_inv in Hg as ([h1 p1] & H1 & [= <- <- <-]).
  apply push_point_inv in H1 as (Hlv & _ & Hno & Hnew & Ho & Hm & _). assert (Hme := Hm). destruct Hm as (_ & _ & _ & _ & _ & _ & Hnb1 & He1 & _).
  unfold sbind at 1, sread at 1. cbn [entry_point set_nb_point]. rewrite He1, He.
  destruct (S (nb_point h1) =? 1)%nat eqn:E1; [apply Nat.eqb_eq in E1; lia|].
  assert (Hep1 : get_pt h1 ep = Some ept). { rewrite Ho; [done|]. intros ->. congruence. }
  unfold sbind at 1, sread at 1. change (get_pt (set_nb_point (S (nb_point h1)) h1) ep) with (get_pt h1 ep). rewrite Hep1. cbn [unwrap].
  unfold sbind at 1, sread at 1.
  assert (Hn2 := Hn). destruct Hn as [En1|En1]; rewrite En1; [|done].
  set (h2 := set_nb_point (S (nb_point h1)) h1).
  assert (Hly : forall p pt, get_pt h1 p = Some pt -> exists x ly, points_by_layer h2 !! p.1 = Some (x :: ly)).
  { intros p pt Hp. apply get_pt_lookup in Hp as (ly & Hly & Hp). destruct ly as [|x ly]; [done|]. exists x, ly. exact Hly. }
  assert (Hep2 : get_pt h2 ep = Some ept) by exact Hep1.
  destruct (ep.1 - p1.1)%nat as [|n] eqn:En.
  - change (rev (seq (S p1.1) 0)) with (@nil nat). unfold sbind at 1. cbn [ndescend]. unfold sret at 1.
    destruct (rev_seq_cons 0 p1.1) as [l ->]. cbn [nconnect]. unfold sbind, sread.
    destruct (Hly _ _ Hnew) as (x & ly & Hx). by rewrite (nan_start h2 v ep ept (ef_construction h2) (0 + p1.1) None x ly Hx Hep2 Hn2).
  - destruct (rev_seq_cons (S p1.1) n) as [l ->]. cbn [ndescend]. unfold sbind, sread.
    destruct (Hly _ _ Hep1) as (x & ly & Hx). replace (S p1.1 + n)%nat with ep.1 by lia.
    by rewrite (nan_start h2 v ep ept 1 ep.1 None x ly Hx Hep2 Hn2).
Qed.

End Start.

(** A search in an index [h'] that is as [h] at the points of [L], which holds of the entry point and is closed by links. *)
Section Beside.
Context {T : Type} (ndist : list T -> list T -> outcome (option Z)) (dist : list T -> list T -> Z) (so : StdOps) (LAWS : StdLaws so) (no : NanOps).
Context (NL : NanLaws so no).
Context (good : list T -> Prop).
Context (Hd : forall a b, good a -> good b -> ndist a b = Ok (Some (dist a b))).
Local Notation E := (emb so no NL).
Local Notation Es := (Es so no NL).
Context (L : pid -> Prop) (h h' : hnsw (T:=T)).
Context (Hsub : forall p pt, L p -> get_pt h p = Some pt -> get_pt h' p = Some pt /\ good (pt_data pt)).
Context (Hlink : forall p pt l nbs n, L p -> get_pt h p = Some pt -> pt_nbs pt !! l = Some nbs -> n ∈ nbs -> L (n_pid n)).
Context (q : list T) (Hq : good q).

Definition vheap (hp : heap so) : Prop := forall x, x ∈ h_iter so hp -> L (n_pid x).

Lemma push_ret_B filter e oid ed ret r : vheap ret -> push_ret so h filter e oid ed ret = Ok r -> npush_ret no h' filter e oid (Some ed) (E ret) = Ok (E r).
Proof using Hsub LAWS.
  intros Hv H. rewrite (push_ret_E so no NL). enough (push_ret so h' filter e oid ed ret = Ok r) as -> by done.
  unfold push_ret in *. destruct filter as [flt|]; [|done]. destruct (flt oid); [|done]. destruct (h_len so ret =? 1)%nat; [|done].
  apply bind_inv in H as (r1 & H1 & H). apply bind_inv in H1 as (o & Ho & H1). rewrite Ho. cbn [mbind outcome_bind].
  apply bind_inv in H1 as (opt & Hopt & H1). apply unwrap_inv in Hopt, Ho.
  assert (HL : L (n_pid o)).
  { unfold h_peek in Ho. destruct (h_pop so ret) as [[y r2]|] eqn:Ep; [|done]. injection Ho as ->.
    apply Hv. destruct (law_pop_some _ LAWS _ _ _ Ep) as [-> _]. by left. }
  destruct (Hsub _ _ HL Hopt) as [-> _]. cbn [unwrap mbind outcome_bind].
  injection H1 as ->. exact H.
Qed.

Lemma scan_B ef filter nbs : (forall n, n ∈ nbs -> L (n_pid n)) -> forall s r, vheap (s_ret so s) -> vheap (s_cand so s) ->
  scan_neighbours dist so h q ef filter nbs s = Ok r ->
  nscan ndist no h' q ef filter nbs (Es s) = Ok (r.1, Es r.2) /\ vheap (s_ret so r.2) /\ vheap (s_cand so r.2).
Proof using Hsub LAWS Hd Hq.
  intros Hn. induction nbs as [|e nbs IH]; intros s r Hr Hc H; cbn [nscan scan_neighbours] in *; [by injection H as <-|].
  assert (Hn' : forall n, n ∈ nbs -> L (n_pid n)) by (intros n Hin; apply Hn; by right). specialize (IH Hn').
  assert (HLe : L (n_pid e)) by (apply Hn; by left).
  cbn [NanProofs.Es ns_ret ns_cand ns_vis]. case_bool_decide; [by apply IH|].
  rewrite (peek_E so no NL). cbn [mbind outcome_bind]. destruct (h_peek so (s_ret so s)) as [f|]; [|by injection H as <-].
  cbn [fmap option_fmap option_map]. apply bind_inv in H as (ept & Hept & H). apply unwrap_inv in Hept.
  destruct (Hsub _ _ HLe Hept) as [-> Hge]. cbn [mbind outcome_bind unwrap]. rewrite (Hd q (pt_data ept)) by eauto. cbn [mbind outcome_bind]. cbn [nlt lift_nbr snd]. rewrite (len_E so no NL).
  destruct ((dist q (pt_data ept) <? n_dist f)%Z || (h_len so (s_ret so s) <? ef)%nat).
  - cbn [nneg fmap option_fmap option_map]. rewrite (emb_push _ _ NL). cbn [mbind outcome_bind]. apply bind_inv in H as (ret & Hret & H).
    rewrite (push_ret_B _ _ _ _ _ ret Hr Hret). cbn [mbind outcome_bind]. rewrite (shrink_E so no NL). cbn [mbind outcome_bind].
    apply (IH (SST so _ _ _) r); [| |exact H]; cbn [s_ret s_cand].
    + intros x Hx. apply (shrink_sub so LAWS) in Hx. destruct (push_ret_sub so LAWS _ _ _ _ _ _ _ x Hret Hx) as [->|Hx']; [done|by apply Hr].
    + intros x Hx. rewrite (law_push _ LAWS) in Hx. apply elem_of_cons in Hx as [->|Hx]; [done|by apply Hc].
  - by apply (IH (SST so _ _ _) r).
Qed.

Lemma loop_B ef layer filter fuel : forall fuel' s r, (fuel <= fuel')%nat -> vheap (s_ret so s) -> vheap (s_cand so s) ->
  search_loop dist so fuel h q ef layer filter s = Ok r -> nsearch_loop ndist no fuel' h' q ef layer filter (Es s) = Ok (E r) /\ vheap r.
Proof using All.
  induction fuel as [|fuel IH]; intros fuel' s r Hf Hr Hc H; [done|]. destruct fuel' as [|fuel']; [lia|]. cbn [search_loop nsearch_loop] in *.
  apply bind_inv in H as (x & Hx & H). unfold search_iter in Hx. unfold nsearch_iter. cbn [NanProofs.Es ns_ret ns_cand ns_vis].
  rewrite (emb_pop _ _ NL). cbn [mbind outcome_bind]. destruct (h_pop so (s_cand so s)) as [[c cand']|] eqn:Ec.
  2: { injection Hx as <-. cbn [fmap option_fmap option_map mbind outcome_bind]. by injection H as <-. }
  cbn [fmap option_fmap option_map fst snd]. apply bind_inv in Hx as (f & Hf1 & Hx). apply unwrap_inv in Hf1.
  rewrite (peek_E so no NL), Hf1. cbn [fmap option_fmap option_map unwrap mbind outcome_bind lift_nbr fst snd nle nlt nneg].
  apply bind_inv in Hx as (? & A1 & Hx). destruct (0 <=? n_dist f)%Z; [|done]. cbn [assert_ mbind outcome_bind].
  apply bind_inv in Hx as (? & A2 & Hx). destruct (n_dist c <=? 0)%Z; [|done]. cbn [assert_ mbind outcome_bind]. clear A1 A2.
  rewrite (len_E so no NL). destruct ((n_dist f <? - n_dist c)%Z && _); [injection Hx as <-; cbn [mbind outcome_bind]; by injection H as <-|].
  assert (HLc : L (n_pid c)). { apply Hc. destruct (law_pop_some _ LAWS _ _ _ Ec) as [-> _]. by left. }
  apply bind_inv in Hx as (cpt & Hcpt & Hx). apply unwrap_inv in Hcpt. destruct (Hsub _ _ HLc Hcpt) as [-> _]. cbn [unwrap mbind outcome_bind].
  apply bind_inv in Hx as (nbs & Hnbs & Hx). apply unwrap_inv in Hnbs. rewrite Hnbs. cbn [unwrap mbind outcome_bind].
  apply bind_inv in Hx as ([b s'] & Hs & Hx).
  assert (Hcv : vheap cand').
  { intros y Hy. apply Hc. destruct (law_pop_some _ LAWS _ _ _ Ec) as [-> _]. by right. }
  destruct (scan_B ef filter nbs (fun n Hin => Hlink _ _ _ _ n HLc Hcpt Hnbs Hin) (SST so (s_ret so s) cand' (s_vis so s)) (b, s') Hr Hcv Hs) as (Hs' & Hr' & Hc').
  unfold NanProofs.Es in Hs' at 1. cbn [s_ret s_cand s_vis fst snd] in Hs', Hr', Hc'. rewrite Hs'. cbn [mbind outcome_bind]. injection Hx as <-.
  destruct b; [by injection H as <-|]. apply IH; [lia|done..].
Qed.

(** is the layer there, and empty? *)
Definition emptiness (hh : hnsw (T:=T)) (layer : nat) : option bool :=
  match points_by_layer hh !! layer with None => None | Some [] => Some true | Some _ => Some false end.

Lemma search_layer_B ep ef layer filter r : L ep -> emptiness h' layer = emptiness h layer -> (table_size h <= table_size h')%nat ->
  search_layer dist so h q ep ef layer filter = Ok r -> nsearch_layer ndist no h' q ep ef layer filter = Ok (E r) /\ vheap r.
Proof using All.
  intros HL Hem Hsz H. unfold search_layer in H. unfold nsearch_layer. unfold emptiness in Hem.
  destruct (points_by_layer h !! layer) as [[|x ly]|]; [..|done].
  { destruct (points_by_layer h' !! layer) as [[|]|]; try done. injection H as <-. rewrite (emb_empty _ _ NL). split; [done|].
    intros x Hx. rewrite (law_iter_empty _ LAWS) in Hx. by apply elem_of_nil in Hx. }
  destruct (points_by_layer h' !! layer) as [[|x' ly']|]; try done. clear Hem.
  apply bind_inv in H as (s & Hs & H). unfold search_init in Hs. apply bind_inv in Hs as (ept & Hept & [= <-]). apply unwrap_inv in Hept.
  unfold nsearch_init. destruct (Hsub _ _ HL Hept) as [-> Hge]. cbn [unwrap mbind outcome_bind]. rewrite (Hd q (pt_data ept)) by eauto. cbn [mbind outcome_bind].
  cbn [nneg fmap option_fmap option_map]. rewrite <- (emb_empty _ _ NL), !(emb_push _ _ NL). cbn [mbind outcome_bind].
  assert (Hv : forall d, vheap (h_push so (Nbr ep d) (h_empty so))).
  { intros d y Hy. rewrite (law_push _ LAWS), (law_iter_empty _ LAWS) in Hy. apply elem_of_list_singleton in Hy as ->. done. }
  apply (loop_B ef layer filter (S (table_size h)) (S (table_size h')) (SST so _ _ _) r); [lia|apply Hv|apply Hv|exact H].
Qed.

Lemma pivot_scan_B nbs : (forall n, n ∈ nbs -> L (n_pid n)) -> forall pv d r, pivot_scan dist h q nbs pv d = Ok r -> L pv ->
  npivot_scan ndist h' q nbs pv (Some d) = Ok (r.1, Some r.2) /\ L r.1.
Proof using Hsub Hd Hq Hlink LAWS.
  unfold npivot_scan, pivot_scan. induction nbs as [|n nbs IH] using rev_ind; intros Hn pv d r H HL; [by injection H as <-|].
  rewrite !foldl_app in *. cbn [foldl] in *. apply bind_inv in H as ([p1 d1] & H1 & H). apply IH in H1 as [-> Hv]; [|intros; apply Hn; set_solver|done].
  assert (HLn : L (n_pid n)) by (apply Hn; set_solver).
  cbn [mbind outcome_bind fst snd]. apply bind_inv in H as (npt & Hnpt & H). apply unwrap_inv in Hnpt. destruct (Hsub _ _ HLn Hnpt) as [-> Hgn].
  cbn [unwrap mbind outcome_bind]. rewrite (Hd q (pt_data npt)) by eauto. cbn [mbind outcome_bind]. cbn [nlt]. injection H as <-. by destruct (_ <? _)%Z.
Qed.
Lemma pivot_descend_B ls : forall pv d r, L pv -> pivot_descend dist ls h q pv d = Ok r -> npivot_descend ndist ls h' q pv (Some d) = Ok r /\ L r.
Proof using All.
  induction ls as [|l ls IH]; intros pv d r HL H; cbn [npivot_descend pivot_descend] in *; [by injection H as <-|].
  apply bind_inv in H as (pt & Hpt & H). apply unwrap_inv in Hpt. destruct (Hsub _ _ HL Hpt) as [-> _]. cbn [unwrap mbind outcome_bind].
  apply bind_inv in H as (nbs & Hnbs & H). apply unwrap_inv in Hnbs. rewrite Hnbs. cbn [unwrap mbind outcome_bind].
  apply bind_inv in H as ([p1 d1] & H1 & H). apply pivot_scan_B in H1 as [-> HL1]; [|intros n Hin; by eapply Hlink|done]. cbn [fst snd mbind outcome_bind] in *. by apply IH.
Qed.

Lemma search_B k ef filter r : entry_point h' = entry_point h -> (forall ep, entry_point h = Some ep -> L ep) ->
  layer_to_search h' = layer_to_search h -> (forall l, layer_to_search h = Ok l -> emptiness h' l = emptiness h l) -> (table_size h <= table_size h')%nat ->
  search_filter dist so h q k ef filter = Ok r -> nsearch_filter ndist no h' q k ef filter = Ok (En <$> r) /\ (forall a, a ∈ r -> L (p_id a)).
Proof using All.
  intros He HLe Hlt Hem Hsz H. unfold search_filter in H. unfold nsearch_filter. rewrite He.
  destruct (entry_point h) as [ep|]; [|injection H as <-; split; [done|]; by intros ? ?%elem_of_nil]. specialize (HLe _ eq_refl).
  apply bind_inv in H as (pv & Hpv & H). unfold find_pivot in Hpv. apply bind_inv in Hpv as (ept & Hept & Hpv). apply unwrap_inv in Hept.
  unfold nfind_pivot. destruct (Hsub _ _ HLe Hept) as [-> Hge]. cbn [unwrap mbind outcome_bind]. rewrite (Hd q (pt_data ept)) by eauto. cbn [mbind outcome_bind].
  destruct (pivot_descend_B _ _ _ _ HLe Hpv) as [-> HLp]. cbn [mbind outcome_bind]. rewrite Hlt.
  apply bind_inv in H as (l & Hl & H). specialize (Hem _ Hl). rewrite Hl. cbn [mbind outcome_bind].
  apply bind_inv in H as (hp & Hs & H). destruct (search_layer_B pv _ l filter hp HLp Hem Hsz Hs) as [-> Hv].
  cbn [mbind outcome_bind]. rewrite (emb_sorted _ _ NL). cbn [mbind outcome_bind]. rewrite fmap_length, <- fmap_take, answers_E.
  assert (Hx : forall x, x ∈ take (Nat.min (Nat.min k (Nat.max ef k)) (length (h_sorted so hp))) (h_sorted so hp) -> L (n_pid x)).
  { intros x Hx. apply Hv. rewrite <- (law_sorted_perm _ LAWS). by eapply elem_of_take in Hx as (? & ? & _); eauto using elem_of_list_lookup_2. }
  revert H Hx. generalize (take (Nat.min (Nat.min k (Nat.max ef k)) (length (h_sorted so hp))) (h_sorted so hp)).
  intros l1 Hl1 Hx. enough (mapM (to_answer h') l1 = Ok r /\ (forall a, a ∈ r -> L (p_id a))) as [-> ?] by done.
  apply mapM_outcome_inv in Hl1. induction Hl1 as [|n a l1 r1 Hna Hl1 IH]; [split; [done|]; by intros ? ?%elem_of_nil|].
  destruct IH as [IH1 IH2]; [intros; apply Hx; by right|]. cbn [mapM]. rewrite IH1.
  unfold to_answer in Hna. apply bind_inv in Hna as (pt & Hpt & [= <-]). apply unwrap_inv in Hpt. unfold to_answer.
  destruct (Hsub _ _ (Hx n (elem_of_list_here _ _)) Hpt) as [-> _]. split; [done|].
  intros a [->|Ha]%elem_of_cons; [|by apply IH2]. cbn. apply Hx. by left.
Qed.
End Beside.
