(** What an insertion that fails leaves behind: the table with one more point, that nothing refers to. Any vector, any distance. *)
From stdpp Require Import relations.
From Verif Require Import Prelude Model Lib Table InsertProofs NegProofs Nan NanProofs NanProofs2.
Local Open Scope list_scope.

Section Fail.
Context {T : Type} (ndist : list T -> list T -> outcome (option Z)) (so : StdOps) (LAWS : StdLaws so) (no : NanOps).
Context (NL : NanLaws so no).
Implicit Types (h : hnsw (T:=T)).
Context (S : pid -> Prop).
Definition closed h : Prop := forall p pt l nbs n, S p -> get_pt h p = Some pt -> pt_nbs pt !! l = Some nbs -> n ∈ nbs -> S (n_pid n).
Definition sheap (hp : nheap no) : Prop := forall x, x ∈ n_iter no hp -> S x.1.
Definition slist (nv : list nbr) : Prop := forall n, n ∈ nv -> S (n_pid n).

Lemma sheap_empty : sheap (n_empty no).
Proof using NL. intros x Hx. rewrite (nl_empty _ _ NL) in Hx. by apply elem_of_nil in Hx. Qed.
Lemma sheap_push x hp hp' : S x.1 -> sheap hp -> n_push no x hp = Ok hp' -> sheap hp'.
Proof using NL. intros Hx Hs H y Hy. apply (nl_push _ _ NL _ _ _ H) in Hy. apply elem_of_cons in Hy as [->|Hy]; [done|by apply Hs]. Qed.
Lemma sheap_pop hp x hp' : sheap hp -> n_pop no hp = Ok (Some (x, hp')) -> S x.1 /\ sheap hp'.
Proof using NL. intros Hs H. destruct (nl_pop _ _ NL _ _ _ H) as [H1 H2]. split; [by apply Hs|]. intros y Hy. by apply Hs, H2. Qed.

Lemma npush_ret_S h filter e oid ed ret r : S e -> sheap ret -> npush_ret no h filter e oid ed ret = Ok r -> sheap r.
Proof using NL.
  intros He Hs H. unfold npush_ret in H. destruct filter as [flt|]; [|by eapply (sheap_push (e, ed))].
  destruct (flt oid); [|by injection H as <-]. apply bind_inv in H as (r1 & H1 & H). eapply (sheap_push (e, ed)); [done| |exact H].
  destruct (_ =? _)%nat; [|by injection H1 as <-]. apply bind_inv in H1 as (? & _ & H1). apply bind_inv in H1 as (? & _ & H1).
  apply bind_inv in H1 as (? & _ & [= <-]). destruct (flt _); [done|apply sheap_empty].
Qed.
Lemma nshrink_S ef r r' : sheap r -> nshrink no ef r = Ok r' -> sheap r'.
Proof using NL.
  unfold nshrink. intros Hs H. destruct (_ <? _)%nat; [|by injection H as <-]. apply bind_inv in H as ([[x r1]|] & H1 & [= <-]); [|done].
  by apply (sheap_pop _ _ _ Hs H1).
Qed.
Lemma nscan_S h q ef filter nbs : slist nbs -> forall s r, sheap (ns_ret no s) -> sheap (ns_cand no s) ->
  nscan ndist no h q ef filter nbs s = Ok r -> sheap (ns_ret no r.2) /\ sheap (ns_cand no r.2).
Proof using NL.
  induction nbs as [|e nbs IH]; intros Hn s r Hr Hc H; cbn [nscan] in H; [by injection H as <-|].
  assert (Hn' : slist nbs) by (intros n ?; apply Hn; by right). assert (He : S (n_pid e)) by (apply Hn; by left).
  case_bool_decide; [by apply (IH Hn' s)|]. apply bind_inv in H as ([f|] & _ & H); [|by injection H as <-].
  apply bind_inv in H as (ept & _ & H). apply bind_inv in H as (ed & _ & H). destruct (_ || _).
  - apply bind_inv in H as (c & Hc1 & H). apply bind_inv in H as (r1 & Hr1 & H). apply bind_inv in H as (r2 & Hr2 & H).
    apply (IH Hn' (NSST no r2 c (n_pid e :: ns_vis no s)) r); [| |exact H]; cbn.
    + eapply nshrink_S; [|exact Hr2]. eapply npush_ret_S; [exact He|exact Hr|exact Hr1].
    + by eapply (sheap_push (_, _)); [| |exact Hc1].
  - by apply (IH Hn' (NSST no (ns_ret no s) (ns_cand no s) (n_pid e :: ns_vis no s)) r).
Qed.
Lemma nloop_S h q ef layer filter fuel : closed h -> forall s r, sheap (ns_ret no s) -> sheap (ns_cand no s) ->
  nsearch_loop ndist no fuel h q ef layer filter s = Ok r -> sheap r.
Proof using NL.
  intros Hcl. induction fuel as [|fuel IH]; intros s r Hr Hc H; [done|]. cbn [nsearch_loop] in H.
  apply bind_inv in H as (x & Hx & H). unfold nsearch_iter in Hx. apply bind_inv in Hx as ([[c c']|] & Hp & Hx).
  2: { injection Hx as <-. by injection H as <-. }
  destruct (sheap_pop _ _ _ Hc Hp) as [HSc Hc'].
  apply bind_inv in Hx as (pk & _ & Hx). apply bind_inv in Hx as (f & _ & Hx). apply bind_inv in Hx as (? & _ & Hx). apply bind_inv in Hx as (? & _ & Hx).
  destruct (_ && _); [injection Hx as <-; by injection H as <-|].
  apply bind_inv in Hx as (cpt & Hcpt & Hx). apply unwrap_inv in Hcpt. apply bind_inv in Hx as (nbs & Hnbs & Hx). apply unwrap_inv in Hnbs.
  apply bind_inv in Hx as ([b s'] & Hs & [= <-]).
  destruct (nscan_S h q ef filter nbs (fun n Hin => Hcl _ _ _ _ n HSc Hcpt Hnbs Hin) (NSST no (ns_ret no s) c' (ns_vis no s)) (b, s') Hr Hc' Hs) as [H1 H2].
  destruct b; [by injection H as <-|]. by eapply IH; [exact H1|exact H2|].
Qed.
Lemma nsearch_layer_S h q ep ef layer filter r : closed h -> S ep -> nsearch_layer ndist no h q ep ef layer filter = Ok r -> sheap r.
Proof using NL.
  intros Hcl Hep H. unfold nsearch_layer in H. destruct (points_by_layer h !! layer) as [[|]|]; [injection H as <-; apply sheap_empty| |done].
  apply bind_inv in H as (s & Hs & H). unfold nsearch_init in Hs. apply bind_inv in Hs as (ept & _ & Hs). apply bind_inv in Hs as (dd & _ & Hs).
  apply bind_inv in Hs as (c & Hc & Hs). apply bind_inv in Hs as (rr & Hr & [= <-]).
  eapply nloop_S; [done| | |exact H]; cbn.
  - eapply (sheap_push (ep, dd)); [done|apply sheap_empty|exact Hr].
  - eapply (sheap_push (ep, nneg dd)); [done|apply sheap_empty|exact Hc].
Qed.

Lemma nfrom_positive_S hp neg : sheap hp -> nfrom_positive no hp = Ok neg -> sheap neg.
Proof using NL.
  unfold nfrom_positive, sheap at 1. revert neg. induction (n_iter no hp) as [|n l IH] using rev_ind; intros neg Hs H; [injection H as <-; apply sheap_empty|].
  rewrite foldl_app in H. cbn [foldl] in H. apply bind_inv in H as (n1 & H1 & H). apply IH in H1; [|intros x Hx; apply Hs, elem_of_app; by left].
  apply bind_inv in H as (u & _ & H). eapply (sheap_push (n.1, nneg n.2)); [|exact H1|exact H]. apply (Hs n), elem_of_app. right. by left.
Qed.
Lemma slist_snoc nv p d : slist nv -> S p -> slist (nv ++ [Nbr p d]).
Proof using. clear. intros Hv Hp n Hn. apply elem_of_app in Hn as [Hn| ->%elem_of_list_singleton]; [by apply Hv|done]. Qed.
Lemma ntransfer_S fuel : forall cand acc nv, sheap cand -> slist acc -> ntransfer no fuel cand acc = Ok nv -> slist nv.
Proof using NL.
  induction fuel as [|fuel IH]; intros cand acc nv Hs Ha H; cbn [ntransfer] in H; apply bind_inv in H as ([[p c']|] & Hp & H); try done;
    try (by injection H as <-).
  destruct (sheap_pop _ _ _ Hs Hp) as [HS Hs']. apply bind_inv in H as (dd & _ & H). eapply IH; [exact Hs'| |exact H]. by apply slist_snoc.
Qed.
Lemma add_new_S cset nbs : slist nbs -> forall acc, (forall p, p ∈ acc -> S p) -> forall p, p ∈ add_new_candidates cset nbs acc -> S p.
Proof using.
  clear. unfold add_new_candidates. induction nbs as [|n nbs IH] using rev_ind; intros Hn acc Ha p Hp; [by apply Ha|].
  rewrite foldl_app in Hp. cbn [foldl] in Hp. assert (Hn' : slist nbs) by (intros n' ?; apply Hn; set_solver).
  destruct (_ || _); [by eapply IH|]. apply elem_of_cons in Hp as [->|Hp]; [apply Hn; set_solver|by eapply IH].
Qed.
Lemma collect_S h layer cset todo : closed h -> (forall p, p ∈ todo -> S p) -> forall acc news, (forall p, p ∈ acc -> S p) ->
  collect_new_candidates h layer cset todo acc = Ok news -> (forall p, p ∈ news -> S p).
Proof using.
  clear. intros Hcl. induction todo as [|p todo IH]; intros Ht acc news Ha H; cbn [collect_new_candidates] in *; [by injection H as <-|].
  apply bind_inv in H as (pt & Hpt & H). apply unwrap_inv in Hpt. apply bind_inv in H as (nbs & Hn & H). apply unwrap_inv in Hn.
  assert (Hp : S p) by (apply Ht; by left).
  eapply IH; [intros; apply Ht; by right| |exact H]. apply add_new_S; [|done]. intros n Hin. exact (Hcl _ _ _ _ _ Hp Hpt Hn Hin).
Qed.
Lemma npush_candidates_S h data ps : (forall p, p ∈ ps -> S p) -> forall cand c, sheap cand -> npush_candidates ndist no h data ps cand = Ok c -> sheap c.
Proof using NL.
  induction ps as [|p ps IH]; intros Hps cand c Hs H; cbn [npush_candidates] in H; [by injection H as <-|].
  apply bind_inv in H as (pt & _ & H). apply bind_inv in H as (dd & _ & H). apply bind_inv in H as (c1 & H1 & H).
  eapply IH; [intros; apply Hps; by right| |exact H]. eapply (sheap_push (_, _)); [|exact Hs|exact H1]. apply Hps. by left.
Qed.
Lemma nextend_S h data layer cand c : closed h -> sheap cand -> nextend ndist so no h data layer cand = Ok c -> sheap c.
Proof using NL LAWS.
  intros Hcl Hs H. unfold nextend in H. apply bind_inv in H as (news & Hn & H).
  eapply npush_candidates_S; [|exact Hs|exact H]. intros p Hp. rewrite (law_miter _ LAWS) in Hp. revert p Hp. eapply collect_S; [exact Hcl| | |exact Hn].
  - intros p Hp. rewrite (law_miter _ LAWS) in Hp. apply elem_of_remove_dups, elem_of_list_fmap in Hp as (x & -> & Hx). by apply Hs.
  - by intros ? ?%elem_of_nil.
Qed.
Lemma nselect_loop_S h asked keep fuel : forall cand nv disc r, sheap cand -> slist nv -> sheap disc ->
  nselect_loop ndist no fuel h asked keep cand nv disc = Ok r -> slist r.1 /\ sheap r.2.
Proof using NL.
  induction fuel as [|fuel IH]; intros cand nv disc r Hc Hv Hdi H; cbn [nselect_loop] in *;
    (destruct (length nv <? asked)%nat; [|by injection H as <-]); apply bind_inv in H as ([[e c']|] & Hp & H); try done; try (by injection H as <-).
  destruct (sheap_pop _ _ _ Hc Hp) as [He Hc']. apply bind_inv in H as (ept & _ & H). apply bind_inv in H as (dd & _ & H).
  apply bind_inv in H as (dom & _ & H). destruct dom.
  - apply bind_inv in H as (d' & Hd' & H). eapply IH; [exact Hc'|exact Hv| |exact H]. destruct keep; [|by injection Hd' as <-].
    eapply sheap_push; [exact He|exact Hdi|exact Hd'].
  - eapply IH; [exact Hc'| |exact Hdi|exact H]. by apply slist_snoc.
Qed.
Lemma nkeep_loop_S asked fuel : forall nv disc r, slist nv -> sheap disc -> nkeep_loop no fuel asked nv disc = Ok r -> slist r.
Proof using NL.
  induction fuel as [|fuel IH]; intros nv disc r Hv Hdi H; cbn [nkeep_loop] in H;
    (destruct (length nv <? asked)%nat; [|by injection H as <-]); apply bind_inv in H as ([[e c']|] & Hp & H); try done; try (by injection H as <-).
  destruct (sheap_pop _ _ _ Hdi Hp) as [He Hc']. apply bind_inv in H as (dd & _ & H). eapply IH; [|exact Hc'|exact H]. by apply slist_snoc.
Qed.
Lemma nselect_S h data cand asked ext layer keep nv : closed h -> sheap cand -> nselect ndist so no h data cand asked ext layer keep = Ok nv -> slist nv.
Proof using NL LAWS.
  intros Hcl Hs H. unfold nselect in H. assert (Hnil : slist []) by (by intros ? ?%elem_of_nil). destruct (_ && _); [by eapply ntransfer_S|].
  apply bind_inv in H as (c1 & Hc1 & H). assert (Hs1 : sheap c1).
  { destruct (nh_len no cand <=? asked)%nat; [by eapply nextend_S|by injection Hc1 as <-]. }
  apply bind_inv in H as ([nv1 disc] & Hl & H). destruct (nselect_loop_S _ _ _ _ _ _ _ _ Hs1 Hnil sheap_empty Hl) as [Hn1 Hd1].
  destruct keep; [|by injection H as <-]. by eapply nkeep_loop_S.
Qed.

(** ** the insertion *)
Context (h0 : hnsw (T:=T)) (np : pid).
Context (Hcl0 : closed h0) (Hnp : ~ S np).
Context (HS : forall p, S p -> exists pt, get_pt h0 p = Some pt /\ length (pt_nbs pt) = NB_LAYER_MAX).

(** the states of the insertion before it updates the other points *)
Record own h : Prop := {
  o_same : same_table h0 h;
  o_others : forall p, p <> np -> get_pt h p = get_pt h0 p;
  o_np : exists npt, get_pt h np = Some npt /\ length (pt_nbs npt) = NB_LAYER_MAX /\ (forall l nbs, pt_nbs npt !! l = Some nbs -> slist nbs)
}.
Lemma own_closed h : own h -> closed h.
Proof using Hcl0 Hnp.
  intros [_ H _] p pt l nbs n Hp Hg. rewrite H in Hg by congruence. intros Hn Hin. exact (Hcl0 _ _ _ _ _ Hp Hg Hn Hin).
Qed.
Lemma own_upd h l f h1 : own h -> upd_nbs h np l f = Ok h1 -> (forall nbs, slist nbs -> slist (f nbs)) -> own h1.
Proof using.
  clear. intros [O1 O2 (npt & O3 & O4 & O5)] H Hf. apply upd_nbs_inv in H as (pt & nbs & H1 & H2 & H3 & H4 & H5).
  assert (pt = npt) as -> by congruence. split.
  - by eapply same_table_trans.
  - intros p Hp. rewrite H4 by done. by apply O2.
  - eexists. split; [exact H3|]. cbn [set_pt_nbs pt_nbs]. split; [by rewrite insert_length|]. intros l1 nbs1 Hl1.
    destruct (decide (l1 = l)) as [->|Hne]; [|rewrite list_lookup_insert_ne in Hl1 by done; exact (O5 _ _ Hl1)].
    rewrite list_lookup_insert in Hl1 by (by eapply lookup_lt_Some). injection Hl1 as <-. apply Hf. exact (O5 _ _ H2).
Qed.

Lemma ndescend_S data ls : forall ep dte h o h1, own h -> S ep -> ndescend ndist no ls np data ep dte h = (o, h1) ->
  own h1 /\ forall ep1, o = Ok ep1 -> S ep1.
Proof using NL Hcl0 Hnp.
  induction ls as [|l ls IH]; intros ep dte h o h1 Ho Hep H; cbn [ndescend] in H; [injection H as <- <-; split; [done|]; by intros ? [= <-]|].
  unfold sbind at 1, sread at 1 in H. destruct (nsearch_layer ndist no h data ep 1 l None) as [sorted| | | | |] eqn:Es; try (by injection H as <- <-).
  apply (nsearch_layer_S h) in Es; [|by apply own_closed|done].
  unfold sbind at 1 in H. destruct (ndescend_use ndist no np data l sorted ep dte h) as [o2 h2] eqn:Eu.
  assert (Hu : own h2 /\ forall r, o2 = Ok r -> S r.1).
  { unfold ndescend_use in Eu. destruct (1 <? nh_len no sorted)%nat; [by injection Eu as <- <-|].
    unfold sbind, sread, sput, sret in Eu. destruct (n_pop no sorted) as [[[e r]|]| | | | |] eqn:Ep; try (by injection Eu as <- <-).
    2: { injection Eu as <- <-. split; [done|]. by intros ? [= <-]. }
    destruct (sheap_pop _ _ _ Es Ep) as [He _]. destruct e.2 as [dd|]; cbn [unwrap] in Eu; [|by injection Eu as <- <-].
    destruct (push_upper h np l (Nbr e.1 dd)) as [h3| | | | |] eqn:E3; cbn [mbind outcome_bind] in Eu; try (by injection Eu as <- <-).
    assert (Ho3 : own h3). { unfold push_upper in E3. eapply own_upd; [exact Ho|exact E3|]. intros nbs Hn. cbn beta. destruct (length nbs <? get_max_nb_connection h)%nat; [by apply slist_snoc|done]. }
    destruct (get_pt h3 e.1) as [ept|]; cbn [unwrap] in Eu; [|by injection Eu as <- <-].
    destruct (ndist data (pt_data ept)) as [tmp| | | | |]; try (by injection Eu as <- <-).
    injection Eu as <- <-. split; [done|]. intros r0 [= <-]. by destruct (nlt _ _). }
  destruct Hu as [Ho2 Hr2]. destruct o2 as [r| | | | |]; try (by injection H as <- <-). eapply IH; [exact Ho2| |exact H]. by apply Hr2.
Qed.
Lemma nconnect_S data ls : forall ep h o h1, own h -> S ep -> nconnect ndist so no ls np data ep h = (o, h1) -> own h1.
Proof using NL LAWS Hcl0 Hnp.
  induction ls as [|l ls IH]; intros ep h o h1 Ho Hep H; cbn [nconnect] in H; [by injection H as <- <-|].
  unfold sbind at 1, sread at 1 in H. destruct (nsearch_layer ndist no h data ep (ef_construction h) l None) as [found| | | | |] eqn:Es; try (by injection H as <- <-).
  apply (nsearch_layer_S h) in Es; [|by apply own_closed|done].
  unfold sbind at 1 in H. destruct (nconnect_use ndist so no np data l found ep h) as [o2 h2] eqn:Eu.
  assert (Hu : own h2 /\ forall ep2, o2 = Ok ep2 -> S ep2).
  { unfold nconnect_use, sbind, sread, sput, sret in Eu. destruct (nfrom_positive no found) as [neg| | | | |] eqn:En; try (by injection Eu as <- <-).
    apply nfrom_positive_S in En; [|done]. destruct (nh_len no neg =? 0)%nat; [injection Eu as <- <-; split; [done|]; by intros ? [= <-]|].
    destruct (nselect ndist so no h data neg _ _ _ _) as [nv| | | | |] eqn:Ev; try (by injection Eu as <- <-).
    apply nselect_S in Ev; [|by apply own_closed|done].
    assert (Hvs : slist (u_sort so nbr n_dist nv)) by (intros n Hn; apply Ev; by rewrite (law_usort_perm _ LAWS) in Hn).
    destruct (upd_nbs h np l _) as [h3| | | | |] eqn:E3; cbn [mbind outcome_bind] in Eu; try (by injection Eu as <- <-).
    injection Eu as <- <-. split; [by eapply own_upd|]. intros ep2 [= <-]. destruct (u_sort so nbr n_dist nv) as [|n nv']; [done|]. apply Hvs. by left. }
  destruct Hu as [Ho2 Hr2]. destruct o2 as [r| | | | |]; try (by injection H as <- <-). eapply IH; [exact Ho2| |exact H]. by apply Hr2.
Qed.

(** the update of the other points does not fail *)
Definition ready h : Prop := (forall p, S p \/ p = np -> exists pt, get_pt h p = Some pt /\ length (pt_nbs pt) = NB_LAYER_MAX) /\
  (exists npt, get_pt h np = Some npt /\ forall l nbs, pt_nbs npt !! l = Some nbs -> slist nbs).
Lemma own_ready h : own h -> ready h.
Proof using HS Hnp.
  intros [_ O2 (npt & O3 & O4 & O5)]. split; [|eauto]. intros p [Hp| ->]; [|eauto]. rewrite O2 by congruence. by apply HS.
Qed.
Lemma nrev_many_S qs : (np.1 < NB_LAYER_MAX)%nat -> slist qs -> forall h, ready h -> exists h1, nrev_many so np qs h = (Ok tt, h1) /\ ready h1.
Proof using Hnp.
  intros Hl. induction qs as [|q qs IH]; intros Hq h Hr; cbn [nrev_many]; [eexists; done|]. unfold sbind, sput.
  assert (Hq1 : S (n_pid q)) by (apply Hq; by left). destruct Hr as [R1 (npt & R2 & R3)]. unfold rev_one. rewrite bool_decide_eq_false_2 by congruence.
  destruct (R1 _ (or_introl Hq1)) as (pt & Hpt & Hlen). destruct (lookup_lt_is_Some_2 (pt_nbs pt) np.1) as [nbs Hn]; [by rewrite Hlen|].
  match goal with |- context [upd_nbs ?a ?b ?c ?d] => destruct (upd_nbs_ok a b c d pt nbs Hpt Hn) as [h1 Hh1] end. rewrite Hh1. cbn [mbind outcome_bind].
  apply IH; [intros n ?; apply Hq; by right|]. apply upd_nbs_inv in Hh1 as (pt' & nbs' & H1 & H2 & H3 & H4 & _). assert (pt' = pt) as -> by congruence. split.
  - intros p Hp. destruct (decide (p = n_pid q)) as [->|Hne]; [|rewrite H4 by done; by apply R1]. eexists. split; [exact H3|]. cbn. by rewrite insert_length.
  - exists npt. rewrite H4 by congruence. done.
Qed.
Lemma nrev_layers_S ls : (np.1 < NB_LAYER_MAX)%nat -> (forall l, l ∈ ls -> (l < NB_LAYER_MAX)%nat) -> forall h, ready h -> exists h1, nrev_layers so ls np h = (Ok tt, h1).
Proof using Hnp.
  intros Hnl. induction ls as [|l ls IH]; intros Hl h Hr; cbn [nrev_layers]; [eexists; done|]. unfold sbind, sread.
  pose proof Hr as [R1 (npt & R2 & R3)]. rewrite R2. cbn [unwrap mbind outcome_bind].
  destruct (R1 np (or_intror eq_refl)) as (npt' & R2' & Hlen). assert (npt' = npt) as -> by congruence.
  destruct (lookup_lt_is_Some_2 (pt_nbs npt) l) as [qs Hqs]; [rewrite Hlen; apply Hl; by left|]. rewrite Hqs. cbn [unwrap mbind outcome_bind].
  destruct (nrev_many_S qs Hnl (R3 _ _ Hqs) h Hr) as (h1 & -> & Hr1). apply IH; [|done]. intros l1 ?. apply Hl. by right.
Qed.
End Fail.

(** An insertion that does not return. [S]: points with a full set of lists, closed by links, the entry point among them. *)
Section Failed.
Context {T : Type} (ndist : list T -> list T -> outcome (option Z)) (so : StdOps) (LAWS : StdLaws so) (no : NanOps).
Context (NL : NanLaws so no).
Lemma failed_insert (S : pid -> Prop) (h : hnsw (T:=T)) data oid d o h1 :
  closed S h -> (forall p, S p -> exists pt, get_pt h p = Some pt /\ length (pt_nbs pt) = NB_LAYER_MAX) ->
  (max_layer h <= NB_LAYER_MAX)%nat -> (forall ep, entry_point h = Some ep -> S ep) ->
  ninsert ndist so no data oid d h = (o, h1) -> o <> Ok tt ->
  (h1 = h /\ forall x, generate_new_point h data oid d <> Ok x) \/ exists h0 np rank, generate_new_point h data oid d = Ok (h0, np, rank) /\ get_pt h np = None /\ entry_point h <> None /\
    same_table h0 h1 /\ (forall p, p <> np -> get_pt h1 p = get_pt h p).
Proof using LAWS NL.
  intros Hcl HS Hml Hent H Hne. unfold ninsert, sbind at 1, sput at 1 in H.
  destruct (generate_new_point h data oid d) as [[[h0 np] rank]| | | | |] eqn:Eg; cbn [mbind outcome_bind] in H; try (injection H as <- <-; left; by split).
  right. exists h0, np, rank. split; [done|].
  unfold generate_new_point in Eg. apply bind_inv in Eg as (lv & Hlv & Eg). apply generate_lt in Hlv. apply bind_inv in Eg as ([h2 p1] & H1 & Eg).
  unfold incr_nb_point in Eg. injection Eg as <- -> _. apply push_point_inv in H1 as (P1 & _ & P3 & P4 & P5 & P6 & _).
  set (h0 := set_nb_point (Datatypes.S (nb_point h2)) h2) in *.
  assert (G0 : forall x, get_pt h0 x = get_pt h2 x) by done.
  assert (Hnp : ~ S np). { intros Hs. destruct (HS np Hs) as (pt & Hpt & _). congruence. }
  assert (Hcl0 : closed S h0).
  { intros p pt l nbs n Hp. rewrite G0, P5 by congruence. intros Hg Hn Hin. exact (Hcl _ _ _ _ _ Hp Hg Hn Hin). }
  assert (HS0 : forall p, S p -> exists pt, get_pt h0 p = Some pt /\ length (pt_nbs pt) = NB_LAYER_MAX).
  { intros p Hp. rewrite G0, P5 by congruence. by apply HS. }
  assert (Ho0 : own S h0 np h0).
  { split; [apply same_table_refl|done|]. exists (new_pt data oid np). rewrite G0. split; [done|]. split; [unfold new_pt; cbn [pt_nbs]; apply replicate_length|].
    intros l nbs Hn. apply new_pt_nbs in Hn as ->. by intros ? ?%elem_of_nil. }
  assert (He0 : entry_point h0 = entry_point h) by (by destruct P6 as (_ & _ & _ & _ & _ & _ & _ & ? & _)).
  assert (Hne0 : entry_point h <> None).
  { intros He. unfold sbind at 1, sread at 1 in H. rewrite He0, He in H. unfold sput in H. by injection H as <- _. }
  enough (Ho1 : own S h0 np h1).
  { destruct Ho1 as [O1 O2 _]. split_and!; [done|done|done|]. intros p Hp. rewrite O2 by done. rewrite G0. by apply P5. }
  unfold sbind at 1, sread at 1 in H. rewrite He0 in H. destruct (entry_point h) as [ep|].
  2: { unfold sput in H. by injection H as <- <-. }
  specialize (Hent _ eq_refl). destruct (rank =? 1)%nat; [by injection H as <- <-|].
  unfold sbind at 1, sread at 1 in H. destruct (get_pt h0 ep) as [ept|]; cbn [unwrap] in H; [|by injection H as <- <-].
  unfold sbind at 1, sread at 1 in H. destruct (ndist data (pt_data ept)) as [dte| | | | |]; try (by injection H as <- <-).
  unfold sbind at 1 in H. destruct (ndescend ndist no _ np data ep dte h0) as [o2 h3] eqn:E2.
  destruct (ndescend_S ndist so no NL S h0 np Hcl0 Hnp data _ _ _ _ _ _ Ho0 Hent E2) as [Ho3 Hep1].
  destruct o2 as [ep1| | | | |]; try (by injection H as <- <-). specialize (Hep1 _ eq_refl).
  unfold sbind at 1 in H. destruct (nconnect ndist so no _ np data ep1 h3) as [o4 h4] eqn:E4.
  pose proof (nconnect_S ndist so LAWS no NL S h0 np Hcl0 Hnp data _ _ _ _ _ Ho3 Hep1 E4) as Ho4.
  destruct o4 as [[]| | | | |]; try (by injection H as <- <-). exfalso.
  destruct (nrev_layers_S (T:=T) so S np Hnp (rev (seq 0 (Datatypes.S np.1)))) with (h := h4) as [h5 H5].
  { lia. }
  { intros l Hl. apply elem_of_list_In, in_rev, in_seq in Hl. lia. }
  { by eapply own_ready. }
  unfold sbind in H. rewrite H5 in H. unfold sput in H. injection H as <- _. done.
Qed.
End Failed.
