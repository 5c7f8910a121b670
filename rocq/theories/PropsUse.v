(** Property C97: what a search finds, in an index however it was used. *)
From stdpp Require Import relations.
From Verif Require Import Prelude Model StdInst Lib Table SearchProofs InsertProofs ExhaustProofs QueryProofs LocalProofs StartProofs
  IterProofs FlatProofs Spec SpecProofs Io SpecIo SpecBuilt Conc SpecConc ConcEnd BuiltProofs SpecUse UseProofs Examples ExamplesConc PropsConc PropsUsed.
Local Open Scope list_scope.

(** C97: where a search starts is determined by the index; it is not further than the entry point, and neither is the first answer.
    With max(ef, knbn) at least the number of points that can be reached from there by the links of the lowest layer the answers
    are the knbn nearest of these; with a filter only the accepted ones count. A search that gives fewer answers than asked gives
    all that can be reached. A neighbour of an answer is an answer, or as far as all the answers, which are knbn. *)
Theorem C97_what_a_search_finds :
  forall {T} (dist : list T -> list T -> Z) so, StdLaws so -> (forall a b, (0 <= dist a b)%Z) ->
  forall inv_ln M ml ef hist h, used dist so inv_ln M ml ef hist h -> hist <> [] ->
  forall q, exists start l sv, use_start dist h q start /\ lowest_layer h l /\ layer_vector h start sv /\
    (forall start', use_start dist h q start' -> start' = start) /\
    (exists ep ev, entry_point h = Some ep /\ layer_vector h ep ev /\ (dist q sv <= dist q ev)%Z) /\
    (forall knbn ef_arg, (1 <= knbn)%nat ->
       exists a res, search dist so h q knbn ef_arg = Ok (a :: res) /\ (distance a <= dist q sv)%Z) /\
    (forall reached vectors knbn ef_arg,
       NoDup reached -> (forall p, p ∈ reached <-> rtc (layer_linked h l) start p) -> Forall2 (layer_vector h) reached vectors ->
       (length reached <= Nat.max ef_arg knbn)%nat ->
       exists res, search dist so h q knbn ef_arg = Ok res /\ (forall a, a ∈ res -> p_id a ∈ reached) /\
         k_smallest knbn (dist q <$> vectors) (distance <$> res)) /\
    (forall flt accepted vectors knbn ef_arg, NoDup accepted ->
       (forall p, p ∈ accepted <-> rtc (layer_linked h l) start p /\ exists pt, layer_point h p pt /\ flt (pt_oid pt) = true) ->
       Forall2 (layer_vector h) accepted vectors ->
       (2 <= Nat.max ef_arg knbn)%nat -> (length accepted <= Nat.max ef_arg knbn)%nat ->
       exists res, search_filter dist so h q knbn ef_arg (Some flt) = Ok res /\
         (accepted <> [] -> (forall a, a ∈ res -> p_id a ∈ accepted) /\ k_smallest knbn (dist q <$> vectors) (distance <$> res)) /\
         (accepted = [] -> p_id <$> res = take knbn [start])) /\
    (forall knbn ef_arg filter res, search_filter dist so h q knbn ef_arg filter = Ok res -> (length res < knbn)%nat ->
       let let_through pt := match filter with None => true | Some f => f (pt_oid pt) end in
       (forall p, p ∈ p_id <$> res <-> rtc (layer_linked h l) start p /\ exists pt, layer_point h p pt /\ let_through pt = true) \/
       (p_id <$> res = [start] /\ forall p pt, rtc (layer_linked h l) start p -> layer_point h p pt -> let_through pt = false)) /\
    (forall knbn ef_arg filter res a p pt, filter = None \/ (1 <= Nat.max ef_arg knbn)%nat ->
       search_filter dist so h q knbn ef_arg filter = Ok res -> a ∈ res -> layer_linked h l (p_id a) p -> layer_point h p pt ->
       match filter with None => true | Some f => f (pt_oid pt) end = true ->
       p ∈ p_id <$> res \/ (length res = knbn /\ forall b, b ∈ res -> (distance b <= dist q (pt_data pt))%Z)).
Proof.
  intros T dist so LAWS Hnn inv_ln M ml ef hist h Hu Hne q.
  destruct (used_facts dist so LAWS Hnn _ _ _ _ _ _ Hu) as (Hwf & _ & _ & _ & Hst & Hnb). pose proof (l_core _ _ Hwf) as Hc.
  destruct (entry_point h) as [ep|] eqn:Eep.
  2: { exfalso. pose proof (l_entry _ _ Hwf) as He. rewrite Eep in He. rewrite <- (l_count _ _ Hwf) in He.
       unfold get_nb_point in Hnb. rewrite He in Hnb. by apply Hne, nil_length_inv. }
  assert (Hent : forall ep, entry_point h = Some ep -> valid h ep).
  { intros ep0 E. pose proof (l_entry _ _ Hwf) as He. by rewrite E in He. }
  destruct (Hent ep Eep) as [ept Hept].
  destruct (find_pivot_spec dist Hnn h q ep ept Hc Hept) as (pv & pvt & Hpv & Hpvt & Hle).
  assert (Hvp : valid h pv) by (by exists pvt).
  destruct (layer_to_search_spec h pv Hvp) as (l & ly & Hls & _).
  pose proof (find_pivot_use dist h Hc q ep pv Eep Hpv) as Hstart. pose proof (lowest_layer_any h l Hls) as Hlow.
  assert (Hlp : forall p pt, layer_point h p pt <-> get_pt h p = Some pt) by (intros; by apply (layer_point_pt dist)).
  exists pv, l, (pt_data pvt). split_and!; auto.
  - exists pvt. split; [by apply Hlp|done].
  - intros s' Hs'. destruct (use_starts dist Hnn h Hc q s' l Hent Hs' Hlow) as (ep' & E & Hp' & _). congruence.
  - exists ep, (pt_data ept). split; [done|]. split; [|done]. exists ept. split; [by apply Hlp|done].
  - intros k efa Hk.
    destruct (search_filter_run dist so LAWS Hnn h q k efa None ep Hwf Eep ltac:(by left)) as
      (pv' & pvt' & ept' & l' & ly' & hp & res & Hept' & Hpvt' & _ & _ & _ & _ & _ & Hpv' & _ & Hs & R1 & R2 & R3 & R4 & R5 & A1 & A2 & A3).
    rewrite Hpv in Hpv'. injection Hpv' as <-. rewrite Hpvt in Hpvt'. injection Hpvt' as <-.
    destruct (R4 eq_refl) as (x & Hx & Hxd).
    pose proof (law_sorted_perm _ LAWS hp) as Hp. pose proof (law_sorted _ LAWS hp) as Hsort.
    destruct (h_sorted so hp) as [|y ys] eqn:Es; [by apply Permutation_nil in Hp|].
    destruct k as [|k]; [lia|]. simpl in A2, A3. destruct res as [|a res]; [done|].
    exists a, res. split; [done|]. injection A3 as E3 _. rewrite E3.
    assert (n_dist y <= n_dist x)%Z; [|lia].
    rewrite <- Hp in Hx. apply elem_of_cons in Hx as [->|Hx]; [lia|].
    inversion Hsort as [|? ? _ Hf]; subst. rewrite Forall_forall in Hf. by apply Hf.
  - intros R vs k efa Hnd HR Hvs Hfit.
    destruct (search_complete dist so LAWS Hnn h q k efa None ep pv l R Hwf Eep Hpv Hls Hnd) as (res & Hs & H1 & _); auto.
    { intros p. rewrite HR, (layer_rtc dist h Hc). split; [|by intros [? _]]. intros Hr. split; [done|].
      destruct (rtc_valid dist h Hc l pv p Hvp Hr) as [pt Hpt]. by exists pt. }
    destruct H1 as (Hin & ds & D1 & D2 & D3).
    { intros ->. assert (Hp : pv ∈ @nil pid) by (apply HR; constructor). by apply elem_of_nil in Hp. }
    exists res. split_and!; auto. exists ds. by rewrite (use_vectors dist h Hc q R vs Hvs).
  - intros flt R vs k efa Hnd HR Hvs H2 Hfit.
    destruct (search_complete dist so LAWS Hnn h q k efa (Some flt) ep pv l R Hwf Eep Hpv Hls Hnd) as (res & Hs & H1 & H0); auto.
    { intros p. rewrite HR, (layer_rtc dist h Hc). split; intros (? & pt & Hpt & ?); (split; [done|]); exists pt; (split; [|done]); by apply Hlp. }
    exists res. split_and!; auto. intros E. destruct (H1 E) as (Hin & ds & D1 & D2 & D3). split; [done|].
    exists ds. by rewrite (use_vectors dist h Hc q R vs Hvs).
  - intros k efa filter res Hs Hlen let_through.
    assert (Hps : forall pt, passes filter pt <-> let_through pt = true) by (intros pt; unfold let_through; by destruct filter).
    destruct (search_short dist so LAWS Hnn h q k efa filter ep res Hwf Eep Hs Hlen) as (pv' & l' & Hpv' & Hl' & Hor).
    rewrite Hpv in Hpv'. injection Hpv' as <-. rewrite Hls in Hl'. injection Hl' as <-.
    destruct Hor as [Hor|[Hone Hnone]].
    + left. intros p. rewrite Hor, (layer_rtc dist h Hc).
      split; intros (? & pt & Hpt & ?); (split; [done|]); exists pt; (split; [by apply Hlp|by apply Hps]).
    + right. split; [done|]. intros p pt Hr Hpt. apply (layer_rtc dist h Hc) in Hr. apply Hlp in Hpt.
      specialize (Hnone p pt Hr Hpt). rewrite Hps in Hnone. by destruct (let_through pt).
  - intros k efa filter res a p pt Hef Hres Ha Hlk Hpt Hf.
    destruct (search_filter_local dist so LAWS Hnn h q k efa filter ep res Hwf Eep Hef Hres) as (l' & Hl' & Hloc).
    rewrite Hls in Hl'. injection Hl' as <-. apply Hlp in Hpt. apply (layer_linked_link dist h Hc) in Hlk.
    destruct (Hloc a p pt Ha Hlk Hpt) as [?|[H1 H2]].
    { unfold passes. by destruct filter. }
    + by left.
    + right. split; [done|]. by rewrite Forall_forall in H2.
Qed.
Print Assumptions C97_what_a_search_finds.

(** the index left by two parallel insertions in an empty index (C45): the point of [0], above the entry point, is not linked. A
    search for [1] starts at the entry point, the only point that can be reached, and gives it alone although [0] is nearer. *)
Lemma ce_reached : forall p, p ∈ [(0, 0)%nat] <-> rtc (layer_linked ce_h 0) (0, 0)%nat p.
Proof.
  intros p. rewrite elem_of_list_singleton. split; [intros ->; apply rtc_refl|].
  intros Hr. inversion Hr as [|? y ? Hl _]; subst; [done|]. exfalso.
  destruct Hl as (ns & n & (pt & lists & (pts & Hi & Hin & Hp) & Hg & Hl) & Hn & _).
  vm_compute in Hi. injection Hi as <-. apply elem_of_list_singleton in Hin as ->. vm_compute in Hg. injection Hg as <-.
  injection Hl as <-. by apply elem_of_nil in Hn.
Qed.
Example C97_applies :
  used d1 simple_ops one_scale 2 16 10 [([0%Z], 1%N); ([5%Z], 2%N)] ce_h /\
  use_start d1 ce_h [1%Z] (0, 0)%nat /\ lowest_layer ce_h 0 /\
  Forall2 (layer_vector ce_h) [(0, 0)%nat] [[5%Z]] /\
  (exists res, search d1 simple_ops ce_h [1%Z] 2 2 = Ok res /\ (distance <$> res = [d1 [1%Z] [5%Z]]) /\ (p_id <$> res) = [(0, 0)%nat]) /\
  (d1 [1%Z] [0%Z] < d1 [1%Z] [5%Z])%Z.
Proof.
  assert (Hp : layer_vector ce_h (0, 0)%nat [5%Z]).
  { eexists. split; [eexists; split_and!; [vm_compute; reflexivity|left|reflexivity]|reflexivity]. }
  split_and!.
  - exact ce_used.
  - exists (0, 0)%nat. split; [vm_compute; reflexivity|]. constructor.
  - split; [vm_compute; done|]. intros j. lia.
  - repeat constructor. done.
  - eexists. split; [vm_compute; reflexivity|]. split; vm_compute; reflexivity.
  - vm_compute. reflexivity.
Qed.

(** the index of seven points on three layers: a search for [28] starts at the point of [10], which is nearer than the entry
    point, the point of [7] *)
Example C97_descends :
  used d1 simple_ops one_scale 2 16 10 ex1_hist ex1 /\ use_start d1 ex1 [28%Z] (1, 0)%nat /\ layer_vector ex1 (1, 0)%nat [10%Z] /\
  entry_point ex1 = Some (2, 0)%nat /\ layer_vector ex1 (2, 0)%nat [7%Z] /\
  (exists res, search d1 simple_ops ex1 [28%Z] 3 10 = Ok res /\ (distance <$> res = [2; 8; 18])%Z).
Proof.
  split; [exact (used_built _ _ _ _ _ _ _ _ ex1_built)|].
  assert (Hc : core d1 ex1).
  { eapply l_core. by apply (used_facts d1 simple_ops simple_laws d1_nonneg _ _ _ _ _ _ (used_built _ _ _ _ _ _ _ _ ex1_built)). }
  split_and!.
  - apply (find_pivot_use d1 ex1 Hc _ (2, 0)%nat); vm_compute; reflexivity.
  - eexists. split; [eexists; split_and!; [vm_compute; reflexivity|left|reflexivity]|reflexivity].
  - reflexivity.
  - eexists. split; [eexists; split_and!; [vm_compute; reflexivity|left|reflexivity]|reflexivity].
  - eexists. split; vm_compute; reflexivity.
Qed.
