(** Filtered searches with filters that may change their mind. *)
From Verif Require Import Prelude Model Lib Table SearchProofs QueryProofs InsertProofs Ask SpecAsk.
Local Open Scope list_scope.

Section Ask.
Context {T : Type} (dist : list T -> list T -> Z) (so : StdOps).
Context (LAWS : StdLaws so) (Hnn : forall a b, (0 <= dist a b)%Z).
Context (f : asked_filter) (h : hnsw (T:=T)).

Definition yes (tr : dialogue) (id : dataid) : bool := bool_decide ((id, true) ∈ tr).
Definition of_stored (id : dataid) : Prop := exists p pt, get_pt h p = Some pt /\ pt_oid pt = id.
(** what is known of a dialogue when [n] points were seen *)
Definition all_stored (tr : dialogue) : Prop := forall id b, (id, b) ∈ tr -> of_stored id.
Definition talk (tr : dialogue) (n : nat) : Prop :=
  takes_place f tr /\ all_stored tr /\ (length tr + 2 <= 2 * n)%nat.
Definition stuck : Prop := exists tr id, takes_place f tr /\ all_stored tr /\
  (length tr + 2 <= 2 * table_size h)%nat /\ of_stored id /\ f tr id = None.

Lemma takes_place_snoc tr id b : takes_place f tr -> f tr id = Some b -> takes_place f (tr ++ [(id, b)]).
Proof using Type.
  clear. intros Ht Hb i id' b' Hi. apply lookup_app_Some in Hi as [Hi|[Hge Hi]].
  - rewrite take_app_le; [by apply Ht|]. apply lookup_lt_Some in Hi. lia.
  - apply list_lookup_singleton_Some in Hi as [E [= <- <-]]. by rewrite take_app_alt by lia.
Qed.
Lemma stored_snoc tr id b : all_stored tr -> of_stored id -> all_stored (tr ++ [(id, b)]).
Proof using Type. clear. intros Ht Hi id' b' [?|[= -> ->]%elem_of_list_singleton]%elem_of_app; eauto. Qed.

Context (q : list T) (ef layer : nat) (Sset : pid -> Prop) (ep : pid) (d0 : Z).
Context (Hef : (1 <= ef)%nat).
Notation inv tr := (sinv dist so h q ef (Some (yes tr)) Sset ep d0).

Lemma inv_mono tr tr' s : (forall x, x ∈ tr -> x ∈ tr') -> inv tr s -> inv tr' s.
Proof using Type.
  intros Hm []. constructor; auto; [done|]. unfold flt_ok in *. destruct i_flt as [Ha|?]; [left|by right].
  eapply Forall_impl; [exact Ha|]. intros x (pt & Hp & Hy). exists pt. split; [done|]. unfold yes in *.
  apply bool_decide_eq_true in Hy. apply bool_decide_eq_true_2. auto.
Qed.

Lemma push_ask_spec tr s e ept :
  inv tr s -> takes_place f tr -> all_stored tr -> get_pt h e = Some ept -> e ∉ s_vis so s ->
  (length tr + 4 <= 2 * table_size h)%nat ->
  (push_ask so f h e (pt_oid ept) (dist q (pt_data ept)) (s_ret so s) tr = Panic /\ stuck) \/
  exists ret tr', push_ask so f h e (pt_oid ept) (dist q (pt_data ept)) (s_ret so s) tr = Ok (ret, tr') /\
    takes_place f tr' /\ all_stored tr' /\ (length tr' <= length tr + 2)%nat /\
    (forall x, x ∈ tr -> x ∈ tr') /\
    push_case dist so h q (Some (yes tr')) s e ept ret.
Proof using LAWS Hnn Hef.
  intros Hi Ht Hs He Hvis Hlen. unfold push_ask, ask.
  assert (Hse : of_stored (pt_oid ept)) by (by exists e, ept).
  destruct (f tr (pt_oid ept)) as [b|] eqn:Eb; cbn [unwrap].
  2: { left. split; [done|]. exists tr, (pt_oid ept). split_and!; auto. lia. }
  rewrite !bind_Ok. pose proof (takes_place_snoc _ _ _ Ht Eb) as Ht1. pose proof (stored_snoc _ _ b Hs Hse) as Hs1.
  destruct b.
  2: { right. exists (s_ret so s), (tr ++ [(pt_oid ept, false)]). split_and!; auto.
       - rewrite app_length. simpl. lia.
       - intros x Hx. apply elem_of_app. by left.
       - left. done. }
  assert (Hy : forall tr', (forall x, x ∈ tr ++ [(pt_oid ept, true)] -> x ∈ tr') -> yes tr' (pt_oid ept) = true).
  { intros tr' H'. apply bool_decide_eq_true_2, H', elem_of_app. right. left. }
  assert (Hacc : forall tr', (forall x, x ∈ tr -> x ∈ tr') -> Forall (accepted h (yes tr)) (h_iter so (s_ret so s)) ->
     Forall (accepted h (yes tr')) (h_iter so (s_ret so s))).
  { intros tr' H' Ha. eapply Forall_impl; [exact Ha|]. intros x (pt & Hp & Hyx). exists pt. split; [done|]. unfold yes in *.
    apply bool_decide_eq_true in Hyx. apply bool_decide_eq_true_2. auto. }
  destruct (Nat.eqb_spec (h_len so (s_ret so s)) 1) as [E1|E1].
  - destruct (h_peek_nonempty so LAWS (s_ret so s)) as [o Ho]; [apply Hi|]. rewrite Ho. cbn [unwrap]. rewrite bind_Ok.
    destruct (h_peek_some so LAWS _ _ Ho) as [Hino _].
    assert (Hone : h_iter so (s_ret so s) = [o]).
    { unfold h_len in E1. destruct (h_iter so (s_ret so s)) as [|y [|z l]]; try done. by apply elem_of_list_singleton in Hino as ->. }
    pose proof (i_ret _ _ _ _ _ _ _ _ _ _ Hi) as Hr. rewrite Forall_forall in Hr. destruct (Hr o Hino) as (opt & Hopt & _).
    rewrite Hopt. cbn [unwrap]. rewrite bind_Ok.
    assert (Hso : of_stored (pt_oid opt)) by (by exists (n_pid o), opt).
    destruct (f (tr ++ [(pt_oid ept, true)]) (pt_oid opt)) as [c|] eqn:Ec; cbn [unwrap].
    2: { left. split; [done|]. exists (tr ++ [(pt_oid ept, true)]), (pt_oid opt). split_and!; auto. rewrite app_length. simpl. lia. }
    rewrite !bind_Ok. right. eexists _, _. split; [done|].
    split; [by apply takes_place_snoc|]. split; [by apply stored_snoc|]. split; [rewrite !app_length; simpl; lia|].
    split; [intros x Hx; rewrite !elem_of_app; by left; left|].
    destruct c.
    + right; left. rewrite (law_push _ LAWS). split; [done|]. split.
      * apply Hy. intros x Hx. apply elem_of_app. by left.
      * rewrite Hone. repeat constructor. exists opt. split; [done|]. apply bool_decide_eq_true_2, elem_of_app. right. left.
    + right; right. split.
      * apply singleton_perm. by rewrite (law_push _ LAWS), (law_iter_empty _ LAWS).
      * eexists. split; [done|]. apply Hy. intros x Hx. apply elem_of_app. by left.
  - right. eexists _, _. split; [done|]. split_and!; auto.
    + rewrite app_length. simpl. lia.
    + intros x Hx. apply elem_of_app. by left.
    + right; left. rewrite (law_push _ LAWS). split; [done|]. split; [by apply Hy|]. apply Hacc.
      { intros x Hx. apply elem_of_app. by left. }
      pose proof (i_flt _ _ _ _ _ _ _ _ _ _ Hi) as [Ha|(y & Hy1 & _)]; [done|]. exfalso. apply E1. unfold h_len. by rewrite Hy1.
Qed.

Lemma scan_ask_inv nbs s tr :
  inv tr s -> talk tr (length (s_vis so s)) -> (forall n, n ∈ nbs -> valid h (n_pid n) /\ Sset (n_pid n)) ->
  (scan_ask dist so f h q ef nbs s tr = Panic /\ stuck) \/
  exists s' tr', scan_ask dist so f h q ef nbs s tr = Ok (false, s', tr') /\ inv tr' s' /\ talk tr' (length (s_vis so s')) /\
    (smeas so h s' <= smeas so h s)%nat.
Proof using LAWS Hnn Hef.
  revert s tr. induction nbs as [|e nbs IH]; intros s tr Hi Ht Hn; cbn [scan_ask].
  - right. eauto 10.
  - destruct (Hn e) as [Hve HSe]; [left|].
    assert (Hn' : forall n, n ∈ nbs -> valid h (n_pid n) /\ Sset (n_pid n)).
    { intros n Hin. apply Hn. by right. }
    destruct (decide (n_pid e ∈ s_vis so s)) as [Hvis|Hvis].
    { rewrite bool_decide_eq_true_2 by done. auto. }
    rewrite bool_decide_eq_false_2 by done. cbv zeta.
    destruct (h_peek_nonempty so LAWS (s_ret so s)) as [x Hx]; [apply Hi|].
    rewrite Hx. destruct Hve as [ept Hept]. rewrite Hept. cbn [unwrap]. rewrite bind_Ok.
    assert (Hsk : inv tr (SST so (s_ret so s) (s_cand so s) (n_pid e :: s_vis so s))).
    { apply skip_inv; auto. exists ept; done. }
    pose proof (vis_bound dist so h q ef _ Sset ep d0 _ Hsk) as Hb. simpl in Hb.
    destruct Ht as (Ht1 & Ht2 & Ht3).
    destruct ((dist q (pt_data ept) <? n_dist x)%Z || (h_len so (s_ret so s) <? ef)%nat) eqn:Etest.
    + destruct (push_ask_spec tr s (n_pid e) ept Hi Ht1 Ht2 Hept Hvis) as [[-> Hst]|(ret & tr' & -> & H1 & H2 & H3 & H4 & Hc)]; [lia|by left|].
      rewrite bind_Ok.
      pose proof (push_case_inv dist so LAWS Hnn h q ef (Some (yes tr')) Sset ep d0 (or_intror Hef) s (n_pid e) ept ret
        (inv_mono _ _ _ H4 Hi) Hept HSe Hvis Hc) as Hi'.
      destruct (IH _ tr' Hi') as [[-> Hst]|(s' & tr2 & -> & Hi2 & Htk & Hm)]; [|done|by left|].
      { split_and!; auto. simpl. lia. }
      right. exists s', tr2. split_and!; auto. etransitivity; [exact Hm|]. unfold smeas in *. simpl in *.
      rewrite (h_len_push so LAWS). lia.
    + destruct (IH _ tr Hsk) as [[-> Hst]|(s' & tr2 & -> & Hi2 & Htk & Hm)]; [|done|by left|].
      { split_and!; auto. simpl. lia. }
      right. exists s', tr2. split_and!; auto. etransitivity; [exact Hm|]. unfold smeas. simpl. lia.
Qed.

Context (Hlinks : links_ok h layer Sset).

Lemma iter_ask_inv s tr : inv tr s -> talk tr (length (s_vis so s)) ->
  (iter_ask dist so f h q ef layer s tr = Panic /\ stuck) \/
  iter_ask dist so f h q ef layer s tr = Ok (inl (s_ret so s), tr) \/
  exists s' tr', iter_ask dist so f h q ef layer s tr = Ok (inr s', tr') /\ inv tr' s' /\ talk tr' (length (s_vis so s')) /\
    (smeas so h s' < smeas so h s)%nat.
Proof using LAWS Hnn Hef Hlinks.
  intros Hi Ht. unfold iter_ask. destruct (h_pop so (s_cand so s)) as [[c cand']|] eqn:Epop; [|by right; left].
  destruct (pop_inv dist so LAWS h q ef _ Sset ep d0 s c cand' Hi Epop) as (Hi1 & (cpt & Hc & Hcd) & Hcvis).
  destruct (h_peek_nonempty so LAWS (s_ret so s)) as [x Hx]; [apply Hi|].
  rewrite Hx. cbn [unwrap]. rewrite bind_Ok.
  assert (Hfd : (0 <= n_dist x)%Z).
  { destruct (h_peek_some so LAWS _ _ Hx) as [Hin _]. destruct Hi.
    rewrite Forall_forall in i_ret. destruct (i_ret _ Hin) as (? & _ & ->). apply Hnn. }
  pose proof (Hnn q (pt_data cpt)) as Hcn.
  rewrite (assert_true (0 <=? n_dist x)%Z) by lia. rewrite bind_Ok.
  rewrite (assert_true (n_dist c <=? 0)%Z) by lia. rewrite bind_Ok.
  match goal with |- context [if ?b then _ else _] => destruct b end; [by right; left|].
  rewrite Hc. cbn [unwrap]. rewrite bind_Ok.
  destruct (Hlinks (n_pid c) cpt) as (nbs & Hnbs & Hin); [by eapply elt_in_S|done|].
  rewrite Hnbs. cbn [unwrap]. rewrite bind_Ok.
  destruct (scan_ask_inv nbs _ tr Hi1 Ht Hin) as [[-> Hst]|(s' & tr' & -> & Hi2 & Htk & Hm)]; [by left|].
  rewrite bind_Ok. right; right. exists s', tr'. split_and!; auto.
  eapply Nat.le_lt_trans; [exact Hm|]. unfold smeas. simpl. rewrite (h_len_pop so LAWS _ _ _ Epop). lia.
Qed.

Lemma loop_ask_inv fuel s tr : inv tr s -> talk tr (length (s_vis so s)) -> (smeas so h s < fuel)%nat ->
  (loop_ask dist so f fuel h q ef layer s tr = Panic /\ stuck) \/
  exists s' tr', loop_ask dist so f fuel h q ef layer s tr = Ok (s_ret so s', tr') /\ inv tr' s' /\ talk tr' (length (s_vis so s')).
Proof using LAWS Hnn Hef Hlinks.
  revert s tr. induction fuel as [|fuel IH]; intros s tr Hi Ht Hm; [lia|]. cbn [loop_ask].
  destruct (iter_ask_inv s tr Hi Ht) as [[-> Hst]|[->|(s' & tr' & -> & Hi' & Ht' & Hm')]]; [by left| |]; rewrite bind_Ok.
  - right. eauto.
  - apply IH; [done|done|lia].
Qed.
End Ask.

Section Search.
Context {T : Type} (dist : list T -> list T -> Z) (so : StdOps).
Context (LAWS : StdLaws so) (Hnn : forall a b, (0 <= dist a b)%Z).
Context (f : asked_filter) (h : hnsw (T:=T)).

Lemma layer_ask_spec q ep ept ef layer ly :
  points_by_layer h !! layer = Some ly -> ly <> [] ->
  get_pt h ep = Some ept -> links_ok h layer (fun _ => True) -> (1 <= ef)%nat ->
  (layer_ask dist so f h q ep ef layer = Panic /\ stuck f h) \/
  exists ret tr, layer_ask dist so f h q ep ef layer = Ok (ret, tr) /\ talk f h tr (table_size h) /\
    Forall (elt_ok dist h q) (h_iter so ret) /\
    NoDup (n_pid <$> h_iter so ret) /\
    h_iter so ret <> [] /\
    flt_ok h (Some (yes tr)) ep (h_iter so ret).
Proof using LAWS Hnn.
  intros Hly Hne Hg Hl Hef. unfold layer_ask. rewrite Hly. destruct ly as [|p0 ly]; [done|].
  destruct (search_init_inv dist so LAWS Hnn h q ef (Some (yes [])) (fun _ => True) ep ept Hg I) as (s & -> & Hi & Hm & Hv & _).
  rewrite bind_Ok.
  destruct (loop_ask_inv dist so LAWS Hnn f h q ef layer (fun _ => True) ep _ Hef Hl (S (table_size h)) s [] Hi)
    as [[-> ?]|(s' & tr & -> & Hi' & Ht)]; [|lia|by left|].
  { split_and!; [by intros ? ? ? ?|by intros ? ? ?%elem_of_nil|]. rewrite Hv. simpl. lia. }
  right. exists (s_ret so s'), tr. split; [done|]. split.
  { destruct Ht as (? & ? & ?). split_and!; auto. pose proof (vis_bound dist so h q ef _ _ ep _ _ Hi'). lia. }
  destruct Hi'. split_and!; auto.
Qed.

Lemma search_asking_spec q k efa : searchable h -> (1 <= Nat.max efa k)%nat ->
  (search_asking dist so f h q k efa = Panic /\ stuck f h) \/
  exists res tr, search_asking dist so f h q k efa = Ok (res, tr) /\
    (length res <= k)%nat /\ sorted_by distance res /\ NoDup (p_id <$> res) /\ Forall (answer_ok dist h q) res /\
    takes_place f tr /\ all_stored h tr /\ (length tr <= 2 * (table_size h - 1))%nat /\
    ((forall a, a ∈ res -> was_accepted tr (d_id a)) \/ length res = 1%nat) /\
    (entry_point h <> None -> (1 <= k)%nat -> res <> []).
Proof using LAWS Hnn.
  intros Hs Hef. unfold search_asking. destruct (entry_point h) as [ep|] eqn:Eep.
  2: { right. exists [], []. split_and!; simpl; try done; try lia; try constructor.
       - by intros ? ? ?%elem_of_nil.
       - by intros ? ?%elem_of_nil. }
  pose proof (s_entry _ Hs _ Eep) as Hv. pose proof (searchable_layer _ _ Hs Hv) as H16.
  pose proof Hv as [ept Hept].
  destruct (find_pivot_srch dist Hnn h q ep ept (s_links _ Hs) H16 Hept) as (pv & pvt & -> & Hpv & Hle). rewrite bind_Ok. cbv zeta.
  assert (Hvp : valid h pv) by (by exists pvt).
  destruct (layer_to_search_spec h pv Hvp) as (l & ly & -> & Hly & Hne & Hlpv & Hlow). rewrite bind_Ok.
  assert (Hl16 : (l < NB_LAYER_MAX)%nat).
  { pose proof (searchable_layer _ _ Hs Hvp). lia. }
  destruct (layer_ask_spec q pv pvt (Nat.max efa k) l ly) as [[-> ?]|(hp & tr & -> & (Ht1 & Ht2 & Ht3) & R1 & R2 & R3 & R4)]; auto.
  { by apply (s_links _ Hs). }
  rewrite bind_Ok.
  replace (take (Nat.min (Nat.min k (Nat.max efa k)) (length (h_sorted so hp))) (h_sorted so hp)) with (take k (h_sorted so hp)).
  2: { destruct (decide (k <= length (h_sorted so hp))%nat); [f_equal; lia|]. rewrite !take_ge by lia. done. }
  assert (Hok : Forall (elt_ok dist h q) (take k (h_sorted so hp))).
  { apply Forall_take. by rewrite (law_sorted_perm _ LAWS). }
  destruct (answers_spec dist h q _ Hok) as (res & -> & A1 & A2 & A3). rewrite bind_Ok. right. exists res, tr. split; [done|].
  assert (Hlen : length res = length (take k (h_sorted so hp))).
  { rewrite <- (fmap_length p_id res), A2, fmap_length. done. }
  split_and!; auto.
  - rewrite Hlen, take_length. lia.
  - assert (HS : sorted_by n_dist (take k (h_sorted so hp))) by apply sorted_by_take, (law_sorted _ LAWS).
    clear -A3 HS. revert res A3. induction HS as [|x l Hs IH Hf]; intros [|r res] A3; try done.
    + constructor.
    + csimpl in A3. injection A3 as E1 E2. constructor; [by apply IH|].
      rewrite E1. apply Forall_forall. intros y Hy.
      assert (Hy' : distance y ∈ n_dist <$> l) by (rewrite <- E2; apply elem_of_list_fmap; eauto).
      apply elem_of_list_fmap in Hy' as (z & -> & Hz). rewrite Forall_forall in Hf. by apply Hf.
  - rewrite A2, fmap_take.
    assert (HN : NoDup (n_pid <$> h_sorted so hp)) by (by rewrite (law_sorted_perm _ LAWS)).
    rewrite <- (take_drop k (n_pid <$> h_sorted so hp)) in HN. by apply NoDup_app in HN as [? _].
  - lia.
  - destruct R4 as [Ha|(x & Hx & _)].
    + left. intros a Hin. assert (Hp : p_id a ∈ n_pid <$> take k (h_sorted so hp)) by (rewrite <- A2; apply elem_of_list_fmap; eauto).
      apply elem_of_list_fmap in Hp as (x & Ex & Hx).
      assert (Hx' : x ∈ h_iter so hp).
      { rewrite <- (law_sorted_perm _ LAWS). rewrite <- (take_drop k). apply elem_of_app. by left. }
      rewrite Forall_forall in Ha. destruct (Ha x Hx') as (pt & Hpt & Hy). apply bool_decide_eq_true in Hy.
      rewrite Forall_forall in A1. destruct (A1 a Hin) as (pt' & Hpt' & Hd & _). rewrite Ex in Hpt'.
      unfold was_accepted. rewrite Hd. congruence.
    + destruct k as [|k]; [left|right].
      * rewrite take_0 in Hlen. destruct res; [|done]. by intros ? ?%elem_of_nil.
      * rewrite Hlen, take_length. pose proof (law_sorted_perm _ LAWS hp) as Hp. rewrite Hx in Hp. rewrite Hp. simpl. lia.
  - intros _ Hk E. subst res. simpl in Hlen. rewrite take_length in Hlen.
    assert (length (h_sorted so hp) = 0%nat) by lia.
    apply R3. apply Permutation_nil. rewrite <- (law_sorted_perm _ LAWS). by destruct (h_sorted so hp).
Qed.

(** filters that do not change their mind *)
Context (g : dataid -> bool) (Hg : steady f g).
Lemma push_ask_steady e oid ed ret tr : fst <$> push_ask so f h e oid ed ret tr = push_ret so h (Some g) e oid ed ret.
Proof using Hg.
  unfold push_ask, push_ret, ask. rewrite Hg. cbn [unwrap]. rewrite !bind_Ok. destruct (g oid); [|done].
  destruct (h_len so ret =? 1)%nat; [|done]. destruct (h_peek so ret) as [o|]; [|done]. cbn [unwrap]. rewrite !bind_Ok.
  destruct (get_pt h (n_pid o)) as [opt|]; [|done]. cbn [unwrap]. rewrite !bind_Ok. by rewrite Hg.
Qed.
Lemma scan_ask_steady q ef nbs s tr : fst <$> scan_ask dist so f h q ef nbs s tr = scan_neighbours dist so h q ef (Some g) nbs s.
Proof using Hg.
  revert s tr. induction nbs as [|e nbs IH]; intros s tr; [done|]. cbn [scan_ask scan_neighbours].
  case_bool_decide; [apply IH|]. cbv zeta. destruct (h_peek _ _); [|done]. destruct (get_pt h (n_pid e)) as [pt|]; [|done]. cbn [unwrap].
  rewrite !bind_Ok. destruct (_ || _); [|apply IH]. rewrite <- (push_ask_steady _ _ _ _ tr).
  destruct (push_ask _ _ _ _ _ _ _ _) as [[r tr']| | | | |]; try done. cbn. apply IH.
Qed.
Lemma iter_ask_steady q ef l s tr : fst <$> iter_ask dist so f h q ef l s tr = search_iter dist so h q ef l (Some g) s.
Proof using Hg.
  unfold iter_ask, search_iter. destruct (h_pop so (s_cand so s)) as [[c cand]|]; [|done].
  destruct (h_peek _ _) as [x|]; [|done]. cbn [unwrap]. rewrite !bind_Ok.
  destruct (assert_ (0 <=? n_dist x)%Z) as [[]| | | | |]; try done. rewrite !bind_Ok.
  destruct (assert_ (n_dist c <=? 0)%Z) as [[]| | | | |]; try done. rewrite !bind_Ok.
  destruct (_ && _); [done|]. destruct (get_pt h (n_pid c)) as [pt|]; [|done]. cbn [unwrap]. rewrite !bind_Ok.
  destruct (pt_nbs pt !! l) as [nbs|]; [|done]. cbn [unwrap]. rewrite !bind_Ok.
  rewrite <- (scan_ask_steady _ _ _ _ tr). by destruct (scan_ask _ _ _ _ _ _ _ _ _) as [[[st s'] tr']| | | | |].
Qed.
Lemma loop_ask_steady fuel q ef l s tr : fst <$> loop_ask dist so f fuel h q ef l s tr = search_loop dist so fuel h q ef l (Some g) s.
Proof using Hg.
  revert s tr. induction fuel as [|fuel IH]; intros s tr; [done|]. cbn [loop_ask search_loop].
  rewrite <- (iter_ask_steady _ _ _ _ tr). destruct (iter_ask _ _ _ _ _ _ _ _ _) as [[[r|s'] tr']| | | | |]; try done. cbn. apply IH.
Qed.
Lemma search_asking_steady q k e : fst <$> search_asking dist so f h q k e = search_filter dist so h q k e (Some g).
Proof using Hg.
  unfold search_asking, search_filter. destruct (entry_point h) as [ep|]; [|done].
  destruct (find_pivot dist h q ep) as [pv| | | | |]; try done. rewrite !bind_Ok. cbv zeta.
  destruct (layer_to_search h) as [l| | | | |]; try done. rewrite !bind_Ok. unfold layer_ask, search_layer.
  destruct (points_by_layer h !! l) as [[|x ly]|]; [by cbn; destruct (mapM _ _)| |done].
  destruct (search_init dist so h q pv) as [s| | | | |]; try done. rewrite !bind_Ok.
  rewrite <- (loop_ask_steady _ _ _ _ _ []). destruct (loop_ask _ _ _ _ _ _ _ _ _ _) as [[r tr]| | | | |]; try done. cbn.
  by destruct (mapM _ _).
Qed.
End Search.
