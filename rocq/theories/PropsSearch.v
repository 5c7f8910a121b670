(** Properties C01-C13: answers of search and search_filter.
    In every statement: [so] is any implementation of the standard containers obeying their
    documented laws (so any tie breaking), [dist] any distance function with non negative values,
    [h] any index made by new, insertions (of any vectors, ids and level draws) and setters. *)
From stdpp Require Import relations.
From Verif Require Import Prelude Model StdInst Lib Table SearchProofs InsertProofs ExhaustProofs QueryProofs
  IterProofs FlatProofs Spec SpecProofs SpecStart StartProofs SpecBuilt BuiltProofs Examples.

(** ** Lemmas used below *)
Lemma search_ok_facts {T} (dist : list T -> list T -> Z) so (LAWS : StdLaws so) (Hnn : forall a b, (0 <= dist a b)%Z)
    h q k efa filter res :
  wf dist h -> search_filter dist so h q k efa filter = Ok res ->
  (length res <= k)%nat /\ sorted_by distance res /\ NoDup (p_id <$> res) /\ Forall (answer_ok dist h q) res.
Proof.
  intros Hwf Hs. destruct (decide (1 <= Nat.max efa k)%nat) as [Hm|Hm].
  - destruct (search_filter_facts dist so LAWS Hnn h q k efa filter (wf_lwf _ _ Hwf)) as (res' & Hs' & ?); [by right|].
    rewrite Hs in Hs'. injection Hs' as <-. done.
  - assert (k = 0%nat) as -> by lia.
    enough (res = []) as ->. { split_and!; simpl; try lia; constructor. }
    unfold search_filter in Hs. destruct (entry_point h) as [ep|]; [|by injection Hs as <-].
    apply bind_inv in Hs as (pv & _ & Hs). apply bind_inv in Hs as (l & _ & Hs).
    apply bind_inv in Hs as (hp & _ & Hs). simpl in Hs. by injection Hs as <-.
Qed.

Lemma NoDup_Permutation_bis_std {A} (l k : list A) :
  NoDup l -> (length k <= length l)%nat -> (forall x, x ∈ l -> x ∈ k) -> l ≡ₚ k.
Proof.
  intros Hnd Hlen Hin. apply NoDup_Permutation_bis; auto.
  - by apply NoDup_ListNoDup.
  - intros x. rewrite <- !elem_of_list_In. auto.
Qed.

Lemma find_pivot_valid {T} (dist : list T -> list T -> Z) so (LAWS : StdLaws so) (Hnn : forall a b, (0 <= dist a b)%Z)
    h q ep pv :
  wf dist h -> entry_point h = Some ep -> find_pivot dist h q ep = Ok pv -> exists pvt, get_pt h pv = Some pvt.
Proof.
  intros Hwf He Hpv. pose proof (w_entry _ _ Hwf) as Hent. rewrite He in Hent. destruct Hent as [[ept Hept] _].
  destruct (find_pivot_spec dist Hnn h q ep ept (w_core _ _ Hwf) Hept) as (pv' & pt & E & Hpt & _).
  rewrite Hpv in E. injection E as <-. eauto.
Qed.

(** C01: at most knbn answers whatever ef; none for knbn = 0. *)
Theorem C01_search_size :
  forall {T} (dist : list T -> list T -> Z) so, StdLaws so -> (forall a b, (0 <= dist a b)%Z) ->
  forall inv_ln M ml ef hist h, built dist so inv_ln M ml ef hist h ->
  forall q knbn ef_arg, exists res,
    search dist so h q knbn ef_arg = Ok res /\ (length res <= knbn)%nat /\ (knbn = 0%nat -> res = []).
Proof.
  intros T dist so LAWS Hnn inv_ln M ml ef hist h Hb q k efa.
  destruct (search_filter_facts dist so LAWS Hnn h q k efa None) as (res & Hs & Hl & _); [|by left|].
  { by eapply wf_lwf, built_wf. }
  exists res. split_and!; auto. intros ->. apply nil_length_inv. lia.
Qed.
Print Assumptions C01_search_size.
Example C01_example : exists res, search d1 simple_ops ex1 [6%Z] 3 1 = Ok res /\ length res = 3%nat.
Proof. eexists. split; [vm_compute; reflexivity|reflexivity]. Qed.

(** C02: non decreasing distances. *)
Theorem C02_search_order :
  forall {T} (dist : list T -> list T -> Z) so, StdLaws so -> (forall a b, (0 <= dist a b)%Z) ->
  forall inv_ln M ml ef hist h, built dist so inv_ln M ml ef hist h ->
  forall q knbn ef_arg filter res, search_filter dist so h q knbn ef_arg filter = Ok res ->
  forall i j a b, (i <= j)%nat -> res !! i = Some a -> res !! j = Some b -> (distance a <= distance b)%Z.
Proof.
  intros T dist so LAWS Hnn inv_ln M ml ef hist h Hb q k efa filter res Hs i j a b Hij Ha Hbj.
  destruct (search_ok_facts dist so LAWS Hnn h q k efa filter res) as (_ & Hso & _); [by eapply built_wf|done|].
  destruct (decide (i = j)) as [->|]; [rewrite Ha in Hbj; injection Hbj as ->; done|].
  eapply (sorted_by_lookup distance res i j); eauto.
Qed.
Print Assumptions C02_search_order.
Example C02_example : exists res, search d1 simple_ops ex1 [6%Z] 3 7 = Ok res /\ distance <$> res = [1; 1; 4]%Z.
Proof. eexists. split; [vm_compute; reflexivity|reflexivity]. Qed.

(** C03: an answer denotes an inserted (vector, id), with its exact distance to the query. *)
Theorem C03_search_sound :
  forall {T} (dist : list T -> list T -> Z) so, StdLaws so -> (forall a b, (0 <= dist a b)%Z) ->
  forall inv_ln M ml ef hist h, built dist so inv_ln M ml ef hist h ->
  forall q knbn ef_arg filter res, search_filter dist so h q knbn ef_arg filter = Ok res ->
  forall a, a ∈ res -> exists v,
    vector_at h (p_id a) v /\ (v, d_id a) ∈ hist /\ distance a = dist q v /\
    exists pt, point_at h (p_id a) pt /\ pt_data pt = v /\ pt_oid pt = d_id a.
Proof.
  intros T dist so LAWS Hnn inv_ln M ml ef hist h Hb q k efa filter res Hs a Ha.
  destruct (built_facts dist so LAWS Hnn _ _ _ _ _ _ Hb) as (Hwf & _ & _ & _ & Hst & _).
  destruct (search_ok_facts dist so LAWS Hnn h q k efa filter res Hwf Hs) as (_ & _ & _ & Hok).
  rewrite Forall_forall in Hok. destruct (Hok a Ha) as (pt & Hpt & Hd & Hdist).
  exists (pt_data pt). split_and!; auto.
  - apply (vector_at_pt dist Hnn h _ _ Hwf); eauto.
  - rewrite <- Hst, Hd. by eapply stored_at.
  - exists pt. split_and!; auto. by apply (point_at_pt dist).
Qed.
Print Assumptions C03_search_sound.
Example C03_example : exists res, search d1 simple_ops ex1 [6%Z] 3 7 = Ok res /\
  d_id <$> res = [13; 14; 11]%N /\ vector_at ex1 (0, 2)%nat [5%Z] /\ ([5%Z], 13%N) ∈ ex1_hist.
Proof.
  eexists. split_and!; [vm_compute; reflexivity|reflexivity|vm_compute; reflexivity|].
  apply elem_of_list_In. simpl. tauto.
Qed.

(** C04: no stored point is returned twice. *)
Theorem C04_search_no_duplicate :
  forall {T} (dist : list T -> list T -> Z) so, StdLaws so -> (forall a b, (0 <= dist a b)%Z) ->
  forall inv_ln M ml ef hist h, built dist so inv_ln M ml ef hist h ->
  forall q knbn ef_arg filter res, search_filter dist so h q knbn ef_arg filter = Ok res ->
  forall i j a b, res !! i = Some a -> res !! j = Some b -> p_id a = p_id b -> i = j.
Proof.
  intros T dist so LAWS Hnn inv_ln M ml ef hist h Hb q k efa filter res Hs i j a b Ha Hbj E.
  destruct (search_ok_facts dist so LAWS Hnn h q k efa filter res) as (_ & _ & Hnd & _); [by eapply built_wf|done|].
  apply (proj1 (NoDup_alt _) Hnd i j (p_id a)); rewrite list_lookup_fmap; [by rewrite Ha|by rewrite Hbj, E].
Qed.
Print Assumptions C04_search_no_duplicate.
Example C04_example : exists res, search d1 simple_ops ex1 [6%Z] 9 9 = Ok res /\ length res = 7%nat.
Proof. eexists. split; [vm_compute; reflexivity|reflexivity]. Qed.

(** C05: empty answer on the empty index; at least one answer otherwise, for knbn >= 1. *)
Theorem C05_search_nonempty :
  forall {T} (dist : list T -> list T -> Z) so, StdLaws so -> (forall a b, (0 <= dist a b)%Z) ->
  forall inv_ln M ml ef hist h, built dist so inv_ln M ml ef hist h ->
  forall q knbn ef_arg,
    (hist = [] -> search dist so h q knbn ef_arg = Ok []) /\
    (hist <> [] -> (1 <= knbn)%nat -> exists a res, search dist so h q knbn ef_arg = Ok (a :: res)).
Proof.
  intros T dist so LAWS Hnn inv_ln M ml ef hist h Hb q k efa.
  pose proof (built_wf dist so LAWS Hnn _ _ _ _ _ _ Hb) as Hwf.
  destruct (built_entry dist so LAWS Hnn _ _ _ _ _ _ Hb) as [(-> & He & _)|(Hne & ep & He)].
  - split; [|done]. intros _. by apply search_filter_empty.
  - split; [done|]. intros _ Hk.
    destruct (search_nonempty dist so LAWS Hnn h q k efa ep (wf_lwf _ _ Hwf) He Hk) as (a & res & _ & Hs & _). eauto.
Qed.
Print Assumptions C05_search_nonempty.
Example C05_example : exists a res, search d1 simple_ops ex3 [100%Z] 1 0 = Ok (a :: res).
Proof. do 2 eexists. vm_compute. reflexivity. Qed.

(** C06: the first answer is at most as far as the entry point. *)
Theorem C06_search_entry :
  forall {T} (dist : list T -> list T -> Z) so, StdLaws so -> (forall a b, (0 <= dist a b)%Z) ->
  forall inv_ln M ml ef hist h, built dist so inv_ln M ml ef hist h ->
  forall ep v, entry_point h = Some ep -> vector_at h ep v ->
  forall q knbn ef_arg, (1 <= knbn)%nat ->
  exists a res, search dist so h q knbn ef_arg = Ok (a :: res) /\ (distance a <= dist q v)%Z.
Proof.
  intros T dist so LAWS Hnn inv_ln M ml ef hist h Hb ep v He Hv q k efa Hk.
  pose proof (built_wf dist so LAWS Hnn _ _ _ _ _ _ Hb) as Hwf.
  destruct (search_nonempty dist so LAWS Hnn h q k efa ep (wf_lwf _ _ Hwf) He Hk) as (a & res & ept & Hs & Hept & Hd).
  apply (vector_at_pt dist Hnn h _ _ Hwf) in Hv as (pt & Hpt & <-).
  rewrite Hept in Hpt. injection Hpt as <-. eauto.
Qed.
Print Assumptions C06_search_entry.
Example C06_example : entry_point ex1 = Some (2, 0)%nat /\ vector_at ex1 (2, 0)%nat [7%Z].
Proof. split; vm_compute; reflexivity. Qed.

(** C07: with max(ef, knbn) >= number of points, the answer consists of the knbn nearest among all
    the points reachable, by the links of the lowest non empty layer, from the starting point. *)
Theorem C07_search_exhaustive :
  forall {T} (dist : list T -> list T -> Z) so, StdLaws so -> (forall a b, (0 <= dist a b)%Z) ->
  forall inv_ln M ml ef hist h, built dist so inv_ln M ml ef hist h ->
  hist <> [] ->
  forall q knbn ef_arg, (length hist <= Nat.max ef_arg knbn)%nat ->
  exists start l reached vectors res,
    search_start dist h q start /\ lowest_layer h l /\
    NoDup reached /\ (forall p, p ∈ reached <-> reaches h l start p) /\
    Forall2 (vector_at h) reached vectors /\
    search dist so h q knbn ef_arg = Ok res /\
    (forall a, a ∈ res -> p_id a ∈ reached) /\ NoDup (p_id <$> res) /\
    k_smallest knbn (dist q <$> vectors) (distance <$> res).
Proof.
  intros T dist so LAWS Hnn inv_ln M ml ef hist h Hb Hne q k efa Hbig.
  destruct (built_facts dist so LAWS Hnn _ _ _ _ _ _ Hb) as (Hwf & _ & _ & _ & Hst & Hnb).
  destruct (built_entry dist so LAWS Hnn _ _ _ _ _ _ Hb) as [(-> & _)|(_ & ep & He)]; [done|].
  rewrite (w_count _ _ Hwf) in Hnb.
  destruct (search_exhaustive dist so LAWS Hnn h q k efa None ep Hwf He ltac:(lia)) as
    (pv & l & RA & res & Hpv & Hl & Hnd & Hin & Hs & H1 & H2).
  destruct (search_ok_facts dist so LAWS Hnn h q k efa None res Hwf Hs) as (_ & _ & Hndr & _).
  destruct (decide (RA = [])) as [E|E].
  { destruct (H2 E) as (? & ? & _). done. }
  destruct (H1 E) as (Hres & ds & D1 & D2 & D3).
  assert (Hvec : exists vs, Forall2 (vector_at h) RA vs /\ dist q <$> vs = pdist dist h q <$> RA).
  { assert (Hall : forall p, p ∈ RA -> exists pt, get_pt h p = Some pt).
    { intros p Hp. apply Hin in Hp as (_ & pt & ? & _). eauto. }
    clear -Hall Hwf Hnn. induction RA as [|p RA IH].
    - exists []. split; [constructor|done].
    - destruct IH as (vs & V1 & V2). { intros p' Hp'. apply Hall. by right. }
      destruct (Hall p) as [pt Hpt]; [left|]. exists (pt_data pt :: vs). split.
      + constructor; [|done]. apply (vector_at_pt dist Hnn h _ _ Hwf); eauto.
      + csimpl. rewrite V2. f_equal. unfold pdist. by rewrite Hpt. }
  destruct Hvec as (vs & V1 & V2).
  exists pv, l, RA, vs, res. split_and!; auto.
  - by eapply find_pivot_start.
  - by apply (lowest_layer_spec dist).
  - intros p. rewrite Hin, (reaches_rtc dist) by done. split; [by intros [? _]|].
    intros Hr. split; [done|].
    assert (Hv : exists pt, get_pt h p = Some pt).
    { destruct (find_pivot_valid dist so LAWS Hnn h q ep pv Hwf He Hpv) as [pvt Hpvt].
      clear -Hr Hpvt Hwf. apply rtc_inv_r in Hr as [->|(y & _ & Hy)]; [eauto|].
      destruct Hy as (pt & nbs & n & Hpt & Hn & Hinn & <-).
      destruct (c_lists _ _ (w_core _ _ Hwf) _ _ _ _ Hpt Hn) as [_ _ _ Lref _].
      rewrite Forall_forall in Lref. destruct (Lref n Hinn) as (x & Hx & _). eauto. }
    destruct Hv as [pt Hpt]. exists pt. done.
  - exists ds. rewrite V2. done.
Qed.
Print Assumptions C07_search_exhaustive.
Example C07_example : exists res, search d1 simple_ops ex1 [6%Z] 2 7 = Ok res /\
  distance <$> res = [1; 1]%Z /\ (length ex1_hist <= Nat.max 7 2)%nat.
Proof. eexists. split_and!; [vm_compute; reflexivity|reflexivity|simpl; lia]. Qed.

(** C08 does not hold: asking for everything may miss points. *)
Theorem C08_full_recall_refuted :
  exists (hist : list (list Z * dataid)) h q res,
    built d1 simple_ops one_scale 2 16 10 hist h /\
    search d1 simple_ops h q (length hist) (length hist) = Ok res /\ (length res < length hist)%nat.
Proof.
  exists ex3_hist, ex3, [0%Z]. eexists. split; [exact ex3_built|]. split; [vm_compute; reflexivity|]. simpl. lia.
Qed.
Print Assumptions C08_full_recall_refuted.

(** C08, the part that holds: every point reachable from the starting point is returned. *)
Theorem C08_full_recall_partial :
  forall {T} (dist : list T -> list T -> Z) so, StdLaws so -> (forall a b, (0 <= dist a b)%Z) ->
  forall inv_ln M ml ef hist h, built dist so inv_ln M ml ef hist h ->
  hist <> [] ->
  forall q, exists start l res,
    search_start dist h q start /\ lowest_layer h l /\
    search dist so h q (length hist) (length hist) = Ok res /\
    forall p, reaches h l start p <-> exists a, a ∈ res /\ p_id a = p.
Proof.
  intros T dist so LAWS Hnn inv_ln M ml ef hist h Hb Hne q.
  destruct (C07_search_exhaustive dist so LAWS Hnn _ _ _ _ _ _ Hb Hne q (length hist) (length hist) ltac:(lia)) as
    (start & l & R & vs & res & H2 & H3 & H4 & H5 & H6 & H7 & H8 & H9 & s & S1 & S2 & S3).
  exists start, l, res. split_and!; auto. intros p. rewrite <- H5.
  assert (Hlen : length res = length R).
  { rewrite <- (fmap_length distance res), S3, take_length, S1, fmap_length, <- (Forall2_length _ _ _ H6).
    destruct (built_facts dist so LAWS Hnn _ _ _ _ _ _ Hb) as (Hwf & _ & _ & _ & _ & Hnb).
    enough (length R <= length hist)%nat by lia. rewrite <- Hnb, (w_count _ _ Hwf).
    apply (valid_count h); [done|]. rewrite Forall_forall. intros x Hx.
    apply elem_of_list_lookup in Hx as [i Hi]. destruct (Forall2_lookup_l _ _ _ _ _ H6 Hi) as (v & _ & Hv).
    apply (vector_at_pt dist Hnn h _ _ Hwf) in Hv as (pt & Hpt & _). by exists pt. }
  assert (Hperm : p_id <$> res ≡ₚ R).
  { apply NoDup_Permutation_bis_std; auto.
    - rewrite fmap_length. lia.
    - intros x Hx. apply elem_of_list_fmap in Hx as (a & -> & Ha). auto. }
  rewrite <- Hperm, elem_of_list_fmap. split; intros (a & ? & ?); eauto.
Qed.
Print Assumptions C08_full_recall_partial.

(** C09: a flat index with few points is exact, for every knbn and ef. *)
Theorem C09_flat_exact :
  forall {T} (dist : list T -> list T -> Z) so, StdLaws so -> (forall a b, (0 <= dist a b)%Z) ->
  forall inv_ln M ef hist h, built_plain dist so inv_ln M 1 ef hist h ->
  (length hist <= 2 * M + 1)%nat -> (length hist <= ef)%nat ->
  forall q knbn ef_arg, exists res,
    search dist so h q knbn ef_arg = Ok res /\
    k_smallest knbn ((fun vi => dist q vi.1) <$> hist) (distance <$> res).
Proof.
  intros T dist so LAWS Hnn inv_ln M ef hist h Hbp HM Hef q k efa.
  pose proof (plain_built _ _ _ _ _ _ _ _ Hbp) as Hb.
  destruct (built_facts dist so LAWS Hnn _ _ _ _ _ _ Hb) as (Hwf & _ & _ & _ & Hst & Hnb).
  destruct (plain_flat dist so LAWS Hnn _ _ _ _ _ Hbp ltac:(lia) ltac:(lia)) as [Hc _].
  destruct (built_entry dist so LAWS Hnn _ _ _ _ _ _ Hb) as [(-> & He & _)|(_ & ep & He)].
  - exists []. split; [by apply search_filter_empty|]. exists []. rewrite take_nil. split_and!; try done. constructor.
  - destruct (search_flat dist so LAWS Hnn h q k efa ep Hwf Hc He) as (res & ds & Hs & D1 & D2 & D3).
    exists res. split; [done|]. exists ds. split_and!; auto. by rewrite D1, Hst.
Qed.
Print Assumptions C09_flat_exact.
Example C09_example : built_plain d1 simple_ops one_scale 2 1 10 ex2_hist ex2 /\ length ex2_hist = 5%nat /\
  exists res, search d1 simple_ops ex2 [6%Z] 3 0 = Ok res /\ distance <$> res = [1; 1; 4]%Z.
Proof. split_and!; [exact ex2_plain|reflexivity|]. eexists. split; [vm_compute; reflexivity|reflexivity]. Qed.

(** C10: no panic, no endless loop, in new, insertion and search. *)
Theorem C10_no_panic :
  forall {T} (dist : list T -> list T -> Z) so, StdLaws so -> (forall a b, (0 <= dist a b)%Z) ->
  (forall inv_ln M ml ef, (M <= 256)%nat -> exists h : hnsw (T:=T), hnsw_new inv_ln M ml ef = Ok h) /\
  (forall inv_ln M ml ef hist h, built dist so inv_ln M ml ef hist h ->
    (forall q knbn ef_arg, exists res, search dist so h q knbn ef_arg = Ok res) /\
    ((1 <= ml)%nat -> forall v id d, exists h', insert_slice dist so h v id d = Ok h')).
Proof.
  intros T dist so LAWS Hnn. split.
  - intros inv_ln M ml ef HM. unfold hnsw_new. destruct (Nat.ltb_spec 256 M); [lia|]. eauto.
  - intros inv_ln M ml ef hist h Hb. destruct (built_facts dist so LAWS Hnn _ _ _ _ _ _ Hb) as (Hwf & Hml & _). split.
    + intros q k efa. destruct (C01_search_size dist so LAWS Hnn _ _ _ _ _ _ Hb q k efa) as (res & ? & _). eauto.
    + intros Hml1 v id d.
      destruct (insert_spec dist so LAWS Hnn h v id d Hwf) as (h' & np & Hi & _); [rewrite Hml; lia|]. eauto.
Qed.
Print Assumptions C10_no_panic.
Example C10_example : exists h', insert_slice d1 simple_ops ex1 [3%Z] 99%N (lv 5) = Ok h' /\ nb_point h' = 8%nat.
Proof. eexists. split; [vm_compute; reflexivity|reflexivity]. Qed.

(** C11 does not hold: a rejected id may be returned. *)
Theorem C11_filter_sound_refuted :
  exists (hist : list (list Z * dataid)) h q flt res a,
    built d1 simple_ops one_scale 2 16 10 hist h /\
    search_filter d1 simple_ops h q 3 7 (Some flt) = Ok res /\ a ∈ res /\ flt (d_id a) = false.
Proof.
  exists ex1_hist, ex1, [6%Z], (fun _ => false). do 2 eexists. split; [exact ex1_built|].
  split; [vm_compute; reflexivity|]. split; [apply elem_of_list_singleton; reflexivity|reflexivity].
Qed.
Print Assumptions C11_filter_sound_refuted.

(** C11, the part that holds: a rejected answer is the starting point of the search, alone; and
    unless max(ef, knbn) = 1, it is given only when no accepted point can be reached at all. *)
Theorem C11_filter_sound_partial :
  forall {T} (dist : list T -> list T -> Z) so, StdLaws so -> (forall a b, (0 <= dist a b)%Z) ->
  forall inv_ln M ml ef hist h, built dist so inv_ln M ml ef hist h ->
  forall q knbn ef_arg flt, (1 <= Nat.max ef_arg knbn)%nat ->
  exists res, search_filter dist so h q knbn ef_arg (Some flt) = Ok res /\
    ((forall a, a ∈ res -> flt (d_id a) = true) \/
     exists start l, search_start dist h q start /\ lowest_layer h l /\ p_id <$> res = [start] /\
       ((2 <= Nat.max ef_arg knbn)%nat ->
        forall p pt, reaches h l start p -> point_at h p pt -> flt (pt_oid pt) = false)).
Proof.
  intros T dist so LAWS Hnn inv_ln M ml ef hist h Hb q k efa flt Hm.
  pose proof (built_wf dist so LAWS Hnn _ _ _ _ _ _ Hb) as Hwf.
  destruct (entry_point h) as [ep|] eqn:Eep.
  2: { exists []. rewrite search_filter_empty by done. split; [done|]. left. by intros a ?%elem_of_nil. }
  destruct (search_rejected dist so LAWS Hnn h q k efa flt ep (wf_lwf _ _ Hwf) Eep Hm) as (pv & l & res & Hpv & Hl & Hs & Hor).
  exists res. split; [done|]. destruct Hor as [?|[Hone Hrej]]; [by left|right].
  exists pv, l. split_and!; auto.
  - by eapply find_pivot_start.
  - by apply (lowest_layer_spec dist).
  - intros H2 p pt Hr Hpt. apply (reaches_rtc dist) in Hr; [|done]. apply (point_at_pt dist) in Hpt; [|done]. eauto.
Qed.
Print Assumptions C11_filter_sound_partial.
Example C11_example : exists res, search_filter d1 simple_ops ex1 [6%Z] 3 7 (Some N.even) = Ok res /\
  d_id <$> res = [14; 16; 10]%N.
Proof. eexists. split; [vm_compute; reflexivity|reflexivity]. Qed.

(** with max(ef, knbn) = 1 the rejected starting point may be answered although accepted points
    are within reach: the last part of the statement needs its hypothesis *)
Example C11_example_ef1 : exists r1 r2,
  search_filter d1 simple_ops ex1 [6%Z] 1 1 (Some (fun i => N.ltb i 13)) = Ok r1 /\ d_id <$> r1 = [14%N] /\
  search_filter d1 simple_ops ex1 [6%Z] 1 2 (Some (fun i => N.ltb i 13)) = Ok r2 /\ d_id <$> r2 = [11%N].
Proof. do 2 eexists. split_and!; vm_compute; reflexivity. Qed.

(** C12: with max(ef, knbn) >= number of points a filtered search returns the knbn nearest among
    all the accepted points reachable from the starting point. When there is none, the answer
    is (at most) the starting point. *)
Theorem C12_filter_exhaustive :
  forall {T} (dist : list T -> list T -> Z) so, StdLaws so -> (forall a b, (0 <= dist a b)%Z) ->
  forall inv_ln M ml ef hist h, built dist so inv_ln M ml ef hist h ->
  hist <> [] ->
  forall q knbn ef_arg flt, (length hist <= Nat.max ef_arg knbn)%nat ->
  exists start l accepted vectors res,
    search_start dist h q start /\ lowest_layer h l /\
    NoDup accepted /\
    (forall p, p ∈ accepted <-> reaches h l start p /\ exists pt, point_at h p pt /\ flt (pt_oid pt) = true) /\
    Forall2 (vector_at h) accepted vectors /\
    search_filter dist so h q knbn ef_arg (Some flt) = Ok res /\ NoDup (p_id <$> res) /\
    (accepted <> [] -> (forall a, a ∈ res -> p_id a ∈ accepted) /\
       k_smallest knbn (dist q <$> vectors) (distance <$> res)) /\
    (accepted = [] -> p_id <$> res = take knbn [start]).
Proof.
  intros T dist so LAWS Hnn inv_ln M ml ef hist h Hb Hne q k efa flt Hbig.
  destruct (built_facts dist so LAWS Hnn _ _ _ _ _ _ Hb) as (Hwf & _ & _ & _ & Hst & Hnb).
  destruct (built_entry dist so LAWS Hnn _ _ _ _ _ _ Hb) as [(-> & _)|(_ & ep & He)]; [done|].
  rewrite (w_count _ _ Hwf) in Hnb.
  destruct (search_exhaustive dist so LAWS Hnn h q k efa (Some flt) ep Hwf He ltac:(lia)) as
    (pv & l & RA & res & Hpv & Hl & Hnd & Hin & Hs & H1 & H2).
  destruct (search_ok_facts dist so LAWS Hnn h q k efa (Some flt) res Hwf Hs) as (_ & _ & Hndr & _).
  assert (Hvec : exists vs, Forall2 (vector_at h) RA vs /\ dist q <$> vs = pdist dist h q <$> RA).
  { assert (Hall : forall p, p ∈ RA -> exists pt, get_pt h p = Some pt).
    { intros p Hp. apply Hin in Hp as (_ & pt & ? & _). eauto. }
    clear -Hall Hwf Hnn. induction RA as [|p RA IH].
    - exists []. split; [constructor|done].
    - destruct IH as (vs & V1 & V2). { intros p' Hp'. apply Hall. by right. }
      destruct (Hall p) as [pt Hpt]; [left|]. exists (pt_data pt :: vs). split.
      + constructor; [|done]. apply (vector_at_pt dist Hnn h _ _ Hwf); eauto.
      + csimpl. rewrite V2. f_equal. unfold pdist. by rewrite Hpt. }
  destruct Hvec as (vs & V1 & V2).
  exists pv, l, RA, vs, res. split_and!; auto.
  - by eapply find_pivot_start.
  - by apply (lowest_layer_spec dist).
  - intros p. rewrite Hin, (reaches_rtc dist) by done. split; intros (? & pt & Hpt & Hf); (split; [done|]); exists pt.
    + split; [by apply (point_at_pt dist)|done].
    + split; [by apply (point_at_pt dist) in Hpt|done].
  - intros E. destruct (H1 E) as (Hres & ds & D1 & D2 & D3). split; [done|]. exists ds. by rewrite V2.
  - intros E. destruct (H2 E) as (? & _ & ?). done.
Qed.
Print Assumptions C12_filter_exhaustive.
Example C12_example : exists res, search_filter d1 simple_ops ex1 [6%Z] 2 7 (Some (fun i => (i <? 13)%N)) = Ok res /\
  d_id <$> res = [11; 10]%N.
Proof. eexists. split; [vm_compute; reflexivity|reflexivity]. Qed.

(** C13 does not hold for knbn = ef = 0. *)
Theorem C13_filter_no_panic_refuted :
  exists (hist : list (list Z * dataid)) h q flt,
    built d1 simple_ops one_scale 2 16 10 hist h /\
    search_filter d1 simple_ops h q 0 0 (Some flt) = Panic.
Proof.
  exists ex3_hist, ex4, [9%Z], (fun i => (i =? 2)%N). split; [exact ex4_built|]. vm_compute. reflexivity.
Qed.
Print Assumptions C13_filter_no_panic_refuted.

(** C13, the part that holds: as soon as knbn or ef is positive. *)
Theorem C13_filter_no_panic_partial :
  forall {T} (dist : list T -> list T -> Z) so, StdLaws so -> (forall a b, (0 <= dist a b)%Z) ->
  forall inv_ln M ml ef hist h, built dist so inv_ln M ml ef hist h ->
  forall q knbn ef_arg filter, (1 <= knbn \/ 1 <= ef_arg)%nat ->
  exists res, search_filter dist so h q knbn ef_arg filter = Ok res.
Proof.
  intros T dist so LAWS Hnn inv_ln M ml ef hist h Hb q k efa filter Hm.
  destruct (search_filter_facts dist so LAWS Hnn h q k efa filter) as (res & ? & _); [by eapply wf_lwf, built_wf|right; lia|].
  eauto.
Qed.
Print Assumptions C13_filter_no_panic_partial.
Example C13_example : search_filter d1 simple_ops ex4 [9%Z] 1 0 (Some (fun i => (i =? 2)%N)) =
  Ok [Neighbour 2%N 1%Z (0, 1)%nat].
Proof. vm_compute. reflexivity. Qed.
