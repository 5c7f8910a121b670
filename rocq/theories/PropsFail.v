(** Property C79: insertions that fail do no harm. *)
From Coq Require Import SpecFloat.
From stdpp Require Import relations.
From Verif Require Import Prelude Model StdInst Lib Table InsertProofs IterProofs SpecProofs SpecBuilt BuiltProofs QueryProofs NegProofs Nan NanProofs NanProofs2 NanProofs3 PropsNan.
Local Open Scope list_scope.

(** ** Specification *)
Section SpecFail.
Context {T : Type} (ndist : list T -> list T -> outcome (option Z)) (so : StdOps) (no : NanOps).
(** [tried inv_ln M ml ef hist h]: [h] was made by Hnsw::new, then setter calls and insertions of any vectors, that returned or not;
    [hist]: the vectors and identifiers of those that returned. *)
Inductive tried (inv_ln : nat -> f64) (M ml ef : nat) : list (list T * dataid) -> hnsw (T:=T) -> Prop :=
| tried_new h : hnsw_new inv_ln M ml ef = Ok h -> tried inv_ln M ml ef [] h
| tried_insert hist h v id d h' : tried inv_ln M ml ef hist h -> ninsert ndist so no v id d h = (Ok tt, h') ->
    tried inv_ln M ml ef (hist ++ [(v, id)]) h'
| tried_failed hist h v id d o h' : tried inv_ln M ml ef hist h -> ninsert ndist so no v id d h = (o, h') -> o <> Ok tt ->
    tried inv_ln M ml ef hist h'
| tried_extend hist h b : tried inv_ln M ml ef hist h -> tried inv_ln M ml ef hist (set_extend_candidates b h)
| tried_keep hist h b : tried inv_ln M ml ef hist h -> tried inv_ln M ml ef hist (set_keeping_pruned b h)
| tried_search hist h b : tried inv_ln M ml ef hist h -> tried inv_ln M ml ef hist (set_searching_mode b h)
| tried_scale hist h m : tried inv_ln M ml ef hist h -> tried inv_ln M ml ef hist (modify_level_scale m h).
End SpecFail.

Section Facts.
Context {T : Type} (ndist : list T -> list T -> outcome (option Z)) (so : StdOps) (LAWS : StdLaws so) (no : NanOps) (NL : NanLaws so no).
Context (clean : list T -> Prop) (Hc : forall a b, clean a -> clean b -> exists d, ndist a b = Ok (Some d) /\ (0 <= d)%Z).
Implicit Types (g h : hnsw (T:=T)).
Local Notation dist := (zdist ndist).
Local Notation rel := (rel clean).

(** points of [g] that a search can come to *)
Definition linked (J : list pid) g (p : pid) : Prop := p ∉ J /\ valid g p.
Lemma linked_facts J g h : rel J g h -> lwf dist g ->
  closed (linked J g) h /\ (forall p, linked J g p -> exists pt, get_pt h p = Some pt /\ length (pt_nbs pt) = NB_LAYER_MAX) /\
  (max_layer h <= NB_LAYER_MAX)%nat /\ (forall ep, entry_point h = Some ep -> linked J g ep).
Proof using.
  intros R [W1 W2 W3]. pose proof (r_meta _ _ _ _ R) as (M1 & M2 & M3 & M4 & M5 & M6 & M7 & M8 & M9 & M10). split_and!.
  - intros p pt l nbs n [Hp [pt' Hv]] Hg Hn Hin. destruct (r_pt _ _ _ _ R _ _ Hp Hv) as [Hg' _]. assert (pt' = pt) as -> by congruence. split.
    + exact (r_link _ _ _ _ R _ _ _ _ _ Hp Hv Hn Hin).
    + destruct (c_lists _ _ W1 _ _ _ _ Hv Hn) as [_ _ _ Hr _]. rewrite Forall_forall in Hr. destruct (Hr n Hin) as (x & Hx & _). by exists x.
  - intros p [Hp [pt Hv]]. destruct (r_pt _ _ _ _ R _ _ Hp Hv) as [Hg' _]. exists pt. split; [done|]. by apply (c_pt _ _ W1 _ _ Hv).
  - rewrite M5. apply (c_max _ _ W1).
  - intros ep He. rewrite M8 in He. split; [by apply (r_entry _ _ _ _ R)|]. by rewrite He in W3.
Qed.

(** what a failed insertion does to the two tables *)
Lemma failed_rel J g h v id d o h1 : rel J g h -> lwf dist g -> ninsert ndist so no v id d h = (o, h1) -> o <> Ok tt ->
  (h1 = h /\ max_layer g = 0%nat) \/ exists np g1, get_pt h np = None /\ static h1 np = Some (v, id, np) /\ (forall p, p <> np -> get_pt h1 p = get_pt h p) /\
    nb_point h1 = Datatypes.S (nb_point h) /\ rel (np :: J) g1 h1 /\ lwf dist g1 /\ get_pt g np = None /\ (forall p, p <> np -> get_pt g1 p = get_pt g p) /\
    max_layer g1 = max_layer g /\ entry_point g1 = entry_point g /\ (exists ep, entry_point g = Some ep) /\
    (get_layer_nb_point h 0 <= get_layer_nb_point h1 0)%nat.
Proof using LAWS NL.
  clear Hc. intros R W H Hne. destruct (linked_facts _ _ _ R W) as (F1 & F2 & F3 & F4).
  destruct (failed_insert ndist so LAWS no NL (linked J g) h v id d o h1 F1 F2 F3 F4 H Hne) as [[-> Hgen]|(h0 & np & rank & Hgen & Hnp & He & Hst & Ho)].
  { left. split; [done|]. destruct (decide (0 < max_layer g)%nat) as [Hm|]; [|lia]. exfalso.
    destruct (r_meta _ _ _ _ R) as (_ & _ & _ & _ & HM & _). destruct (generate_ok (level_scale h) (max_layer h) d) as [lv Hlv]; [lia|].
    assert (Hlt := generate_lt _ _ _ _ Hlv). pose proof (r_len _ _ _ _ R) as Hl. apply (f_equal length) in Hl. rewrite !fmap_length, (c_len _ _ (l_core _ _ W)) in Hl.
    destruct (push_point_ok h v id lv) as [[h2 np] Hp]; [lia|]. unfold generate_new_point in Hgen. rewrite Hlv in Hgen. cbn [mbind outcome_bind] in Hgen.
    rewrite Hp in Hgen. cbn [mbind outcome_bind incr_nb_point] in Hgen. by eapply Hgen. }
  right. clear H F1 F2 F3 F4. pose proof R as [R1 R2 R3 R4 R5 R6]. pose proof W as [W1 W2 W3].
  pose proof R1 as (M1 & M2 & M3 & M4 & M5 & M6 & M7 & M8 & M9 & M10).
  unfold generate_new_point in Hgen. apply bind_inv in Hgen as (lv & Hlv & Hgen). apply bind_inv in Hgen as ([h2 p2] & Hh & Hgen).
  unfold incr_nb_point in Hgen. injection Hgen as <- -> <-.
  assert (Hlen : length (points_by_layer h) = length (points_by_layer g)).
  { apply (f_equal length) in R2. by rewrite !fmap_length in R2. }
  assert (Hh' := Hh). apply push_point_inv in Hh' as (Q1 & Q2 & Q3 & Q4 & Q5 & Q6 & Q7 & Q8).
  destruct (push_point_ok g v id lv) as [[g2 p'] Hg]; [lia|].
  assert (Hg' := Hg). apply push_point_inv in Hg' as (P1 & P2 & P3 & P4 & P5 & P6 & P7 & P8).
  assert (Hsame : p' = np /\ length <$> points_by_layer h2 = length <$> points_by_layer g2 /\ (get_layer_nb_point h 0 <= get_layer_nb_point h2 0)%nat).
  { unfold push_point in Hg, Hh. apply bind_inv in Hh as (ly' & Hly' & [= <- <-]). apply bind_inv in Hg as (ly & Hly & [= <- <-]).
    apply unwrap_inv in Hly, Hly'. assert (Hll : length ly' = length ly).
    { apply (f_equal (.!! lv)) in R2. rewrite !list_lookup_fmap, Hly, Hly' in R2. by injection R2. }
    cbn [points_by_layer set_layers]. rewrite !list_fmap_insert, !app_length, R2, Hll. split_and!; [done|done|].
    unfold get_layer_nb_point. cbn [points_by_layer set_layers]. destruct (decide (lv = 0%nat)) as [->|Hn0].
    - rewrite Hly', list_lookup_insert by (by eapply lookup_lt_Some). rewrite app_length. lia.
    - by rewrite list_lookup_insert_ne. }
  destruct Hsame as (-> & Hfl & Hl0).
  destruct (core_push dist (zdist_nn ndist) _ _ _ _ _ _ W1 Hg) as (C1 & C2 & C3).
  destruct P6 as (N1 & N2 & N3 & N4 & N5 & N6 & N7 & N8 & N9 & N10). destruct Q6 as (O1 & O2 & O3 & O4 & O5 & O6 & O7 & O8 & O9 & O10).
  set (g1 := set_nb_point (Datatypes.S (nb_point g2)) g2). set (h0 := set_nb_point (Datatypes.S (nb_point h2)) h2) in *.
  assert (HG : forall x, get_pt g1 x = get_pt g2 x) by done. assert (HH : forall x, get_pt h0 x = get_pt h2 x) by done.
  pose proof Hst as ((S1 & S2 & S3 & S4 & S5 & S6 & S7 & S8 & S9 & S10) & Slen & Sst).
  assert (Hvg : forall p, valid g p -> p <> np) by (intros p [x Hx] ->; congruence).
  assert (Hee : exists ep, entry_point g = Some ep /\ valid g ep).
  { rewrite M8 in He. destruct (entry_point g) as [ep|]; [by exists ep|done]. }
  exists np, g1. split_and!; try done.
  - rewrite Sst. unfold static. rewrite HH, Q4. done.
  - rewrite S7. unfold h0. cbn. by rewrite O7.
  - split.
    + unfold same_meta, g1. cbn. unfold h0 in S1, S2, S3, S4, S5, S6, S7, S8, S9, S10. cbn in S1, S2, S3, S4, S5, S6, S7, S8, S9, S10. split_and!; congruence.
    + rewrite Slen. done.
    + intros p pt Hp. rewrite HG. rewrite P5 by set_solver. rewrite Ho by set_solver. apply R3. set_solver.
    + intros p pt l nbs n Hp. rewrite HG. rewrite P5 by set_solver. intros Hpt Hn Hin.
      assert (Hp' : p ∉ J) by set_solver. pose proof (R4 _ _ _ _ _ Hp' Hpt Hn Hin) as HnJ.
      destruct (c_lists _ _ W1 _ _ _ _ Hpt Hn) as [_ _ _ Hr _]. rewrite Forall_forall in Hr. destruct (Hr n Hin) as (x & Hx & _).
      assert (n_pid n <> np) by (apply Hvg; by exists x). set_solver.
    + intros p Hp. rewrite HG. destruct (decide (p = np)) as [->|Hpn].
      * exists (new_pt v id np). split; [done|]. intros l nbs. apply new_pt_nbs.
      * rewrite P5 by done. apply R5. set_solver.
    + intros ep. unfold g1. cbn. rewrite N8. intros Hep. pose proof (R6 _ Hep). destruct Hee as (ep' & He' & Hv').
      assert (ep <> np) by (apply Hvg; congruence). set_solver.
  - split.
    + by apply (core_meta dist g2).
    + assert (table_size g1 = table_size g2) as -> by done. rewrite P8, <- W2, <- N7. done.
    + unfold g1 at 1. cbn [entry_point set_nb_point]. rewrite N8. destruct Hee as (ep & Hep & Hv). rewrite Hep.
      apply (grows_valid g g2) in Hv; [|done]. done.
  - destruct Hee as (ep & ? & _). by exists ep.
  - assert (get_layer_nb_point h1 0 = get_layer_nb_point h2 0) as ->; [|done]. unfold get_layer_nb_point. apply (f_equal (.!! 0%nat)) in Slen. rewrite !list_lookup_fmap in Slen.
    unfold h0 in Slen. cbn [points_by_layer set_nb_point] in Slen. destruct (points_by_layer h1 !! 0%nat), (points_by_layer h2 !! 0%nat); try done. by injection Slen.
Qed.

(** the state: a well-formed table and points that nothing refers to *)
Record ok_state (ml : nat) (hist : list (list T * dataid)) h J g : Prop := {
  k_rel : rel J g h;
  k_lwf : lwf dist g;
  k_ml : max_layer g = Nat.min 16 ml;
  k_hist : forall p pt, p ∉ J -> get_pt g p = Some pt -> (pt_data pt, pt_oid pt) ∈ hist;
  k_entry : hist <> [] -> entry_point g <> None
}.

Lemma rel_set J g h g' h' : rel J g h -> same_meta g' h' -> points_by_layer g' = points_by_layer g -> points_by_layer h' = points_by_layer h ->
  entry_point g' = entry_point g -> rel J g' h'.
Proof using.
  clear. intros [R1 R2 R3 R4 R5 R6] Hm E1 E2 E3. assert (G : forall p, get_pt g' p = get_pt g p) by (intros p; unfold get_pt; by rewrite E1).
  assert (H : forall p, get_pt h' p = get_pt h p) by (intros p; unfold get_pt; by rewrite E2). split.
  - done.
  - congruence.
  - intros p pt. rewrite G, H. apply R3.
  - intros p pt l nbs n. rewrite G. apply R4.
  - intros p. rewrite G. apply R5.
  - rewrite E3. apply R6.
Qed.

Lemma tried_facts inv_ln M ml ef hist h : tried ndist so no inv_ln M ml ef hist h -> Forall (fun x => clean x.1) hist -> exists J g, ok_state ml hist h J g.
Proof using LAWS NL Hc.
  intros H. induction H as [h H|hist h v id d h' _ IH H|hist h v id d o h' _ IH H Ho|hist h b _ IH|hist h b _ IH|hist h b _ IH|hist h m _ IH]; intros Hf.
  - exists [], h. destruct (hnsw_new_wf dist _ _ _ _ _ H) as (H1 & H2 & H3 & H4 & H5 & H6 & _).
    assert (Hno : forall p pt, get_pt h p = Some pt -> False).
    { intros p pt Hp. apply stored_at in Hp. rewrite H6 in Hp. by apply elem_of_nil in Hp. }
    split.
    + split; try done.
      * intros p pt _ Hp. destruct (Hno _ _ Hp).
      * intros p pt l nbs n _ Hp. destruct (Hno _ _ Hp).
      * intros p Hp. by apply elem_of_nil in Hp.
      * intros ep Hep. by apply not_elem_of_nil.
    + by apply wf_lwf.
    + done.
    + intros p pt _ Hp. destruct (Hno _ _ Hp).
    + done.
  - apply Forall_app in Hf as [Hf Hv]. apply Forall_cons in Hv as [Hv _]. cbn in Hv. destruct (IH Hf) as (J & g & [K1 K2 K3 K4 K5]).
    destruct (decide (0 < max_layer g)%nat) as [Hml|Hml].
    2: { exfalso. unfold ninsert, sbind at 1, sput at 1 in H. destruct (generate_new_point h v id d) as [[[]]| | | | |] eqn:Eg; try done.
         unfold generate_new_point in Eg. apply bind_inv in Eg as (lv & Hlv & _). apply generate_lt in Hlv.
         destruct (r_meta _ _ _ _ K1) as (_ & _ & _ & _ & HM & _). lia. }
    destruct (insert_lspec dist so LAWS (zdist_nn ndist) g v id d K2 Hml) as (g' & np & Hi & [Hwf _] & Hgr & Hnone & Hst & Hold & Hnb & L1 & _).
    destruct (insert_R ndist dist so LAWS no NL clean (zdist_clean ndist clean Hc) J g h v id d g' K1 Hv Hi) as (h1 & Hh1 & R1).
    rewrite H in Hh1. injection Hh1 as <-. exists J, g'. split; [done|done|congruence| |].
    + intros p pt Hp Hpt. apply elem_of_app. destruct (decide (p = np)) as [->|Hpn].
      * right. unfold static in Hst. rewrite Hpt in Hst. injection Hst as -> -> _. by left.
      * left. specialize (Hold p Hpn). unfold static in Hold. rewrite Hpt in Hold. destruct (get_pt g p) as [pt0|] eqn:E0; [|done].
        injection Hold as E1 E2 _. rewrite E1, E2. by apply (K4 p).
    + intros _ He. pose proof (l_entry _ _ Hwf) as We. rewrite He in We. apply (table_size_0_valid g' np We).
      unfold static in Hst. destruct (get_pt g' np) as [x|] eqn:Ex; [by exists x|done].
  - destruct (IH Hf) as (J & g & K). pose proof K as [K1 K2 K3 K4 K5].
    destruct (failed_rel J g h v id d o h' K1 K2 H Ho) as [[-> _]|(np & g1 & _ & _ & _ & _ & F1 & F2 & F3 & F4 & F5 & F6 & _)]; [by exists J, g|].
    exists (np :: J), g1. split; [done|done|congruence| |by rewrite F6].
    intros p pt Hp. rewrite F4 by set_solver. apply K4. set_solver.
  - destruct (IH Hf) as (J & g & [K1 K2 K3 K4 K5]). exists J, (set_extend_candidates b g). pose proof (r_meta _ _ _ _ K1) as (M1 & M2 & M3 & M4 & M5 & M6 & M7 & M8 & M9 & M10). split; [|by apply (lwf_meta dist g)|done..].
    apply (rel_set J g h); [done| |done..]. unfold same_meta; cbn; split_and!; congruence.
  - destruct (IH Hf) as (J & g & [K1 K2 K3 K4 K5]). exists J, (set_keeping_pruned b g). pose proof (r_meta _ _ _ _ K1) as (M1 & M2 & M3 & M4 & M5 & M6 & M7 & M8 & M9 & M10). split; [|by apply (lwf_meta dist g)|done..].
    apply (rel_set J g h); [done| |done..]. unfold same_meta; cbn; split_and!; congruence.
  - destruct (IH Hf) as (J & g & [K1 K2 K3 K4 K5]). exists J, (set_searching_mode b g). pose proof (r_meta _ _ _ _ K1) as (M1 & M2 & M3 & M4 & M5 & M6 & M7 & M8 & M9 & M10). split; [|by apply (lwf_meta dist g)|done..].
    apply (rel_set J g h); [done| |done..]. unfold same_meta; cbn; split_and!; congruence.
  - destruct (IH Hf) as (J & g & [K1 K2 K3 K4 K5]). exists J, (modify_level_scale m g). pose proof (r_meta _ _ _ _ K1) as (M1 & M2 & M3 & M4 & M5 & M6 & M7 & M8 & M9 & M10). split; [|by apply (lwf_meta dist g)|done..].
    apply (rel_set J g h); [done| |done..]. unfold same_meta; cbn; split_and!; congruence.
Qed.
End Facts.

(** C79. [clean] vectors are at a distance that is a number from one another. The index was made by insertions of clean vectors, that
    returned, and of any vectors, that did not (the distance gave NaN or panicked); the caller caught the panics.
    (1) A search from a clean vector returns at most [knbn] answers, nearest first, of distinct points; each is one of the vectors of the
    insertions that returned, with its distance; there is one at least if one was inserted, [knbn] is not 0 and nothing is filtered.
    (2) An insertion of a clean vector returns. (3) An insertion that fails leaves the answers to searches from clean vectors what they were,
    if the index has a point at layer 0; (4) but its vector is counted, and iterations over the index give it. *)
Theorem C79_failed_insertions_do_no_harm :
  forall {T} (ndist : list T -> list T -> outcome (option Z)) so no, StdLaws so -> NanLaws so no ->
  forall (clean : list T -> Prop), (forall a b, clean a -> clean b -> exists d, ndist a b = Ok (Some d) /\ (0 <= d)%Z) ->
  forall inv_ln M ml ef hist h, tried ndist so no inv_ln M ml ef hist h -> Forall (fun x => clean x.1) hist ->
  (forall q knbn ef_arg filter, clean q -> filter = None \/ (1 <= Nat.max ef_arg knbn)%nat ->
     exists r, nsearch_filter ndist no h q knbn ef_arg filter = Ok r /\
     (length r <= knbn)%nat /\ sorted_by (fun a => default 0%Z (ndistance a)) r /\ NoDup (np_id <$> r) /\
     (forall a, a ∈ r -> exists v z, (v, nd_id a) ∈ hist /\ ndistance a = Some z /\ ndist q v = Ok (Some z)) /\
     (hist <> [] -> knbn <> 0%nat -> filter = None -> r <> [])) /\
  (forall v id d, (1 <= ml)%nat -> clean v -> exists h', ninsert ndist so no v id d h = (Ok tt, h')) /\
  (forall v id d o h', ninsert ndist so no v id d h = (o, h') -> o <> Ok tt ->
     (get_layer_nb_point h 0 <> 0%nat -> forall q knbn ef_arg filter, clean q -> filter = None \/ (1 <= Nat.max ef_arg knbn)%nat ->
        nsearch_filter ndist no h' q knbn ef_arg filter = nsearch_filter ndist no h q knbn ef_arg filter) /\
     ((1 <= ml)%nat -> get_nb_point h' = S (get_nb_point h) /\ stored h' ≡ₚ (v, id) :: stored h)).
Proof.
  intros T ndist so no LAWS NL clean Hc inv_ln M ml ef hist h Ht Hf.
  destruct (tried_facts ndist so LAWS no NL clean Hc _ _ _ _ _ _ Ht Hf) as (J & g & K). pose proof K as [K1 K2 K3 K4 K5].
  pose proof (zdist_clean ndist clean Hc) as Hz. pose proof (zdist_nn ndist) as Hnn.
  split_and!.
  - intros q k e flt Hq Hfl. destruct (search_filter_facts (zdist ndist) so LAWS Hnn g q k e flt K2 Hfl) as (r & Hr & A1 & A2 & A3 & A4).
    destruct (search_R ndist (zdist ndist) so LAWS no NL clean Hz J g h q k e flt r K1 Hq Hr) as [Hs HJ].
    exists (En <$> r). split_and!; [done|by rewrite fmap_length| | | |].
    + clear -A2. unfold sorted_by in *. induction A2 as [|a l Hs IH Hd]; cbn; constructor; auto. apply Forall_fmap. eapply Forall_impl; [exact Hd|]. done.
    + rewrite <- list_fmap_compose. exact A3.
    + intros a Ha. apply elem_of_list_fmap in Ha as (x & -> & Hx). rewrite Forall_forall in A4. destruct (A4 x Hx) as (pt & Hpt & Hid & Hdx).
      exists (pt_data pt), (distance x). split_and!.
      * cbn. rewrite Hid. by apply (K4 (p_id x)); [apply HJ|].
      * done.
      * rewrite Hdx. apply Hz; [done|]. by apply (r_pt _ _ _ _ K1 (p_id x) pt); [apply HJ|].
    + intros Hne Hk ->. specialize (K5 Hne). destruct (entry_point g) as [ep|] eqn:Eep; [|done].
      destruct (search_srch_nonempty (zdist ndist) so LAWS Hnn g q k e ep (lwf_searchable _ _ K2) Eep) as (a & res & _ & Hn & _); [lia|].
      rewrite Hr in Hn. injection Hn as ->. done.
  - intros v id d Hm Hv. destruct (insert_lspec (zdist ndist) so LAWS Hnn g v id d K2) as (g' & np & Hi & _); [rewrite K3; lia|].
    destruct (insert_R ndist (zdist ndist) so LAWS no NL clean Hz J g h v id d g' K1 Hv Hi) as (h1 & Hh1 & _). by exists h1.
  - intros v id d o h' Hi Ho. destruct (failed_rel ndist so LAWS no NL clean J g h v id d o h' K1 K2 Hi Ho) as
      [[-> Hm0]|(np & g1 & G1 & G2 & G3 & G4 & F1 & F2 & F3 & F4 & F5 & F6 & (ep & F7) & F8)].
    + split; [done|]. intros Hm. lia.
    + split.
      * intros Hl0 q k e flt Hq Hfl. destruct (search_filter_facts (zdist ndist) so LAWS Hnn g q k e flt K2 Hfl) as (r & Hr & _).
        destruct (search_R ndist (zdist ndist) so LAWS no NL clean Hz J g h q k e flt r K1 Hq Hr) as [Hs HJ]. rewrite Hs.
        assert (L0 : forall hh : hnsw (T:=T), get_layer_nb_point hh 0 <> 0%nat -> exists x ly, points_by_layer hh !! 0%nat = Some (x :: ly)).
        { intros hh. unfold get_layer_nb_point. destruct (points_by_layer hh !! 0%nat) as [[|x ly]|]; try done. eauto. }
        assert (Hlt : forall (hh : hnsw (T:=T)) y k, points_by_layer hh !! 0%nat = Some (y :: k) -> layer_to_search hh = Ok 0%nat).
        { intros hh y k' Hy. unfold layer_to_search. destruct (points_by_layer hh) as [|[|] ?]; try done. }
        assert (Hg0 : exists x ly, points_by_layer g !! 0%nat = Some (x :: ly)).
        { destruct (L0 h Hl0) as (x & ly & Hx). pose proof (emptiness_rel clean J g h 0%nat K1) as He. unfold emptiness in He. rewrite Hx in He.
          destruct (points_by_layer g !! 0%nat) as [[|y k']|]; try done. eauto. }
        destruct Hg0 as (x & ly & Hx). destruct (L0 h' ltac:(lia)) as (x1 & ly1 & Hx1).
        pose proof (r_meta _ _ _ _ F1) as (_ & _ & _ & _ & _ & _ & _ & Hep1 & _).
        eapply proj1, (search_B ndist (zdist ndist) so LAWS no NL clean Hz (fun p => p ∉ J) g h'); [| |exact Hq|congruence| |by erewrite !Hlt| | |exact Hr].
        -- intros p pt Hp Hpt. assert (p <> np) by (intros ->; congruence). destruct (r_pt _ _ _ _ K1 _ _ Hp Hpt). rewrite G3 by done. done.
        -- intros p pt l nbs n Hp. exact (r_link _ _ _ _ K1 p pt l nbs n Hp).
        -- apply (r_entry _ _ _ _ K1).
        -- intros l Hll. erewrite Hlt in Hll by exact Hx. injection Hll as <-. unfold emptiness. by rewrite Hx, Hx1.
        -- rewrite <- (size_rel clean J g h K1). rewrite <- (all_points_length h), <- (all_points_length h').
           pose proof (stored_insert h h' np v id G1 G2) as Hst. apply Permutation_length in Hst; [|intros p Hp; unfold static; by rewrite G3].
           unfold stored in Hst. rewrite app_length, !fmap_length in Hst. cbn in Hst. lia.
      * intros _. split; [done|]. rewrite (stored_insert h h' np v id G1 G2); [by rewrite (comm (++))|]. intros p Hp. unfold static. by rewrite G3.
Qed.
Print Assumptions C79_failed_insertions_do_no_harm.

(** Vectors of one coordinate: 0 and 5 are inserted, then a vector of two coordinates (the distance panics), a NaN, 9, again a NaN. The search from 7
    with knbn = 4 gives 9, 5 and 0. *)
Definition fail_3 := Eval vm_compute in (ninsert gap simple_ops simple_nan [Some 1; Some 2]%Z 3%N low nan_2).2.
Definition fail_4 := Eval vm_compute in nan_step fail_3 None 4%N.
Definition fail_5 := Eval vm_compute in nan_step fail_4 (Some 9%Z) 5%N.
Definition fail_6 := Eval vm_compute in nan_step fail_5 None 6%N.
Example C79_example :
  tried gap simple_ops simple_nan (fun _ => f64_1) 4 16 10 [([Some 0%Z], 1%N); ([Some 5%Z], 2%N); ([Some 9%Z], 5%N)] fail_6 /\
  Forall (fun x : list (option Z) * dataid => number x.1) [([Some 0%Z], 1%N); ([Some 5%Z], 2%N); ([Some 9%Z], 5%N)] /\
  get_nb_point fail_6 = 6%nat /\ get_layer_nb_point fail_6 0 = 6%nat /\
  (exists r, nsearch_filter gap simple_nan fail_6 [Some 7%Z] 4 10 None = Ok r /\ nd_id <$> r = [5; 2; 1]%N).
Proof.
  split_and!.
  - apply (tried_failed _ _ _ _ _ _ _ _ fail_5 [None] 6%N low Panic); [|vm_compute; reflexivity|done].
    apply (tried_insert _ _ _ _ _ _ _ [_; _] fail_4 _ _ low); [|vm_compute; reflexivity].
    apply (tried_failed _ _ _ _ _ _ _ _ fail_3 [None] 4%N low Panic); [|vm_compute; reflexivity|done].
    apply (tried_failed _ _ _ _ _ _ _ _ nan_2 [Some 1; Some 2]%Z 3%N low Panic); [|vm_compute; reflexivity|done].
    apply (tried_insert _ _ _ _ _ _ _ [_] nan_1 _ _ low); [|vm_compute; reflexivity].
    apply (tried_insert _ _ _ _ _ _ _ [] nan_0 _ _ low); [|vm_compute; reflexivity].
    apply tried_new. vm_compute. reflexivity.
  - repeat constructor; eexists; reflexivity.
  - done.
  - done.
  - eexists. split; vm_compute; reflexivity.
Qed.
