(** From the readers of MapLoad.v to the functions that reload with a memory map. *)
From Coq Require Import Strings.String.
From stdpp Require Import relations.
From Verif Require Import Prelude Model Lib Table SearchProofs InsertProofs Spec Io IoBase IoProofs IoProofs2 IoProofs3 IoProofs5 LoadProofs SpecIo SpecFile
  FileProofs FileProofs2 MapProofs MapLoad SpecMapLoad PropsFile.
Local Open Scope list_scope.

(** ** Making the map *)
Lemma slice_no_err s a n : slice s a n <> Err.
Proof. unfold slice. by destruct (_ <? _)%nat. Qed.
Lemma map_records_no_err {T} (el : elem T) mm dim n : forall addr m, map_records el mm dim n addr m <> Err.
Proof.
  induction n as [|n IH]; intros addr m; [done|]. cbn [map_records].
  destruct (slice mm addr 4) eqn:E1; try done; [|by apply slice_no_err in E1]. cbn [mbind outcome_bind].
  destruct (le_val _ =? MAGICDATAP)%N; [|done]. cbn [assert_ mbind outcome_bind].
  destruct (slice mm (addr + 4) 8) eqn:E2; try done; [|by apply slice_no_err in E2]. cbn [mbind outcome_bind].
  destruct (slice mm (addr + 12) 8) eqn:E3; try done; [|by apply slice_no_err in E3]. cbn [mbind outcome_bind].
  destruct (slice mm (addr + 20) _) eqn:E4; try done; [|by apply slice_no_err in E4]. cbn [mbind outcome_bind].
  unfold from_raw_parts. destruct (_ <? _)%N; [done|]. cbn [mbind outcome_bind]. apply IH.
Qed.

Section Make.
Context {T : Type} (el : elem T).
Lemma same_head t t' r r' : head_fits t -> head_fits t' -> head_text t ++ r = head_text t' ++ r' -> de_of t = de_of t' /\ r = r'.
Proof using Type.
  intros H H' E.
  assert (R : load_description (head_text t ++ r, []) = Ok (de_of t, (r, []))).
  { apply exact_description. exists (head_text t), []. split_and!; try done. by exists t. }
  assert (R' : load_description (head_text t' ++ r', []) = Ok (de_of t', (r', []))).
  { apply exact_description. exists (head_text t'), []. split_and!; try done. by exists t'. }
  rewrite E, R' in R.
  pose (pick := fun o : outcome (description * (bytes * bytes)) => match o with Ok x => x | _ => (de_of t, (r, [])) end).
  apply (f_equal pick) in R. cbn [pick] in R. split; [exact (eq_sym (f_equal fst R))|exact (eq_sym (f_equal (fun x => x.2.1) R))].
Qed.
Lemma map_ok g d t rest M : g = head_text t ++ rest -> fits t -> datamap_of el g d = Ok M ->
  exists recs, mappable el g d t recs /\ forall id, dm_get_data el M id = Ok (mapped_vector el t recs id).
Proof using Type.
  intros Eg F (t' & recs & Hm & ->)%datamap_of_iff. pose proof (map_answers el g d t' recs) as HA. specialize (fun id => HA id Hm).
  destruct Hm as ((rest' & Eg') & F' & Hv & Ht & Hd & Hl & Hr).
  destruct (same_head t t' rest rest') as [E _]; [by apply fits_head|by apply fits_head|by rewrite <- Eg, <- Eg'|].
  assert (Ev : tx_version t = tx_version t') by (by apply (f_equal format_version) in E).
  assert (Ed : tx_dim t = tx_dim t') by (by apply (f_equal de_dimension) in E).
  assert (Ey : tx_type t = tx_type t') by (by apply (f_equal de_t_name) in E).
  exists recs. split.
  - split; [by exists rest|]. split; [done|]. rewrite Ev, Ey, Ed. done.
  - intros id. rewrite HA. unfold mapped_vector. by rewrite Ed.
Qed.
Lemma map_made g d t recs : mappable el g d t recs -> exists M, datamap_of el g d = Ok M /\ forall id, dm_get_data el M id = Ok (mapped_vector el t recs id).
Proof using Type.
  intros H. eexists. split; [apply datamap_of_iff; by exists t, recs|]. intros id. by apply (map_answers el g d).
Qed.
Lemma map_refused g d t rest x : g = head_text t ++ rest -> fits t -> d = u32_bytes 0xa67f0000 ++ u64_bytes (tx_dim t) ++ x ->
  datamap_of el g d = Err <-> tx_version t = 2%N \/ tx_type t <> el_name el.
Proof using Type.
  intros -> F Ed. unfold datamap_of.
  assert (H1 : or_panic load_description (head_text t ++ rest, []) = Ok (de_of t, (rest, []))).
  { apply (exact_panic _ _ exact_description). exists (head_text t), []. split; [done|]. split; [done|]. split; [done|]. exists t. split; [done|]. split; [by apply fits_head|done]. }
  rewrite H1. cbn [mbind outcome_bind].
  change (format_version (de_of t)) with (tx_version t). change (de_t_name (de_of t)) with (tx_type t). change (de_dimension (de_of t)) with (tx_dim t).
  destruct (N.leb_spec (tx_version t) 2) as [Hv|Hv].
  { split; [|done]. intros _. left. pose proof (ft_version _ F). lia. }
  destruct (String.eqb_spec (el_name el) (tx_type t)) as [Hn|Hn]; cbn [negb].
  2: { split; [|done]. intros _. right. congruence. }
  assert (S1 : slice d 0 4 = Ok (u32_bytes 0xa67f0000)).
  { rewrite Ed. apply (slice_iff []); [done|]. by eexists. }
  assert (S2 : slice d 4 8 = Ok (u64_bytes (tx_dim t))).
  { rewrite Ed. apply (slice_iff (u32_bytes 0xa67f0000)); [done|]. by eexists. }
  rewrite S1, S2. cbn [mbind outcome_bind]. unfold u32_bytes at 1. rewrite le_val_bytes by done. unfold MAGICDATAP at 1. rewrite N.eqb_refl. cbn [assert_ mbind outcome_bind].
  unfold u64_bytes. rewrite le_val_bytes by apply F. rewrite N.eqb_refl. cbn [negb].
  split; [|intros [?|?]; [lia|congruence]]. intros H. exfalso. destruct (map_records el d (tx_dim t) _ 12 []) eqn:E; try done. by apply map_records_no_err in E.
Qed.
End Make.

(** ** The index *)
Section Index.
Context {T : Type} (so : StdOps) (LAWS : StdLaws so) (el : elem T) (inv_ln : nat -> f64) (dm : option datamap) (opts : reload_options).

Lemma concat_bare (lp : list (list (point (T:=T)))) : length (concat (fmap (M:=list) bare_pt <$> lp)) = length (concat lp).
Proof using Type. induction lp as [|l lp IH]; csimpl; [done|]. by rewrite !app_length, fmap_length, IH. Qed.
Lemma without_make de lp ep mp mp' dmo :
  without_vectors (make_hnsw inv_ln de (Loaded lp ep mp) dmo) = make_hnsw (T:=T) inv_ln de (Loaded (fmap (M:=list) bare_pt <$> lp) ep mp') dmo.
Proof using Type. unfold without_vectors, make_hnsw. cbn. f_equal. symmetry. apply concat_bare. Qed.
Lemma sensible_none t : sensible el t <-> sensible (el_none el) t /\ (el_nodata el = true \/ tx_type t = el_name el).
Proof using Type.
  split.
  - intros [H1 H2 H3 H4 H5 H6]. split; [|done]. split; try done. by left.
  - intros [[H1 H2 H3 H4 H5 H6] H]. by split.
Qed.

Lemma core_mapped (same : description -> Prop) (gate : description -> rd unit) dmo g d h mapped :
  (forall de g' d' u rg rdd, gate de (g', d') = Ok (u, (rg, rdd)) <-> same de /\ rg = g' /\ rdd = d') ->
  fst <$> (de <~ load_header; _ <~ gate de; ld <~ load_point_indexation so el dm opts de; rret (make_hnsw inv_ln de ld dmo, ld_mapped ld)) (g, d) = Ok (h, mapped) <->
  exists t rest rest', g = graph_text t ++ rest /\ d = data_text t ++ rest' /\ fits t /\ sensible el t /\ same (de_of t) /\
    stands_for so (no_vectors el) inv_ln t (without_vectors h) /\ datamap_opt h = dmo /\
    mapped = pt_pid <$> take (nb_mapped opts (de_of t)) (concat (points_by_layer h)) /\
    irel (source el dm opts (de_of t)) 0 (concat (tx_layers t)) (concat (points_by_layer h)).
Proof using LAWS.
  intros Hg.
  assert (Hix : forall de g d a rg rdd,
    (ld <~ load_point_indexation so el dm opts de; rret (make_hnsw inv_ln de ld dmo, ld_mapped ld)) (g, d) = Ok (a, (rg, rdd)) <->
    exists ld, load_point_indexation so el dm opts de (g, d) = Ok (ld, (rg, rdd)) /\ a = (make_hnsw inv_ln de ld dmo, ld_mapped ld)).
  { intros de g' d' a rg rdd. unfold rbind. split.
    - intros ([ld s] & H1 & H2)%bind_inv. apply rret_inv in H2 as [-> ->]. by exists ld.
    - intros (ld & -> & ->). done. }
  split.
  - intros H. destruct ((de <~ load_header; _ <~ gate de; ld <~ load_point_indexation so el dm opts de; rret (make_hnsw inv_ln de ld dmo, ld_mapped ld)) (g, d))
      as [[[h1 m1] [rg rdd]]| | | | |] eqn:E; try done. injection H as -> ->.
    apply rbind_inv in E as (de & [g1 d1] & E1 & E). apply exact_header in E1 as (xg & xd & -> & -> & t & -> & Hh & -> & ->).
    apply rbind_inv in E as (u & [g2 d2] & E2 & E). apply Hg in E2 as (Hs & -> & ->).
    apply Hix in E as (ld & E & [= -> ->]).
    apply (exact_mapped_indexation so LAWS el dm opts (de_of t) (hf_version _ Hh)) in E
      as (xg & xd & -> & -> & Ht & tls & eid & layer & rank & L1 & L2 & L3 & L4 & LS & L5 & L6 & L7 & L8 & L9 & L10 & -> & ->).
    destruct (from_parts so (el_none el) inv_ln t tls eid layer rank (fmap (M:=list) bare_pt <$> ld_layers ld) Hh L1 L2 L3 L4 L5 L6 L7 L8) as (F & S & G); [by left|].
    eexists _, rg, rdd. split; [|split; [|split; [exact F|split; [|split; [exact Hs|split; [|split; [done|split; [exact L10|exact LS]]]]]]]].
    + unfold graph_text. cbn [tx_layers tx_mode tx_entry fst snd]. rewrite !app_assoc. done.
    + unfold data_text. cbn [tx_layers tx_dim]. rewrite <- !app_assoc. done.
    + apply sensible_none. split; [exact S|]. cbn [tx_type]. destruct Ht as [?|Ht]; [by left|right; by symmetry].
    + destruct ld as [lp ep mp]. cbn [ld_layers ld_entry ld_mapped] in *. subst ep. rewrite (without_make _ _ _ _ []). apply G.
  - intros (t & rest & rest' & -> & -> & F & S & Hs & G & E1 & -> & HS). apply sensible_none in S as [S Ht].
    destruct (to_parts so (el_none el) inv_ln t (without_vectors h) F S G) as (Hh & P1 & P2 & P3).
    set (ld := Loaded (points_by_layer h) (N.to_nat (tx_entry t).1.2, Z.to_nat (tx_entry t).2) (pt_pid <$> take (nb_mapped opts (de_of t)) (concat (points_by_layer h)))) in *.
    assert (Hh' : h = make_hnsw inv_ln (de_of t) ld dmo).
    { unfold without_vectors, make_hnsw in P3. cbn [points_by_layer datamap_opt ld_layers ld_entry] in P3. injection P3 as Q1 Q2 Q3 Q4 Q5 Q6 Q7 Q8 Q9.
      unfold make_hnsw. cbn [ld ld_layers ld_entry]. destruct h as [a1 a2 a3 a4 a5 a6 a7 a8 a9 a10 a11].
      cbn [ef_construction max_nb_connection extend_candidates keep_pruned max_layer points_by_layer level_scale nb_point entry_point searching datamap_opt] in *.
      change (fun p : point => Point [] (pt_oid p) (pt_pid p) (pt_nbs p)) with (bare_pt (T:=T)) in Q7. rewrite concat_bare in Q7. by subst. }
    assert (Hld : load_point_indexation so el dm opts (de_of t)
      ((u8_bytes (N.of_nat (length (tx_layers t))) ++ layers_text (tx_mode t) 0 (tx_layers t)
        ++ u64_bytes (tx_entry t).1.1 ++ u8_bytes (tx_entry t).1.2 ++ i32_bytes (tx_entry t).2) ++ rest,
       concat (record_text <$> concat (tx_layers t)) ++ rest') = Ok (ld, (rest, rest'))).
    { apply (exact_mapped_indexation so LAWS el dm opts (de_of t) (hf_version _ Hh)). eexists _, _. split; [done|]. split; [done|]. split.
      { destruct Ht as [H|H]; [by left|right; by symmetry]. }
      exists (tx_layers t), (tx_entry t).1.1, (tx_entry t).1.2, (tx_entry t).2. destruct (ft_entry _ F) as (H1 & H2 & H3).
      split_and!; try done; try apply H3.
      - apply S. - right. apply S. - by apply (se_entry _ _ S). }
    assert (Hhd : load_header (graph_text t ++ rest, data_text t ++ rest') = Ok (de_of t,
      ((u8_bytes (N.of_nat (length (tx_layers t))) ++ layers_text (tx_mode t) 0 (tx_layers t)
        ++ u64_bytes (tx_entry t).1.1 ++ u8_bytes (tx_entry t).1.2 ++ i32_bytes (tx_entry t).2) ++ rest,
       concat (record_text <$> concat (tx_layers t)) ++ rest'))).
    { apply exact_header. exists (head_text t), (u32_bytes MAGICDATAP ++ u64_bytes (tx_dim t)). split; [unfold graph_text; by rewrite <- !app_assoc|].
      split; [unfold data_text; by rewrite <- !app_assoc|]. by exists t. }
    unfold rbind at 1. rewrite Hhd. cbn [mbind outcome_bind]. unfold rbind at 1.
    rewrite (proj2 (Hg _ _ _ tt _ _) (conj Hs (conj eq_refl eq_refl))). cbn [mbind outcome_bind].
    rewrite (proj2 (Hix _ _ _ (make_hnsw inv_ln (de_of t) ld dmo, ld_mapped ld) _ _)) by (by exists ld).
    simpl. by rewrite <- Hh'.
Qed.

Lemma sources_vectors t k vec (h : hnsw (T:=T)) : nb_mapped opts (de_of t) = k -> length (concat (tx_layers t)) = length (concat (points_by_layer h)) ->
  (forall id v, (exists M, dm = Some M /\ dm_get_data el M id = Ok (Some v)) <-> vec id = Some v) ->
  irel (source el dm opts (de_of t)) 0 (concat (tx_layers t)) (concat (points_by_layer h)) <-> vectors_from el t vec k h.
Proof using Type.
  clear inv_ln LAWS. intros <- E HV. unfold irel, vectors_from, source. cbn [Nat.add]. split.
  - intros [_ H] i p pt Hp Hpt. specialize (H i p pt Hp Hpt). destruct (decide _) as [Hi|Hi]; (split; [|]); intros Hi'; try lia; [by apply HV|done].
  - intros H. split; [done|]. intros i p pt Hp Hpt. destruct (H i p pt Hp Hpt) as [H1 H2]. destruct (decide _) as [Hi|Hi]; [apply HV; by apply H1|apply H2; lia].
Qed.
Lemma stands_length t h : stands_for so (no_vectors el) inv_ln t (without_vectors h) -> length (concat (tx_layers t)) = length (concat (points_by_layer h)).
Proof using Type.
  intros G. rewrite <- concat_bare. change (fmap (M:=list) bare_pt <$> points_by_layer h) with (points_by_layer (without_vectors h)).
  destruct (sf_layers _ _ _ _ _ G) as [E HL].
  assert (HL' : forall l ps, tx_layers t !! l = Some ps -> exists pts, points_by_layer (without_vectors h) !! l = Some pts /\ length pts = length ps).
  { intros l ps Hl. destruct (HL l ps Hl) as (pts & H1 & H2 & _). by exists pts. }
  clear HL G. revert E HL'. generalize (points_by_layer (without_vectors h)). generalize (tx_layers t) as tls.
  induction tls as [|ts tls IH]; intros [|pts lp] E HL; try done. destruct (HL 0%nat ts eq_refl) as (pts' & [= <-] & E1).
  cbn [concat]. rewrite !app_length, E1. f_equal. apply IH; [by injection E|]. intros l ps Hl. by apply (HL (S l)).
Qed.
End Index.
