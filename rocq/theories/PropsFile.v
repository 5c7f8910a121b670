(** Property C80: which pairs of files load_hnsw accepts, and what it makes of them. *)
From Coq Require Import Strings.String.
From stdpp Require Import relations.
From Verif Require Import Prelude Model StdInst Lib Table SearchProofs InsertProofs Spec Io IoBase IoProofs IoProofs5 LoadProofs SpecIo SpecFile
  FileProofs FileProofs2 SpecBuilt Examples ExamplesIo PropsIo.
Local Open Scope list_scope.

Section File.
Context {T : Type} (so : StdOps) (LAWS : StdLaws so) (el : elem T) (inv_ln : nat -> f64) (dm : option datamap) (opts : reload_options)
  (Hmm : ro_datamap opts = false).

(** from the head and the layers to the whole text, and back *)
Lemma from_parts t tls eid layer rank lp : head_fits t ->
  (length tls <= 16)%nat -> (forall ts, ts ∈ tls -> (N.of_nat (length ts) < 2 ^ 64)%N) ->
  (length (concat tls) = 0%nat \/ (Z.of_nat (length (concat tls)) <= as_i64 (tx_count t))%Z) ->
  irel (layer_is so el (de_of t) (trefers tls)) 0 tls lp -> trefers tls layer rank ->
  (eid < 2 ^ 64)%N -> (layer < 256)%N -> (- 2 ^ 31 <= rank < 2 ^ 31)%Z -> (el_nodata el = true \/ el_name el = tx_type t) ->
  let t' := Text (tx_version t) (tx_mode t) (tx_m t) (tx_scale t) (tx_lists t) (tx_ef t) (tx_count t) (tx_dim t) (tx_dist t) (tx_type t) tls (eid, layer, rank) in
  fits t' /\ sensible el t' /\
  forall dmo, stands_for so el inv_ln t' (make_hnsw inv_ln (de_of t) (Loaded lp (N.to_nat layer, Z.to_nat rank) []) dmo).
Proof using Type.
  clear Hmm LAWS. intros [V B S W N] Hlen Hs Hc HL Hrf He Hl Hr Ht t'.
  assert (Hpt : forall i ts r p, tls !! i = Some ts -> ts !! r = Some p -> (Z.of_nat r < 2 ^ 31)%Z /\ point_ok (de_of t) (trefers tls) p).
  { intros i ts r p Hi Hp. destruct (irel_lookup _ _ _ _ _ _ HL Hi) as (pts & Hpts & HR). destruct (irel_lookup _ _ _ _ _ _ HR Hp) as (pt & _ & _ & H1 & H2 & _). done. }
  assert (Hin : forall p, p ∈ concat tls -> exists i ts r, tls !! i = Some ts /\ ts !! r = Some p).
  { intros p Hp. apply elem_of_list_In, in_concat in Hp as (ly & Hly%elem_of_list_In & Hin%elem_of_list_In).
    apply elem_of_list_lookup in Hly as [i Hi]. apply elem_of_list_lookup in Hin as [j Hj]. eauto. }
  assert (Hex : exists p, p ∈ concat tls).
  { destruct Hrf as [_ (ts & Hts & Hlt)]. apply lookup_lt_is_Some_2 in Hlt as [p Hp]. exists p.
    apply elem_of_list_In, in_concat. exists ts. split; apply elem_of_list_In; by eapply elem_of_list_lookup_2. }
  split; [|split].
  - split; cbn [t' tx_version tx_mode tx_m tx_scale tx_lists tx_ef tx_count tx_dim tx_dist tx_type tx_layers tx_entry fst snd]; try done.
    intros ps Hps. apply elem_of_list_lookup in Hps as [i Hi]. split.
    + destruct (length ps) as [|n] eqn:El; [done|]. destruct (lookup_lt_is_Some_2 ps n) as [p Hp]; [lia|]. destruct (Hpt _ _ _ _ Hi Hp) as [H _]. lia.
    + apply Forall_lookup. intros r p Hp. destruct (Hpt _ _ _ _ Hi Hp) as [_ [H _]]. exact H.
  - split; cbn [t' tx_version tx_mode tx_m tx_scale tx_lists tx_ef tx_count tx_dim tx_dist tx_type tx_layers tx_entry fst snd]; try done.
    + destruct Ht as [->|Ht]; [by left|right; by symmetry].
    + split.
      * destruct Hex as [p (i & ts & r & Hi & Hp)%Hin]. destruct (Hpt _ _ _ _ Hi Hp) as [_ (_ & _ & H & _)]. simpl in H. lia.
      * intros p (i & ts & r & Hi & Hp)%Hin. destruct (Hpt _ _ _ _ Hi Hp) as [_ (_ & H & _)]. exact H.
    + destruct Hc as [Hc|Hc]; [|done]. destruct Hex as [p Hp]. destruct (concat tls); [by apply elem_of_nil in Hp|done].
    + intros p l n (i & ts & r & Hi & Hp)%Hin H1 H2. destruct (Hpt _ _ _ _ Hi Hp) as [_ (_ & _ & _ & H)]. by apply (H l n).
  - intros dmo. split; try done.
    + cbn [nb_point make_hnsw ld_layers t' tx_layers]. clear -HL. revert HL. generalize (trefers tls). generalize 0%nat. intros z P. revert z lp.
      induction tls as [|ts tls IH]; intros z lp HL; [by apply irel_inv_nil in HL as ->|]. apply irel_inv_l in HL as (pts & lp' & -> & [E _] & HL).
      cbn [concat]. rewrite !app_length, (IH _ _ HL). by rewrite E.
    + cbn [points_by_layer make_hnsw ld_layers t' tx_layers]. split; [symmetry; apply HL|]. intros l ps Hl'.
      destruct (irel_lookup _ _ _ _ _ _ HL Hl') as (pts & Hpts & HR). exists pts. split; [done|]. split; [symmetry; apply HR|].
      intros r p Hp. destruct (irel_lookup _ _ _ _ _ _ HR Hp) as (pt & Hpt' & _ & _ & _ & H). exists pt. split; [done|]. exact H.
Qed.

Lemma to_parts t h : fits t -> sensible el t -> stands_for so el inv_ln t h ->
  head_fits t /\ (forall ts, ts ∈ tx_layers t -> (N.of_nat (length ts) < 2 ^ 64)%N) /\
  irel (layer_is so el (de_of t) (trefers (tx_layers t))) 0 (tx_layers t) (points_by_layer h) /\
  h = make_hnsw inv_ln (de_of t) (Loaded (points_by_layer h) (N.to_nat (tx_entry t).1.2, Z.to_nat (tx_entry t).2) []) (datamap_opt h).
Proof using Type.
  clear Hmm LAWS. intros F S G. split_and!.
  - by destruct F.
  - intros ts Hts. destruct (ft_layers _ F ts Hts) as [H _]. lia.
  - destruct (sf_layers _ _ _ _ _ G) as [E HL]. split; [done|]. intros l ps pts Hps Hpts. destruct (HL l ps Hps) as (pts' & Hpts' & Elen & HP).
    rewrite Hpts in Hpts'. injection Hpts' as <-. split; [done|]. intros r p pt Hp Hpt. destruct (HP r p Hp) as (pt' & Hpt' & HO).
    rewrite Hpt in Hpt'. injection Hpt' as <-. cbn [Nat.add].
    assert (Hin : p ∈ concat (tx_layers t)).
    { apply elem_of_list_In, in_concat. exists ps. split; apply elem_of_list_In; by eapply elem_of_list_lookup_2. }
    destruct (ft_layers _ F ps) as [F1 F2]; [by eapply elem_of_list_lookup_2|]. destruct (se_lists _ _ S) as [S1 S2].
    pose proof (se_layers _ _ S) as S3. split_and!.
    + apply lookup_lt_Some in Hps. lia.
    + apply lookup_lt_Some in Hp. lia.
    + split; [|split_and!].
      * by apply (Forall_lookup_1 _ _ _ _ F2 Hp).
      * by apply S2.
      * simpl. lia.
      * intros ns n Hns Hn. by apply (se_refs _ _ S p ns n).
    + exact HO.
  - destruct G as [E1 E2 E3 E4 E5 E6 E7 E8 E9 [E10 HL]]. destruct h as [a1 a2 a3 a4 a5 a6 a7 a8 a9 a10 a11].
    cbn [ef_construction max_nb_connection extend_candidates keep_pruned max_layer points_by_layer level_scale nb_point entry_point searching datamap_opt] in *.
    unfold make_hnsw. cbn [de_of de_ef de_max_nb_connection de_level_scale ld_layers ld_entry]. subst. f_equal.
    clear -E10 HL. revert a6 E10 HL. generalize (tx_layers t) as tls. intros tls lp E10 HL.
    assert (HH : forall l ps, tls !! l = Some ps -> exists pts, lp !! l = Some pts /\ length pts = length ps).
    { intros l ps Hl. destruct (HL l ps Hl) as (pts & H1 & H2 & _). by exists pts. }
    clear HL. revert lp E10 HH. induction tls as [|ts tls IH]; intros [|pts lp] E10 HH; try done.
    destruct (HH 0%nat ts eq_refl) as (pts' & [= <-] & E). cbn [concat]. rewrite !app_length, E. f_equal. apply IH.
    + by injection E10. + intros l ps Hl. by apply (HH (S l)).
Qed.
End File.

(** C80. Reload in memory (no mapping): load_hnsw and load_hnsw_with_dist accept a pair of files exactly when they begin with the
    texts of some contents (SpecFile.v) whose numbers fit, that make sense, and whose distance name is the expected one (last
    component for the first function, full name for the second); and then they return the index these contents stand for. *)
Theorem C80_accepted_exactly :
  forall {T} so, StdLaws so -> forall (el : elem T) inv_ln dname cwd fs io h mapped, ro_datamap (io_options io) = false ->
  (load_hnsw so el inv_ln dname cwd fs io = Ok (h, mapped) <->
   exists t rest rest', dump_at fs cwd (io_dir io) (io_basename io) (graph_text t ++ rest) (data_text t ++ rest') /\
     fits t /\ sensible el t /\ (el_nodata el = true \/ exists c, rsplit_terminator dname !! 0%nat = Some c /\ rsplit_terminator (tx_dist t) !! 0%nat = Some c) /\
     stands_for so el inv_ln t h /\ datamap_opt h = true /\ mapped = []) /\
  (load_hnsw_with_dist so el inv_ln dname cwd fs io = Ok (h, mapped) <->
   exists t rest rest', dump_at fs cwd (io_dir io) (io_basename io) (graph_text t ++ rest) (data_text t ++ rest') /\
     fits t /\ sensible el t /\ (el_nodata el = true \/ dname = tx_dist t) /\
     stands_for so el inv_ln t h /\ datamap_opt h = false /\ mapped = []).
Proof.
  intros T so LAWS el inv_ln dname cwd fs io h mapped Hmm.
  assert (Hix : forall dmo de g d a rg rdd, (exists t, de = de_of t /\ head_fits t) ->
    (ld <~ load_point_indexation so el (io_datamap io) (io_options io) de; rret (make_hnsw inv_ln de ld dmo, ld_mapped ld)) (g, d) = Ok (a, (rg, rdd)) <->
    exists ld, load_point_indexation so el (io_datamap io) (io_options io) de (g, d) = Ok (ld, (rg, rdd)) /\ a = (make_hnsw inv_ln de ld dmo, ld_mapped ld)).
  { intros dmo de g d a rg rdd _. unfold rbind. split.
    - intros ([ld s] & H1 & H2)%bind_inv. apply rret_inv in H2 as [-> ->]. by exists ld.
    - intros (ld & -> & ->). done. }
  (* the common part *)
  assert (Hcore : forall (same : description -> Prop) (gate : description -> rd unit) dmo g d,
    (forall de g' d' u rg rdd, gate de (g', d') = Ok (u, (rg, rdd)) <-> same de /\ rg = g' /\ rdd = d') ->
    fst <$> (de <~ load_header; _ <~ gate de; ld <~ load_point_indexation so el (io_datamap io) (io_options io) de; rret (make_hnsw inv_ln de ld dmo, ld_mapped ld)) (g, d) = Ok (h, mapped) <->
    exists t rest rest', g = graph_text t ++ rest /\ d = data_text t ++ rest' /\ fits t /\ sensible el t /\ same (de_of t) /\
      stands_for so el inv_ln t h /\ datamap_opt h = dmo /\ mapped = []).
  { intros same gate dmo g d Hg. split.
    - intros H. destruct ((de <~ load_header; _ <~ gate de; ld <~ load_point_indexation so el (io_datamap io) (io_options io) de; rret (make_hnsw inv_ln de ld dmo, ld_mapped ld)) (g, d))
        as [[[h1 m1] [rg rdd]]| | | | |] eqn:E; try done. injection H as -> ->.
      apply rbind_inv in E as (de & [g1 d1] & E1 & E). apply exact_header in E1 as (xg & xd & -> & -> & t & -> & Hh & -> & ->).
      apply rbind_inv in E as (u & [g2 d2] & E2 & E). apply Hg in E2 as (Hs & -> & ->).
      apply Hix in E as (ld & E & [= -> ->]); [|by exists t].
      apply (exact_indexation so LAWS el (de_of t) (hf_version _ Hh) _ _ Hmm) in E
        as (xg & xd & -> & -> & Ht & tls & eid & layer & rank & L1 & L2 & L3 & L4 & L5 & L6 & L7 & L8 & L9 & L10 & -> & ->).
      destruct (from_parts so el inv_ln t tls eid layer rank (ld_layers ld) Hh L1 L2 L3 L4 L5 L6 L7 L8 Ht) as (F & S & G).
      eexists _, rg, rdd. split; [|split; [|split; [exact F|split; [exact S|split; [exact Hs|split; [|done]]]]]].
      + unfold graph_text. cbn [tx_layers tx_mode tx_entry fst snd]. rewrite !app_assoc. done.
      + unfold data_text. cbn [tx_layers tx_dim]. rewrite <- !app_assoc. done.
      + destruct ld as [lp ep mp]. cbn [ld_layers ld_entry ld_mapped] in *. subst ep mp. apply G.
    - intros (t & rest & rest' & -> & -> & F & S & Hs & G & E1 & ->). destruct (to_parts so el inv_ln t h F S G) as (Hh & P1 & P2 & P3).
      set (ld := Loaded (points_by_layer h) (N.to_nat (tx_entry t).1.2, Z.to_nat (tx_entry t).2) []) in *.
      assert (Hld : load_point_indexation so el (io_datamap io) (io_options io) (de_of t)
        ((u8_bytes (N.of_nat (length (tx_layers t))) ++ layers_text (tx_mode t) 0 (tx_layers t)
          ++ u64_bytes (tx_entry t).1.1 ++ u8_bytes (tx_entry t).1.2 ++ i32_bytes (tx_entry t).2) ++ rest,
         concat (record_text <$> concat (tx_layers t)) ++ rest') = Ok (ld, (rest, rest'))).
      { apply (exact_indexation so LAWS el (de_of t) (hf_version _ Hh) _ _ Hmm). eexists _, _. split; [done|]. split; [done|]. split.
        { destruct (se_type _ _ S) as [H|H]; [by left|right; by symmetry]. }
        exists (tx_layers t), (tx_entry t).1.1, (tx_entry t).1.2, (tx_entry t).2. destruct (ft_entry _ F) as (H1 & H2 & H3).
        split_and!; try done; try apply H3.
        - apply S. - right. apply S. - by apply (se_entry _ _ S). }
      assert (Hhd : load_header (graph_text t ++ rest, data_text t ++ rest') = Ok (de_of t,
        ((u8_bytes (N.of_nat (length (tx_layers t))) ++ layers_text (tx_mode t) 0 (tx_layers t)
          ++ u64_bytes (tx_entry t).1.1 ++ u8_bytes (tx_entry t).1.2 ++ i32_bytes (tx_entry t).2) ++ rest,
         concat (record_text <$> concat (tx_layers t)) ++ rest'))).
      { apply exact_header. exists (head_text t), (u32_bytes MAGICDATAP ++ u64_bytes (tx_dim t)). split; [unfold graph_text; by rewrite <- !app_assoc|].
        split; [unfold data_text; by rewrite <- !app_assoc|]. by exists t. }
      unfold rbind at 1. rewrite Hhd. cbn [mbind outcome_bind]. unfold rbind at 1.
      rewrite (proj2 (Hg _ _ _ tt _ _) (conj Hs (conj eq_refl eq_refl))). cbn [mbind outcome_bind].
      rewrite (proj2 (Hix dmo _ _ _ (make_hnsw inv_ln (de_of t) ld dmo, ld_mapped ld) _ _ ltac:(by exists t))) by (by exists ld).
      simpl. rewrite <- E1, <- P3. done. }
  split.
  - unfold load_hnsw, io_open, dump_at. destruct (fs_read fs cwd (graph_file _ _)) as [g|]; [|split; [done|intros (t & r & r' & [? _] & _); done]].
    destruct (fs_read fs cwd (data_file _ _)) as [d|]; [|split; [done|intros (t & r & r' & [_ ?] & _); done]].
    cbn [mbind outcome_bind]. unfold run_rd.
    pose (gate := fun de : description => (same <~ (if el_nodata el then rret true
             else a <~ rlift (unwrap (rsplit_terminator dname !! 0%nat)); b <~ rlift (unwrap (rsplit_terminator (de_distname de) !! 0%nat));
             rret (bool_decide (a = b))); if negb (same : bool) then rlift Err else rret tt) : rd unit).
    assert (Hrun : forall s, load_rd so el inv_ln dname (io_datamap io) (io_options io) (from_hnswdump el cwd fs (io_dir io) (io_basename io)) s =
      (de <~ load_header; _ <~ gate de; ld <~ load_point_indexation so el (io_datamap io) (io_options io) de; rret (make_hnsw inv_ln de ld true, ld_mapped ld)) s).
    { intros s. unfold load_rd, gate, rbind. destruct (load_header s) as [[de s1]| | | | |]; try done. cbn [mbind outcome_bind].
      destruct (el_nodata el).
      - cbn. unfold choose_datamap. rewrite Hmm. done.
      - destruct (rsplit_terminator dname !! 0%nat); [|done]. cbn. destruct (rsplit_terminator (de_distname de) !! 0%nat); [|done]. cbn.
        destruct (bool_decide _); [|done]. cbn. unfold choose_datamap. rewrite Hmm. done. }
    rewrite Hrun. rewrite (Hcore (fun de => el_nodata el = true \/ exists c, rsplit_terminator dname !! 0%nat = Some c /\ rsplit_terminator (de_distname de) !! 0%nat = Some c)).
    + split.
      * intros (t & r & r' & -> & -> & HH). exists t, r, r'. by split.
      * intros (t & r & r' & [[= Eg] [= Ed]] & HH). exists t, r, r'. by split; [|split].
    + intros de g' d' u rg rdd. unfold gate, rbind. destruct (el_nodata el).
      * cbn. destruct u. split; [intros [= <- <-]; auto|by intros (_ & -> & ->)].
      * destruct (rsplit_terminator dname !! 0%nat) as [a|]; cbn; [|split; [done|intros ([|(c & ? & _)] & _); done]].
        destruct (rsplit_terminator (de_distname de) !! 0%nat) as [b|]; cbn; [|split; [done|intros ([|(c & _ & ?)] & _); done]].
        destruct (bool_decide (a = b)) eqn:Eb; cbn; [apply bool_decide_eq_true in Eb|apply bool_decide_eq_false in Eb].
        -- subst b. destruct u. split; [intros [= <- <-]; split_and!; eauto|by intros (_ & -> & ->)].
        -- split; [done|]. intros ([|(c & [= <-] & [= <-])] & _); done.
  - unfold load_hnsw_with_dist, io_open, dump_at. destruct (fs_read fs cwd (graph_file _ _)) as [g|]; [|split; [done|intros (t & r & r' & [? _] & _); done]].
    destruct (fs_read fs cwd (data_file _ _)) as [d|]; [|split; [done|intros (t & r & r' & [_ ?] & _); done]].
    cbn [mbind outcome_bind]. unfold run_rd.
    pose (gate := fun de : description => (if negb (el_nodata el) && negb (String.eqb dname (de_distname de)) then rlift Err else rret tt) : rd unit).
    assert (Hrun : forall s, load_with_dist_rd so el inv_ln dname (io_datamap io) (io_options io) s =
      (de <~ load_header; _ <~ gate de; ld <~ load_point_indexation so el (io_datamap io) (io_options io) de; rret (make_hnsw inv_ln de ld false, ld_mapped ld)) s).
    { intros s. unfold load_with_dist_rd, gate, rbind. destruct (load_header s) as [[de s1]| | | | |]; try done. cbn [mbind outcome_bind].
      destruct (negb (el_nodata el) && _); done. }
    rewrite Hrun. rewrite (Hcore (fun de => el_nodata el = true \/ dname = de_distname de)).
    + split.
      * intros (t & r & r' & -> & -> & HH). exists t, r, r'. by split.
      * intros (t & r & r' & [[= Eg] [= Ed]] & HH). exists t, r, r'. by split; [|split].
    + intros de g' d' u rg rdd. unfold gate. destruct (el_nodata el); cbn.
      * destruct u. split; [intros [= <- <-]; auto|by intros (_ & -> & ->)].
      * destruct (String.eqb dname (de_distname de)) eqn:Eb; cbn; [apply String.eqb_eq in Eb|apply String.eqb_neq in Eb].
        -- destruct u. split; [intros [= <- <-]; auto|by intros (_ & -> & ->)].
        -- split; [done|]. intros ([|] & _); done.
Qed.
Print Assumptions C80_accepted_exactly.

(** Files written by hand: two points that are neighbours of each other, in format 3 with 2 lists each. *)
Definition hand_text : text :=
  Text 3 1 2 0 2 10 2 1 l1_name "u8"
    [[TextPoint 7 [[TextNbr 9 0 1 1077936128]; []] [Byte.x05]; TextPoint 9 [[TextNbr 7 0 0 1077936128]; []] [Byte.x08]]; []] (7%N, 0%N, 0%Z).
Definition hand_fs : fsys :=
  fs_write (fs_write fs0 cwd0 (graph_file tmp_dir "c") (graph_text hand_text ++ [Byte.x00])) cwd0 (data_file tmp_dir "c") (data_text hand_text).
Example C80_example : fits hand_text /\ sensible el_u8 hand_text /\
  dump_at hand_fs cwd0 tmp_dir "c" (graph_text hand_text ++ [Byte.x00]) (data_text hand_text ++ []) /\
  exists h, load_hnsw simple_ops el_u8 one_scale l1_name cwd0 hand_fs (io_new tmp_dir "c") = Ok (h, []) /\ nb_point h = 2%nat.
Proof.
  split; [|split; [|split]].
  - split; cbn -[Z.pow N.pow Z.of_nat]; try (split_and?; lia); auto.
    + intros s [-> | ->]; split; vm_compute; try done; lia.
    + intros ps Hps. repeat apply elem_of_cons in Hps as [->|Hps]; [| |by apply elem_of_nil in Hps].
      * split; [done|]. repeat first [apply Forall_cons_2|apply Forall_nil_2|split|done].
      * split; [done|constructor].
  - split; cbn -[Z.pow N.pow Z.of_nat]; auto.
    + lia.
    + split; [lia|]. intros p Hp. repeat apply elem_of_cons in Hp as [->|Hp]; try done. by apply elem_of_nil in Hp.
    + done.
    + intros p l n Hp Hl Hn. repeat apply elem_of_cons in Hp as [->|Hp]; [| |by apply elem_of_nil in Hp]; cbn in Hl;
        (apply elem_of_cons in Hl as [->|Hl]; [|apply elem_of_cons in Hl as [->|Hl]; [by apply elem_of_nil in Hn|by apply elem_of_nil in Hl]]);
        apply elem_of_list_singleton in Hn as ->; (split; [split; [done|eexists; split; [done|simpl; lia]]|eexists; reflexivity]).
    + split; [done|]. eexists. split; [done|]. simpl. lia.
  - split; by vm_compute.
  - destruct (load_hnsw simple_ops el_u8 one_scale l1_name cwd0 hand_fs (io_new tmp_dir "c")) as [[h m]| | | | |] eqn:E; [|by vm_compute in E..].
    exists h. revert E. vm_compute. by intros [= <- <-].
Qed.
