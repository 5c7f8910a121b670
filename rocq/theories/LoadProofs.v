(** What load_hnsw accepts, whatever the bytes of the files. *)
From Coq Require Import Strings.String.
From Verif Require Import Prelude Model Lib Table SearchProofs InsertProofs QueryProofs IterProofs Spec Io IoBase SpecIo SpecConc.
Local Open Scope list_scope.

Lemma rbind_inv {A B} (p : rd A) (k : A -> rd B) s b s' :
  rbind p k s = Ok (b, s') -> exists a s1, p s = Ok (a, s1) /\ k a s1 = Ok (b, s').
Proof. unfold rbind. intros H. apply bind_inv in H as ([a s1] & H1 & H2). eauto. Qed.
Lemma rlift_inv {A} (o : outcome A) s a s' : rlift o s = Ok (a, s') -> o = Ok a /\ s' = s.
Proof. unfold rlift. intros H. apply bind_inv in H as (x & H1 & [= -> ->]). done. Qed.
Lemma rret_inv {A} (x : A) s a s' : rret x s = Ok (a, s') -> a = x /\ s' = s.
Proof. unfold rret. by intros [= -> ->]. Qed.
Lemma assert_inv b u : assert_ b = Ok u -> b = true.
Proof. unfold assert_. by destruct b. Qed.
Lemma unwrap_inv {A} (o : option A) a : unwrap o = Ok a -> o = Some a.
Proof. destruct o; simpl; [by intros [= ->]|done]. Qed.
Lemma rrep_length {A} n (p : rd A) s l s' : rrep n p s = Ok (l, s') -> length l = n.
Proof.
  revert s l s'. induction n as [|n IH]; intros s l s'; simpl.
  - by intros [-> ->]%rret_inv.
  - intros (a & s1 & _ & H)%rbind_inv. apply rbind_inv in H as (l1 & s2 & H & [-> ->]%rret_inv). simpl. f_equal. by eapply IH.
Qed.
Ltac rinv H :=
  let a := fresh "a" in let s1 := fresh "s" in let H1 := fresh "R" in
  apply rbind_inv in H as (a & s1 & H1 & H).

Section Load.
Context {T : Type} (so : StdOps) (LAWS : StdLaws so) (el : elem T).
Notation raw_point := (raw_point (T:=T)).
Implicit Types (ls : list (list raw_point)).

Lemma load_point_lists dm de um s p s' : load_point el dm de um s = Ok (p, s') ->
  (NB_LAYER_MAX <= length (rp_lists p))%nat.
Proof using Type.
  unfold load_point. intros H. rinv H. destruct a as [[[oid layer] rank] lists].
  assert (Hl : (NB_LAYER_MAX <= length lists)%nat).
  { unfold load_point_graph in R. rinv R. destruct (negb _); [by destruct (rlift_inv _ _ _ _ R)|].
    rinv R. rinv R. rinv R. rinv R. apply rret_inv in R as [[= _ _ _ ->] _].
    apply rrep_length in R4. rewrite app_length, replicate_length. lia. }
  destruct um.
  - rinv H. rinv H. rinv H. rinv H. by apply rret_inv in H as [-> _].
  - rinv H. by apply rret_inv in H as [-> _].
Qed.

Lemma load_points_inv dm opts de l n r still s ps still' s' :
  load_points el dm opts de l n r still s = Ok ((ps, still'), s') ->
  length ps = n /\ still' = (still - Z.of_nat n)%Z /\ ((0 < n)%nat -> (0 <= still')%Z) /\
  forall i p, ps !! i = Some p -> rp_layer p = N.of_nat l /\ rp_rank p = Z.of_nat (r + i) /\
    (NB_LAYER_MAX <= length (rp_lists p))%nat.
Proof using Type.
  revert r still s ps still' s'. induction n as [|n IH]; intros r still s ps still' s'; simpl.
  - intros [[= -> ->] ->]%rret_inv. split_and!; try done; lia.
  - intros H. rinv H. rinv H. rinv H. rinv H. rinv H. destruct a3 as [ps1 st1]. apply rret_inv in H as [[= -> ->] ->].
    apply rlift_inv in R0 as [E1%assert_inv _], R1 as [E2%assert_inv _], R2 as [E3%assert_inv _].
    apply IH in R3 as (I1 & I2 & I3 & I4). split_and!.
    + simpl. lia.
    + lia.
    + intros _. destruct n; [lia|]. apply I3. lia.
    + intros [|i] p; simpl.
      * intros [= <-]. apply N.eqb_eq in E1. apply Z.eqb_eq in E2. split_and!; [done|lia|]. by eapply load_point_lists.
      * intros Hi. destruct (I4 _ _ Hi) as (? & ? & ?). split_and!; auto. lia.
Qed.

Lemma load_layers_inv dm opts de n l still s ls s' :
  load_layers el dm opts de n l still s = Ok (ls, s') ->
  length ls = n /\ (concat ls <> [] -> (Z.of_nat (length (concat ls)) <= still)%Z) /\
  forall i r ly p, ls !! i = Some ly -> ly !! r = Some p ->
    rp_layer p = N.of_nat (l + i) /\ rp_rank p = Z.of_nat r /\ (NB_LAYER_MAX <= length (rp_lists p))%nat.
Proof using Type.
  revert l still s ls s'. induction n as [|n IH]; intros l still s ls s'; simpl.
  - intros [-> ->]%rret_inv. done.
  - intros H. rinv H. destruct (negb _); [by destruct (rlift_inv _ _ _ _ H)|]. rinv H. rinv H. destruct a1 as [ps st].
    rinv H. apply rret_inv in H as [-> ->].
    apply load_points_inv in R1 as (P1 & P2 & P3 & P4). apply IH in R2 as (I1 & I2 & I3). split_and!.
    + simpl. lia.
    + simpl. rewrite app_length. intros Hne. destruct (concat a1) as [|x c] eqn:E.
      * simpl. rewrite app_nil_r in Hne. destruct ps; [done|]. simpl in P1. destruct (N.to_nat a0) as [|m]; [done|].
        specialize (P3 ltac:(lia)). simpl. lia.
      * rewrite <- E in *. specialize (I2 ltac:(congruence)). lia.
    + intros [|i] r ly p; simpl.
      * intros [= <-] Hr. destruct (P4 _ _ Hr) as (? & ? & ?). rewrite Nat.add_0_r. done.
      * intros Hi Hr. destruct (I3 _ _ _ _ Hi Hr) as (? & ? & ?). rewrite <- Nat.add_succ_comm. done.
Qed.

Lemma raw_index_inv ls layer rank p : raw_index ls layer rank = Ok p ->
  exists ly x, ls !! p.1 = Some ly /\ ly !! p.2 = Some x.
Proof using Type.
  unfold raw_index. destruct (rank <? 0)%Z; [done|]. intros H.
  apply bind_inv in H as (ly & H1%unwrap_inv & H). apply bind_inv in H as (x & H2%unwrap_inv & [= <-]). eauto.
Qed.

(** the table made of raw points that passed the checks *)
Lemma link_all_inv ls lp h : link_all so ls = Ok lp -> points_by_layer h = lp ->
  (length ls <= NB_LAYER_MAX)%nat ->
  (forall i r ly p, ls !! i = Some ly -> ly !! r = Some p ->
    rp_layer p = N.of_nat i /\ rp_rank p = Z.of_nat r /\ (NB_LAYER_MAX <= length (rp_lists p))%nat) ->
  length (concat lp) = length (concat ls) /\ (length lp <= NB_LAYER_MAX)%nat /\
  (forall p ly x, ls !! p.1 = Some ly -> ly !! p.2 = Some x -> valid h p) /\
  (forall p pt, get_pt h p = Some pt -> pt_pid pt = p /\ length (pt_nbs pt) = NB_LAYER_MAX /\
    forall l nbs, pt_nbs pt !! l = Some nbs -> sorted_by n_dist nbs /\ forall n, n ∈ nbs -> valid h (n_pid n)).
Proof using LAWS.
  intros Hl Eh Hlen Hp. apply mapM_outcome_inv in Hl.
  assert (Hv : forall p ly x, ls !! p.1 = Some ly -> ly !! p.2 = Some x -> valid h p).
  { intros p ly x H1 H2. destruct (Forall2_lookup_l _ _ _ _ _ Hl H1) as (lyp & H1' & Hm%mapM_outcome_inv).
    destruct (Forall2_lookup_l _ _ _ _ _ Hm H2) as (pt & H2' & _). exists pt. apply get_pt_lookup. rewrite Eh. eauto. }
  split_and!; [| |done|].
  - clear -Hl. induction Hl as [|ly lyp ls1 lp1 H _ IH]; [done|]. apply mapM_outcome_inv, Forall2_length in H.
    simpl. rewrite !app_length. lia.
  - apply Forall2_length in Hl. lia.
  - intros p pt Hpt. apply get_pt_lookup in Hpt as (lyp & H1 & H2). rewrite Eh in H1.
    destruct (Forall2_lookup_r _ _ _ _ _ Hl H1) as (ly & H1' & Hm%mapM_outcome_inv).
    destruct (Forall2_lookup_r _ _ _ _ _ Hm H2) as (x & H2' & Hx).
    destruct (Hp _ _ _ _ H1' H2') as (X1 & X2 & X3). unfold link_point in Hx.
    apply bind_inv in Hx as (u & Hx1%assert_inv & Hx). apply bind_inv in Hx as (lists & Hx2%mapM_outcome_inv & [= <-]).
    apply Nat.leb_le in Hx1. cbn [pt_pid pt_nbs]. split_and!.
    + rewrite X1, X2, !Nat2N.id, Nat2Z.id. by destruct p.
    + apply Forall2_length in Hx2. lia.
    + intros l nbs Hn. destruct (Forall2_lookup_r _ _ _ _ _ Hx2 Hn) as (raw & _ & Hr). unfold link_list in Hr.
      apply bind_inv in Hr as (l' & Hr%mapM_outcome_inv & [= <-]). split; [apply (law_usort _ LAWS)|].
      intros n Hin. rewrite (law_usort_perm _ LAWS) in Hin. apply elem_of_list_lookup in Hin as [i Hi].
      destruct (Forall2_lookup_r _ _ _ _ _ Hr Hi) as (rn & _ & Hrn). unfold link_nbr in Hrn.
      apply bind_inv in Hrn as (q & Hq & [= <-]). apply raw_index_inv in Hq as (lyq & y & Q1 & Q2). simpl. by eapply Hv.
Qed.

Lemma load_indexation_inv dm opts de s ld s' inv_ln dmo : load_point_indexation so el dm opts de s = Ok (ld, s') ->
  let h := make_hnsw inv_ln de ld dmo in
  (el_nodata el = false -> de_t_name de = el_name el) /\
  (length (points_by_layer h) <= NB_LAYER_MAX)%nat /\ valid h (ld_entry ld) /\
  (Z.of_nat (nb_point h) <= as_i64 (de_nb_point de))%Z /\
  (forall p pt, get_pt h p = Some pt -> pt_pid pt = p /\ length (pt_nbs pt) = NB_LAYER_MAX /\
    forall l nbs, pt_nbs pt !! l = Some nbs -> sorted_by n_dist nbs /\ forall n, n ∈ nbs -> valid h (n_pid n)).
Proof using LAWS.
  intros H h. unfold load_point_indexation in H. destruct (negb (el_nodata el) && _) eqn:Et.
  { by destruct (rlift_inv _ _ _ _ H). }
  rinv H. destruct (_ <? a)%N eqn:E16; [by destruct (rlift_inv _ _ _ _ H)|]. apply N.ltb_ge in E16.
  rinv H. rinv H. rinv H. rinv H. rinv H. rinv H. apply rret_inv in H as [-> ->].
  apply rlift_inv in R1 as [R1 _]. apply rlift_inv in R5 as [R5 _]. apply load_layers_inv in R0 as (L1 & L2 & L3).
  destruct (link_all_inv a0 a1 h R1 eq_refl) as (K1 & K2 & K3 & K4).
  { rewrite L1. unfold NB_LAYER_MAX in *. lia. } { done. }
  apply raw_index_inv in R5 as (ly & x & Q1 & Q2). split_and!; auto.
  - intros Hn. rewrite Hn in Et. simpl in Et. apply negb_false_iff, String.eqb_eq in Et. done.
  - by eapply K3.
  - change (nb_point h) with (length (concat a1)). rewrite K1. apply L2. intros E.
    apply elem_of_list_lookup_2 in Q1, Q2. apply (elem_of_nil (A:=raw_point) x). rewrite <- E. apply elem_of_list_In, in_concat.
    exists ly. split; by apply elem_of_list_In.
Qed.

(** load_hnsw and load_hnsw_with_dist *)
Lemma load_accepted inv_ln dname cwd fs io h mapped :
  load_hnsw so el inv_ln dname cwd fs io = Ok (h, mapped) \/ load_hnsw_with_dist so el inv_ln dname cwd fs io = Ok (h, mapped) ->
  exists g d de ld dm dmo s s', dump_at fs cwd (io_dir io) (io_basename io) g d /\
    run_rd load_description g d = Ok de /\ h = make_hnsw inv_ln de ld dmo /\
    load_point_indexation so el dm (io_options io) de s = Ok (ld, s').
Proof using Type.
  assert (Hh : forall g d de s, load_header (g, d) = Ok (de, s) -> run_rd load_description g d = Ok de).
  { intros g d de s H. unfold load_header in H. rinv H. unfold or_panic in R. unfold run_rd.
    destruct (load_description (g, d)) as [[de0 s2]| | | | |]; try done. injection R as -> ->.
    rinv H. rinv H. rinv H. rinv H. apply rret_inv in H as [-> _]. done. }
  intros [H|H].
  - unfold load_hnsw in H. apply bind_inv in H as ([g d] & Ho & H). unfold run_rd in H.
    destruct (load_rd so el inv_ln dname _ _ _ (g, d)) as [[[h1 m1] s1]| | | | |] eqn:E; try done. injection H as -> ->.
    unfold load_rd in E. rinv E. rinv E. destruct (negb a0); [by destruct (rlift_inv _ _ _ _ E)|]. rinv E. rinv E.
    apply rret_inv in E as [[= -> _] _]. apply rlift_inv in R1 as [_ ->].
    exists g, d, a, a2, a1, true. do 2 eexists. split; [|split; [by eapply Hh|split; [done|exact R2]]].
    unfold io_open in Ho. unfold dump_at. destruct (fs_read _ _ _) as [g0|]; [|done]. destruct (fs_read _ _ _) as [d0|]; [|done].
    by injection Ho as -> ->.
  - unfold load_hnsw_with_dist in H. apply bind_inv in H as ([g d] & Ho & H). unfold run_rd in H.
    destruct (load_with_dist_rd so el inv_ln dname _ _ (g, d)) as [[[h1 m1] s1]| | | | |] eqn:E; try done. injection H as -> ->.
    unfold load_with_dist_rd in E. rinv E. destruct (negb (el_nodata el) && _); [by destruct (rlift_inv _ _ _ _ E)|]. rinv E.
    apply rret_inv in E as [[= -> _] _].
    exists g, d, a, a0, (io_datamap io), false. do 2 eexists. split; [|split; [by eapply Hh|split; [done|exact R0]]].
    unfold io_open in Ho. unfold dump_at. destruct (fs_read _ _ _) as [g0|]; [|done]. destruct (fs_read _ _ _) as [d0|]; [|done].
    by injection Ho as -> ->.
Qed.
End Load.
