(** Where a search starts and what it can reach, in an index however it was used. *)
From stdpp Require Import relations.
From Verif Require Import Prelude Model Lib Table SearchProofs InsertProofs ExhaustProofs QueryProofs IterProofs FlatProofs Spec SpecProofs
  Conc SpecConc ConcEnd SpecUse.

Section Use.
Context {T : Type} (dist : list T -> list T -> Z) (Hnn : forall a b, (0 <= dist a b)%Z).
Context (h : hnsw (T:=T)) (Hc : core dist h).
Implicit Types (p ep : pid) (q : list T).

Lemma layer_vector_pt p v : layer_vector h p v <-> exists pt, get_pt h p = Some pt /\ pt_data pt = v.
Proof using Hc. unfold layer_vector. split; intros (pt & Hp & E); exists pt; (split; [|done]); by apply (layer_point_pt dist). Qed.

Lemma get_nbs p pt l nbs : get_pt h p = Some pt -> pt_nbs pt !! l = Some nbs ->
  exists ns, layer_neighbours h p l ns /\ p_id <$> ns = n_pid <$> nbs.
Proof using Hc.
  intros Hp Hn. destruct (c_lists _ _ Hc _ _ _ _ Hp Hn) as [_ _ _ Lref _].
  assert (exists ns, Forall2 (fun n (a : neighbour) => p_id a = n_pid n /\ distance a = n_dist n /\
               exists q0 : point, get_pt h (n_pid n) = Some q0 /\ d_id a = pt_oid q0) nbs ns) as [ns HF].
  { clear -Lref. induction Lref as [|m nbs (q0 & Hq0 & _) _ IH]; [by exists []|]. destruct IH as [ns HF].
    exists (Neighbour (pt_oid q0) (n_dist m) (n_pid m) :: ns). constructor; [|done]. eauto. }
  exists ns. split; [apply (layer_neighbours_pt dist); [done|]; eauto|].
  clear -HF. induction HF as [|n a nbs ns (E & _) _ IH]; [done|]. csimpl. by rewrite E, IH.
Qed.
Lemma nbs_ids p l ns : layer_neighbours h p l ns -> exists pt nbs, get_pt h p = Some pt /\ pt_nbs pt !! l = Some nbs /\ p_id <$> ns = n_pid <$> nbs.
Proof using Hc.
  intros (pt & nbs & Hp & Hn & HF)%(layer_neighbours_pt dist); [|done]. exists pt, nbs. split_and!; auto.
  clear -HF. induction HF as [|n a nbs ns (E & _) _ IH]; [done|]. csimpl. by rewrite E, IH.
Qed.

Lemma layer_linked_link l p p' : layer_linked h l p p' <-> link h l p p'.
Proof using Hc.
  split.
  - intros (ns & n & Hn & Hin & <-). destruct (nbs_ids p l ns Hn) as (pt & nbs & Hp & Hl & E).
    assert (Hi : p_id n ∈ n_pid <$> nbs) by (rewrite <- E; apply elem_of_list_fmap; eauto).
    apply elem_of_list_fmap in Hi as (m & Em & Hm). exists pt, nbs, m. done.
  - intros (pt & nbs & n & Hp & Hn & Hin & <-). destruct (get_nbs p pt l nbs Hp Hn) as (ns & Hns & E).
    assert (Hi : n_pid n ∈ p_id <$> ns) by (rewrite E; apply elem_of_list_fmap; eauto).
    apply elem_of_list_fmap in Hi as (m & Em & Hm). exists ns, m. done.
Qed.
Lemma layer_rtc l p p' : rtc (layer_linked h l) p p' <-> rtc (link h l) p p'.
Proof using Hc. split; induction 1; econstructor; eauto; by apply layer_linked_link. Qed.

Lemma rtc_valid l p p' : valid h p -> rtc (link h l) p p' -> valid h p'.
Proof using Hc.
  intros Hv Hr. apply rtc_inv_r in Hr as [->|(y & _ & Hy)]; [done|]. destruct Hy as (pt & nbs & n & Hpt & Hn & Hinn & <-).
  destruct (c_lists _ _ Hc _ _ _ _ Hpt Hn) as [_ _ _ Lref _]. rewrite Forall_forall in Lref. destruct (Lref n Hinn) as (x & Hx & _).
  by exists x.
Qed.

Lemma scan_nearest q nbs pv d pv' d' :
  (exists pt, get_pt h pv = Some pt /\ d = dist q (pt_data pt)) ->
  pivot_scan dist h q nbs pv d = Ok (pv', d') ->
  (exists pt, get_pt h pv' = Some pt /\ d' = dist q (pt_data pt)) /\
  layer_first_nearest dist h q (pv :: (n_pid <$> nbs)) pv'.
Proof using Hc.
  unfold pivot_scan.
  assert (G : forall nbs before rest pv d,
    (exists pt, get_pt h pv = Some pt /\ d = dist q (pt_data pt)) ->
    (forall p' v', p' ∈ before -> layer_vector h p' v' -> (d < dist q v')%Z) ->
    (forall p' v', p' ∈ rest -> layer_vector h p' v' -> (d <= dist q v')%Z) ->
    foldl (fun acc n => '(pv, d) ← acc; npt ← unwrap (get_pt h (n_pid n));
             let tmp := dist q (pt_data npt) in
             Ok (if (tmp <? d)%Z then (n_pid n, tmp) else (pv, d))) (Ok (pv, d)) nbs = Ok (pv', d') ->
    (exists pt, get_pt h pv' = Some pt /\ d' = dist q (pt_data pt)) /\
    layer_first_nearest dist h q (before ++ pv :: rest ++ (n_pid <$> nbs)) pv').
  { clear nbs pv d. induction nbs as [|n nbs IH]; intros before rest pv d (pt & Hpt & Hd) H1 H2 Hf; simpl in Hf.
    - injection Hf as -> ->. split; [eauto|]. csimpl. rewrite app_nil_r. subst d'.
      exists before, rest, (pt_data pt). split_and!; auto. apply layer_vector_pt; eauto.
    - destruct (get_pt h (n_pid n)) as [npt|] eqn:En; simpl in Hf.
      2: { exfalso. clear -Hf. induction nbs; [done|]. simpl in Hf. auto. }
      destruct (Z.ltb_spec (dist q (pt_data npt)) d) as [Hlt|Hge].
      + destruct (IH (before ++ pv :: rest) [] (n_pid n) (dist q (pt_data npt))) as [P1 P2]; [eauto|..|exact Hf|].
        * intros p' v' [Hp|[->|Hp]%elem_of_cons]%elem_of_app Hv.
          -- specialize (H1 p' v' Hp Hv). clear -H1 Hlt. lia.
          -- apply layer_vector_pt in Hv as (pt' & Hpt' & <-). assert (pt' = pt) as -> by congruence. clear -Hd Hlt. lia.
          -- specialize (H2 p' v' Hp Hv). clear -H2 Hlt. lia.
        * intros p' v' []%elem_of_nil.
        * split; [done|]. csimpl. rewrite <- app_assoc in P2. exact P2.
      + destruct (IH before (rest ++ [n_pid n]) pv d) as [P1 P2]; [eauto|done| |exact Hf|].
        * intros p' v' [Hp|Hp%elem_of_list_singleton]%elem_of_app Hv; [eauto|]. subst p'.
          apply layer_vector_pt in Hv as (pt' & Hpt' & <-). assert (pt' = npt) as -> by congruence. clear -Hge. lia.
        * split; [done|]. csimpl. rewrite <- app_assoc in P2. exact P2. }
  intros Hp Hf. destruct (G nbs [] [] pv d Hp) as [P1 P2]; auto.
  - intros p' v' []%elem_of_nil.
  - intros p' v' []%elem_of_nil.
Qed.

Lemma descend_starts q n pv d start :
  (exists pt, get_pt h pv = Some pt /\ d = dist q (pt_data pt)) ->
  pivot_descend dist (rev (seq 1 n)) h q pv d = Ok start -> layer_starts_at dist h q n pv start.
Proof using Hc.
  revert pv d. induction n as [|n IH]; intros pv d Hp Hd.
  { simpl in Hd. injection Hd as <-. constructor. }
  rewrite seq_S, rev_app_distr in Hd. cbn [rev app pivot_descend plus] in Hd.
  apply bind_inv in Hd as (pt & Hpt%unwrap_inv & Hd). apply bind_inv in Hd as (nbs & Hn%unwrap_inv & Hd).
  apply bind_inv in Hd as ([pv' d'] & Hs & Hd).
  destruct (scan_nearest q nbs pv d pv' d' Hp Hs) as [Hp' Hf].
  destruct (get_nbs pv pt (S n) nbs Hpt Hn) as (ns & Hns & E).
  econstructor; [exact Hns| |by eapply IH]. by rewrite E.
Qed.

Lemma find_pivot_use q ep start :
  entry_point h = Some ep -> find_pivot dist h q ep = Ok start -> use_start dist h q start.
Proof using Hc.
  intros He Hf. exists ep. split; [done|]. unfold find_pivot in Hf.
  apply bind_inv in Hf as (ept & Hept%unwrap_inv & Hf). eapply descend_starts; eauto.
Qed.

(** the specification of the descent leaves no choice *)
Lemma layer_first_nearest_fun q ps p1 p2 : layer_first_nearest dist h q ps p1 -> layer_first_nearest dist h q ps p2 -> p1 = p2.
Proof using Type.
  clear.
  intros (b1 & a1 & v1 & E1 & V1 & L1 & R1) (b2 & a2 & v2 & E2 & V2 & L2 & R2). rewrite E1 in E2. clear E1 ps.
  assert (G : forall b1 a1 p1 v1 b2 a2 p2 v2, b1 ++ p1 :: a1 = b2 ++ p2 :: a2 -> (length b1 < length b2)%nat ->
    layer_vector h p1 v1 -> layer_vector h p2 v2 ->
    (forall p' v', p' ∈ b2 -> layer_vector h p' v' -> (dist q v2 < dist q v')%Z) ->
    (forall p' v', p' ∈ a1 -> layer_vector h p' v' -> (dist q v1 <= dist q v')%Z) -> False).
  { clear. intros b1 a1 p1 v1 b2 a2 p2 v2 E Hlt V1 V2 L2 R1.
    assert (H1 : p1 ∈ b2).
    { assert (Hi : (b1 ++ p1 :: a1) !! length b1 = Some p1) by (rewrite lookup_app_r, Nat.sub_diag by lia; done).
      rewrite E, lookup_app_l in Hi by lia. by eapply elem_of_list_lookup_2. }
    assert (H2 : p2 ∈ a1).
    { assert (Hi : (b2 ++ p2 :: a2) !! length b2 = Some p2) by (rewrite lookup_app_r, Nat.sub_diag by lia; done).
      rewrite <- E, lookup_app_r in Hi by lia. destruct (length b2 - length b1)%nat as [|k] eqn:Ek; [lia|].
      simpl in Hi. by eapply elem_of_list_lookup_2. }
    specialize (L2 _ _ H1 V1). specialize (R1 _ _ H2 V2). lia. }
  destruct (Nat.lt_trichotomy (length b1) (length b2)) as [Hlt|[Heq|Hlt]].
  - exfalso. by eapply (G b1 a1 p1 v1 b2 a2 p2 v2).
  - by apply app_inj_1 in E2 as [_ [= ? _]].
  - exfalso. by eapply (G b2 a2 p2 v2 b1 a1 p1 v1).
Qed.
Lemma layer_starts_at_fun q l p s1 s2 : layer_starts_at dist h q l p s1 -> layer_starts_at dist h q l p s2 -> s1 = s2.
Proof using Hc.
  intros H1. revert s2. induction H1 as [p|l p ns p1 start Hn Hf _ IH]; intros s2 H2.
  - by inversion H2.
  - inversion H2 as [|l' p' ns' p1' start' Hn' Hf' Hs']; subst.
    destruct (nbs_ids _ _ _ Hn) as (pt & nbs & Hp & Hl & E). destruct (nbs_ids _ _ _ Hn') as (pt' & nbs' & Hp' & Hl' & E').
    rewrite Hp in Hp'. injection Hp' as <-. rewrite Hl in Hl'. injection Hl' as <-. rewrite E in Hf. rewrite E' in Hf'.
    assert (p1' = p1) as -> by (eapply layer_first_nearest_fun; eauto). auto.
Qed.

Lemma lowest_layer_any l : layer_to_search h = Ok l -> lowest_layer h l.
Proof using Type.
  clear. intros Hl. unfold layer_to_search in Hl. unfold lowest_layer, get_layer_nb_point.
  assert (Hg : forall (ls : list (list (point (T:=T)))) k, lowest_from ls k = Ok l ->
     (k <= l)%nat /\ (exists x ly, ls !! (l - k) = Some (x :: ly)) /\ forall j, (j < l - k)%nat -> ls !! j = Some []).
  { clear. induction ls as [|[|x ly] ls IH]; intros k Hk; simpl in Hk; [done|..].
    - destruct (IH (S k) Hk) as (Hle & (x & ly & Hx) & Hlow). split_and!; [lia|..].
      + exists x, ly. replace (l - k) with (S (l - S k)) by lia. done.
      + intros [|j] Hj; [done|]. simpl. apply Hlow. lia.
    - injection Hk as ->. rewrite Nat.sub_diag. split_and!; [lia|eauto|]. intros; lia. }
  destruct (Hg _ _ Hl) as (_ & (x & ly & Hx) & Hlow). rewrite Nat.sub_0_r in *. split.
  - by rewrite Hx.
  - intros j Hj. by rewrite Hlow.
Qed.

Lemma use_starts q start l : (forall ep, entry_point h = Some ep -> valid h ep) ->
  use_start dist h q start -> lowest_layer h l ->
  exists ep, entry_point h = Some ep /\ find_pivot dist h q ep = Ok start /\ layer_to_search h = Ok l /\ valid h start.
Proof using Hc Hnn.
  intros Hent (ep & He & Hst) Hl. exists ep. split; [done|]. destruct (Hent ep He) as [ept Hept].
  destruct (find_pivot_spec dist Hnn h q ep ept Hc Hept) as (pv & pt & E & Hpt & _).
  destruct (find_pivot_use q ep pv He E) as (ep' & He' & Hst'). rewrite He in He'. injection He' as <-.
  rewrite (layer_starts_at_fun q _ _ _ _ Hst Hst'). split; [done|].
  assert (Hv : valid h pv) by (by exists pt). split; [|done].
  destruct (layer_to_search_spec h pv Hv) as (l' & ly & E' & _).
  rewrite E'. f_equal. pose proof (lowest_layer_any l' E') as [H1 H2]. destruct Hl as [H3 H4].
  destruct (Nat.lt_trichotomy l l') as [Hlt|[?|Hlt]]; [by specialize (H2 l Hlt)|done|by specialize (H4 l' Hlt)].
Qed.

Lemma use_vectors q (ps : list pid) vs : Forall2 (layer_vector h) ps vs -> dist q <$> vs = pdist dist h q <$> ps.
Proof using Hc.
  induction 1 as [|p v ps vs Hv _ IH]; [done|]. csimpl. rewrite IH. f_equal.
  apply layer_vector_pt in Hv as (pt & Hpt & <-). unfold pdist. by rewrite Hpt.
Qed.
End Use.
