(** Properties C43-C46, C52, C59, C60: an index used by several threads at once.
    [during] and [after] (SpecConc.v) range over every interleaving of the threads' steps. *)
From Coq Require Import SpecFloat.
From stdpp Require Import relations.
From Verif Require Import Prelude Model StdInst Lib Table SearchProofs InsertProofs IterProofs QueryProofs Spec SpecProofs
  Io SpecIo SpecBuilt Conc SpecConc ConcSafe ConcSafe2 ConcSafe3 ConcGlobal ConcEnd ConcLive BuiltProofs Examples ExamplesConc.
Local Open Scope list_scope.

Lemma used_pos {T} (dist : list T -> list T -> Z) so (LAWS : StdLaws so) (Hnn : forall a b, (0 <= dist a b)%Z)
    inv_ln M ml ef hist h : used dist so inv_ln M ml ef hist h -> (1 <= ml)%nat -> (0 < max_layer h)%nat.
Proof.
  intros Hb Hml. destruct (used_facts dist so LAWS Hnn _ _ _ _ _ _ Hb) as (_ & -> & _). unfold NB_LAYER_MAX. lia.
Qed.

Lemma built_pos {T} (dist : list T -> list T -> Z) so (LAWS : StdLaws so) (Hnn : forall a b, (0 <= dist a b)%Z)
    inv_ln M ml ef hist h : built dist so inv_ln M ml ef hist h -> (1 <= ml)%nat -> (0 < max_layer h)%nat.
Proof.
  intros Hb Hml. destruct (built_facts dist so LAWS Hnn _ _ _ _ _ _ Hb) as (_ & -> & _). unfold NB_LAYER_MAX. lia.
Qed.

(** C43: once all threads have returned, exactly the points stored before and the points inserted are stored,
    with their ids; each insertion got a PointId of its own, which no point had before; the old points kept theirs. *)
Theorem C43_parallel_insert_stores :
  forall {T} (dist : list T -> list T -> Z) so, StdLaws so -> (forall a b, (0 <= dist a b)%Z) ->
  forall inv_ln M ml ef hist h, used dist so inv_ln M ml ef hist h -> (1 <= ml)%nat ->
  forall ts, Forall (may_run h) ts -> forall h' rs, after dist so h ts h' rs ->
  (exists xs, contents h' xs /\ xs ≡ₚ hist ++ inserts ts) /\
  get_nb_point h' = (get_nb_point h + length (inserts ts))%nat /\
  (forall i v id d, ts !! i = Some (TInsert v id d) -> exists p pt, rs !! i = Some (RInserted p) /\
     layer_point h' p pt /\ pt_data pt = v /\ pt_oid pt = id /\ forall pt0, ~ layer_point h p pt0) /\
  (forall i j p, rs !! i = Some (RInserted p) -> rs !! j = Some (RInserted p) -> i = j) /\
  (forall p pt, layer_point h p pt -> exists pt', layer_point h' p pt' /\ pt_data pt' = pt_data pt /\ pt_oid pt' = pt_oid pt).
Proof.
  intros T dist so LAWS Hnn inv_ln M ml ef hist h Hb Hml ts Hok h' rs Ha.
  pose proof (used_pos dist so LAWS Hnn _ _ _ _ _ _ Hb Hml) as Hpos.
  destruct (used_facts dist so LAWS Hnn _ _ _ _ _ _ Hb) as (Hwf & _ & _ & _ & Hst & _).
  destruct (after_glob dist so LAWS Hnn h ts Hwf Hpos Hok h' rs Ha) as (c & phs & G & Hf & <-).
  pose proof (v_core _ _ _ _ _ (g_inv _ _ _ _ _ G)) as Hc. pose proof (l_core _ _ Hwf) as Hc0.
  split_and!.
  - exists (stored (c_sh c)). split; [by apply (contents_stored dist)|]. rewrite <- Hst. by eapply glob_stored.
  - by eapply glob_counts.
  - intros i v id d Ht. destruct (glob_results dist h ts c phs rs i v id d G Hf Ht) as (np & Hr & Hs & Hn & _).
    unfold static in Hs. destruct (get_pt (c_sh c) np) as [pt|] eqn:Hpt; [|done]. injection Hs as <- <- _.
    exists np, pt. split; [done|]. split; [by apply (layer_point_pt dist)|]. split; [done|]. split; [done|].
    intros pt0 Hl. apply (layer_point_pt dist) in Hl; [|done]. apply Hn. by exists pt0.
  - assert (HR : forall i p, rs !! i = Some (RInserted p) -> exists ph, phs !! i = Some ph /\ own ph = Some p).
    { intros i p Hi. destruct (lookup_lt_is_Some_2 ts i) as [t Ht].
      { rewrite <- (finished_length dist h ts c phs rs G Hf). by eapply lookup_lt_Some. }
      destruct (glob_end dist h ts c phs G rs i t _ Hf Ht Hi) as (ph & Hph & HP). exists ph. split; [done|].
      destruct t as [v id d|q k efa flt| |]; simpl in HP; [|by destruct HP as (? & ? & _)..].
      destruct HP as (np & [= <-] & [(-> & _)|(-> & _)]); done. }
    intros i j p Hi Hj. destruct (HR i p Hi) as (a & Hia & Ho). destruct (HR j p Hj) as (b & Hjb & Ho').
    by eapply (g_dist _ _ _ _ _ G).
  - intros p pt Hp. apply (layer_point_pt dist) in Hp; [|done].
    destruct (grows_get _ _ _ _ (g_grows _ _ _ _ _ G) Hp) as (pt' & Hp' & Ed & Eo & _).
    exists pt'. split; [by apply (layer_point_pt dist)|]. done.
Qed.
Print Assumptions C43_parallel_insert_stores.

(** The case of parallel_insert alone. *)
Theorem C43_parallel_insert :
  forall {T} (dist : list T -> list T -> Z) so, StdLaws so -> (forall a b, (0 <= dist a b)%Z) ->
  forall inv_ln M ml ef hist h, used dist so inv_ln M ml ef hist h -> (1 <= ml)%nat ->
  forall vs ds, length ds = length vs -> forall h' rs, after dist so h (parallel_insert vs ds) h' rs ->
  exists ps xs, rs = RInserted <$> ps /\ NoDup ps /\ contents h' xs /\ xs ≡ₚ hist ++ vs /\
    get_nb_point h' = (get_nb_point h + length vs)%nat /\
    forall i v, vs !! i = Some v -> exists p pt, ps !! i = Some p /\ layer_point h' p pt /\ (pt_data pt, pt_oid pt) = v.
Proof.
  intros T dist so LAWS Hnn inv_ln M ml ef hist h Hb Hml vs ds Hlen h' rs Ha.
  set (ts := parallel_insert vs ds) in *.
  assert (Hts : forall i, ts !! i = match vs !! i, ds !! i with Some v, Some d => Some (TInsert v.1 v.2 d) | _, _ => None end).
  { intros i. unfold ts, parallel_insert. by rewrite lookup_zip_with; destruct (vs !! i), (ds !! i). }
  assert (Hok : Forall (may_run h) ts).
  { apply Forall_lookup. intros i t Ht. rewrite Hts in Ht. destruct (vs !! i), (ds !! i); try done. by injection Ht as <-. }
  assert (Hins : inserts ts = vs).
  { unfold ts, parallel_insert. clear -Hlen. revert ds Hlen. induction vs as [|[v id] vs IH]; intros [|d ds] Hl; try done.
    csimpl. rewrite IH; [done|]. by injection Hl. }
  destruct (C43_parallel_insert_stores dist so LAWS Hnn _ _ _ _ _ _ Hb Hml ts Hok h' rs Ha) as ((xs & Hx & Hp) & Hn & Hr & Hd & _).
  rewrite Hins in *.
  assert (HL : length rs = length vs).
  { destruct Ha as (c & Hdu & Hf & _). apply (f_equal length) in Hf. rewrite fmap_length in Hf. rewrite <- Hf.
    assert (HT : forall c c', rtc (cstep (T:=T)) c c' -> length (c_threads c') = length (c_threads c)).
    { clear. induction 1 as [|c1 c2 c3 [i Hs] _ IH]; [done|]. rewrite IH. unfold step in Hs.
      destruct (c_threads c1 !! i) as [[| [] | | [] |]|]; simpl in Hs; repeat case_match; try done;
        injection Hs as <-; simpl; by rewrite insert_length. }
    rewrite (HT _ _ Hdu). simpl. rewrite fmap_length. unfold ts, parallel_insert. rewrite zip_with_length. lia. }
  assert (Hall : forall i r, rs !! i = Some r -> exists p, r = RInserted p).
  { intros i r Hi. destruct (lookup_lt_is_Some_2 vs i) as [v Hv]; [rewrite <- HL; by eapply lookup_lt_Some|].
    destruct (lookup_lt_is_Some_2 ds i) as [d Hdr]; [rewrite Hlen; by eapply lookup_lt_Some|].
    destruct (Hr i v.1 v.2 d) as (p & pt & Hi' & _); [by rewrite Hts, Hv, Hdr|]. exists p. congruence. }
  assert (exists ps, rs = RInserted <$> ps) as [ps ->].
  { clear -Hall. induction rs as [|r rs IH]; [by exists []|]. destruct (Hall 0 r eq_refl) as [p ->].
    destruct IH as [ps ->]; [intros i; exact (Hall (S i))|]. by exists (p :: ps). }
  exists ps, xs. split; [done|]. split.
  { apply NoDup_alt. intros i j p Hi Hj. apply (Hd i j p); by rewrite list_lookup_fmap, ?Hi, ?Hj. }
  split; [done|]. split; [done|]. split; [done|].
  intros i v Hv. destruct (lookup_lt_is_Some_2 ds i) as [d Hdr]; [rewrite Hlen; by eapply lookup_lt_Some|].
  destruct (Hr i v.1 v.2 d) as (p & pt & Hi & Hl & E1 & E2 & _); [by rewrite Hts, Hv, Hdr|].
  exists p, pt. split; [|split; [done|]].
  - rewrite list_lookup_fmap in Hi. destruct (ps !! i); [|done]. by injection Hi as ->.
  - rewrite E1, E2. by destruct v.
Qed.
Print Assumptions C43_parallel_insert.

Example C43_example : Forall (may_run exd) ca_tasks /\ after d1 simple_ops exd ca_tasks ca_h ca_results /\
  length (inserts ca_tasks) = 2%nat.
Proof.
  split; [|split; [exact ca_after|reflexivity]].
  repeat constructor; simpl; try lia; auto; right; simpl; lia.
Qed.
(** into an empty index, with the interleaving of C45 *)
Example C43_empty : after d1 simple_ops (empty_index 2 16 10) (parallel_insert [([0%Z], 1%N); ([5%Z], 2%N)] [lv 1; lv 0])
  ce_h [RInserted (1, 0)%nat; RInserted (0, 0)%nat].
Proof. exact ce_after. Qed.

(** C44: at every moment of every interleaving, no thread has panicked and all the lists are well formed. *)
Theorem C44_always_well_formed :
  forall {T} (dist : list T -> list T -> Z) so, StdLaws so -> (forall a b, (0 <= dist a b)%Z) ->
  forall inv_ln M ml ef hist h, used dist so inv_ln M ml ef hist h -> (1 <= ml)%nat ->
  forall ts, Forall (may_run h) ts -> forall c, during dist so h ts c ->
  (forall i, ~ panicked c i) /\
  forall p pt, layer_point (c_sh c) p pt -> (length (pt_nbs pt) = NB_LAYER_MAX) /\
  (forall l, (l < NB_LAYER_MAX)%nat -> exists ns, layer_neighbours (c_sh c) p l ns) /\
  forall l ns, layer_neighbours (c_sh c) p l ns ->
    (l = 0%nat -> (length ns <= 2 * M)%nat) /\ ((1 <= l)%nat -> (length ns <= M)%nat) /\
    sorted_by distance ns /\ NoDup (p_id <$> ns) /\ p ∉ p_id <$> ns /\
    forall n, n ∈ ns -> exists pt', layer_point (c_sh c) (p_id n) pt' /\ d_id n = pt_oid pt' /\
      (distance n = dist (pt_data pt) (pt_data pt') \/ distance n = dist (pt_data pt') (pt_data pt)).
Proof.
  intros T dist so LAWS Hnn inv_ln M ml ef hist h Hb Hml ts Hok c Hd.
  pose proof (used_pos dist so LAWS Hnn _ _ _ _ _ _ Hb Hml) as Hpos.
  destruct (used_facts dist so LAWS Hnn _ _ _ _ _ _ Hb) as (Hwf & _ & HM & _ & Hst & _).
  destruct (during_glob dist so LAWS Hnn h ts Hwf Hpos Hok c Hd) as (phs & G).
  pose proof (v_core _ _ _ _ _ (g_inv _ _ _ _ _ G)) as Hc.
  destruct (g_params _ _ _ _ _ G) as (_ & EM & _).
  split.
  { intros i (o & Ho & Hno). destruct (glob_no_panic dist h ts c phs G i o Ho) as [r ->]. by apply (Hno r). }
  intros p pt Hpt. apply (layer_point_pt dist) in Hpt; [|done]. split; [by apply (c_pt _ _ Hc _ _ Hpt)|]. split.
  { intros l Hl. destruct (core_nbs dist _ _ _ _ Hc Hpt Hl) as [nbs Hn].
    destruct (nbhd_ok_core dist (c_sh c) p pt Hc Hpt) as (lists & Hg & Hlen & _).
    destruct (lookup_lt_is_Some_2 lists l) as [ns Hns]; [by rewrite Hlen|].
    exists ns, pt, lists. split; [by apply (layer_point_pt dist)|]. done. }
  intros l ns Hns. apply (layer_neighbours_pt dist) in Hns as (pt0 & nbs & Hpt0 & Hn & HF); [|done].
  rewrite Hpt in Hpt0. injection Hpt0 as <-.
  destruct (c_lists _ _ Hc _ _ _ _ Hpt Hn) as [L1 L2 L3 L4 L5].
  assert (Ep : p_id <$> ns = n_pid <$> nbs).
  { clear -HF. induction HF as [|n a nbs ns (E & _) HF IH]; [done|]. csimpl. by rewrite E, IH. }
  assert (Ed : distance <$> ns = n_dist <$> nbs).
  { clear -HF. induction HF as [|n a nbs ns (_ & E & _) HF IH]; [done|]. csimpl. by rewrite E, IH. }
  rewrite (Forall2_length _ _ _ HF) in L5. unfold nb_conn in L5. rewrite EM, HM in L5.
  split; [destruct (Nat.eqb_spec l 0); lia|]. split; [destruct (Nat.eqb_spec l 0); lia|].
  split; [by eapply sorted_transfer|]. rewrite Ep. split; [done|]. split; [done|].
  intros a Ha. apply elem_of_list_lookup in Ha as [i Hi].
  destruct (Forall2_lookup_r _ _ _ _ _ HF Hi) as (n & Hni & E1 & E2 & q0 & Hq0 & E3).
  rewrite Forall_forall in L4. destruct (L4 n) as (q & Hq & Hdq); [by eapply elem_of_list_lookup_2|].
  rewrite Hq0 in Hq. injection Hq as <-. exists q0. rewrite E1, E2. split; [by apply (layer_point_pt dist)|]. split; [done|].
  exact Hdq.
Qed.
Print Assumptions C44_always_well_formed.
Example C44_example : during d1 simple_ops exd (parallel_insert cd_vectors cd_draws) cd_end /\
  exists ns, layer_neighbours (c_sh cd_end) (2, 1)%nat 1 ns /\ length ns = 1%nat.
Proof.
  split; [apply play_during|]. eexists. split; [|shelve].
  do 2 eexists. split; [eexists; split_and!; [vm_compute; reflexivity|right; left|reflexivity]|].
  split; vm_compute; reflexivity.
  Unshelve. reflexivity.
Qed.

(** C45 does not hold: of two insertions into an empty index, the first to be counted may find an entry point set by the other
    and return without linking its point. Here the point is on layer 1 and the entry point on layer 0: the iteration over
    the index misses the point and no search can return it. *)
Theorem C45_orphan_refuted :
  exists (dist : list Z -> list Z -> Z) so inv_ln M ml ef h vs ds h' rs p pt pts,
    StdLaws so /\ (forall a b, (0 <= dist a b)%Z) /\ built dist so inv_ln M ml ef [] h /\ (1 <= M)%nat /\
    length ds = length vs /\ after dist so h (parallel_insert vs ds) h' rs /\
    layer_point h' p pt /\ iter_points h' = Ok pts /\ pt ∉ pts /\
    (forall l ns, layer_neighbours h' p l ns -> ns = []) /\
    (forall q k e ns n, search dist so h' q k e = Ok ns -> n ∈ ns -> p_id n <> p).
Proof.
  exists d1, simple_ops, one_scale, 2%nat, 16%nat, 10%nat, (empty_index 2 16 10).
  exists [([0%Z], 1%N); ([5%Z], 2%N)], [lv 1; lv 0], ce_h. eexists. exists (1, 0)%nat. do 2 eexists.
  split; [exact simple_laws|]. split; [exact d1_nonneg|]. split; [by apply built_new|]. split; [lia|].
  split; [done|]. split; [exact ce_after|].
  split. { eexists. split_and!; [vm_compute; reflexivity|left|reflexivity]. }
  split; [vm_compute; reflexivity|]. split. { intros [E|E]%elem_of_cons; [done|by apply elem_of_nil in E]. }
  split.
  - intros l ns (pt & lists & (pts & Hi & Hin & Hp) & Hg & Hl). vm_compute in Hi. injection Hi as <-.
    apply elem_of_list_singleton in Hin as ->. vm_compute in Hg. injection Hg as <-.
    do 16 (destruct l as [|l]; [by injection Hl as <-|]). done.
  - intros q k e ns n Hs Hn. unfold search, search_filter in Hs. cbn -[d1 search_layer] in Hs.
    unfold search_layer in Hs. cbn -[d1] in Hs. pose proof (d1_nonneg q [5%Z]) as H0.
    rewrite (proj2 (Z.leb_le 0 (d1 q [5%Z])) H0), (proj2 (Z.leb_le (- d1 q [5%Z]) 0) ltac:(lia)) in Hs.
    rewrite Z.opp_involutive, Z.ltb_irrefl in Hs. cbn -[d1 Nat.min Nat.max] in Hs.
    destruct (_ `min` 1)%nat as [|m]; cbn -[d1 take] in Hs; [rewrite take_0 in Hs|rewrite firstn_cons, take_nil in Hs]; cbn -[d1] in Hs; injection Hs as <-; [by apply elem_of_nil in Hn|].
    apply elem_of_list_singleton in Hn as ->. done.
Qed.
Print Assumptions C45_orphan_refuted.

(** C45, what does hold: with a non empty index to start with, every point is found by the iteration, the entry
    point has the largest level, and every inserted point has neighbours on its layer. *)
Theorem C45_no_orphan_partial :
  forall {T} (dist : list T -> list T -> Z) so, StdLaws so -> (forall a b, (0 <= dist a b)%Z) ->
  forall inv_ln M ml ef hist h, built dist so inv_ln M ml ef hist h -> hist <> [] ->
  forall ts, Forall (may_run h) ts -> forall h' rs, after dist so h ts h' rs ->
  (exists pts, iter_points h' = Ok pts /\ ((fun pt => (pt_data pt, pt_oid pt)) <$> pts) ≡ₚ hist ++ inserts ts) /\
  (forall p pt, point_at h' p pt -> (p.1 <= get_max_level_observed h')%nat) /\
  (exists p pt, point_at h' p pt /\ p.1 = get_max_level_observed h') /\
  ((1 <= M)%nat -> forall i v id d, ts !! i = Some (TInsert v id d) ->
     exists p ns, rs !! i = Some (RInserted p) /\ vector_at h' p v /\ neighbours_at h' p p.1 ns /\ ns <> []).
Proof.
  intros T dist so LAWS Hnn inv_ln M ml ef hist h Hb Hne ts Hok h' rs Ha.
  destruct (built_facts dist so LAWS Hnn _ _ _ _ _ _ Hb) as (Hwf & Hml & HM & _ & Hst & Hnb).
  assert (H0 : (0 < nb_point h)%nat). { rewrite Hnb. destruct hist; simpl; [done|lia]. }
  assert (Hpos : (0 < max_layer h)%nat).
  { destruct (built_entry dist so LAWS Hnn _ _ _ _ _ _ Hb) as [(-> & _)|(_ & ep & Hep)]; [done|].
    pose proof (w_entry _ _ Hwf) as He. rewrite Hep in He. destruct He as [Hv _].
    destruct (core_layer dist h ep (w_core _ _ Hwf) Hv) as [Hl _]. lia. }
  destruct (after_glob dist so LAWS Hnn h ts (wf_lwf _ _ Hwf) Hpos Hok h' rs Ha) as (c & phs & G & Hf & <-).
  pose proof (glob_wf dist Hnn h ts c phs rs Hwf H0 G Hf) as Hwf'.
  pose proof (v_ent _ _ _ _ _ (g_inv _ _ _ _ _ G) H0) as Hent.
  destruct (entry_point (c_sh c)) as [ep|] eqn:Eep; [|done].
  pose proof (w_entry _ _ Hwf') as He. rewrite Eep in He. destruct He as [Hv Hmax].
  assert (Eo : get_max_level_observed (c_sh c) = ep.1) by (unfold get_max_level_observed; by rewrite Eep).
  split_and!.
  - exists (all_points (c_sh c)). split; [by eapply iter_points_spec|]. rewrite <- Hst. by apply (glob_stored dist h ts c phs rs).
  - intros p pt Hp. apply (point_at_pt dist) in Hp; [|done]. rewrite Eo. apply Hmax. by exists pt.
  - destruct Hv as [pt Hpt]. exists ep, pt. split; [by apply (point_at_pt dist)|done].
  - intros H1 i v id d Ht. destruct (glob_results dist h ts c phs rs i v id d G Hf Ht) as (np & Hr & Hs & _ & _).
    destruct (glob_end dist h ts c phs G rs i _ _ Hf Ht Hr) as (ph & Hph & np' & [= <-] & [(_ & _ & Hl)|(_ & Hz)]);
      [|destruct Hz as [Hz _]; unfold nb0 in Hz; lia].
    unfold static in Hs. destruct (get_pt (c_sh c) np) as [pt|] eqn:Hpt; [|done]. injection Hs as <- <- _.
    destruct (g_params _ _ _ _ _ G) as (_ & EM & _).
    destruct (Hl H0 ltac:(lia)) as (nbs & Hnbs & Hnn').
    unfold own_list in Hnbs. rewrite Hpt in Hnbs. simpl in Hnbs.
    destruct (nbhd_ok dist (c_sh c) np pt Hwf' Hpt) as (lists & Hg & Hlen & Hspec).
    destruct (lookup_lt_is_Some_2 lists np.1) as [ns Hns].
    { rewrite Hlen. apply lookup_lt_Some in Hnbs. by destruct (c_pt _ _ (w_core _ _ Hwf') _ _ Hpt) as [_ <-]. }
    exists np, ns. split; [done|]. split; [apply (vector_at_pt dist); eauto|].
    split; [exists pt, lists; split; [by apply (point_at_pt dist)|done]|].
    apply Hspec in Hns as (nbs' & Hn' & HF). rewrite Hnbs in Hn'. injection Hn' as <-. intros ->. by inversion HF; subst.
Qed.
Print Assumptions C45_no_orphan_partial.
Example C45_example : Forall (may_run exd) ca_tasks /\ after d1 simple_ops exd ca_tasks ca_h ca_results /\ exd_hist <> [] /\
  iter_points ca_h <> iter_points exd.
Proof. split; [apply C43_example|]. split; [exact ca_after|]. split; [done|]. vm_compute. discriminate. Qed.

(** C46 does not hold: two insertions can wait for each other for ever. Each holds a read lock on the neighbours of its
    own point while it wants the write lock of the other's. *)
Theorem C46_deadlock_refuted :
  exists (dist : list Z -> list Z -> Z) so inv_ln M ml ef hist h vs ds c,
    StdLaws so /\ (forall a b, (0 <= dist a b)%Z) /\ built dist so inv_ln M ml ef hist h /\ length ds = length vs /\
    during dist so h (parallel_insert vs ds) c /\ deadlocked c.
Proof.
  exists d1, simple_ops, one_scale, 2%nat, 16%nat, 10%nat, exd_hist, exd, cd_vectors, cd_draws, cd_end.
  split; [exact simple_laws|]. split; [exact d1_nonneg|]. split; [exact exd_built|]. split; [done|].
  split; [apply play_during|exact cd_deadlocked].
Qed.
Print Assumptions C46_deadlock_refuted.

(** Nor does it hold when no point goes above layer 1: three insertions can deadlock when one has level 1 and the other two, as most
    points, level 0. *)
Theorem C46_deadlock_low_refuted :
  exists (dist : list Z -> list Z -> Z) so inv_ln M ml ef hist h vs d ds c,
    StdLaws so /\ (forall a b, (0 <= dist a b)%Z) /\ built dist so inv_ln M ml ef hist h /\ S (length ds) = length vs /\
    generate (level_scale h) (max_layer h) d = Ok 1%nat /\
    Forall (fun d => generate (level_scale h) (max_layer h) d = Ok 0%nat) ds /\
    during dist so h (parallel_insert vs (d :: ds)) c /\ deadlocked c.
Proof.
  exists d1, simple_ops, one_scale, 2%nat, 16%nat, 10%nat, exd_hist, exd, cl_vectors, (lv 1), [lv 0; lv 0], cl_end.
  split; [exact simple_laws|]. split; [exact d1_nonneg|]. split; [exact exd_built|]. split; [done|].
  split; [done|]. split; [by repeat constructor|].
  split; [apply play_during|exact cl_deadlocked].
Qed.
Print Assumptions C46_deadlock_low_refuted.

(** ** Every interleaving ends *)
Section Term.
Context {T : Type}.
Implicit Types (c : config (T:=T)).

Inductive next {A} : prog (T:=T) A -> prog (T:=T) A -> Prop :=
| next_read l k : next k (Lock Rd l k)
| next_write l k : next (Pend l k) (Lock Wr l k)
| next_pend l k : next k (Pend l k)
| next_unlock m l k : next k (Unlock m l k)
| next_do f k h : next (k h) (Do f k).

Lemma next_acc {A} (p : prog (T:=T) A) : Acc next p.
Proof.
  induction p as [o|m l p IH|l p IH|m l p IH|f q IH]; constructor; intros p' Hn; inversion Hn; subst; auto.
  constructor. intros p' Hn'. by inversion Hn'; subst.
Qed.

Definition lnext {A} (ps' ps : list (prog (T:=T) A)) : Prop :=
  exists i p p', ps !! i = Some p /\ next p' p /\ ps' = <[i := p']> ps.

Lemma lnext_acc {A} (ps : list (prog (T:=T) A)) : Acc lnext ps.
Proof.
  induction ps as [|p ps IH].
  - constructor. intros ps' (i & p & p' & Hi & _). done.
  - pose proof (next_acc p) as Hp. revert ps IH. induction Hp as [p _ IHp]. intros ps Hps. pose proof Hps as Hps0.
    induction Hps as [ps _ IHps]. constructor. intros ps' (i & x & x' & Hi & Hn & ->). destruct i as [|i]; simpl in *.
    + injection Hi as <-. by apply IHp.
    + apply IHps; [exists i, x, x'; auto|]. apply Hps0. exists i, x, x'. auto.
Qed.

Lemma cstep_lnext c c' : cstep c c' -> lnext (c_threads c') (c_threads c).
Proof.
  intros [i Hs]. unfold step in Hs. destruct (c_threads c !! i) as [p|] eqn:Hp; [|done]. simpl in Hs.
  destruct p as [o|[] l k|l k|[] l k|f k]; repeat case_match; try done; injection Hs as <-; simpl;
    exists i; eexists; eexists; (split; [exact Hp|]); (split; [constructor|done]).
Qed.

Lemma cstep_acc c : Acc (fun c' c => cstep c c') c.
Proof.
  remember (c_threads c) as ps eqn:E. revert c E. pose proof (lnext_acc ps) as H. induction H as [ps _ IH].
  intros c ->. constructor. intros c' Hs. eapply IH; [by apply cstep_lnext|done].
Qed.
End Term.

(** C46, a part that holds: no interleaving goes on for ever. From every moment, after finitely many steps, whatever they
    are, either every thread has returned or the threads are deadlocked. *)
Theorem C46_ends_partial :
  forall {T} (dist : list T -> list T -> Z) so, StdLaws so -> (forall a b, (0 <= dist a b)%Z) ->
  forall inv_ln M ml ef hist h, used dist so inv_ln M ml ef hist h -> (1 <= ml)%nat ->
  forall ts, Forall (may_run h) ts ->
  (forall f : nat -> config, f 0%nat = initial dist so h ts -> ~ forall n, cstep (f n) (f (S n))) /\
  (forall c, during dist so h ts c -> (forall c', ~ cstep c c') -> deadlocked c \/ exists rs, finished c rs).
Proof.
  intros T dist so LAWS Hnn inv_ln M ml ef hist h Hb Hml ts Hok.
  pose proof (used_pos dist so LAWS Hnn _ _ _ _ _ _ Hb Hml) as Hpos.
  destruct (used_facts dist so LAWS Hnn _ _ _ _ _ _ Hb) as (Hwf & _ & HM & _ & Hst & _).
  split.
  - intros f _ Hf. assert (H : forall c, Acc (fun c' c => cstep c c') c -> forall n, f n <> c).
    { induction 1 as [c _ IH]. intros n <-. eapply (IH (f (S n))); [apply Hf|done]. }
    by apply (H _ (cstep_acc (f 0%nat)) 0%nat).
  - intros c Hd Hno. destruct (during_glob dist so LAWS Hnn h ts Hwf Hpos Hok c Hd) as (phs & G).
    set (P := fun p : prog (T:=T) (tres (T:=T)) => match p with Halt _ => True | _ => False end).
    assert (HP : forall p, Decision (P p)) by (intros [| | | |]; apply _).
    destruct (decide (Forall P (c_threads c))) as [Hall|Hn].
    + right. assert (Hr : forall i p, c_threads c !! i = Some p -> exists r, p = Halt (Ok r)).
      { intros i p Hp. rewrite Forall_lookup in Hall. specialize (Hall i p Hp). destruct p as [o| | | |]; try done.
        destruct (glob_no_panic dist h ts c phs G i o Hp) as [r ->]. eauto. }
      unfold finished. clear -Hr. induction (c_threads c) as [|p ps IH]; [by exists []|].
      destruct (Hr 0%nat p eq_refl) as [r ->]. destruct IH as [rs ->]; [intros i; exact (Hr (S i))|].
      by exists (r :: rs).
    + left. split; [done|]. apply not_Forall_Exists in Hn; [|done].
      apply Exists_exists in Hn as (p & Hin & Hp). apply elem_of_list_lookup in Hin as [i Hi].
      exists i, p. split; [done|]. intros o ->. by apply Hp.
Qed.
Print Assumptions C46_ends_partial.
Example C46_example : exists c', cstep (initial d1 simple_ops exd (parallel_insert cd_vectors cd_draws)) c'.
Proof. eexists. exists 0%nat. reflexivity. Qed.

(** C46, another part that holds: whatever the interleaving, no deadlock is possible and all the threads have returned
    when none can go on, if
    - no task inserts (searches, iterations and dumps only), or
    - no task iterates and at most one inserts, or
    - no task iterates and the inserted points all get the same level. *)
Lemma one_insertion {T} (ts : list (task (T:=T))) : (length (inserts ts) <= 1)%nat ->
  forall i j ti tj, ts !! i = Some ti -> ts !! j = Some tj -> is_insertion ti -> is_insertion tj -> i = j.
Proof.
  assert (H0 : forall ts : list (task (T:=T)), length (inserts ts) = 0%nat ->
    forall i t, ts !! i = Some t -> is_insertion t -> False).
  { clear. intros ts. induction ts as [|[v id d|q k e f| |] ts IH]; intros H [|i] t Hi Ht; simpl in *; try done;
      try (injection Hi as <-; done); by eapply IH. }
  induction ts as [|t ts IH]; intros H i j ti tj Hi Hj Ti Tj; [done|]. destruct i as [|i], j as [|j]; simpl in *.
  - done.
  - injection Hi as <-. destruct t; try done. exfalso. eapply H0; [|exact Hj|exact Tj]. change (S (length (inserts ts)) <= 1)%nat in H. lia.
  - injection Hj as <-. destruct t; try done. exfalso. eapply H0; [|exact Hi|exact Ti]. change (S (length (inserts ts)) <= 1)%nat in H. lia.
  - f_equal. eapply IH; eauto. destruct t; [change (S (length (inserts ts)) <= 1)%nat in H; lia|done|done|done].
Qed.
Theorem C46_no_deadlock_partial :
  forall {T} (dist : list T -> list T -> Z) so, StdLaws so -> (forall a b, (0 <= dist a b)%Z) ->
  forall inv_ln M ml ef hist h, used dist so inv_ln M ml ef hist h -> (1 <= ml)%nat ->
  forall ts, Forall (may_run h) ts ->
  (Forall (fun t => ~ is_insertion t) ts \/
   Forall (fun t => ~ is_iteration t) ts /\ (length (inserts ts) <= 1)%nat \/
   Forall (fun t => ~ is_iteration t) ts /\ (exists l, Forall (at_level h l) ts)) ->
  forall c, during dist so h ts c ->
  ~ deadlocked c /\ ((exists c', cstep c c') \/ exists rs, finished c rs).
Proof.
  intros T dist so LAWS Hnn inv_ln M ml ef hist h Hb Hml ts Hok Hcase c Hd.
  pose proof (used_pos dist so LAWS Hnn _ _ _ _ _ _ Hb Hml) as Hpos.
  destruct (used_facts dist so LAWS Hnn _ _ _ _ _ _ Hb) as (Hwf & _ & HM & _ & Hst & _).
  assert (Hnd : ~ deadlocked c).
  { destruct Hcase as [H|[[H H1]|[Hit [l Hl]]]].
    - refine (reads_no_deadlock dist so LAWS Hnn h ts Hwf Hpos Hok _ c Hd).
      eapply Forall_impl; [exact H|]. by intros [].
    - refine (single_no_deadlock dist so LAWS Hnn h ts Hwf Hpos Hok _ _ c Hd).
      + eapply Forall_impl; [exact H|]. by intros [].
      + intros i j ti tj Hi Hj Ti Tj. exact (one_insertion ts H1 i j ti tj Hi Hj Ti Tj).
    - refine (level_no_deadlock dist so LAWS Hnn h ts Hwf Hpos Hok l _ c Hd).
      apply Forall_forall. intros t Ht. rewrite Forall_forall in Hit, Hl. specialize (Hit t Ht). specialize (Hl t Ht). destruct t; simpl in *; tauto. }
  split; [done|].
  assert (Hdec : (forall c', ~ cstep c c') \/ exists c', cstep c c').
  { clear. assert (H : forall n, (exists c', cstep c c') \/ forall i c', (i < n)%nat -> step i c <> Some c').
    { induction n as [|n [IH|IH]]; [right; lia|by left|]. destruct (step n c) as [c'|] eqn:E; [left; by exists c', n|].
      right. intros i c' Hi. destruct (decide (i = n)) as [->|]; [by rewrite E|]. apply IH. lia. }
    destruct (H (length (c_threads c))) as [Hs|Hs]; [by right|]. left. intros c' [i Hc'].
    eapply Hs; [|exact Hc']. unfold step in Hc'. destruct (c_threads c !! i) as [p|] eqn:E; [|done].
    by apply lookup_lt_Some in E. }
  destruct Hdec as [Hno|Hs]; [right|by left].
  destruct (C46_ends_partial dist so LAWS Hnn _ _ _ _ _ _ Hb Hml ts Hok) as [_ He].
  by destruct (He c Hd Hno).
Qed.
Print Assumptions C46_no_deadlock_partial.
(** two insertions at level 3, a search and a dump; one at level 2, two searches and a dump; a search, an iteration and a dump *)
Example C46_no_deadlock_example :
  let t0 := [TInsert [1%Z] 1%N (lv 3); TInsert [2%Z] 2%N (lv 3); TSearch [2%Z] 2 4 None; TDump] in
  let t1 := [TSearch [2%Z] 2 4 None; TInsert [1%Z] 1%N (lv 2); TDump; TSearch [7%Z] 2 4 None] in
  let t2 := [TSearch [2%Z] 2 4 None; TIterate; TDump] in
  built d1 simple_ops one_scale 2 16 10 exd_hist exd /\ Forall (may_run exd) t0 /\ Forall (may_run exd) t1 /\
  Forall (may_run exd) t2 /\ Forall (fun t => ~ is_insertion t) t2 /\
  (Forall (fun t => ~ is_iteration t) t1 /\ (length (inserts t1) <= 1)%nat) /\
  (Forall (fun t => ~ is_iteration t) t0 /\ exists l, Forall (at_level exd l) t0).
Proof.
  cbv zeta. split; [exact exd_built|]. repeat split; try (repeat constructor; simpl; auto; try lia; vm_compute; lia).
  exists 3%nat. repeat constructor.
Qed.

(** C52 does not hold: the iterator takes a second read lock on the table while it holds one; an insertion that
    asked for the table in between stops it, and waits for the first read lock. *)
Theorem C52_iterating_refuted :
  exists (dist : list Z -> list Z -> Z) so inv_ln M ml ef hist h v id d c,
    StdLaws so /\ (forall a b, (0 <= dist a b)%Z) /\ built dist so inv_ln M ml ef hist h /\ hist <> [] /\
    during dist so h [TIterate; TInsert v id d] c /\ deadlocked c.
Proof.
  exists d1, simple_ops, one_scale, 2%nat, 16%nat, 10%nat, exd_hist, exd, [1%Z], 1%N, (lv 0), ci_end.
  split; [exact simple_laws|]. split; [exact d1_nonneg|]. split; [exact exd_built|]. split; [done|].
  split; [apply play_during|exact ci_deadlocked].
Qed.
Print Assumptions C52_iterating_refuted.

(** C52, what does hold: an iteration beside any insertions never panics, and if it comes to its end it has
    yielded points that are stored, each once, among which all those stored before the threads started. *)
Theorem C52_iterating_partial :
  forall {T} (dist : list T -> list T -> Z) so, StdLaws so -> (forall a b, (0 <= dist a b)%Z) ->
  forall inv_ln M ml ef hist h, built dist so inv_ln M ml ef hist h -> hist <> [] ->
  forall ts, Forall (may_run h) ts -> forall c, during dist so h ts c ->
  forall i, ts !! i = Some TIterate -> ~ panicked c i /\
  forall r, returned c i r -> exists pts, r = RPoints pts /\ NoDup (pt_pid <$> pts) /\
    (forall pt, pt ∈ pts -> exists pt', layer_point (c_sh c) (pt_pid pt) pt' /\ pt_data pt' = pt_data pt /\ pt_oid pt' = pt_oid pt) /\
    (forall p pt0, point_at h p pt0 -> exists pt, pt ∈ pts /\ pt_pid pt = p /\ pt_data pt = pt_data pt0 /\ pt_oid pt = pt_oid pt0).
Proof.
  intros T dist so LAWS Hnn inv_ln M ml ef hist h Hb Hne ts Hok c Hd i Ht.
  destruct (built_facts dist so LAWS Hnn _ _ _ _ _ _ Hb) as (Hwf & Hml & HM & _ & Hst & Hnb).
  destruct (built_entry dist so LAWS Hnn _ _ _ _ _ _ Hb) as [(-> & _)|(_ & ep & Hep)]; [done|].
  pose proof (w_entry _ _ Hwf) as He. rewrite Hep in He. destruct He as [Hv Hmax].
  assert (Hpos : (0 < max_layer h)%nat).
  { destruct (core_layer dist h ep (w_core _ _ Hwf) Hv) as [Hl _]. lia. }
  destruct (during_glob dist so LAWS Hnn h ts (wf_lwf _ _ Hwf) Hpos Hok c Hd) as (phs & G).
  pose proof (v_core _ _ _ _ _ (g_inv _ _ _ _ _ G)) as Hc.
  split. { intros (o & Ho & Hno). destruct (glob_no_panic dist h ts c phs G i o Ho) as [r ->]. by apply (Hno r). }
  intros r Hr. destruct (glob_returned dist h ts c phs i _ r G Ht Hr) as (ph & Hph & pts & -> & _ & H1 & H2 & H3).
  exists pts. split; [done|]. split; [done|]. rewrite Forall_forall in H1. split.
  - intros pt Hin. specialize (H1 pt Hin). unfold static in H1. destruct (get_pt (c_sh c) (pt_pid pt)) as [pt'|] eqn:E; [|done].
    injection H1 as E1 E2 _. exists pt'. split; [by apply (layer_point_pt dist)|]. done.
  - intros p pt0 Hp. apply (point_at_pt dist) in Hp; [|done].
    assert (Hvp : valid h p) by (by exists pt0).
    specialize (H3 ep p Hep Hvp (Hmax p Hvp)). apply elem_of_list_fmap in H3 as (pt & Ep & Hin). exists pt. split; [done|].
    split; [done|]. specialize (H1 pt Hin). rewrite <- Ep in H1.
    assert (Hs : static h p = Some (pt_data pt0, pt_oid pt0, pt_pid pt0)) by (unfold static; by rewrite Hp).
    rewrite (static_grows _ _ _ _ (g_grows _ _ _ _ _ G) Hs) in H1. injection H1 as -> -> _. done.
Qed.
Print Assumptions C52_iterating_partial.
Example C52_example : exists c pts, during d1 simple_ops exd ca_tasks c /\ ca_tasks !! 4%nat = Some TIterate /\
  returned c 4 (RPoints pts) /\ length pts = 3%nat.
Proof.
  exists (play [(0, 40); (4, 100)]%nat (initial d1 simple_ops exd ca_tasks)). eexists. split; [apply play_during|].
  split; [done|]. split; [vm_compute; reflexivity|reflexivity].
Qed.

(** C59: a search that runs while other threads insert never panics and its answer is right: at most knbn answers, in
    order, without repetition, each a stored point with its id and its distance to the query; not empty when
    the index was not empty; the filter is respected as far as it is in C13. *)
Theorem C59_concurrent_search :
  forall {T} (dist : list T -> list T -> Z) so, StdLaws so -> (forall a b, (0 <= dist a b)%Z) ->
  forall inv_ln M ml ef hist h, used dist so inv_ln M ml ef hist h -> (1 <= ml)%nat ->
  forall ts, Forall (may_run h) ts -> forall c, during dist so h ts c ->
  forall i q knbn e filter, ts !! i = Some (TSearch q knbn e filter) -> ~ panicked c i /\
  forall r, returned c i r -> exists ns, r = RFound ns /\ (length ns <= knbn)%nat /\ sorted_by distance ns /\ NoDup (p_id <$> ns) /\
    (forall n, n ∈ ns -> exists pt, layer_point (c_sh c) (p_id n) pt /\ d_id n = pt_oid pt /\ distance n = dist q (pt_data pt)) /\
    (hist <> [] -> (1 <= knbn)%nat -> ns <> []) /\
    (forall flt, filter = Some flt -> (forall n, n ∈ ns -> flt (d_id n) = true) \/ length ns = 1%nat).
Proof.
  intros T dist so LAWS Hnn inv_ln M ml ef hist h Hb Hml ts Hok c Hd i q k e filter Ht.
  pose proof (used_pos dist so LAWS Hnn _ _ _ _ _ _ Hb Hml) as Hpos.
  destruct (used_facts dist so LAWS Hnn _ _ _ _ _ _ Hb) as (Hwf & _ & HM & _ & Hst & Hnb).
  destruct (during_glob dist so LAWS Hnn h ts Hwf Hpos Hok c Hd) as (phs & G).
  pose proof (v_core _ _ _ _ _ (g_inv _ _ _ _ _ G)) as Hc.
  split. { intros (o & Ho & Hno). destruct (glob_no_panic dist h ts c phs G i o Ho) as [r ->]. by apply (Hno r). }
  intros r Hr. destruct (glob_returned dist h ts c phs i _ r G Ht Hr) as (ph & Hph & ns & -> & _ & S1 & S2 & S3 & S4 & S5 & S6).
  exists ns. split; [done|]. split; [done|]. split; [done|]. split; [done|]. split; [|split].
  - intros n Hn. rewrite Forall_forall in S1. destruct (S1 n Hn) as (pt & Hpt & ? & ?). exists pt.
    split; [by apply (layer_point_pt dist)|done].
  - intros Hne Hk. apply S5; [|lia]. unfold nb0. rewrite Hnb. destruct hist; simpl; [done|lia].
  - intros flt ->. rewrite Forall_forall in S6. destruct S6 as [?|[a ->]]; auto.
Qed.
Print Assumptions C59_concurrent_search.
Example C59_example : Forall (may_run exd) ca_tasks /\ after d1 simple_ops exd ca_tasks ca_h ca_results /\
  ca_results !! 2%nat = Some (RFound [Neighbour 1%N 1 (2, 1)%nat; Neighbour 10%N 2 (2, 0)%nat]).
Proof. split; [apply C43_example|]. split; [exact ca_after|]. reflexivity. Qed.
