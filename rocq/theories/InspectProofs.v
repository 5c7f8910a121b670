(** Lemmas about the functions of [Inspect]. *)
From Verif Require Import Prelude Model Lib Table SearchProofs InsertProofs IterProofs Spec SpecProofs Inspect.

(** ** Outcomes made of unwrap and assert: Ok or Panic *)
Definition okp {A} (m : outcome A) : Prop := is_ok m \/ m = Panic.
Lemma okp_ok {A} (a : A) : okp (Ok a).
Proof. left. by eexists. Qed.
Lemma okp_unwrap {A} (o : option A) : okp (unwrap o).
Proof. destruct o; [left; by eexists|by right]. Qed.
Lemma okp_assert b : okp (assert_ b).
Proof. destruct b; [left; by eexists|by right]. Qed.
Lemma okp_bind {A B} (m : outcome A) (f : A -> outcome B) : okp m -> (forall a, okp (f a)) -> okp (m ≫= f).
Proof. intros [[a ->]| ->] Hf; [apply Hf|by right]. Qed.
Lemma okp_for_sum l f : (forall i, okp (f i)) -> okp (for_sum l f).
Proof.
  intros Hf. induction l as [|i l IH]; simpl; [apply okp_ok|].
  apply okp_bind; [apply Hf|]. intros a. apply okp_bind; [done|]. intros b. apply okp_ok.
Qed.

Lemma assert_iff b : assert_ b = Ok tt <-> b = true.
Proof. by destruct b. Qed.
Lemma unwrap_iff {A} (o : option A) a : unwrap o = Ok a <-> o = Some a.
Proof. destruct o; simpl; split; congruence. Qed.
Lemma bind_iff {A B} (m : outcome A) (f : A -> outcome B) b : (m ≫= f) = Ok b <-> exists a, m = Ok a /\ f a = Ok b.
Proof. split; [apply bind_inv|]. intros (a & -> & H). done. Qed.

Lemma for_sum_iff l f n :
  for_sum l f = Ok n <-> exists ns, Forall2 (fun i a => f i = Ok a) l ns /\ n = sum_list ns.
Proof.
  revert n. induction l as [|i l IH]; intros n; simpl.
  - split; [intros [= <-]; by exists []|]. intros (ns & H & ->). inversion H; subst. done.
  - rewrite bind_iff. split.
    + intros (a & Ha & H). apply bind_inv in H as (b & Hb & [= <-]). apply IH in Hb as (ns & HF & ->).
      exists (a :: ns). split; [by constructor|done].
    + intros (ns & H & ->). inversion H as [|? a ? ns' Ha Hns]; subst. exists a. split; [done|].
      rewrite (proj2 (IH (sum_list ns'))); [done|]. eauto.
Qed.
Lemma for_sum_ok l f (g : nat -> nat) : (forall i, i ∈ l -> f i = Ok (g i)) -> for_sum l f = Ok (sum_list (g <$> l)).
Proof.
  intros H. apply for_sum_iff. exists (g <$> l). split; [|done].
  induction l as [|i l IH]; csimpl; constructor; [apply H; left|]. apply IH. intros j Hj. apply H. by right.
Qed.

Section Check.
Context {T1 T2 : Type} (d1 : list T1 -> list T1 -> Z) (d2 : list T2 -> list T2 -> Z).
Context (h1 : hnsw (T:=T1)) (h2 : hnsw (T:=T2)).

Lemma check_okp : okp (check_graph_equality h1 h2).
Proof.
  unfold check_graph_equality, check_layer, check_point, check_list, check_entry.
  repeat first [ apply okp_ok | apply okp_unwrap | apply okp_assert | apply okp_for_sum; intros ?
               | apply okp_bind; [|intros ?] ].
Qed.

Context (W1 : wf d1 h1) (W2 : wf d2 h2).

(** what get_neighborhood_id makes of an entry *)
Definition nid {T} (h : hnsw (T:=T)) (n : nbr) : outcome neighbour :=
  q ← unwrap (get_pt h (n_pid n)); Ok (Neighbour (pt_oid q) (n_dist n) (n_pid n)).

Lemma check_entry_iff n1 n2 a b :
  nid h1 n1 = Ok a -> nid h2 n2 = Ok b -> (check_entry h1 h2 n1 n2 = Ok 1 <-> a = b).
Proof.
  unfold nid, check_entry. intros Ha Hb.
  apply bind_inv in Ha as (q1 & Hq1%unwrap_iff & [= <-]). apply bind_inv in Hb as (q2 & Hq2%unwrap_iff & [= <-]).
  rewrite Hq1, Hq2. simpl.
  pose proof (c_pt _ _ (w_core _ _ W1) _ _ Hq1) as [-> _].
  pose proof (c_pt _ _ (w_core _ _ W2) _ _ Hq2) as [-> _].
  destruct (N.eqb_spec (pt_oid q1) (pt_oid q2)); simpl; [|split; [done|intros [=]; done]].
  destruct (bool_decide_reflect (n_pid n1 = n_pid n2)); simpl; [|split; [done|intros [=]; done]].
  destruct (Z.eqb_spec (n_dist n1) (n_dist n2)); simpl; [|split; [done|intros [=]; done]].
  split; [congruence|done].
Qed.

Lemma check_list_iff nb1 nb2 k l1 l2 as_ bs :
  nb1 !! k = Some l1 -> nb2 !! k = Some l2 -> mapM (nid h1) l1 = Ok as_ -> mapM (nid h2) l2 = Ok bs ->
  (is_ok (check_list h1 h2 nb1 nb2 k) <-> as_ = bs).
Proof.
  intros H1 H2 Ha Hb. apply mapM_outcome_inv in Ha, Hb. unfold check_list, is_ok. rewrite H1, H2. cbn [unwrap mbind outcome_bind].
  pose proof (Forall2_length _ _ _ Ha) as La. pose proof (Forall2_length _ _ _ Hb) as Lb.
  split.
  - intros (n & H). apply bind_inv in H as ([] & Hlen%assert_iff & H). apply Nat.eqb_eq in Hlen.
    apply for_sum_iff in H as (ns & HF & _).
    apply list_eq_same_length with (n := length l1); [lia|lia|]. intros i a b Hi Hai Hbi.
    destruct (Forall2_lookup_l _ _ _ i i HF) as (x & _ & Hx). { by apply lookup_seq_lt. }
    destruct (Forall2_lookup_r _ _ _ _ _ Ha Hai) as (n1 & Hn1 & Hna).
    destruct (Forall2_lookup_r _ _ _ _ _ Hb Hbi) as (n2 & Hn2 & Hnb).
    rewrite Hn1, Hn2 in Hx. cbn in Hx. apply (check_entry_iff n1 n2 a b Hna Hnb).
    destruct (check_entry h1 h2 n1 n2) as [y| | | | |] eqn:E; try done.
    unfold check_entry in E. repeat (apply bind_inv in E as (? & _ & E)). by injection E as <-.
  - intros <-. assert (Hlen : length l1 = length l2) by lia. rewrite Hlen, Nat.eqb_refl. cbn.
    eexists. apply (for_sum_ok _ _ (fun _ => 1%nat)). intros i Hi.
    apply elem_of_seq in Hi.
    destruct (lookup_lt_is_Some_2 l1 i) as [n1 Hn1]; [lia|]. destruct (lookup_lt_is_Some_2 l2 i) as [n2 Hn2]; [lia|].
    rewrite Hn1, Hn2. cbn.
    destruct (Forall2_lookup_l _ _ _ _ _ Ha Hn1) as (a & Hai & Hna).
    destruct (Forall2_lookup_l _ _ _ _ _ Hb Hn2) as (b & Hbi & Hnb).
    apply (check_entry_iff n1 n2 a b Hna Hnb). congruence.
Qed.

Lemma check_point_iff p p1 p2 l1 l2 :
  get_pt h1 p = Some p1 -> get_pt h2 p = Some p2 ->
  get_neighborhood_id h1 p1 = Ok l1 -> get_neighborhood_id h2 p2 = Ok l2 ->
  (check_point h1 h2 p1 p2 = Ok 1%nat <-> pt_oid p1 = pt_oid p2 /\ l1 = l2).
Proof.
  intros Hp1 Hp2 H1 H2. unfold check_point.
  pose proof (c_pt _ _ (w_core _ _ W1) _ _ Hp1) as [-> L1].
  pose proof (c_pt _ _ (w_core _ _ W2) _ _ Hp2) as [-> L2].
  rewrite L1, L2, Nat.eqb_refl, bool_decide_eq_true_2 by done. cbn [assert_ mbind outcome_bind].
  unfold get_neighborhood_id in H1, H2. apply mapM_outcome_inv in H1, H2.
  fold (nid h1) in H1. fold (nid h2) in H2.
  pose proof (Forall2_length _ _ _ H1) as La. pose proof (Forall2_length _ _ _ H2) as Lb.
  rewrite bind_iff. split.
  - intros ([] & Ho%assert_iff & H). apply N.eqb_eq in Ho. split; [done|].
    cbn [mbind outcome_bind] in H. apply bind_inv in H as (n & H & _). apply for_sum_iff in H as (ns & HF & _).
    apply list_eq_same_length with (n := NB_LAYER_MAX); [lia|lia|]. intros i a b Hi Hai Hbi.
    destruct (Forall2_lookup_l _ _ _ i i HF) as (x & _ & Hx). { by apply lookup_seq_lt. }
    destruct (Forall2_lookup_r _ _ _ _ _ H1 Hai) as (n1 & Hn1 & Hna).
    destruct (Forall2_lookup_r _ _ _ _ _ H2 Hbi) as (n2 & Hn2 & Hnb).
    apply (check_list_iff _ _ i n1 n2 a b Hn1 Hn2 Hna Hnb). by eexists.
  - intros [Ho <-]. exists tt. split; [apply assert_iff; by apply N.eqb_eq|]. cbn [mbind outcome_bind].
    assert (Hf : is_ok (for_sum (seq 0 NB_LAYER_MAX) (check_list h1 h2 (pt_nbs p1) (pt_nbs p2)))).
    { assert (G : forall l, (forall i, i ∈ l -> (i < NB_LAYER_MAX)%nat) ->
        is_ok (for_sum l (check_list h1 h2 (pt_nbs p1) (pt_nbs p2)))).
      { induction l as [|i l IH]; intros Hl; [by eexists|]. cbn [for_sum].
        destruct (lookup_lt_is_Some_2 (pt_nbs p1) i) as [n1 Hn1]; [rewrite L1; apply Hl; left|].
        destruct (lookup_lt_is_Some_2 (pt_nbs p2) i) as [n2 Hn2]; [rewrite L2; apply Hl; left|].
        destruct (Forall2_lookup_l _ _ _ _ _ H1 Hn1) as (a & Hai & Hna).
        destruct (Forall2_lookup_l _ _ _ _ _ H2 Hn2) as (b & Hbi & Hnb).
        assert (a = b) as <- by congruence.
        destruct (proj2 (check_list_iff _ _ i n1 n2 a a Hn1 Hn2 Hna Hnb) eq_refl) as [x ->]. cbn.
        destruct IH as [y ->]. { intros j Hj. apply Hl. by right. } by eexists. }
      apply G. intros i Hi%elem_of_seq. lia. }
    destruct Hf as [n ->]. done.
Qed.

(** the origin id of a point and one of its lists, as the API shows them *)
Definition shown {T} (h : hnsw (T:=T)) (p : pid) (o : dataid) (lists : list (list neighbour)) : Prop :=
  exists pt, get_pt h p = Some pt /\ pt_oid pt = o /\ get_neighborhood_id h pt = Ok lists.

Lemma check_layer_ok i n : check_layer h1 h2 i = Ok n ->
  (i < length (points_by_layer h1))%nat /\ (i < length (points_by_layer h2))%nat /\
  forall p o lists, p.1 = i -> shown h1 p o lists <-> shown h2 p o lists.
Proof.
  unfold check_layer. intros H.
  apply bind_inv in H as (ly1 & Hly1%unwrap_iff & H). apply bind_inv in H as (ly2 & Hly2%unwrap_iff & H).
  apply bind_inv in H as ([] & Hlen%assert_iff & H). apply Nat.eqb_eq in Hlen.
  split; [by eapply lookup_lt_Some|]. split; [by eapply lookup_lt_Some|].
  apply for_sum_iff in H as (ns & HF & _).
  assert (G : forall p p1 p2, p.1 = i -> get_pt h1 p = Some p1 -> get_pt h2 p = Some p2 ->
    pt_oid p1 = pt_oid p2 /\ get_neighborhood_id h1 p1 = get_neighborhood_id h2 p2).
  { intros p p1 p2 Ep Hp1 Hp2.
    destruct (nbhd_ok d1 h1 p p1 W1 Hp1) as (l1 & E1 & _). destruct (nbhd_ok d2 h2 p p2 W2 Hp2) as (l2 & E2 & _).
    apply get_pt_lookup in Hp1 as Hp1'. apply get_pt_lookup in Hp2 as Hp2'.
    destruct Hp1' as (ly1' & Hl1 & Hi1). destruct Hp2' as (ly2' & Hl2 & Hi2).
    rewrite Ep, Hly1 in Hl1. injection Hl1 as <-. rewrite Ep, Hly2 in Hl2. injection Hl2 as <-.
    destruct (Forall2_lookup_l _ _ _ p.2 p.2 HF) as (x & _ & Hx).
    { apply lookup_seq_lt. by eapply lookup_lt_Some. }
    rewrite Hi1, Hi2 in Hx. cbn in Hx.
    destruct (proj1 (check_point_iff p p1 p2 l1 l2 Hp1 Hp2 E1 E2)) as [? ->]; [|by rewrite E1, E2].
    unfold check_point in *. repeat (apply bind_inv in Hx as (? & ?E & Hx); rewrite E; clear E; cbn [mbind outcome_bind]). done. }
  assert (V : forall p, p.1 = i -> is_Some (get_pt h1 p) <-> is_Some (get_pt h2 p)).
  { intros p Ep. unfold get_pt. rewrite Ep, Hly1, Hly2. cbn. rewrite !lookup_lt_is_Some, Hlen. done. }
  intros p o lists Ep. split.
  - intros (pt & Hpt & <- & Hl). destruct (proj1 (V p Ep)) as [pt2 Hpt2]; [by eexists|].
    destruct (G p pt pt2 Ep Hpt Hpt2) as [Ho Hg]. exists pt2. split_and!; [done|done|congruence].
  - intros (pt & Hpt & <- & Hl). destruct (proj2 (V p Ep)) as [pt2 Hpt2]; [by eexists|].
    destruct (G p pt2 pt Ep Hpt2 Hpt) as [Ho Hg]. exists pt2. split_and!; [done|done|congruence].
Qed.

Lemma check_iff :
  check_graph_equality h1 h2 = Ok tt <->
  max_layer h1 = NB_LAYER_MAX /\ max_layer h2 = NB_LAYER_MAX /\
  (exists ep, entry_point h1 = Some ep /\ entry_point h2 = Some ep) /\
  forall p o lists, shown h1 p o lists <-> shown h2 p o lists.
Proof.
  pose proof (c_len _ _ (w_core _ _ W1)) as Len1. pose proof (c_len _ _ (w_core _ _ W2)) as Len2.
  assert (Mx1 : (max_layer h1 <= NB_LAYER_MAX)%nat) by apply W1.
  assert (Mx2 : (max_layer h2 <= NB_LAYER_MAX)%nat) by apply W2.
  unfold check_graph_equality. split.
  - intros H. apply bind_inv in H as ([] & Hnb%assert_iff & H). apply bind_inv in H as (_ & _ & H).
    apply bind_inv in H as (e1 & He1%unwrap_iff & H). apply bind_inv in H as (e2 & He2%unwrap_iff & H).
    apply bind_inv in H as (ep1 & Hep1%unwrap_iff & H). apply bind_inv in H as (ep2 & Hep2%unwrap_iff & H).
    apply bind_inv in H as ([] & Ho%assert_iff & H). apply bind_inv in H as ([] & Hp%assert_iff & H).
    apply bind_inv in H as (n & H & Hn).
    apply bool_decide_eq_true in Hp.
    pose proof (c_pt _ _ (w_core _ _ W1) _ _ Hep1) as [E1 _]. pose proof (c_pt _ _ (w_core _ _ W2) _ _ Hep2) as [E2 _].
    apply for_sum_iff in H as (ns & HF & _).
    assert (Hly : forall i, (i < NB_LAYER_MAX)%nat -> exists n, check_layer h1 h2 i = Ok n).
    { intros i Hi. destruct (Forall2_lookup_l _ _ _ i i HF) as (x & _ & Hx); [by apply lookup_seq_lt|]. eauto. }
    destruct (Hly (NB_LAYER_MAX - 1)%nat) as [x Hx]; [unfold NB_LAYER_MAX; lia|].
    destruct (check_layer_ok _ _ Hx) as (B1 & B2 & _).
    split_and!; [lia|lia|exists e1; split; [done|congruence]|].
    intros p o lists. split; intros Hs; pose proof Hs as (pt & Hpt & _).
    + destruct (Hly p.1) as [y Hy]. { apply get_pt_lookup in Hpt as (ly & Hl & _). apply lookup_lt_Some in Hl. lia. }
      by apply (check_layer_ok _ _ Hy).
    + destruct (Hly p.1) as [y Hy]. { apply get_pt_lookup in Hpt as (ly & Hl & _). apply lookup_lt_Some in Hl. lia. }
      by apply (check_layer_ok _ _ Hy).
  - intros (M1 & M2 & (ep & He1 & He2) & Hall).
    assert (V : forall p p1, get_pt h1 p = Some p1 -> exists p2, get_pt h2 p = Some p2 /\ check_point h1 h2 p1 p2 = Ok 1%nat).
    { intros p p1 Hp1. destruct (nbhd_ok d1 h1 p p1 W1 Hp1) as (l1 & E1 & _).
      destruct (proj1 (Hall p (pt_oid p1) l1)) as (p2 & Hp2 & Ho & E2); [by exists p1|].
      exists p2. split; [done|]. by apply (check_point_iff p p1 p2 l1 l1). }
    assert (V2 : forall p, is_Some (get_pt h1 p) <-> is_Some (get_pt h2 p)).
    { intros p. split; intros [pt Hpt].
      - destruct (V p pt Hpt) as (p2 & ? & _). by eexists.
      - destruct (nbhd_ok d2 h2 p pt W2 Hpt) as (l2 & E2 & _).
        destruct (proj2 (Hall p (pt_oid pt) l2)) as (p1 & Hp1 & _); [by exists pt|]. by eexists. }
    assert (Hlens : length <$> points_by_layer h1 = length <$> points_by_layer h2).
    { apply list_eq_same_length with (n := NB_LAYER_MAX); rewrite ?fmap_length; [lia|lia|].
      intros i x y Hi Hx Hy. rewrite list_lookup_fmap in Hx. rewrite list_lookup_fmap in Hy.
      destruct (points_by_layer h1 !! i) as [ly1|] eqn:Hl1; [|done]. injection Hx as <-.
      destruct (points_by_layer h2 !! i) as [ly2|] eqn:Hl2; [|done]. injection Hy as <-.
      destruct (Nat.lt_trichotomy (length ly1) (length ly2)) as [Hlt|[?|Hlt]]; [|done|].
      - specialize (V2 (i, length ly1)). unfold get_pt in V2. cbn in V2. rewrite Hl1, Hl2 in V2. cbn in V2.
        rewrite !lookup_lt_is_Some in V2. lia.
      - specialize (V2 (i, length ly2)). unfold get_pt in V2. cbn in V2. rewrite Hl1, Hl2 in V2. cbn in V2.
        rewrite !lookup_lt_is_Some in V2. lia. }
    assert (Hts : table_size h1 = table_size h2) by (unfold table_size; by rewrite Hlens).
    unfold get_nb_point. rewrite (w_count _ _ W1), (w_count _ _ W2), Hts, Nat.eqb_refl. cbn [assert_ mbind outcome_bind].
    rewrite bool_decide_eq_true_2 by (rewrite He1; by eexists). cbn [orb assert_ mbind outcome_bind].
    rewrite He1, He2. cbn [unwrap mbind outcome_bind].
    pose proof (w_entry _ _ W1) as He. rewrite He1 in He. destruct He as [[pt1 Hpt1] _].
    destruct (V ep pt1 Hpt1) as (pt2 & Hpt2 & Hck). rewrite Hpt1, Hpt2. cbn [unwrap mbind outcome_bind].
    unfold check_point in Hck. apply bind_inv in Hck as ([] & -> & Hck). apply bind_inv in Hck as ([] & -> & Hck).
    cbn [mbind outcome_bind].
    rewrite (for_sum_ok _ _ (get_layer_nb_point h2)).
    + cbn [mbind outcome_bind]. apply assert_iff, Nat.eqb_eq.
      unfold table_size, get_layer_nb_point. rewrite <- M2, <- Len2.
      clear. induction (points_by_layer h2) as [|ly ls IH]; [done|]. cbn [length seq]. csimpl. f_equal.
      rewrite <- IH. f_equal. rewrite <- fmap_S_seq, <- list_fmap_compose. done.
    + intros i Hi%elem_of_seq. unfold check_layer, get_layer_nb_point.
      destruct (lookup_lt_is_Some_2 (points_by_layer h1) i) as [ly1 Hl1]; [lia|].
      destruct (lookup_lt_is_Some_2 (points_by_layer h2) i) as [ly2 Hl2]; [lia|].
      rewrite Hl1, Hl2. cbn [unwrap mbind outcome_bind].
      assert (El : length ly1 = length ly2).
      { apply (f_equal (fun l => l !! i)) in Hlens. rewrite !list_lookup_fmap, Hl1, Hl2 in Hlens. by injection Hlens. }
      rewrite El, Nat.eqb_refl. cbn [assert_ mbind outcome_bind].
      rewrite (for_sum_ok _ _ (fun _ => 1%nat)).
      * f_equal. assert (G : forall n k, sum_list ((fun _ : nat => 1%nat) <$> seq k n) = n).
        { induction n as [|n IH]; intros k; [done|]. csimpl. by rewrite IH. }
        apply G.
      * intros j Hj%elem_of_seq.
        destruct (lookup_lt_is_Some_2 ly1 j) as [p1 Hp1]; [lia|].
        destruct (V (i, j) p1) as (p2 & Hp2 & Hc); [apply get_pt_lookup; eauto|].
        apply get_pt_lookup in Hp2 as (ly & Hly & Hp2). cbn in Hly, Hp2. rewrite Hl2 in Hly. injection Hly as <-.
        rewrite Hp1, Hp2. cbn [unwrap mbind outcome_bind]. done.
Qed.

End Check.

Section Shown.
Context {T : Type} (dist : list T -> list T -> Z).
Implicit Types (h : hnsw (T:=T)) (p : pid).

(** dump_layer_info *)
Lemma dump_layer_info_spec h : wf dist h -> (1 <= max_layer h)%nat ->
  dump_layer_info h = Ok ((fun l => (l, get_layer_nb_point h l)) <$> seq 0 (S (get_max_level_observed h))).
Proof.
  intros W Hm. unfold dump_layer_info.
  assert (Hb : forall l, l ∈ seq 0 (S (get_max_level_observed h)) -> (l < length (points_by_layer h))%nat).
  { intros l Hl%elem_of_seq. rewrite (c_len _ _ (w_core _ _ W)).
    unfold get_max_level_observed in Hl. pose proof (w_entry _ _ W) as He.
    destruct (entry_point h) as [ep|]; [|lia]. destruct He as [Hv _].
    destruct (core_layer dist h ep (w_core _ _ W) Hv). lia. }
  revert Hb. generalize (seq 0 (S (get_max_level_observed h))) as l.
  induction l as [|i l IH]; intros Hb; [done|]. cbn [mapM].
  destruct (lookup_lt_is_Some_2 (points_by_layer h) i) as [ly Hly]; [apply Hb; left|].
  specialize (IH ltac:(intros j Hj; apply Hb; by right)). rewrite Hly. cbn [unwrap mbind outcome_bind].
  unfold mbind, outcome_bind in IH |- *. rewrite IH. unfold get_layer_nb_point. csimpl. by rewrite Hly.
Qed.

Lemma layers_sum h : wf dist h ->
  sum_list (get_layer_nb_point h <$> seq 0 (S (get_max_level_observed h))) = get_nb_point h.
Proof.
  intros W. unfold get_nb_point. rewrite (w_count _ _ W).
  assert (G : forall n (ls : list (list (point (T:=T)))), (forall i ly, ls !! i = Some ly -> (n <= i)%nat -> ly = []) ->
    sum_list ((fun l => match ls !! l with Some ly => length ly | None => 0%nat end) <$> seq 0 n) =
    sum_list (length <$> ls)).
  { induction n as [|n IH]; intros ls Hls.
    - cbn. induction ls as [|ly ls IHl]; [done|]. csimpl. rewrite (Hls 0%nat ly) by (done || lia). simpl. apply IHl.
      intros i ly' Hi _. apply (Hls (S i) ly'); [done|lia].
    - destruct ls as [|ly ls].
      + assert (H : forall l : list nat, sum_list ((fun _ => 0%nat) <$> l) = 0%nat).
        { clear. induction l as [|x l IH]; [done|]. csimpl. by rewrite IH. }
        apply (H (seq 0 (S n))).
      + cbn [seq]. csimpl. f_equal. rewrite <- (IH ls).
        * rewrite <- fmap_S_seq, <- list_fmap_compose. done.
        * intros i ly' Hi Hn. apply (Hls (S i) ly'); [done|lia]. }
  unfold get_layer_nb_point, table_size. apply G.
  intros i ly Hi Hn. destruct ly as [|pt ly]; [done|exfalso].
  assert (Hv : valid h (i, 0%nat)) by (exists pt; apply get_pt_lookup; eauto).
  pose proof (w_entry _ _ W) as He. unfold get_max_level_observed in Hn. destruct (entry_point h) as [ep|].
  - destruct He as [_ Hmax]. specialize (Hmax _ Hv). cbn in Hmax. lia.
  - by apply table_size_0_valid in Hv.
Qed.

(** debug_dump of a point *)
Lemma point_debug_dump_spec h p pt : wf dist h -> get_pt h p = Some pt ->
  exists printed, point_debug_dump pt = (p, pt_oid pt, printed) /\
    forall i ps, (i, ps) ∈ printed <-> ps <> [] /\ exists ns, neighbours_at h p i ns /\ p_id <$> ns = ps.
Proof.
  intros W Hp. eexists. split.
  { unfold point_debug_dump. destruct (c_pt _ _ (w_core _ _ W) _ _ Hp) as [-> _]. reflexivity. }
  destruct (nbhd_ok dist h p pt W Hp) as (lists & Hg & Hlen & Hall).
  assert (HF : forall nbs ns, Forall2 (fun n (a : neighbour) => p_id a = n_pid n /\ distance a = n_dist n /\ exists q0 : point, get_pt h (n_pid n) = Some q0 /\ d_id a = pt_oid q0) nbs ns ->
           p_id <$> ns = n_pid <$> nbs).
  { induction 1 as [|n a nbs ns (E & _) _ IH]; [done|]. csimpl. by rewrite E, IH. }
  intros i ps. rewrite elem_of_list_filter. simpl. split.
  - intros [Hne (j & nbs & [= -> ->] & Hj)%elem_of_lookup_imap_1]. split; [done|].
    destruct (lists !! j) as [ns|] eqn:El.
    + destruct (proj1 (Hall _ _) El) as (nbs' & Hn' & H). rewrite Hj in Hn'. injection Hn' as <-.
      exists ns. split; [|by apply HF]. apply (neighbours_at_pt dist); eauto.
    + apply lookup_ge_None in El. apply lookup_lt_Some in Hj.
      destruct (c_pt _ _ (w_core _ _ W) _ _ Hp) as [_ ?]. lia.
  - intros [Hne (ns & Hn & Ens)]. split; [done|].
    apply (neighbours_at_pt dist) in Hn as (pt' & nbs & Hpt' & Hn & H); [|done].
    rewrite Hp in Hpt'. injection Hpt' as <-. apply HF in H. rewrite H in Ens. subst ps.
    apply elem_of_list_lookup. exists i. rewrite list_lookup_imap, Hn. done.
Qed.

End Shown.
