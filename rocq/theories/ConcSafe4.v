(** Safety of a dump running beside insertions. *)
From Verif Require Import Prelude Model Lib Table SearchProofs SelectProofs InsertProofs QueryProofs IterProofs Spec SpecProofs
  Conc ConcSafe ConcSafe2 ConcSafe3.

(** the point read at place [p] *)
Definition dlook {T} (d : dumped (T:=T)) (p : pid) : option dpoint := dd_layers d !! p.1 ≫= (.!! p.2).

(** the number of points of each layer *)
Definition tshape {T} (h : hnsw (T:=T)) : list nat := length <$> points_by_layer h.

Lemma valid_shape {T} (h : hnsw (T:=T)) p : valid h p <-> exists n, tshape h !! p.1 = Some n /\ (p.2 < n)%nat.
Proof.
  unfold valid, get_pt, tshape. rewrite list_lookup_fmap. destruct (points_by_layer h !! p.1) as [ly|]; simpl.
  - split.
    + intros [pt Hp]. exists (length ly). split; [done|]. by eapply lookup_lt_Some.
    + intros (n & [= <-] & Hlt). by apply lookup_lt_is_Some_2.
  - split; [by intros [? ?]|]. by intros (n & ? & _).
Qed.

Lemma table_size_shape {T} (h : hnsw (T:=T)) : table_size h = sum_list (tshape h).
Proof. unfold table_size, tshape. generalize (points_by_layer h). intros ls. induction ls as [|ly ls IH]; [done|]. csimpl. rewrite ?app_length. lia. Qed.

Lemma shape_stable {T} (h h' : hnsw (T:=T)) :
  length (points_by_layer h') = length (points_by_layer h) -> (forall p, valid h p <-> valid h' p) -> tshape h' = tshape h.
Proof.
  intros Hlen Hv. apply list_eq. intros i.
  destruct (tshape h !! i) as [n|] eqn:E.
  - destruct (lookup_lt_is_Some_2 (tshape h') i) as [n' E'].
    { unfold tshape. rewrite fmap_length, Hlen. apply lookup_lt_Some in E. unfold tshape in E. by rewrite fmap_length in E. }
    rewrite E'. f_equal.
    assert (H : forall r, (r < n)%nat <-> (r < n')%nat).
    { intros r. split; intros Hr.
      - assert (Hx : valid h' (i, r)) by (apply Hv, valid_shape; simpl; eauto).
        apply valid_shape in Hx as (m & Hm & ?). simpl in *. congruence.
      - assert (Hx : valid h (i, r)) by (apply Hv, valid_shape; simpl; eauto).
        apply valid_shape in Hx as (m & Hm & ?). simpl in *. congruence. }
    pose proof (H n). pose proof (H n'). lia.
  - apply lookup_ge_None. apply lookup_ge_None in E. unfold tshape in *. rewrite fmap_length in *. lia.
Qed.

Section Safe4.
Context {T : Type} (dist : list T -> list T -> Z) (so : StdOps).
Context (LAWS : StdLaws so) (Hnn : forall a b, (0 <= dist a b)%Z).
Context (N : bnd) (nb0 : nat) (data : list T) (oid : dataid) (dm : dmode).
Implicit Types (h : hnsw (T:=T)) (p np ep : pid) (pub : pid -> Prop) (ph : phase).
Local Notation rely := (rely dist N nb0 data oid).
Local Notation ok := (ok dist N nb0 data oid).
Local Notation wpg := (wpg dist N nb0 data oid dm).
Local Notation wp := (wpg [] [] (fun _ _ => False)).
Local Notation post A := (phase -> A -> hnsw (T:=T) -> (pid -> Prop) -> Prop).
Local Notation tbl := [(Rd, LTable)].
Context (Hdm : dm = Free \/ dm = Reads \/ dm = Flat).

Lemma may_lock_tbl B l : l <> LTable -> may_lock dm tbl B Rd l.
Proof using Hdm. intros Hl. unfold may_lock. destruct Hdm as [->|[->| ->]]; auto 10. Qed.

Lemma rely_stable ph h pub h' pub' hd : (Rd, LTable) ∈ hd -> ok ph h pub -> rely ph h pub h' pub' -> stable hd h h' ->
  tshape h' = tshape h.
Proof using Hnn.
  intros Hin Ho Hr Hs. apply shape_stable; [by eapply rely_len|]. intros p. split; [by eapply rely_valid|by apply Hs].
Qed.

(** what is read of the point at [p] *)
Definition DP h p (x : dpoint (T:=T)) : Prop :=
  dp_pid x = p /\ static h p = Some (dp_data x, dp_oid x, p) /\ length (dp_lists x) = NB_LAYER_MAX /\
  forall l ns, dp_lists x !! l = Some ns ->
    NoDup (p_id <$> ns) /\ sorted_by distance ns /\ p ∉ p_id <$> ns /\ (length ns <= nb_conn h l)%nat /\
    Forall (fun n => exists v, static h (p_id n) = Some (v, d_id n, p_id n) /\
       (distance n = dist (dp_data x) v \/ distance n = dist v (dp_data x))) ns.

Lemma DP_rely ph h pub h' pub' p x : rely ph h pub h' pub' -> DP h p x -> DP h' p x.
Proof using Type.
  intros Hr (H1 & H2 & H3 & H4). split_and!; auto.
  - eapply static_grows; [apply Hr|done].
  - intros l ns Hl. destruct (H4 l ns Hl) as (A1 & A2 & A3 & A4 & A5). split_and!; auto.
    + unfold nb_conn. destruct (r_params _ _ _ _ _ _ _ _ _ _ Hr) as (_ & -> & _). exact A4.
    + eapply Forall_impl; [exact A5|]. intros n (v & Hv & Hd). exists v. split; [|done]. eapply static_grows; [apply Hr|done].
Qed.

Lemma DP_read h p pt : core dist h -> get_pt h p = Some pt -> exists lists,
  get_neighborhood_id h pt = Ok lists /\ DP h p (DPoint (pt_oid pt) p (pt_data pt) lists).
Proof using Type.
  intros Hc Hp. destruct (nbhd_ok_core dist h p pt Hc Hp) as (lists & Hg & Hlen & Hspec). exists lists. split; [done|].
  destruct (c_pt _ _ Hc _ _ Hp) as [Epid _].
  split; [done|]. split; [unfold static; rewrite Hp; simpl; by rewrite Epid|]. split; [done|].
  cbn [dp_lists dp_data]. intros l ns Hl. apply Hspec in Hl as (nbs & Hn & HF).
  destruct (c_lists _ _ Hc _ _ _ _ Hp Hn) as [L1 L2 L3 L4 L5].
  assert (Ep : p_id <$> ns = n_pid <$> nbs).
  { clear -HF. induction HF as [|n a nbs ns (E & _) HF IH]; [done|]. csimpl. by rewrite E, IH. }
  assert (Ed : distance <$> ns = n_dist <$> nbs).
  { clear -HF. induction HF as [|n a nbs ns (_ & E & _) HF IH]; [done|]. csimpl. by rewrite E, IH. }
  rewrite Ep. split_and!; auto.
  - by eapply sorted_transfer.
  - by rewrite <- (Forall2_length _ _ _ HF).
  - apply Forall_forall. intros a Ha. apply elem_of_list_lookup in Ha as [i Hi].
    destruct (Forall2_lookup_r _ _ _ _ _ HF Hi) as (n & Hni & E1 & E2 & q0 & Hq0 & E3).
    rewrite Forall_forall in L4. destruct (L4 n) as (q & Hq & Hdq); [by eapply elem_of_list_lookup_2|].
    rewrite Hq0 in Hq. injection Hq as <-. exists (pt_data q0). rewrite E1, E2, E3. split; [|exact Hdq].
    unfold static. rewrite Hq0. simpl. by destruct (c_pt _ _ Hc _ _ Hq0) as [-> _].
Qed.

Lemma wp_dump_points ph B i : forall n j (Q : post (list dpoint)) h pub,
  ok ph h pub -> (forall r, (j <= r < j + n)%nat -> valid h (i, r)) ->
  (forall h' pub' xs, rely ph h pub h' pub' -> stable tbl h h' -> length xs = n ->
     (forall k x, xs !! k = Some x -> DP h' (i, (j + k)%nat) x) -> Q ph xs h' pub') ->
  wpg tbl tbl B ph (dump_points_p i j n) Q h pub.
Proof using Hdm Hnn.
  induction n as [|n IH]; intros j Q h pub Ho Hv HQ; cbn [dump_points_p].
  { split; [done|]. intros h' pub' Hr Hs. by apply HQ. }
  apply wp_bind; [done|]. apply wp_peek_s; [done|]. intros h1 pub1 Hr1 Hs1.
  assert (Hv1 : valid h1 (i, j)) by (eapply rely_valid; [exact Hr1|]; apply Hv; lia). destruct Hv1 as [pt1 Hpt1].
  pose proof (rely_ok _ _ _ _ _ _ _ _ _ _ Hr1) as Ho1.
  destruct (c_pt _ _ (ok_core _ _ _ _ _ _ _ _ Ho1) _ _ Hpt1) as [Epid _].
  exists (pt_oid pt1, (i, j), pt_data pt1). split.
  { rewrite Hpt1. simpl. rewrite bool_decide_true by done. simpl. by rewrite Epid. }
  intros h2 pub2 Hr2 Hs2. pose proof (rely_ok _ _ _ _ _ _ _ _ _ _ Hr2) as Ho2.
  apply wp_bind; [done|]. apply wp_read_s; [done|by apply may_lock_tbl|]. intros h3 pub3 Hr3 Hs3.
  pose proof (rely_ok _ _ _ _ _ _ _ _ _ _ Hr3) as Ho3.
  assert (Hr13 : rely ph h1 pub1 h3 pub3) by (by eapply rely_trans).
  destruct (grows_get _ _ _ _ (r_grows _ _ _ _ _ _ _ _ _ _ Hr13) Hpt1) as (pt3 & Hpt3 & Ed & Eo & _).
  destruct (DP_read h3 (i, j) pt3 (ok_core _ _ _ _ _ _ _ _ Ho3) Hpt3) as (lists & Hg & Hdp).
  exists lists. split; [rewrite Hpt3; exact Hg|]. intros h4 pub4 Hr4 Hs4.
  assert (Hr04 : rely ph h pub h4 pub4) by (eapply rely_trans; [exact Hr1|]; eapply rely_trans; [exact Hr13|done]).
  assert (Hs04 : stable tbl h h4) by (eapply stable_trans; [exact Hs1|]; eapply stable_trans; [exact Hs2|]; eapply stable_trans; [exact Hs3|exact Hs4]).
  apply wp_bind; [by eapply rely_ok|]. apply IH.
  - by eapply rely_ok.
  - intros r Hrr. eapply (rely_valid _ _ _ _ _ _ _ _ _ _ _ Hr04). apply Hv. lia.
  - intros h5 pub5 xs Hr5 Hs5 Hlen Hxs. split; [done|]. intros h6 pub6 Hr6 Hs6. apply HQ.
    + eapply rely_trans; [exact Hr04|]. by eapply rely_trans.
    + eapply stable_trans; [exact Hs04|]. by eapply stable_trans.
    + simpl. by rewrite Hlen.
    + intros [|k] x Hx.
      * injection Hx as <-. rewrite Nat.add_0_r. eapply DP_rely; [exact Hr6|]. eapply DP_rely; [exact Hr5|].
        eapply DP_rely; [exact Hr4|]. cbn [fst snd]. by rewrite <- Ed, <- Eo.
      * replace (j + S k)%nat with (S j + k)%nat by lia. eapply DP_rely; [exact Hr6|]. by apply Hxs.
Qed.

Lemma wp_dump_layers ph B : forall n i (Q : post (list (list dpoint))) h pub,
  ok ph h pub -> (i + n = length (points_by_layer h))%nat ->
  (forall h' pub' lys, rely ph h pub h' pub' -> stable tbl h h' -> length <$> lys = drop i (tshape h') ->
     (forall k ly r x, lys !! k = Some ly -> ly !! r = Some x -> DP h' ((i + k)%nat, r) x) -> Q ph lys h' pub') ->
  wpg tbl tbl B ph (dump_layers_p i n) Q h pub.
Proof using Hdm Hnn.
  induction n as [|n IH]; intros i Q h pub Ho Hlen HQ; cbn [dump_layers_p].
  { split; [done|]. intros h' pub' Hr Hs. apply HQ; auto.
    - symmetry. apply drop_ge. unfold tshape. rewrite fmap_length.
      rewrite (rely_len _ _ _ _ _ _ _ _ _ _ Ho Hr). lia.
    - by intros k ly r x Hk. }
  apply wp_bind; [done|]. apply wp_peek_s; [done|]. intros h1 pub1 Hr1 Hs1.
  pose proof (rely_ok _ _ _ _ _ _ _ _ _ _ Hr1) as Ho1.
  destruct (lookup_lt_is_Some_2 (points_by_layer h1) i) as [ly Hly].
  { rewrite (rely_len _ _ _ _ _ _ _ _ _ _ Ho Hr1). lia. }
  exists (length ly). split; [by rewrite Hly|]. intros h2 pub2 Hr2 Hs2.
  pose proof (rely_ok _ _ _ _ _ _ _ _ _ _ Hr2) as Ho2.
  assert (Hsh : tshape h1 !! i = Some (length ly)) by (unfold tshape; by rewrite list_lookup_fmap, Hly).
  apply wp_bind; [done|]. apply wp_dump_points; [done|..].
  { intros r Hr. eapply (rely_valid _ _ _ _ _ _ _ _ _ _ _ Hr2). apply valid_shape. exists (length ly). simpl. split; [done|lia]. }
  intros h3 pub3 xs Hr3 Hs3 Hxl Hxs. pose proof (rely_ok _ _ _ _ _ _ _ _ _ _ Hr3) as Ho3.
  assert (Hr03 : rely ph h pub h3 pub3) by (eapply rely_trans; [exact Hr1|]; by eapply rely_trans).
  assert (Hr13 : rely ph h1 pub1 h3 pub3) by (by eapply rely_trans).
  assert (Hs13 : stable tbl h1 h3) by (by eapply stable_trans).
  assert (Hs03 : stable tbl h h3) by (by eapply stable_trans).
  apply wp_bind; [done|]. apply IH; [done|rewrite (rely_len _ _ _ _ _ _ _ _ _ _ Ho Hr03); lia|].
  intros h4 pub4 lys Hr4 Hs4 Hshl Hdp. split; [done|]. intros h5 pub5 Hr5 Hs5.
  pose proof (rely_ok _ _ _ _ _ _ _ _ _ _ Hr4) as Ho4.
  assert (Hr15 : rely ph h1 pub1 h5 pub5) by (eapply rely_trans; [exact Hr13|]; by eapply rely_trans).
  assert (Hs15 : stable tbl h1 h5) by (eapply stable_trans; [exact Hs13|]; by eapply stable_trans).
  assert (E5 : tshape h5 = tshape h4) by (eapply rely_stable; [|exact Ho4|exact Hr5|exact Hs5]; left).
  assert (E15 : tshape h5 = tshape h1) by (eapply rely_stable; [|exact Ho1|exact Hr15|exact Hs15]; left).
  apply HQ.
  - eapply rely_trans; [exact Hr1|done].
  - eapply stable_trans; [exact Hs1|done].
  - csimpl. rewrite Hxl, Hshl, <- E5. rewrite E15. symmetry. by apply drop_S.
  - intros [|k] l' r x Hk Hx.
    + injection Hk as <-. rewrite Nat.add_0_r. eapply DP_rely; [exact Hr5|]. eapply DP_rely; [exact Hr4|]. by apply Hxs.
    + replace (i + S k)%nat with (S i + k)%nat by lia. eapply DP_rely; [exact Hr5|]. by eapply Hdp.
Qed.

(** what a dump reads, [h0] being the index when it began: all of it could have been read of one index, save for the number of points *)
Record Snap h0 h (d : dumped (T:=T)) : Prop := {
  sn_dim : (dd_dim d = 0%nat /\ nb0 = 0%nat) \/ exists p x, dlook d p = Some x /\ length (dp_data x) = dd_dim d;
  sn_nb : (nb_point h0 <= dd_nb d <= length (concat (dd_layers d)))%nat;
  sn_len : length (dd_layers d) = max_layer h;
  sn_pt : forall p x, dlook d p = Some x -> DP h p x;
  sn_ref : forall p x l ns n, dlook d p = Some x -> dp_lists x !! l = Some ns -> n ∈ ns -> is_Some (dlook d (p_id n));
  sn_old : forall p, valid h0 p -> is_Some (dlook d p);
  sn_entry : match dd_entry d with None => nb0 = 0%nat | Some (o, p) => exists x, dlook d p = Some x /\ dp_oid x = o end
}.

Lemma dlook_shape (d : dumped (T:=T)) p : is_Some (dlook d p) <-> exists n, (length <$> dd_layers d) !! p.1 = Some n /\ (p.2 < n)%nat.
Proof using Type.
  unfold dlook. rewrite list_lookup_fmap. destruct (dd_layers d !! p.1) as [ly|]; simpl.
  - rewrite lookup_lt_is_Some. split; [eauto|]. by intros (n & [= <-] & ?).
  - split; [by intros [? ?]|]. by intros (n & ? & _).
Qed.

Lemma wp_dump h pub : ok P0 h pub -> wp P0 dump_p (fun ph d h' pub' => ph = P0 /\ Snap h h' d) h pub.
Proof using Hdm Hnn.
  intros Ho. unfold dump_p. apply wp_bind; [done|]. apply wp_read; [done|]. intros h1 pub1 Hr1.
  pose proof (rely_ok _ _ _ _ _ _ _ _ _ _ Hr1) as Ho1. pose proof (r_inv _ _ _ _ _ _ _ _ _ _ Hr1) as Hi1.
  exists (get_data_dimension h1). split; [done|]. intros h2 pub2 Hr2. pose proof (rely_ok _ _ _ _ _ _ _ _ _ _ Hr2) as Ho2.
  apply wp_bind; [done|]. apply wp_read; [done|]. intros h3 pub3 Hr3. pose proof (rely_ok _ _ _ _ _ _ _ _ _ _ Hr3) as Ho3.
  exists (nb_point h3). split; [done|]. intros h4 pub4 Hr4. pose proof (rely_ok _ _ _ _ _ _ _ _ _ _ Hr4) as Ho4.
  split; [apply may_lock_nil|]. intros h5 pub5 Hr5 _. pose proof (rely_ok _ _ _ _ _ _ _ _ _ _ Hr5) as Ho5.
  change (wpg [] tbl (fun _ _ => False) P0 (n ← peek (fun h => Ok (length (points_by_layer h)));
    lys ← dump_layers_p 0 n; e ← dump_entry_p;
    Unlock Rd LTable (ret (Dumped (get_data_dimension h1) (nb_point h3) lys e)))
    (fun ph d h' pub' => ph = P0 /\ Snap h h' d) h5 pub5).
  apply wp_bind; [done|]. apply wp_peek_s; [done|]. intros h6 pub6 Hr6 Hs6. pose proof (rely_ok _ _ _ _ _ _ _ _ _ _ Hr6) as Ho6.
  exists (length (points_by_layer h6)). split; [done|]. intros h7 pub7 Hr7 Hs7. pose proof (rely_ok _ _ _ _ _ _ _ _ _ _ Hr7) as Ho7.
  apply wp_bind; [done|]. apply wp_dump_layers; [done|simpl; symmetry; exact (rely_len _ _ _ _ _ _ _ _ _ _ Ho6 Hr7)|].
  intros h8 pub8 lys Hr8 Hs8 Hsh Hdp. pose proof (rely_ok _ _ _ _ _ _ _ _ _ _ Hr8) as Ho8.
  apply wp_bind; [done|]. apply wp_read_s; [done|by apply may_lock_tbl|]. intros h9 pub9 Hr9 Hs9.
  pose proof (rely_ok _ _ _ _ _ _ _ _ _ _ Hr9) as Ho9. pose proof (ok_inv _ _ _ _ _ _ _ _ Ho9) as Hi9.
  assert (E9 : tshape h9 = tshape h8) by (eapply rely_stable; [|exact Ho8|exact Hr9|exact Hs9]; left).
  assert (Hlook : forall d p, dd_layers d = lys -> is_Some (dlook d p) <-> valid h9 p).
  { intros d p Ed. rewrite dlook_shape, Ed, Hsh, drop_0, valid_shape, E9. done. }
  assert (He : exists e, match entry_point h9 with
     | None => Ok None | Some ep => pt ← unwrap (get_pt h9 ep); Ok (Some (pt_oid pt, pt_pid pt)) end = Ok e /\
     match e with None => nb0 = 0%nat | Some (o, p) => exists v, static h9 p = Some (v, o, p) end).
  { destruct (entry_point h9) as [ep|] eqn:Eep.
    - destruct (v_pub _ _ _ _ _ Hi9 ep (v_entry _ _ _ _ _ Hi9 _ Eep)) as [pt Hpt]. rewrite Hpt. simpl.
      destruct (c_pt _ _ (v_core _ _ _ _ _ Hi9) _ _ Hpt) as [Epid _].
      eexists. split; [done|]. rewrite Epid. exists (pt_data pt). unfold static. rewrite Hpt. simpl. by rewrite Epid.
    - exists None. split; [done|]. destruct (decide (nb0 = 0%nat)) as [|Hne]; [done|].
      by destruct (v_ent _ _ _ _ _ Hi9 ltac:(lia)). }
  destruct He as (e & He & Hes). exists e. split; [exact He|]. intros h10 pub10 Hr10 Hs10.
  eexists. split; [done|]. split; [done|]. intros h11 pub11 Hr11 _. split; [done|].
  assert (Hr18 : rely P0 h1 pub1 h8 pub8).
  { eapply rely_trans; [exact Hr2|]. eapply rely_trans; [exact Hr3|]. eapply rely_trans; [exact Hr4|].
    eapply rely_trans; [exact Hr5|]. eapply rely_trans; [exact Hr6|]. by eapply rely_trans. }
  assert (Hr39 : rely P0 h3 pub3 h9 pub9).
  { eapply rely_trans; [exact Hr4|]. eapply rely_trans; [exact Hr5|]. eapply rely_trans; [exact Hr6|].
    eapply rely_trans; [exact Hr7|]. by eapply rely_trans. }
  assert (Hr19 : rely P0 h1 pub1 h9 pub9) by (by eapply rely_trans).
  assert (Hr09 : rely P0 h pub h9 pub9) by (by eapply rely_trans).
  assert (Hr911 : rely P0 h9 pub9 h11 pub11) by (by eapply rely_trans).
  set (d := Dumped (get_data_dimension h1) (nb_point h3) lys e).
  assert (Hdpd : forall p x, dlook d p = Some x -> DP h9 p x).
  { intros [l r] x Hx. unfold dlook in Hx. cbn [dd_layers d fst snd] in Hx. destruct (lys !! l) as [ly|] eqn:El; [|done].
    eapply DP_rely; [exact Hr9|]. by apply (Hdp l ly r x). }
  constructor.
  - cbn [dd_dim d]. unfold get_data_dimension. destruct (entry_point h1) as [ep|] eqn:Eep.
    + right. destruct (v_pub _ _ _ _ _ Hi1 ep (v_entry _ _ _ _ _ Hi1 _ Eep)) as [pt Hpt]. rewrite Hpt.
      assert (Hv : valid h9 ep) by (eapply (rely_valid _ _ _ _ _ _ _ _ _ _ _ Hr19); by exists pt).
      apply (Hlook d ep eq_refl) in Hv as [x Hx]. exists ep, x. split; [done|].
      destruct (Hdpd _ _ Hx) as (_ & Hst & _).
      destruct (grows_get _ _ _ _ (r_grows _ _ _ _ _ _ _ _ _ _ Hr19) Hpt) as (pt9 & Hpt9 & Ed & _).
      unfold static in Hst. rewrite Hpt9 in Hst. simpl in Hst. injection Hst as E _ _. by rewrite <- E, Ed.
    + left. split; [done|]. destruct (decide (nb0 = 0%nat)) as [|Hne]; [done|]. by destruct (v_ent _ _ _ _ _ Hi1 ltac:(lia)).
  - cbn [dd_nb dd_layers d]. split.
    + etrans; [apply Hr1|]. etrans; [apply Hr2|apply Hr3].
    + assert (Hl : length (concat lys) = table_size h9).
      { rewrite table_size_shape, E9. rewrite drop_0 in Hsh. rewrite <- Hsh. clear. induction lys as [|ly lys IH]; [done|].
        csimpl. by rewrite app_length, IH. }
      rewrite Hl. etrans; [apply (r_nb _ _ _ _ _ _ _ _ _ _ Hr39)|]. apply (v_size _ _ _ _ _ Hi9).
  - cbn [dd_layers d]. rewrite (rely_ml _ _ _ _ _ _ _ _ _ _ Hr911), <- (c_len _ _ (v_core _ _ _ _ _ Hi9)).
    rewrite <- (fmap_length length lys), Hsh, drop_0, <- E9. unfold tshape. by rewrite fmap_length.
  - intros p x Hx. eapply DP_rely; [exact Hr911|]. by apply Hdpd.
  - intros p x l ns n Hx Hl Hn. apply Hlook; [done|]. destruct (Hdpd p x Hx) as (_ & _ & _ & H).
    destruct (H l ns Hl) as (_ & _ & _ & _ & HF). rewrite Forall_forall in HF. destruct (HF n Hn) as (v & Hv & _).
    unfold static in Hv. unfold valid. destruct (get_pt h9 (p_id n)); [by eexists|done].
  - intros p Hp. apply Hlook; [done|]. by eapply rely_valid.
  - cbn [dd_entry d]. destruct e as [[o p]|]; [|done]. destruct Hes as (v & Hv).
    assert (Hvp : valid h9 p) by (unfold static in Hv; unfold valid; destruct (get_pt h9 p); [by eexists|done]).
    apply (Hlook d p eq_refl) in Hvp as [x Hx]. exists x. split; [done|].
    destruct (Hdpd _ _ Hx) as (_ & Hst & _). rewrite Hv in Hst. by injection Hst.
Qed.

End Safe4.
