(** What a point keeps for life. *)
From stdpp Require Import relations.
From Verif Require Import Prelude Model Lib Table SearchProofs SelectProofs InsertProofs IterProofs QueryProofs Spec SpecProofs Calls CallsProofs
  Io IoBase SpecIo IoProofs IoProofs2 IoProofs3 IoProofs4 IoProofs5 Conc SpecConc ConcSafe ConcSafe2 ConcSafe3 ConcGlobal ConcEnd ConcDump ConcSafe4 ConcDumpProofs
  ConcCalls ConcCallsProofs SpecBuilt BuiltProofs PropsDump SpecLife.
Local Open Scope list_scope.

Section Entry.
Context {T : Type} (dist : list T -> list T -> Z) (so : StdOps).
Implicit Types (h : hnsw (T:=T)).

Ltac binv H := repeat (let x := fresh "x" in let E := fresh "E" in apply bind_inv in H as (x & E & H)).

Lemma upd_entry h p l f h' : upd_nbs h p l f = Ok h' -> entry_point h' = entry_point h.
Proof. unfold upd_nbs. intros H. binv H. by injection H as <-. Qed.

Lemma generate_entry h v i d h' p r : generate_new_point h v i d = Ok (h', p, r) -> entry_point h' = entry_point h.
Proof.
  unfold generate_new_point. intros H. apply bind_inv in H as (lev & _ & H).
  apply bind_inv in H as ([h1 q] & Hp & H). unfold push_point in Hp. binv Hp. injection Hp as <- <-.
  injection H as <- <- <-. done.
Qed.

Lemma descend_use_entry h np data l s ep dte h1 e1 t1 : descend_use dist so h np data l s ep dte = Ok (h1, e1, t1) ->
  entry_point h1 = entry_point h.
Proof.
  unfold descend_use. destruct (_ <? _)%nat; [done|]. destruct (h_pop so s) as [[e s']|]; [|by intros [= <- _ _]].
  intros H. apply bind_inv in H as (h2 & Hu & H). apply upd_entry in Hu. rewrite <- Hu.
  apply bind_inv in H as (pt & _ & H). destruct (_ <? _)%Z; by injection H as <- _ _.
Qed.

Lemma descend_entry ls h np data ep dte h1 e1 : descend dist so ls h np data ep dte = Ok (h1, e1) ->
  entry_point h1 = entry_point h.
Proof.
  revert h ep dte. induction ls as [|l ls IH]; intros h ep dte H; cbn [descend] in H; [by injection H as <- _|].
  apply bind_inv in H as (s & _ & H). apply bind_inv in H as ([[h2 e2] t2] & Hu & H).
  apply descend_use_entry in Hu. apply IH in H. congruence.
Qed.

Lemma connect_entry ls h np data ep h1 : connect dist so ls h np data ep = Ok h1 -> entry_point h1 = entry_point h.
Proof.
  revert h ep. induction ls as [|l ls IH]; intros h ep H; cbn [connect] in H; [by injection H as <-|].
  apply bind_inv in H as (s & _ & H). apply bind_inv in H as ([h2 e2] & Hu & H). apply IH in H.
  unfold connect_use in Hu. apply bind_inv in Hu as (neg & _ & Hu). destruct (_ =? _)%nat.
  - injection Hu as <- _. done.
  - apply bind_inv in Hu as (nv & _ & Hu). cbv zeta in Hu. apply bind_inv in Hu as (h3 & Hu & E).
    apply upd_entry in Hu. injection E as <- _. congruence.
Qed.

Lemma rev_many_entry qs h np h1 : rev_many so h np qs = Ok h1 -> entry_point h1 = entry_point h.
Proof.
  revert h. induction qs as [|q qs IH]; intros h H; cbn [rev_many] in H; [by injection H as <-|].
  apply bind_inv in H as (h2 & Hu & H). apply IH in H. rewrite H. unfold rev_one in Hu.
  case_bool_decide; [by injection Hu as <-|]. by apply upd_entry in Hu.
Qed.
Lemma rev_layers_entry ls h np h1 : rev_layers so ls h np = Ok h1 -> entry_point h1 = entry_point h.
Proof.
  revert h. induction ls as [|l ls IH]; intros h H; cbn [rev_layers] in H; [by injection H as <-|].
  apply bind_inv in H as (pt & _ & H). apply bind_inv in H as (qs & _ & H). apply bind_inv in H as (h2 & Hu & H).
  apply IH in H. apply rev_many_entry in Hu. congruence.
Qed.

Lemma check_entry_mono h np : entry_mono h (check_entry_point h np).
Proof.
  intros ep E. unfold check_entry_point. rewrite E. destruct (Nat.ltb_spec ep.1 np.1); [|eauto].
  exists np. split; [done|lia].
Qed.

Lemma same_entry_mono h h' : entry_point h' = entry_point h -> entry_mono h h'.
Proof. intros E ep He. exists ep. split; [congruence|done]. Qed.

Lemma insert_entry_mono h v id d h' : insert_slice dist so h v id d = Ok h' -> entry_mono h h'.
Proof.
  unfold insert_slice. intros H. apply bind_inv in H as ([[h0 np] r] & Hg & H). apply generate_entry in Hg.
  eapply entry_mono_trans; [by apply same_entry_mono|]. clear Hg.
  destruct (entry_point h0) as [ep|] eqn:E0.
  - destruct (_ =? _)%nat; [injection H as <-; apply entry_mono_refl|]. apply bind_inv in H as (pt & _ & H). cbv zeta in H.
    apply bind_inv in H as ([h1 e1] & H1 & H). apply descend_entry in H1.
    apply bind_inv in H as (h2 & H2 & H). apply connect_entry in H2.
    apply bind_inv in H as (h3 & H3 & H). apply rev_layers_entry in H3. injection H as <-.
    eapply entry_mono_trans; [|apply check_entry_mono]. apply same_entry_mono. congruence.
  - injection H as <-. intros ep E. congruence.
Qed.

(** what is kept *)
Definition keeps h h' : Prop := grows h h' /\ entry_mono h h'.
Lemma keeps_refl h : keeps h h.
Proof. split; [apply grows_refl|apply entry_mono_refl]. Qed.
Lemma keeps_trans h1 h2 h3 : keeps h1 h2 -> keeps h2 h3 -> keeps h1 h3.
Proof. intros [] []. split; [by eapply grows_trans|by eapply entry_mono_trans]. Qed.
Lemma keeps_meta h h' : max_nb_connection h' = max_nb_connection h -> points_by_layer h' = points_by_layer h -> entry_point h' = entry_point h -> keeps h h'.
Proof.
  intros E1 E2 E3. split; [split; [done|]|by apply same_entry_mono]. intros p s. unfold static, get_pt. by rewrite E2.
Qed.

Context (LAWS : StdLaws so) (Hnn : forall a b : list T, (0 <= dist a b)%Z).

Lemma during_keeps h ts c : lwf dist h -> (0 < max_layer h)%nat -> Forall (may_run h) ts -> during dist so h ts c ->
  keeps h (c_sh c) /\ core dist (c_sh c).
Proof using LAWS Hnn.
  intros Hwf Hml Hok Hd. destruct (glob_reach dist so LAWS Hnn h ts Hwf Hml Hok c Hd) as [phs G]. split; [split|].
  - apply (g_grows _ _ _ _ _ G).
  - apply (g_entry _ _ _ _ _ G).
  - apply (g_inv _ _ _ _ _ G).
Qed.

Lemma during_c_keeps d h ts c : (forall a b z, d a b = Ok z -> z = dist a b) ->
  lwf dist h -> (0 < max_layer h)%nat -> Forall (may_run h) ts -> during_c d so h ts c -> keeps h (c_sh c) /\ core dist (c_sh c).
Proof using LAWS Hnn.
  intros Hd Hwf Hml Hok Hc. destruct (both_reach dist d so LAWS Hnn Hd h ts Hwf Hml Hok c Hc) as (g & xs & B).
  rewrite <- (y_sh _ _ _ _ _ _ _ _ B). apply (during_keeps h ts); auto. apply (y_reach _ _ _ _ _ _ _ _ B).
Qed.

Lemma lives_facts inv_ln M ml ef hist0 h0 h : used dist so inv_ln M ml ef hist0 h0 -> lives dist so inv_ln M ml h0 h ->
  keeps h0 h /\ exists hist, used dist so inv_ln M ml ef hist h /\ hist0 ⊆+ hist.
Proof using LAWS Hnn.
  intros Hu0. induction 1 as [|h v id d h' _ [IH1 (hist & Hu & Hs)] Hi|h v id dr d h' _ [IH1 (hist & Hu & Hs)] Hd Hl
    |h b _ [IH1 (hist & Hu & Hs)]|h b _ [IH1 (hist & Hu & Hs)]|h b _ [IH1 (hist & Hu & Hs)]|h m _ [IH1 (hist & Hu & Hs)]
    |h ts rs h' _ [IH1 (hist & Hu & Hs)] Hml Hok Ha|h ts d outs h' _ [IH1 (hist & Hu & Hs)] Hml Hok Hd Ha
    |h ts c i d el dname dname' cwd fs io h' mapped _ [IH1 (hist & Hu & Hs)] Hne Hok Hdu Ht Hret Hry Hun HM Hnd Hat Ho Hld].
  - split; [apply keeps_refl|]. by exists hist0.
  - destruct (used_facts dist so LAWS Hnn _ _ _ _ _ _ Hu) as (Hwf & _). split.
    + eapply keeps_trans; [exact IH1|]. split; [|by eapply insert_entry_mono].
      destruct (insert_lspec dist so LAWS Hnn h v id d Hwf (insert_max_layer dist so Hnn _ _ _ _ _ Hi)) as (h2 & np & Hi2 & _ & Hgr & _).
      rewrite Hi in Hi2. by injection Hi2 as <-.
    + exists (hist ++ [(v, id)]). split; [by eapply used_insert|]. by apply submseteq_inserts_r.
  - destruct (used_facts dist so LAWS Hnn _ _ _ _ _ _ Hu) as (Hwf & _). split.
    + eapply keeps_trans; [exact IH1|].
      destruct (insert_calls dist so LAWS Hnn h v id dr Hwf (insert_left_layer so d h v id dr h' Hl)) as [Hsf _].
      destruct (safe_left dist _ d _ h' Hsf Hd Hl) as (a & b & (_ & Hgr & _ & _ & _ & _ & _ & _ & _ & _ & _ & He & _) & _).
      split; [done|by apply same_entry_mono].
    + exists (hist ++ [(v, id)]). split; [by eapply used_panic|]. by apply submseteq_inserts_r.
  - split; [eapply keeps_trans; [exact IH1|by apply keeps_meta]|]. exists hist. split; [by apply used_extend|done].
  - split; [eapply keeps_trans; [exact IH1|by apply keeps_meta]|]. exists hist. split; [by apply used_keep|done].
  - split; [eapply keeps_trans; [exact IH1|by apply keeps_meta]|]. exists hist. split; [by apply used_search|done].
  - split; [eapply keeps_trans; [exact IH1|by apply keeps_meta]|]. exists hist. split; [by apply used_scale|done].
  - destruct (used_facts dist so LAWS Hnn _ _ _ _ _ _ Hu) as (Hwf & Eml & _). split.
    + eapply keeps_trans; [exact IH1|]. destruct Ha as (c & Hc & Hf & <-). apply (during_keeps h ts); auto. rewrite Eml. lia.
    + exists (hist ++ inserts ts). split; [by eapply used_parallel|]. by apply submseteq_inserts_r.
  - destruct (used_facts dist so LAWS Hnn _ _ _ _ _ _ Hu) as (Hwf & Eml & _). split.
    + eapply keeps_trans; [exact IH1|]. destruct Ha as (c & Hc & Hf & <-). apply (during_c_keeps d h ts); auto. rewrite Eml. lia.
    + exists (hist ++ inserts ts). split; [by eapply used_panic_parallel|]. by apply submseteq_inserts_r.
  - destruct (used_facts dist so LAWS Hnn _ _ _ _ _ _ Hu) as (Hwf & Eml & EM & Eef & Hst & Hnb).
    assert (Hhist : hist <> []). { intros ->. apply Hne. exact Hnb. }
    assert (Hu' : used dist so inv_ln M ml ef (dumped_contents d) h').
    { exact (used_reload dist so inv_ln M ml ef hist h ts c i d el dname dname' cwd fs io h' mapped
        Hu Hhist Hok Hdu Ht Hret Hry Hun HM Hnd Hat Ho Hld). }
    assert (Hpos : (0 < nb_point h)%nat) by (unfold get_nb_point in Hne; lia).
    assert (Hl : max_layer h = NB_LAYER_MAX) by (rewrite Eml; destruct Hry; unfold NB_LAYER_MAX; lia).
    assert (Hml : (0 < max_layer h)%nat) by (rewrite Hl; unfold NB_LAYER_MAX; lia).
    split.
    + eapply keeps_trans; [exact IH1|].
      destruct (used_facts dist so LAWS Hnn _ _ _ _ _ _ Hu') as (Hwf' & _).
      destruct (during_reload dist so LAWS Hnn h ts Hwf Hml Hok c Hdu i d Ht Hret el dname ml Hpos Eml Hry Hun Hnd cwd fs io inv_ln Hat Ho
        dname' h' mapped Hld) as (ep & dmo & Ec & Hep & ->).
      pose proof (during_dumpable dist so LAWS Hnn h ts Hwf Hml Hok c Hdu i d Ht Hret el dname ml Hpos Eml Hry Hun) as Hdm.
      destruct (reloaded_wf dist so LAWS Hnn _ inv_ln ep dmo (du_wf _ _ _ Hdm) (du_layers _ _ _ Hdm)) as (_ & W2 & _ & _); [cbn; lia|done|].
      destruct (during_snap dist so LAWS Hnn h ts Hwf Hml Hok c Hdu i d Ht Hret) as (Hsn & Hpar & Hcore).
      destruct (during_keeps h ts c Hwf Hml Hok Hdu) as [[Hgr _] _].
      split.
      * eapply grows_trans; [|exact W2]. split; [done|]. intros p s Hp.
        assert (Hv : valid h p) by (by eapply static_valid).
        destruct (sn_old _ _ _ _ _ Hsn p Hv) as [x Hx]. destruct (sn_pt _ _ _ _ _ Hsn _ _ Hx) as (Ex & Hsx & _).
        pose proof (static_grows _ _ _ _ Hgr Hp) as Hp'. rewrite Hsx in Hp'. injection Hp' as <-.
        unfold static. rewrite (snap_get h d _ p), Hx. cbn. by rewrite Ex.
      * intros e0 He0.
        destruct (reload_pieces dist so LAWS Hnn h ts Hwf Hml Hok c Hdu i d Ht Hret inv_ln ep dmo Hep (l_core _ _ Hwf')) as [_ Hpe].
        destruct (Hpe ep eq_refl) as (c' & Hc' & Hec').
        destruct (during_keeps h ts c' Hwf Hml Hok Hc') as [[_ Hm] _]. destruct (Hm e0 He0) as (e1 & He1 & Hle).
        exists ep. split; [done|]. congruence.
    + exists (dumped_contents d). split; [done|]. etrans; [exact Hs|].
      destruct (during_contents dist so LAWS Hnn h ts Hwf Hml Hok c Hdu i d Ht Hret) as [C1 _]. by rewrite Hst in C1.
Qed.

Lemma keeps_vector h h' p v : keeps h h' -> vector_at h p v -> vector_at h' p v.
Proof.
  clear LAWS Hnn. intros [[_ Hg] He]. unfold vector_at, get_point_data. destruct (_ <? 0)%Z; [done|]. rewrite Nat2Z.id.
  assert (Hlt : forall h0 : hnsw (T:=T), (p.2 <? get_layer_nb_point h0 p.1)%nat = true <-> exists pt, get_pt h0 p = Some pt).
  { intros h0. rewrite Nat.ltb_lt. unfold get_layer_nb_point. split.
    - destruct (points_by_layer h0 !! p.1) as [ly|] eqn:E; [|lia]. intros [pt Hpt]%lookup_lt_is_Some_2. exists pt. apply get_pt_lookup. eauto.
    - intros (pt & (ly & -> & Hy)%get_pt_lookup). by apply lookup_lt_Some in Hy. }
  destruct ((p.1 <=? get_max_level_observed h)%nat && (p.2 <? get_layer_nb_point h p.1)%nat) eqn:E; [|done].
  apply andb_true_iff in E as [E1 E2]. apply Hlt in E2 as [pt Hpt]. intros H.
  pose proof Hpt as (ly & Hly & Hs)%get_pt_lookup. rewrite Hly in H. cbn [unwrap] in H. rewrite bind_Ok, Hs in H. cbn [unwrap] in H. rewrite bind_Ok in H.
  injection H as <-.
  assert (Hst : static h' p = Some (pt_data pt, pt_oid pt, pt_pid pt)) by (apply Hg; unfold static; by rewrite Hpt).
  unfold static in Hst. destruct (get_pt h' p) as [pt'|] eqn:Hpt'; [|done]. injection Hst as Ed _ _.
  replace ((p.1 <=? get_max_level_observed h')%nat) with true.
  2:{ symmetry. apply Nat.leb_le in E1. apply Nat.leb_le. unfold get_max_level_observed in *. destruct (entry_point h) as [ep|] eqn:Eh; [|lia].
      destruct (He ep Eh) as (ep' & -> & ?). lia. }
  replace ((p.2 <? get_layer_nb_point h' p.1)%nat) with true by (symmetry; apply Hlt; eauto).
  pose proof Hpt' as (ly' & -> & Hs')%get_pt_lookup. cbn [andb unwrap]. rewrite bind_Ok, Hs'. cbn [unwrap]. by rewrite bind_Ok, Ed.
Qed.
End Entry.
