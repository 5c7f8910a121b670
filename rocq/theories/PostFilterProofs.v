(** A search without a filter against one with a filter, with ef1 <= ef2: the second visits all that the first visits, when no two points
    are at the same distance from the query. *)
From Verif Require Import Prelude Model Lib Table SearchProofs InsertProofs QueryProofs MonoProofs MonoFilterProofs.

Section Two.
Context {T : Type} (dist : list T -> list T -> Z) (so1 so2 : StdOps).
Context (LAWS1 : StdLaws so1) (LAWS2 : StdLaws so2) (Hnn : forall a b, (0 <= dist a b)%Z).
Context (h : hnsw (T:=T)) (q : list T) (flt : dataid -> bool) (ef1 ef2 layer : nat) (ep : pid) (d0 : Z).
Local Notation all := (fun _ : pid => True).
Context (Hlinks : links_ok h layer all).
Context (H1 : (1 <= ef1)%nat) (Hef : (ef1 <= ef2)%nat).
Context (Hdiff : forall p p' pt pt', get_pt h p = Some pt -> get_pt h p' = Some pt' ->
  dist q (pt_data pt) = dist q (pt_data pt') -> p = p').
Local Notation sinv1 := (sinv dist so1 h q ef1 None all ep d0).
Local Notation sinv2 := (sinv dist so2 h q ef2 (Some flt) all ep d0).
Local Notation binv1 := (binv dist so1 h q ef1).
Local Notation finv2 := (finv dist so2 h q flt ef2 ep d0).
Local Notation ret1 s := (h_iter so1 (s_ret so1 s)).
Local Notation ret2 s := (h_iter so2 (s_ret so2 s)).
Local Notation okp := (okp h flt).

Lemma HH2 : (1 <= ef2)%nat. Proof using H1 Hef. clear - H1 Hef. lia. Qed.

Lemma in_ret so ef fo s x : sinv dist so h q ef fo all ep d0 s -> x ∈ h_iter so (s_ret so s) ->
  exists pt, get_pt h (n_pid x) = Some pt /\ x = Nbr (n_pid x) (dist q (pt_data pt)) /\ n_pid x ∈ s_vis so s.
Proof using Type.
  clear. intros Hi Hx. pose proof (i_ret _ _ _ _ _ _ _ _ _ _ Hi) as H. rewrite Forall_forall in H.
  destruct (H x Hx) as (pt & E & Hd). exists pt. split; [done|]. split; [destruct x; cbn in *; by subst|].
  by apply (i_ret_vis _ _ _ _ _ _ _ _ _ _ Hi).
Qed.

(** two entries for the same point are the same entry *)
Lemma same_entry so ef fo s so' ef' fo' s' x : sinv dist so h q ef fo all ep d0 s -> sinv dist so' h q ef' fo' all ep d0 s' ->
  x ∈ h_iter so (s_ret so s) -> n_pid x ∈ n_pid <$> h_iter so' (s_ret so' s') -> x ∈ h_iter so' (s_ret so' s').
Proof using Type.
  clear. intros Hi Hi' Hx (y & Hxy & Hy)%elem_of_list_fmap.
  destruct (in_ret _ _ _ _ _ Hi Hx) as (pt & E & Hd & _). destruct (in_ret _ _ _ _ _ Hi' Hy) as (pt' & E' & Hd' & _).
  rewrite <- Hxy in E', Hd'. assert (pt' = pt) as -> by congruence. rewrite Hd, <- Hd'. done.
Qed.

(** the points the filter takes *)
#[local] Instance okp_decision p : Decision (okp p) := okp_dec h flt p.
Definition passing (l : list nbr) : list nbr := filter (fun x => okp (n_pid x)) l.
Lemma elem_of_passing x l : x ∈ passing l <-> x ∈ l /\ okp (n_pid x).
Proof using Type. clear. unfold passing. rewrite elem_of_list_filter. naive_solver. Qed.

Lemma passing_le s1 s2 t : sinv1 s1 -> binv1 s1 -> sinv2 s2 -> finv2 s2 -> (forall p, p ∈ s_vis so1 s1 -> p ∈ s_vis so2 s2) -> ep ∈ s_vis so1 s1 ->
  (within t (passing (ret1 s1)) <= within t (passing (ret2 s2)))%nat.
Proof using Hef H1 Hdiff.
  clear LAWS1 LAWS2 Hnn Hlinks. intros Hi1 Hb1 Hi2 Hf2 Hsub Hep.
  assert (Hkey : (forall x, x ∈ ret1 s1 -> okp (n_pid x) -> (n_dist x <= t)%Z -> x ∈ ret2 s2) -> (within t (passing (ret1 s1)) <= within t (passing (ret2 s2)))%nat).
  { intros H. unfold within. apply submseteq_length. apply NoDup_submseteq.
    - do 2 apply NoDup_filter. apply (NoDup_fmap_1 n_pid). apply Hi1.
    - intros x [Hx [Hin Ho]%elem_of_passing]%elem_of_list_filter. apply elem_of_list_filter. split; [done|]. apply elem_of_passing. split; [by apply H|done]. }
  destruct Hf2 as [(A2 & B2 & C2)|(A2 & B2 & C2 & D2)].
  { apply Hkey. intros x Hx Ho _. exfalso. destruct (in_ret _ _ _ _ _ Hi1 Hx) as (pt & Eg & Ed & Hv).
    destruct (C2 (n_pid x) pt (Hsub _ Hv) Ho Eg) as [Hge ->].
    assert (Hie : Nbr ep d0 ∈ ret2 s2) by (rewrite A2; left). destruct (in_ret _ _ _ _ _ Hi2 Hie) as (ept & Ee & Ede & _). cbn in Ee, Ede.
    injection Ede as Ede. assert (n_pid x <> ep) by (intros E; rewrite E in Ho; done).
    assert (Hne : ep ∉ n_pid <$> ret1 s1).
    { intros He. pose proof (i_len _ _ _ _ _ _ _ _ _ _ Hi1) as Hl. assert (ef1 = 1%nat) as E by lia. rewrite E in Hl. unfold h_len in Hl.
      destruct (ret1 s1) as [|y [|z l]]; [by apply elem_of_nil in Hx| |cbn in Hl; lia].
      apply elem_of_list_singleton in Hx as ->. apply elem_of_list_singleton in He. congruence. }
    pose proof (b_best _ _ _ _ _ _ Hb1 ep ept x Hep Hne Ee Hx) as Hle. rewrite Ed in Hle. cbn in Hle.
    assert (n_pid x = ep); [|done]. eapply Hdiff; eauto. lia. }
  assert (Hp2 : passing (ret2 s2) = ret2 s2).
  { unfold passing. clear -A2. induction (ret2 s2) as [|x l IH]; [done|]. rewrite filter_cons_True by (apply A2; left). f_equal. apply IH. intros y Hy. apply A2. by right. }
  destruct (decide (Forall (fun x => (n_dist x <= t)%Z) (ret2 s2))) as [Hall|Hnall].
  - destruct B2 as [E|E].
    + apply Hkey. intros x Hx Ho _. apply (same_entry _ _ _ _ _ _ _ _ _ Hi1 Hi2 Hx). apply E; [|done].
      apply Hsub. by apply (i_ret_vis _ _ _ _ _ _ _ _ _ _ Hi1).
    + rewrite Hp2. rewrite (within_all t (ret2 s2)) by done. etransitivity; [apply within_le|].
      pose proof (i_len _ _ _ _ _ _ _ _ _ _ Hi1). unfold h_len in *. unfold passing. etransitivity; [apply filter_length|]. lia.
  - apply Hkey. intros x Hx Ho Ht. apply (same_entry _ _ _ _ _ _ _ _ _ Hi1 Hi2 Hx).
    destruct (decide (n_pid x ∈ n_pid <$> ret2 s2)) as [|Hn]; [done|exfalso]. apply Hnall. apply Forall_forall. intros z Hz.
    destruct (in_ret _ _ _ _ _ Hi1 Hx) as (pt & E & Hd & Hv).
    pose proof (C2 (n_pid x) pt z (Hsub _ Hv) Ho Hn E Hz) as H. rewrite Hd in Ht. cbn in Ht. lia.
Qed.

(** with the same points visited: when the second is full so is the first, and no worse *)
Lemma full_first s1 s2 : sinv1 s1 -> binv1 s1 -> sinv2 s2 -> finv2 s2 -> s_vis so1 s1 = s_vis so2 s2 ->
  h_len so2 (s_ret so2 s2) = ef2 -> h_len so1 (s_ret so1 s1) = ef1.
Proof using Hef H1.
  clear LAWS1 LAWS2 Hnn Hlinks Hdiff. intros Hi1 Hb1 Hi2 Hf2 Hv Hfull.
  pose proof (i_len _ _ _ _ _ _ _ _ _ _ Hi1) as Hl1.
  destruct (b_full _ _ _ _ _ _ Hb1) as [E|E]; [|lia].
  assert (Hs : n_pid <$> ret2 s2 ⊆+ s_vis so1 s1).
  { apply NoDup_submseteq; [apply Hi2|]. intros p (x & -> & Hx)%elem_of_list_fmap. rewrite Hv. by apply (i_ret_vis _ _ _ _ _ _ _ _ _ _ Hi2). }
  apply submseteq_length in Hs. rewrite fmap_length in Hs. unfold h_len in *. lia.
Qed.

Lemma worst_first s1 s2 x1 : sinv1 s1 -> binv1 s1 -> sinv2 s2 -> finv2 s2 -> s_vis so1 s1 = s_vis so2 s2 ->
  h_len so2 (s_ret so2 s2) = ef2 -> x1 ∈ ret1 s1 -> exists x2, x2 ∈ ret2 s2 /\ (n_dist x1 <= n_dist x2)%Z.
Proof using Hef H1.
  clear LAWS1 LAWS2 Hnn Hlinks Hdiff. intros Hi1 Hb1 Hi2 Hf2 Hv Hfull Hx1.
  destruct (decide (Exists (fun x2 => (n_dist x1 <= n_dist x2)%Z) (ret2 s2))) as [Hex|Hno].
  { apply Exists_exists in Hex as (x2 & ? & ?). eauto. }
  exfalso. apply not_Exists_Forall in Hno; [|apply _]. rewrite Forall_forall in Hno. cbn beta in Hno.
  assert (Hn1 : n_pid x1 ∉ n_pid <$> ret2 s2).
  { intros H. apply (Hno x1); [|lia]. by apply (same_entry _ _ _ _ _ _ _ _ _ Hi1 Hi2 Hx1). }
  assert (Hsub : n_pid x1 :: (n_pid <$> ret2 s2) ⊆+ n_pid <$> ret1 s1).
  { apply NoDup_submseteq; [apply NoDup_cons; split; [done|apply Hi2]|].
    intros p [->|(x2 & -> & Hx2)%elem_of_list_fmap]%elem_of_cons; [by apply elem_of_list_fmap_1|].
    destruct (decide (n_pid x2 ∈ n_pid <$> ret1 s1)) as [|Hn]; [done|exfalso].
    destruct (in_ret _ _ _ _ _ Hi2 Hx2) as (pt & E & Hd & Hvis). rewrite <- Hv in Hvis.
    pose proof (b_best _ _ _ _ _ _ Hb1 (n_pid x2) pt x1 Hvis Hn E Hx1) as Hle. apply (Hno x2 Hx2). rewrite Hd. exact Hle. }
  apply submseteq_length in Hsub. cbn in Hsub. rewrite !fmap_length in Hsub.
  pose proof (i_len _ _ _ _ _ _ _ _ _ _ Hi1) as Hl1. unfold h_len in *. lia.
Qed.

Record prel (s1 : sst so1) (s2 : sst so2) (extra : list nbr) : Prop := {
  p_i1 : sinv1 s1; p_b1 : binv1 s1; p_i2 : sinv2 s2; p_b2 : finv2 s2;
  p_vis : s_vis so1 s1 = s_vis so2 s2;
  p_cand : h_iter so2 (s_cand so2 s2) ≡ₚ h_iter so1 (s_cand so1 s1) ++ extra;
  p_extra : forall y, y ∈ extra -> h_len so1 (s_ret so1 s1) = ef1 /\ forall x, x ∈ ret1 s1 -> (n_dist x <= - n_dist y)%Z;
  p_ep : ep ∈ s_vis so1 s1
}.

Lemma accept_first s1 s2 extra f1 f2 d : prel s1 s2 extra -> h_peek so1 (s_ret so1 s1) = Some f1 -> h_peek so2 (s_ret so2 s2) = Some f2 ->
  (d <? n_dist f1)%Z || (h_len so1 (s_ret so1 s1) <? ef1)%nat = true -> (d <? n_dist f2)%Z || (h_len so2 (s_ret so2 s2) <? ef2)%nat = true.
Proof using LAWS1 LAWS2 Hef H1.
  clear Hnn Hlinks Hdiff. intros [Hi1 Hb1 Hi2 Hb2 Hv _ _ _] Hf1 Hf2 Ha.
  pose proof (len_pos dist so2 h q flt ef2 ep d0 HH2 s2 Hi2) as Hl2.
  destruct (decide (h_len so2 (s_ret so2 s2) = ef2)) as [Hfull|Hn].
  2: { apply orb_true_iff. right. apply Nat.ltb_lt. lia. }
  pose proof (full_first s1 s2 Hi1 Hb1 Hi2 Hb2 Hv Hfull) as Hfull1.
  apply orb_true_iff. apply orb_true_iff in Ha as [Ha|Ha]; [|apply Nat.ltb_lt in Ha; lia].
  left. destruct (h_peek_some so1 LAWS1 _ _ Hf1) as [Hin1 _]. destruct (h_peek_some so2 LAWS2 _ _ Hf2) as [Hin2 Hm2].
  rewrite Forall_forall in Hm2. destruct (worst_first s1 s2 f1 Hi1 Hb1 Hi2 Hb2 Hv Hfull Hin1) as (x2 & Hx2 & Hle).
  pose proof (Hm2 x2 Hx2). lia.
Qed.

Lemma scan_both nbs : forall s1 s2 extra s1' s2', prel s1 s2 extra -> (forall n, n ∈ nbs -> valid h (n_pid n)) ->
  scan_neighbours dist so1 h q ef1 None nbs s1 = Ok (false, s1') ->
  scan_neighbours dist so2 h q ef2 (Some flt) nbs s2 = Ok (false, s2') -> exists extra', prel s1' s2' extra'.
Proof using LAWS1 LAWS2 Hnn Hef H1.
  clear Hlinks Hdiff. induction nbs as [|e nbs IH]; intros s1 s2 extra s1' s2' Hr Hv E1 E2; cbn [scan_neighbours] in E1, E2.
  - injection E1 as <-. injection E2 as <-. by exists extra.
  - assert (Hv' : forall n, n ∈ nbs -> valid h (n_pid n)) by (intros n Hn; apply Hv; by right).
    pose proof Hr as [Hi1 Hb1 Hi2 Hb2 Hvs Hc Hx Hep].
    destruct (decide (n_pid e ∈ s_vis so1 s1)) as [Hvis1|Hvis1].
    { rewrite bool_decide_eq_true_2 in E1 by done. rewrite bool_decide_eq_true_2 in E2 by (by rewrite <- Hvs).
      by apply (IH s1 s2 extra). }
    assert (Hvis2 : n_pid e ∉ s_vis so2 s2) by (by rewrite <- Hvs).
    rewrite bool_decide_eq_false_2 in E1, E2 by done.
    destruct (h_peek_nonempty so1 LAWS1 (s_ret so1 s1)) as [f1 Hf1]; [apply Hi1|]. rewrite Hf1 in E1.
    destruct (h_peek_nonempty so2 LAWS2 (s_ret so2 s2)) as [f2 Hf2]; [apply Hi2|]. rewrite Hf2 in E2.
    destruct (Hv e) as [ept Hept]; [left|]. rewrite Hept in E1, E2.
    change (unwrap (Some ept)) with (Ok ept) in E1, E2. rewrite ?bind_Ok in E1; rewrite ?bind_Ok in E2. cbn zeta in E1, E2.
    pose proof (accept_first s1 s2 extra f1 f2 (dist q (pt_data ept)) Hr Hf1 Hf2) as Hacc.
    pose proof (MonoProofs.step_accept dist so1 LAWS1 h q ef1 ep d0 s1 (n_pid e) ept f1 Hi1 Hb1 Hvis1 Hept Hf1) as HA1.
    pose proof (MonoProofs.step_skip dist so1 LAWS1 h q ef1 ep d0 s1 (n_pid e) ept f1 Hi1 Hb1 Hvis1 Hept Hf1) as HS1.
    pose proof (fun r0 => step_accept dist so2 LAWS2 h q flt ef2 ep d0 HH2 s2 (n_pid e) ept f2 r0 Hi2 Hb2 Hvis2 Hept Hf2) as HA2.
    pose proof (step_skip dist so2 LAWS2 h q flt ef2 ep d0 HH2 s2 (n_pid e) ept f2 Hi2 Hb2 Hvis2 Hept Hf2) as HS2.
    cbn [push_ret] in E1. rewrite ?bind_Ok in E1.
    pose proof (push_inv dist so1 LAWS1 Hnn h q ef1 None all ep d0 (or_introl eq_refl) s1 (n_pid e) ept _ Hi1 Hept I Hvis1 eq_refl) as Hp1.
    pose proof (fun r0 => push_inv dist so2 LAWS2 Hnn h q ef2 (Some flt) all ep d0 (or_intror HH2) s2 (n_pid e) ept r0 Hi2 Hept I Hvis2) as Hp2.
    assert (Hk1 : sinv1 (SST so1 (s_ret so1 s1) (s_cand so1 s1) (n_pid e :: s_vis so1 s1))).
    { apply skip_inv; auto. by exists ept. }
    assert (Hk2 : sinv2 (SST so2 (s_ret so2 s2) (s_cand so2 s2) (n_pid e :: s_vis so2 s2))).
    { apply skip_inv; auto. by exists ept. }
    set (d := dist q (pt_data ept)) in *.
    set (t1 := (d <? n_dist f1)%Z || (h_len so1 (s_ret so1 s1) <? ef1)%nat) in *.
    set (t2 := (d <? n_dist f2)%Z || (h_len so2 (s_ret so2 s2) <? ef2)%nat) in *.
    replace (Nat.max 1 ef1) with ef1 in HA1, HS1 by (clear - H1; lia).
    destruct t1.
    + rewrite (Hacc eq_refl) in E2, HA2. apply bind_inv in E2 as (r2 & Er2 & E2).
      specialize (HA1 eq_refl) as [HA1 HA1']. specialize (HA2 r2 eq_refl Er2) as [HA2 _]. specialize (Hp2 r2 Er2).
      refine (IH _ _ extra _ _ _ Hv' E1 E2). split; auto.
      * cbn. by rewrite Hvs.
      * cbn [s_cand]. rewrite (law_push _ LAWS1), (law_push _ LAWS2), Hc. done.
      * cbn [s_ret]. intros y Hy. destruct (Hx y Hy) as [Hfull Hb]. destruct (HA1' Hfull) as [? Hb']. split; [done|].
        by apply Hb'.
      * cbn [s_vis]. by right.
    + specialize (HS1 eq_refl) as (HS1 & Hfull & Hbd). destruct t2.
      * apply bind_inv in E2 as (r2 & Er2 & E2). specialize (HA2 r2 eq_refl Er2) as [HA2 _]. specialize (Hp2 r2 Er2).
        refine (IH _ _ (Nbr (n_pid e) (- d) :: extra) _ _ _ Hv' E1 E2). split; auto.
        -- cbn. by rewrite Hvs.
        -- cbn [s_cand]. rewrite (law_push _ LAWS2), Hc. apply Permutation_middle.
        -- cbn [s_ret]. intros y [->|Hy]%elem_of_cons; [|by apply Hx]. split; [done|]. intros x Hx'. cbn.
           rewrite Z.opp_involutive. by apply Hbd.
        -- cbn [s_vis]. by right.
      * specialize (HS2 eq_refl) as (HS2 & _ & _).
        refine (IH _ _ extra _ _ _ Hv' E1 E2). split; auto; [cbn; by rewrite Hvs|]. cbn [s_vis]. by right.
Qed.

Lemma loop_both fuel1 : forall fuel2 s1 s2 extra r1 r2 t, prel s1 s2 extra ->
  search_loop dist so1 fuel1 h q ef1 layer None s1 = Ok r1 -> search_loop dist so2 fuel2 h q ef2 layer (Some flt) s2 = Ok r2 ->
  (within t (passing (h_iter so1 r1)) <= within t (passing (h_iter so2 r2)))%nat.
Proof using LAWS1 LAWS2 Hnn Hlinks Hef H1 Hdiff.
  induction fuel1 as [|fuel1 IH]; intros fuel2 s1 s2 extra r1 r2 t Hr E1 E2; [done|].
  pose proof Hr as [Hi1 Hb1 Hi2 Hb2 Hvs Hc Hx Hep].
  cbn [search_loop] in E1. apply bind_inv in E1 as (u1 & E1 & E1').
  destruct (MonoProofs.iter_inv dist so1 LAWS1 Hnn h q ef1 layer ep d0 Hlinks s1 u1 Hi1 E1)
    as [[-> _]|(c1 & k1 & f1 & cpt & nbs & s1' & -> & Hpop1 & Hf1 & Hle1 & Hc1 & Hn & Hval & Hi1' & Hs1)].
  - injection E1' as <-. destruct (loop_one dist so2 LAWS2 Hnn h q flt ef2 layer ep d0 HH2 Hlinks fuel2 s2 r2 Hi2 Hb2 E2) as (s2' & A & B & -> & D).
    apply (passing_le s1 s2' t); auto. intros p Hp. apply D. by rewrite <- Hvs.
  - destruct fuel2 as [|fuel2]; [done|]. cbn [search_loop] in E2. apply bind_inv in E2 as (u2 & E2 & E2').
    destruct (law_pop_some _ LAWS1 _ _ _ Hpop1) as [Hp1 Hm1]. rewrite Forall_forall in Hm1.
    destruct (h_peek_some so1 LAWS1 _ _ Hf1) as [Hfin1 Hfm1].
    assert (Hc12 : forall c2 k2, h_pop so2 (s_cand so2 s2) = Some (c2, k2) -> c2 = c1 /\ h_iter so2 k2 ≡ₚ h_iter so1 k1 ++ extra).
    { intros c2 k2 Hpop2. destruct (law_pop_some _ LAWS2 _ _ _ Hpop2) as [Hp2 Hm2]. rewrite Forall_forall in Hm2.
      pose proof (i_cand _ _ _ _ _ _ _ _ _ _ Hi2) as Hco. rewrite Forall_forall in Hco.
      assert (Hin1 : c1 ∈ h_iter so2 (s_cand so2 s2)). { rewrite Hc, Hp1. left. }
      assert (Hin2 : c2 ∈ h_iter so2 (s_cand so2 s2)). { rewrite Hp2. left. }
      assert (Hge : (n_dist c1 <= n_dist c2)%Z).
      { rewrite Hp2 in Hin1. apply elem_of_cons in Hin1 as [->|Hin1]; [lia|]. by apply Hm2. }
      assert (c2 = c1) as ->.
      { symmetry. apply (cand_same dist h q Hdiff); [apply (Hco c1 Hin1)|apply (Hco c2 Hin2)|].
        rewrite Hc, Hp1 in Hin2. cbn in Hin2. apply elem_of_cons in Hin2 as [->|Hin2]; [done|].
        apply elem_of_app in Hin2 as [Hin2|Hin2].
        - pose proof (Hm1 c2 Hin2). lia.
        - destruct (Hx c2 Hin2) as [_ Hb]. pose proof (Hb f1 Hfin1). lia. }
      split; [done|]. rewrite Hp2, Hp1 in Hc. cbn in Hc. by apply Permutation_cons_inv in Hc. }
    destruct (iter_inv dist so2 LAWS2 Hnn h q flt ef2 layer ep d0 HH2 Hlinks s2 u2 Hi2 E2)
      as [[-> [Hnone|(c2 & k2 & f2 & Hpop2 & Hf2 & Hlt & Hfull2)]]|(c2 & k2 & f2 & cpt2 & nbs2 & s2' & -> & Hpop2 & Hf2 & Hle2 & Hc2 & Hn2 & _ & Hi2' & Hs2)].
    + exfalso. apply (law_pop_none _ LAWS2) in Hnone. rewrite Hnone, Hp1 in Hc. apply Permutation_nil in Hc. done.
    + exfalso. destruct (Hc12 _ _ Hpop2) as [-> _]. destruct (h_peek_some so2 LAWS2 _ _ Hf2) as [_ Hm2].
      rewrite Forall_forall in Hm2.
      destruct (worst_first s1 s2 f1 Hi1 Hb1 Hi2 Hb2 Hvs Hfull2 Hfin1) as (x2 & Hx2 & Hx2le).
      pose proof (Hm2 x2 Hx2). lia.
    + destruct (Hc12 _ _ Hpop2) as [-> Hk]. assert (cpt2 = cpt) as -> by congruence. assert (nbs2 = nbs) as -> by congruence.
      destruct (scan_both nbs (SST so1 (s_ret so1 s1) k1 (s_vis so1 s1)) (SST so2 (s_ret so2 s2) k2 (s_vis so2 s2)) extra s1' s2') as [extra' Hr']; auto.
      { split; auto; cbn; auto. destruct Hb1; split; done. }
      by apply (IH fuel2 s1' s2' extra' r1 r2 t Hr').
Qed.

End Two.

Lemma search_layer_post_filter {T} (dist : list T -> list T -> Z) so1 so2 (LAWS1 : StdLaws so1) (LAWS2 : StdLaws so2) (Hnn : forall a b, (0 <= dist a b)%Z)
    (h : hnsw (T:=T)) q flt ep ept ef1 ef2 layer ly r1 r2 t :
  points_by_layer h !! layer = Some ly -> ly <> [] -> get_pt h ep = Some ept -> links_ok h layer (fun _ => True) ->
  (1 <= ef1)%nat -> (ef1 <= ef2)%nat ->
  (forall p p' pt pt', get_pt h p = Some pt -> get_pt h p' = Some pt' -> dist q (pt_data pt) = dist q (pt_data pt') -> p = p') ->
  search_layer dist so1 h q ep ef1 layer None = Ok r1 -> search_layer dist so2 h q ep ef2 layer (Some flt) = Ok r2 ->
  (within t (passing h flt (h_iter so1 r1)) <= within t (passing h flt (h_iter so2 r2)))%nat.
Proof.
  intros Hly Hne Hg Hl H1 Hef Hdiff E1 E2. unfold search_layer in E1, E2. rewrite Hly in E1, E2. destruct ly as [|p0 ly]; [done|].
  destruct (search_init_inv dist so1 LAWS1 Hnn h q ef1 None (fun _ => True) ep ept Hg I) as (s1 & Es1 & Hi1 & _ & Hv1 & Hr1 & Hc1).
  destruct (search_init_inv dist so2 LAWS2 Hnn h q ef2 (Some flt) (fun _ => True) ep ept Hg I) as (s2 & Es2 & Hi2 & _ & Hv2 & Hr2 & Hc2).
  rewrite Es1, bind_Ok in E1. rewrite Es2, bind_Ok in E2.
  eapply (loop_both dist so1 so2 LAWS1 LAWS2 Hnn h q flt ef1 ef2 layer ep (dist q (pt_data ept)) Hl H1 Hef Hdiff _ _ s1 s2 []); eauto.
  split; auto.
  - by eapply init_binv.
  - by eapply init_finv.
  - congruence.
  - by rewrite Hc1, Hc2.
  - intros y Hy. by apply elem_of_nil in Hy.
  - rewrite Hv1. left.
Qed.
