(** Two searches of the same layer from the same point with ef1 <= ef2: the second visits all that the first visits, when no two
    points are at the same distance from the query. *)
From Verif Require Import Prelude Model Lib Table SearchProofs InsertProofs QueryProofs.

(** number of elements at distance at most t *)
Definition within (t : Z) (l : list nbr) : nat := length (filter (fun x => (n_dist x <= t)%Z) l).

Lemma within_perm t l l' : l ≡ₚ l' -> within t l = within t l'.
Proof. intros H. unfold within. by rewrite H. Qed.
Lemma within_le t l : (within t l <= length l)%nat.
Proof. apply filter_length. Qed.
Lemma within_all t l : Forall (fun x => (n_dist x <= t)%Z) l -> within t l = length l.
Proof.
  unfold within. induction 1 as [|x l Hx _ IH]; [done|]. rewrite filter_cons_True by done. cbn. by rewrite IH.
Qed.
Lemma within_none t l : Forall (fun x => (t < n_dist x)%Z) l -> within t l = 0.
Proof.
  unfold within. induction 1 as [|x l Hx _ IH]; [done|]. rewrite filter_cons_False by lia. done.
Qed.
Lemma within_app t l l' : within t (l ++ l') = (within t l + within t l')%nat.
Proof. unfold within. by rewrite filter_app, app_length. Qed.

Lemma sorted_within l1 l2 i x1 : sorted_by n_dist l1 -> sorted_by n_dist l2 -> (forall t, within t l1 <= within t l2)%nat ->
  l1 !! i = Some x1 -> exists x2, l2 !! i = Some x2 /\ (n_dist x2 <= n_dist x1)%Z.
Proof.
  intros S1 S2 Hw Hi. set (t := n_dist x1). specialize (Hw t).
  assert (H1 : (S i <= within t l1)%nat).
  { rewrite <- (take_drop (S i) l1), within_app.
    assert (within t (take (S i) l1) = length (take (S i) l1)) as ->.
    { apply within_all. apply Forall_lookup. intros j y Hj. apply lookup_take_Some in Hj as [Hj Hlt].
      eapply sorted_by_lookup; [exact S1| |exact Hj|exact Hi]; lia. }
    rewrite take_length. apply lookup_lt_Some in Hi. lia. }
  destruct (l2 !! i) as [x2|] eqn:E.
  2: { apply lookup_ge_None in E. pose proof (within_le t l2). lia. }
  exists x2. split; [done|]. destruct (decide (n_dist x2 <= n_dist x1)%Z) as [|Hgt]; [done|exfalso].
  rewrite <- (take_drop i l2), within_app in Hw. pose proof (within_le t (take i l2)) as H2. rewrite take_length in H2.
  rewrite (within_none t (drop i l2)) in Hw; [lia|].
  apply Forall_lookup. intros j y Hj. rewrite lookup_drop in Hj. unfold t.
  assert (n_dist x2 <= n_dist y)%Z by (eapply sorted_by_lookup; [exact S2| |exact E|exact Hj]; lia). lia.
Qed.

Section One.
Context {T : Type} (dist : list T -> list T -> Z) (so : StdOps).
Context (LAWS : StdLaws so) (Hnn : forall a b, (0 <= dist a b)%Z).
Context (h : hnsw (T:=T)) (q : list T) (ef layer : nat) (ep : pid) (d0 : Z).
Local Notation all := (fun _ : pid => True).
Context (Hlinks : links_ok h layer all).
Local Notation sinv := (sinv dist so h q ef None all ep d0).
Local Notation ret s := (h_iter so (s_ret so s)).

(** the returned points are the best of the visited ones *)
Record binv (s : sst so) : Prop := {
  b_full : h_len so (s_ret so s) = length (s_vis so s) \/ h_len so (s_ret so s) = Nat.max 1 ef;
  b_best : forall p pt x, p ∈ s_vis so s -> p ∉ n_pid <$> ret s -> get_pt h p = Some pt -> x ∈ ret s ->
     (n_dist x <= dist q (pt_data pt))%Z
}.

Lemma all_visited s p : sinv s -> h_len so (s_ret so s) = length (s_vis so s) -> p ∈ s_vis so s -> p ∈ n_pid <$> ret s.
Proof using Type.
  clear Hnn Hlinks. intros Hi Hl Hp. assert (Hsub : n_pid <$> ret s ⊆+ s_vis so s).
  { apply NoDup_submseteq; [apply Hi|]. intros y (x & -> & Hx)%elem_of_list_fmap. by apply (i_ret_vis _ _ _ _ _ _ _ _ _ _ Hi). }
  apply submseteq_Permutation in Hsub as [k Hk].
  assert (k = []) as ->. { apply Permutation_length in Hk. rewrite app_length, fmap_length in Hk. unfold h_len in Hl. destruct k; [done|cbn in Hk; lia]. }
  rewrite app_nil_r in Hk. by rewrite <- Hk.
Qed.

Lemma ret_dist s x pt : sinv s -> x ∈ ret s -> get_pt h (n_pid x) = Some pt -> n_dist x = dist q (pt_data pt).
Proof using Type.
  intros Hi Hx Hp. pose proof (i_ret _ _ _ _ _ _ _ _ _ _ Hi) as H. rewrite Forall_forall in H.
  destruct (H x Hx) as (pt' & E & ->). congruence.
Qed.

Lemma step_accept s e ept f : sinv s -> binv s -> e ∉ s_vis so s -> get_pt h e = Some ept -> h_peek so (s_ret so s) = Some f ->
  (dist q (pt_data ept) <? n_dist f)%Z || (h_len so (s_ret so s) <? ef)%nat = true ->
  let r' := shrink_ret so ef (h_push so (Nbr e (dist q (pt_data ept))) (s_ret so s)) in
  binv (SST so r' (h_push so (Nbr e (- dist q (pt_data ept))) (s_cand so s)) (e :: s_vis so s)) /\
  (h_len so (s_ret so s) = Nat.max 1 ef -> h_len so r' = Nat.max 1 ef /\
     forall t, (forall x, x ∈ ret s -> (n_dist x <= t)%Z) -> forall x, x ∈ h_iter so r' -> (n_dist x <= t)%Z).
Proof using LAWS.
  clear Hnn Hlinks. intros Hi Hb He Hpt Hf Hacc. cbn zeta.
  assert (Hpos : (1 <= h_len so (s_ret so s))%nat).
  { pose proof (i_ne _ _ _ _ _ _ _ _ _ _ Hi) as Hne. unfold h_len. destruct (ret s); [done|cbn; lia]. }
  pose proof (i_len _ _ _ _ _ _ _ _ _ _ Hi) as Hlen.
  set (d := dist q (pt_data ept)) in *.
  pose proof (law_push so LAWS (Nbr e d) (s_ret so s)) as Hp. pose proof (h_len_push so LAWS (Nbr e d) (s_ret so s)) as Hpl.
  set (r0 := h_push so (Nbr e d) (s_ret so s)) in *.
  destruct (shrink_ret_spec so LAWS ef r0) as [[Hle ->]|[Hgt (x & Hx & Hmax)]].
  - (* room left: every visited point is returned *)
    assert (Hall : h_len so (s_ret so s) = length (s_vis so s)).
    { destruct (b_full _ Hb) as [|E]; [done|]. lia. }
    split; [|intros E; lia]. split.
    + left. cbn [s_ret s_vis]. rewrite Hpl, Hall. done.
    + cbn [s_ret s_vis]. intros p pt y Hp1 Hp2 _ _. exfalso. apply Hp2. rewrite Hp. csimpl.
      apply elem_of_cons in Hp1 as [->|Hp1]; [left|right]. by apply all_visited.
  - assert (Hfull : h_len so (s_ret so s) = Nat.max 1 ef) by lia.
    assert (Hlt : (d < n_dist f)%Z).
    { apply orb_true_iff in Hacc as [Hacc|Hacc]; [lia|]. apply Nat.ltb_lt in Hacc. lia. }
    destruct (h_peek_some so LAWS _ _ Hf) as [Hfin Hfmax].
    assert (Hlen' : h_len so (shrink_ret so ef r0) = Nat.max 1 ef).
    { assert (h_len so r0 = S (h_len so (shrink_ret so ef r0))) by (unfold h_len; by rewrite Hx). lia. }
    assert (Hin : forall y, y ∈ h_iter so (shrink_ret so ef r0) -> y = Nbr e d \/ y ∈ ret s).
    { intros y Hy. apply elem_of_cons. rewrite <- Hp, Hx. by right. }
    split; [split|].
    + by right.
    + cbn [s_ret s_vis]. intros p pt y Hp1 Hp2 Hg Hy.
      destruct (decide (p = n_pid x)) as [->|Hpx].
      { assert (Hxd : n_dist x = dist q (pt_data pt)).
        { assert (Hx' : x ∈ Nbr e d :: ret s) by (rewrite <- Hp, Hx; left). apply elem_of_cons in Hx' as [->|Hx'].
          - cbn in Hg |- *. unfold d. congruence.
          - by apply (ret_dist s). }
        rewrite <- Hxd. rewrite Forall_forall in Hmax. by apply Hmax. }
      assert (Hpn : p ∉ n_pid <$> Nbr e d :: ret s).
      { rewrite <- Hp, Hx. csimpl. apply not_elem_of_cons. done. }
      csimpl in Hpn. apply not_elem_of_cons in Hpn as [Hpe Hpn]. apply elem_of_cons in Hp1 as [->|Hp1]; [done|].
      destruct (Hin y Hy) as [->|Hy'].
      * cbn. pose proof (b_best _ Hb p pt f Hp1 Hpn Hg Hfin). lia.
      * by apply (b_best _ Hb p pt).
    + intros _. split; [done|]. intros t Ht y Hy. destruct (Hin y Hy) as [->|Hy']; [|by apply Ht].
      cbn. pose proof (Ht f Hfin). lia.
Qed.

Lemma step_skip s e ept f : sinv s -> binv s -> e ∉ s_vis so s -> get_pt h e = Some ept -> h_peek so (s_ret so s) = Some f ->
  (dist q (pt_data ept) <? n_dist f)%Z || (h_len so (s_ret so s) <? ef)%nat = false ->
  binv (SST so (s_ret so s) (s_cand so s) (e :: s_vis so s)) /\ h_len so (s_ret so s) = Nat.max 1 ef /\
  forall x, x ∈ ret s -> (n_dist x <= dist q (pt_data ept))%Z.
Proof using LAWS.
  clear Hnn Hlinks. intros Hi Hb He Hpt Hf Hacc.
  apply orb_false_iff in Hacc as [H1 H2]. apply Nat.ltb_ge in H2.
  assert (Hpos : (1 <= h_len so (s_ret so s))%nat).
  { pose proof (i_ne _ _ _ _ _ _ _ _ _ _ Hi) as Hne. unfold h_len. destruct (ret s); [done|cbn; lia]. }
  pose proof (i_len _ _ _ _ _ _ _ _ _ _ Hi) as Hlen.
  destruct (h_peek_some so LAWS _ _ Hf) as [Hfin Hfmax]. rewrite Forall_forall in Hfmax.
  assert (Hd : forall x, x ∈ ret s -> (n_dist x <= dist q (pt_data ept))%Z).
  { intros x Hx. pose proof (Hfmax x Hx). lia. }
  assert (Hfull : h_len so (s_ret so s) = Nat.max 1 ef) by lia.
  split; [split|split].
  - right. exact Hfull.
  - cbn [s_ret s_vis]. intros p pt x Hp1 Hp2 Hg Hx. apply elem_of_cons in Hp1 as [->|Hp1].
    + assert (pt = ept) as -> by congruence. by apply Hd.
    + by apply (b_best _ Hb p pt).
  - exact Hfull.
  - exact Hd.
Qed.

Lemma scan_one nbs : forall s s', sinv s -> binv s -> (forall n, n ∈ nbs -> valid h (n_pid n)) ->
  scan_neighbours dist so h q ef None nbs s = Ok (false, s') -> sinv s' /\ binv s' /\ (forall p, p ∈ s_vis so s -> p ∈ s_vis so s').
Proof using LAWS Hnn.
  induction nbs as [|e nbs IH]; intros s s' Hi Hb Hv E; cbn [scan_neighbours] in E.
  - injection E as <-. done.
  - assert (Hv' : forall n, n ∈ nbs -> valid h (n_pid n)) by (intros n Hn; apply Hv; by right).
    destruct (decide (n_pid e ∈ s_vis so s)) as [Hvis|Hvis].
    { rewrite bool_decide_eq_true_2 in E by done. by apply IH. }
    rewrite bool_decide_eq_false_2 in E by done.
    destruct (h_peek_nonempty so LAWS (s_ret so s)) as [f Hf]; [apply Hi|]. rewrite Hf in E.
    destruct (Hv e) as [ept Hept]; [left|]. rewrite Hept in E. cbn [unwrap from_option mbind outcome_bind] in E.
    change (unwrap (Some ept)) with (Ok ept) in E. rewrite ?bind_Ok in E. cbn zeta in E.
    destruct (_ || _) eqn:Et.
    + cbn [push_ret] in E. rewrite bind_Ok in E.
      destruct (step_accept s (n_pid e) ept f Hi Hb Hvis Hept Hf Et) as [Hb' _].
      pose proof (push_inv dist so LAWS Hnn h q ef None all ep d0 (or_introl eq_refl) s (n_pid e) ept _ Hi Hept I Hvis eq_refl) as Hi'.
      destruct (IH _ _ Hi' Hb' Hv' E) as (A & B & C). split_and!; auto. intros p Hp. apply C. by right.
    + destruct (step_skip s (n_pid e) ept f Hi Hb Hvis Hept Hf Et) as [Hb' _].
      assert (Hi' : sinv (SST so (s_ret so s) (s_cand so s) (n_pid e :: s_vis so s))).
      { apply skip_inv; auto. by exists ept. }
      destruct (IH _ _ Hi' Hb' Hv' E) as (A & B & C). split_and!; auto. intros p Hp. apply C. by right.
Qed.

(** inversion of one iteration *)
Lemma iter_inv s r : sinv s -> search_iter dist so h q ef layer None s = Ok r ->
  (r = inl (s_ret so s) /\
    (h_pop so (s_cand so s) = None \/
     exists c cand' f, h_pop so (s_cand so s) = Some (c, cand') /\ h_peek so (s_ret so s) = Some f /\ (n_dist f < - n_dist c)%Z)) \/
  exists c cand' f cpt nbs s', r = inr s' /\ h_pop so (s_cand so s) = Some (c, cand') /\ h_peek so (s_ret so s) = Some f /\
    (- n_dist c <= n_dist f)%Z /\ get_pt h (n_pid c) = Some cpt /\ pt_nbs cpt !! layer = Some nbs /\
    (forall n, n ∈ nbs -> valid h (n_pid n)) /\ sinv (SST so (s_ret so s) cand' (s_vis so s)) /\
    scan_neighbours dist so h q ef None nbs (SST so (s_ret so s) cand' (s_vis so s)) = Ok (false, s').
Proof using LAWS Hnn Hlinks.
  intros Hi E. unfold search_iter in E.
  destruct (h_pop so (s_cand so s)) as [[c cand']|] eqn:Epop; [|injection E as <-; auto].
  destruct (pop_inv dist so LAWS h q ef None all ep d0 s c cand' Hi Epop) as (Hi1 & (cpt & Hc & Hcd) & Hcvis).
  destruct (h_peek_nonempty so LAWS (s_ret so s)) as [f Hf]; [apply Hi|].
  rewrite Hf in E. change (unwrap (Some f)) with (Ok f) in E. rewrite bind_Ok in E.
  apply bind_inv in E as (u1 & _ & E). apply bind_inv in E as (u2 & _ & E). rewrite andb_true_r in E.
  destruct (n_dist f <? - n_dist c)%Z eqn:Et.
  { injection E as <-. left. split; [done|]. right. exists c, cand', f. split_and!; auto. lia. }
  right. rewrite Hc in E. change (unwrap (Some cpt)) with (Ok cpt) in E. rewrite bind_Ok in E.
  destruct (Hlinks (n_pid c) cpt I Hc) as (nbs & Hnbs & Hin). rewrite Hnbs in E.
  change (unwrap (Some nbs)) with (Ok nbs) in E. rewrite bind_Ok in E.
  destruct (scan_inv dist so LAWS Hnn h q ef None all ep d0 (or_introl eq_refl) nbs _ Hi1 Hin) as (s' & Hs & _).
  rewrite Hs, bind_Ok in E. injection E as <-. exists c, cand', f, cpt, nbs, s'.
  split_and!; auto; [lia|]. intros n Hn. by apply Hin.
Qed.

Lemma loop_one fuel : forall s r, sinv s -> binv s -> search_loop dist so fuel h q ef layer None s = Ok r ->
  exists s', sinv s' /\ binv s' /\ r = s_ret so s' /\ forall p, p ∈ s_vis so s -> p ∈ s_vis so s'.
Proof using LAWS Hnn Hlinks.
  induction fuel as [|fuel IH]; intros s r Hi Hb E; [done|]. cbn [search_loop] in E. apply bind_inv in E as (r1 & E1 & E).
  destruct (iter_inv s r1 Hi E1) as [[-> _]|(c & cand' & f & cpt & nbs & s' & -> & Hpop & Hf & Hle & Hc & Hn & Hv & Hi1 & Hs)].
  - injection E as <-. by exists s.
  - destruct (scan_one nbs _ s' Hi1) as (A & B & C); auto.
    { destruct Hb as [B1 B2]. split; done. }
    destruct (IH s' r A B E) as (s2 & ? & ? & ? & Hsub). exists s2. split_and!; auto.
Qed.

End One.

Section Two.
Context {T : Type} (dist : list T -> list T -> Z) (so1 so2 : StdOps).
Context (LAWS1 : StdLaws so1) (LAWS2 : StdLaws so2) (Hnn : forall a b, (0 <= dist a b)%Z).
Context (h : hnsw (T:=T)) (q : list T) (ef1 ef2 layer : nat) (ep : pid) (d0 : Z).
Local Notation all := (fun _ : pid => True).
Context (Hlinks : links_ok h layer all).
Context (Hef : (Nat.max 1 ef1 <= Nat.max 1 ef2)%nat).
Context (Hdiff : forall p p' pt pt', get_pt h p = Some pt -> get_pt h p' = Some pt' ->
  dist q (pt_data pt) = dist q (pt_data pt') -> p = p').
Local Notation sinv1 := (sinv dist so1 h q ef1 None all ep d0).
Local Notation sinv2 := (sinv dist so2 h q ef2 None all ep d0).
Local Notation binv1 := (binv dist so1 h q ef1).
Local Notation binv2 := (binv dist so2 h q ef2).
Local Notation ret1 s := (h_iter so1 (s_ret so1 s)).
Local Notation ret2 s := (h_iter so2 (s_ret so2 s)).

Lemma ret_in so ef s x : sinv dist so h q ef None all ep d0 s -> x ∈ h_iter so (s_ret so s) ->
  exists pt, get_pt h (n_pid x) = Some pt /\ x = Nbr (n_pid x) (dist q (pt_data pt)).
Proof using Type.
  clear. intros Hi Hx. pose proof (i_ret _ _ _ _ _ _ _ _ _ _ Hi) as H. rewrite Forall_forall in H.
  destruct (H x Hx) as (pt & E & Hd). exists pt. split; [done|]. destruct x; cbn in *. by subst.
Qed.

(** two entries for the same point are the same entry *)
Lemma ret_same so ef s so' ef' s' x p : sinv dist so h q ef None all ep d0 s -> sinv dist so' h q ef' None all ep d0 s' ->
  x ∈ h_iter so (s_ret so s) -> n_pid x = p -> p ∈ n_pid <$> h_iter so' (s_ret so' s') -> x ∈ h_iter so' (s_ret so' s').
Proof using Type.
  clear. intros Hi Hi' Hx <- (y & Hxy & Hy)%elem_of_list_fmap.
  destruct (ret_in _ _ _ _ Hi Hx) as (pt & E & Hd). destruct (ret_in _ _ _ _ Hi' Hy) as (pt' & E' & Hd').
  rewrite <- Hxy in E', Hd'. assert (pt' = pt) as -> by congruence. rewrite Hd, <- Hd'. done.
Qed.

Lemma dominated s1 s2 t : sinv1 s1 -> sinv2 s2 -> binv2 s2 -> (forall p, p ∈ s_vis so1 s1 -> p ∈ s_vis so2 s2) ->
  (within t (ret1 s1) <= within t (ret2 s2))%nat.
Proof using Hef.
  clear LAWS1 LAWS2 Hnn Hlinks Hdiff. intros Hi1 Hi2 Hb2 Hsub.
  assert (Hkey : (forall x, x ∈ ret1 s1 -> (n_dist x <= t)%Z -> x ∈ ret2 s2) -> (within t (ret1 s1) <= within t (ret2 s2))%nat).
  { intros H. unfold within. apply submseteq_length. apply NoDup_submseteq.
    - apply NoDup_filter. apply (NoDup_fmap_1 n_pid). apply Hi1.
    - intros x [Hx Hin]%elem_of_list_filter. apply elem_of_list_filter. split; [done|]. by apply H. }
  destruct (decide (Forall (fun x => (n_dist x <= t)%Z) (ret2 s2))) as [Hall|Hnall].
  - destruct (b_full _ _ _ _ _ _ Hb2) as [E|E].
    + apply Hkey. intros x Hx _. eapply (ret_same _ _ _ _ _ _ _ _ Hi1 Hi2 Hx eq_refl). eapply all_visited; eauto.
      apply Hsub. by apply (i_ret_vis _ _ _ _ _ _ _ _ _ _ Hi1).
    + rewrite (within_all t (ret2 s2)) by done. pose proof (within_le t (ret1 s1)).
      pose proof (i_len _ _ _ _ _ _ _ _ _ _ Hi1). unfold h_len in *. lia.
  - apply Hkey. intros x Hx Ht. eapply (ret_same _ _ _ _ _ _ _ _ Hi1 Hi2 Hx eq_refl).
    destruct (decide (n_pid x ∈ n_pid <$> ret2 s2)) as [|Hn]; [done|exfalso]. apply Hnall. apply Forall_forall. intros z Hz.
    destruct (ret_in _ _ _ _ Hi1 Hx) as (pt & E & Hd).
    pose proof (b_best _ _ _ _ _ _ Hb2 (n_pid x) pt z) as H. etransitivity; [apply H|]; auto.
    + apply Hsub. by apply (i_ret_vis _ _ _ _ _ _ _ _ _ _ Hi1).
    + rewrite Hd in Ht. done.
Qed.

Lemma worst_le s1 s2 x1 : sinv1 s1 -> binv1 s1 -> sinv2 s2 -> binv2 s2 -> s_vis so1 s1 = s_vis so2 s2 -> x1 ∈ ret1 s1 ->
  exists x2, x2 ∈ ret2 s2 /\ (n_dist x1 <= n_dist x2)%Z.
Proof using Hef.
  clear LAWS1 LAWS2 Hnn Hlinks Hdiff. intros Hi1 Hb1 Hi2 Hb2 Hv Hx1.
  destruct (decide (Exists (fun x2 => (n_dist x1 <= n_dist x2)%Z) (ret2 s2))) as [Hex|Hno].
  { apply Exists_exists in Hex as (x2 & ? & ?). eauto. }
  exfalso. apply not_Exists_Forall in Hno; [|apply _]. rewrite Forall_forall in Hno. cbn beta in Hno.
  assert (Hn1 : n_pid x1 ∉ n_pid <$> ret2 s2).
  { intros H. apply (Hno x1); [|lia]. by apply (ret_same _ _ _ _ _ _ _ _ Hi1 Hi2 Hx1 eq_refl). }
  assert (Hsub : n_pid x1 :: (n_pid <$> ret2 s2) ⊆+ n_pid <$> ret1 s1).
  { apply NoDup_submseteq; [apply NoDup_cons; split; [done|apply Hi2]|].
    intros p [->|(x2 & -> & Hx2)%elem_of_list_fmap]%elem_of_cons; [by apply elem_of_list_fmap_1|].
    destruct (decide (n_pid x2 ∈ n_pid <$> ret1 s1)) as [|Hn]; [done|exfalso].
    destruct (ret_in _ _ _ _ Hi2 Hx2) as (pt & E & Hd).
    assert (Hvis : n_pid x2 ∈ s_vis so1 s1). { rewrite Hv. by apply (i_ret_vis _ _ _ _ _ _ _ _ _ _ Hi2). }
    pose proof (b_best _ _ _ _ _ _ Hb1 (n_pid x2) pt x1 Hvis Hn E Hx1) as Hle. apply (Hno x2 Hx2). rewrite Hd. exact Hle. }
  apply submseteq_length in Hsub. cbn in Hsub. rewrite !fmap_length in Hsub.
  pose proof (i_len _ _ _ _ _ _ _ _ _ _ Hi1) as Hl1. unfold h_len in Hl1.
  destruct (b_full _ _ _ _ _ _ Hb2) as [E|E]; [|unfold h_len in E; lia].
  apply Hn1. eapply all_visited; eauto. rewrite <- Hv. by apply (i_ret_vis _ _ _ _ _ _ _ _ _ _ Hi1).
Qed.

Record rel (s1 : sst so1) (s2 : sst so2) (extra : list nbr) : Prop := {
  r_i1 : sinv1 s1; r_b1 : binv1 s1; r_i2 : sinv2 s2; r_b2 : binv2 s2;
  r_vis : s_vis so1 s1 = s_vis so2 s2;
  r_cand : h_iter so2 (s_cand so2 s2) ≡ₚ h_iter so1 (s_cand so1 s1) ++ extra;
  r_extra : forall y, y ∈ extra -> h_len so1 (s_ret so1 s1) = Nat.max 1 ef1 /\ forall x, x ∈ ret1 s1 -> (n_dist x <= - n_dist y)%Z
}.

Lemma accept_mono s1 s2 extra f1 f2 d : rel s1 s2 extra -> h_peek so1 (s_ret so1 s1) = Some f1 -> h_peek so2 (s_ret so2 s2) = Some f2 ->
  (d <? n_dist f1)%Z || (h_len so1 (s_ret so1 s1) <? ef1)%nat = true -> (d <? n_dist f2)%Z || (h_len so2 (s_ret so2 s2) <? ef2)%nat = true.
Proof using LAWS1 LAWS2 Hef.
  clear Hnn Hlinks Hdiff. intros [Hi1 Hb1 Hi2 Hb2 Hv _ _] Hf1 Hf2 Ha.
  apply orb_true_iff. apply orb_true_iff in Ha as [Ha|Ha].
  - left. destruct (h_peek_some so1 LAWS1 _ _ Hf1) as [Hin1 _]. destruct (h_peek_some so2 LAWS2 _ _ Hf2) as [Hin2 Hm2].
    rewrite Forall_forall in Hm2. destruct (worst_le s1 s2 f1 Hi1 Hb1 Hi2 Hb2 Hv Hin1) as (x2 & Hx2 & Hle).
    pose proof (Hm2 x2 Hx2). lia.
  - right. apply Nat.ltb_lt in Ha. apply Nat.ltb_lt.
    assert (h_len so1 (s_ret so1 s1) <> 0).
    { pose proof (i_ne _ _ _ _ _ _ _ _ _ _ Hi1) as Hne. unfold h_len. destruct (ret1 s1); [done|cbn; lia]. }
    assert (h_len so2 (s_ret so2 s2) <= length (s_vis so2 s2)).
    { unfold h_len. rewrite <- (fmap_length n_pid). apply submseteq_length. apply NoDup_submseteq; [apply Hi2|].
      intros p (x & -> & Hx)%elem_of_list_fmap. by apply (i_ret_vis _ _ _ _ _ _ _ _ _ _ Hi2). }
    destruct (b_full _ _ _ _ _ _ Hb1) as [E|E]; [|lia]. rewrite Hv in E. lia.
Qed.

Lemma scan_two nbs : forall s1 s2 extra s1' s2', rel s1 s2 extra -> (forall n, n ∈ nbs -> valid h (n_pid n)) ->
  scan_neighbours dist so1 h q ef1 None nbs s1 = Ok (false, s1') ->
  scan_neighbours dist so2 h q ef2 None nbs s2 = Ok (false, s2') -> exists extra', rel s1' s2' extra'.
Proof using LAWS1 LAWS2 Hnn Hef.
  clear Hlinks Hdiff. induction nbs as [|e nbs IH]; intros s1 s2 extra s1' s2' Hr Hv E1 E2; cbn [scan_neighbours] in E1, E2.
  - injection E1 as <-. injection E2 as <-. by exists extra.
  - assert (Hv' : forall n, n ∈ nbs -> valid h (n_pid n)) by (intros n Hn; apply Hv; by right).
    pose proof Hr as [Hi1 Hb1 Hi2 Hb2 Hvs Hc Hx].
    destruct (decide (n_pid e ∈ s_vis so1 s1)) as [Hvis1|Hvis1].
    { rewrite bool_decide_eq_true_2 in E1 by done. rewrite bool_decide_eq_true_2 in E2 by (by rewrite <- Hvs).
      by apply (IH s1 s2 extra). }
    assert (Hvis2 : n_pid e ∉ s_vis so2 s2) by (by rewrite <- Hvs).
    rewrite bool_decide_eq_false_2 in E1, E2 by done.
    destruct (h_peek_nonempty so1 LAWS1 (s_ret so1 s1)) as [f1 Hf1]; [apply Hi1|]. rewrite Hf1 in E1.
    destruct (h_peek_nonempty so2 LAWS2 (s_ret so2 s2)) as [f2 Hf2]; [apply Hi2|]. rewrite Hf2 in E2.
    destruct (Hv e) as [ept Hept]; [left|]. rewrite Hept in E1, E2.
    change (unwrap (Some ept)) with (Ok ept) in E1, E2. rewrite ?bind_Ok in E1; rewrite ?bind_Ok in E2. cbn zeta in E1, E2.
    pose proof (accept_mono s1 s2 extra f1 f2 (dist q (pt_data ept)) Hr Hf1 Hf2) as Hacc.
    pose proof (step_accept dist so1 LAWS1 h q ef1 ep d0 s1 (n_pid e) ept f1 Hi1 Hb1 Hvis1 Hept Hf1) as HA1.
    pose proof (step_skip dist so1 LAWS1 h q ef1 ep d0 s1 (n_pid e) ept f1 Hi1 Hb1 Hvis1 Hept Hf1) as HS1.
    pose proof (step_accept dist so2 LAWS2 h q ef2 ep d0 s2 (n_pid e) ept f2 Hi2 Hb2 Hvis2 Hept Hf2) as HA2.
    pose proof (step_skip dist so2 LAWS2 h q ef2 ep d0 s2 (n_pid e) ept f2 Hi2 Hb2 Hvis2 Hept Hf2) as HS2.
    cbn [push_ret] in E1, E2. rewrite ?bind_Ok in E1; rewrite ?bind_Ok in E2.
    pose proof (push_inv dist so1 LAWS1 Hnn h q ef1 None all ep d0 (or_introl eq_refl) s1 (n_pid e) ept _ Hi1 Hept I Hvis1 eq_refl) as Hp1.
    pose proof (push_inv dist so2 LAWS2 Hnn h q ef2 None all ep d0 (or_introl eq_refl) s2 (n_pid e) ept _ Hi2 Hept I Hvis2 eq_refl) as Hp2.
    assert (Hk1 : sinv1 (SST so1 (s_ret so1 s1) (s_cand so1 s1) (n_pid e :: s_vis so1 s1))).
    { apply skip_inv; auto. by exists ept. }
    assert (Hk2 : sinv2 (SST so2 (s_ret so2 s2) (s_cand so2 s2) (n_pid e :: s_vis so2 s2))).
    { apply skip_inv; auto. by exists ept. }
    set (d := dist q (pt_data ept)) in *.
    set (t1 := (d <? n_dist f1)%Z || (h_len so1 (s_ret so1 s1) <? ef1)%nat) in *.
    set (t2 := (d <? n_dist f2)%Z || (h_len so2 (s_ret so2 s2) <? ef2)%nat) in *.
    destruct t1.
    + rewrite (Hacc eq_refl) in E2, HA2. specialize (HA1 eq_refl) as [HA1 HA1']. specialize (HA2 eq_refl) as [HA2 _].
      refine (IH _ _ extra _ _ _ Hv' E1 E2). split; auto.
      * cbn. by rewrite Hvs.
      * cbn [s_cand]. rewrite (law_push _ LAWS1), (law_push _ LAWS2), Hc. done.
      * cbn [s_ret]. intros y Hy. destruct (Hx y Hy) as [Hfull Hb]. destruct (HA1' Hfull) as [? Hb']. split; [done|].
        by apply Hb'.
    + specialize (HS1 eq_refl) as (HS1 & Hfull & Hbd). destruct t2.
      * specialize (HA2 eq_refl) as [HA2 _].
        refine (IH _ _ (Nbr (n_pid e) (- d) :: extra) _ _ _ Hv' E1 E2). split; auto.
        -- cbn. by rewrite Hvs.
        -- cbn [s_cand]. rewrite (law_push _ LAWS2), Hc. apply Permutation_middle.
        -- cbn [s_ret]. intros y [->|Hy]%elem_of_cons; [|by apply Hx]. split; [done|]. intros x Hx'. cbn.
           rewrite Z.opp_involutive. by apply Hbd.
      * specialize (HS2 eq_refl) as (HS2 & _ & _).
        refine (IH _ _ extra _ _ _ Hv' E1 E2). split; auto. cbn. by rewrite Hvs.
Qed.

Lemma cand_same (x y : nbr) : (exists pt, get_pt h (n_pid x) = Some pt /\ n_dist x = (- dist q (pt_data pt))%Z) ->
  (exists pt, get_pt h (n_pid y) = Some pt /\ n_dist y = (- dist q (pt_data pt))%Z) -> n_dist x = n_dist y -> x = y.
Proof using Hdiff.
  clear - Hdiff. intros (pt & E & Hd) (pt' & E' & Hd') Heq. assert (n_pid x = n_pid y) by (eapply Hdiff; eauto; lia).
  destruct x, y; cbn in *; congruence.
Qed.

Lemma loop_two fuel1 : forall fuel2 s1 s2 extra r1 r2 t, rel s1 s2 extra ->
  search_loop dist so1 fuel1 h q ef1 layer None s1 = Ok r1 -> search_loop dist so2 fuel2 h q ef2 layer None s2 = Ok r2 ->
  (within t (h_iter so1 r1) <= within t (h_iter so2 r2))%nat.
Proof using LAWS1 LAWS2 Hnn Hlinks Hef Hdiff.
  induction fuel1 as [|fuel1 IH]; intros fuel2 s1 s2 extra r1 r2 t Hr E1 E2; [done|].
  pose proof Hr as [Hi1 Hb1 Hi2 Hb2 Hvs Hc Hx].
  cbn [search_loop] in E1. apply bind_inv in E1 as (u1 & E1 & E1').
  destruct (iter_inv dist so1 LAWS1 Hnn h q ef1 layer ep d0 Hlinks s1 u1 Hi1 E1)
    as [[-> _]|(c1 & k1 & f1 & cpt & nbs & s1' & -> & Hpop1 & Hf1 & Hle1 & Hc1 & Hn & Hval & Hi1' & Hs1)].
  - injection E1' as <-. destruct (loop_one dist so2 LAWS2 Hnn h q ef2 layer ep d0 Hlinks fuel2 s2 r2 Hi2 Hb2 E2) as (s2' & A & B & -> & D).
    apply (dominated s1 s2' t); auto. intros p Hp. apply D. by rewrite <- Hvs.
  - destruct fuel2 as [|fuel2]; [done|]. cbn [search_loop] in E2. apply bind_inv in E2 as (u2 & E2 & E2').
    destruct (law_pop_some _ LAWS1 _ _ _ Hpop1) as [Hp1 Hm1]. rewrite Forall_forall in Hm1.
    destruct (h_peek_some so1 LAWS1 _ _ Hf1) as [Hfin1 Hfm1].
    destruct (worst_le s1 s2 f1 Hi1 Hb1 Hi2 Hb2 Hvs Hfin1) as (x2 & Hx2 & Hx2le).
    assert (Hc12 : forall c2 k2, h_pop so2 (s_cand so2 s2) = Some (c2, k2) -> c2 = c1 /\ h_iter so2 k2 ≡ₚ h_iter so1 k1 ++ extra).
    { intros c2 k2 Hpop2. destruct (law_pop_some _ LAWS2 _ _ _ Hpop2) as [Hp2 Hm2]. rewrite Forall_forall in Hm2.
      pose proof (i_cand _ _ _ _ _ _ _ _ _ _ Hi2) as Hco. rewrite Forall_forall in Hco.
      assert (Hin1 : c1 ∈ h_iter so2 (s_cand so2 s2)). { rewrite Hc, Hp1. left. }
      assert (Hin2 : c2 ∈ h_iter so2 (s_cand so2 s2)). { rewrite Hp2. left. }
      assert (Hge : (n_dist c1 <= n_dist c2)%Z).
      { rewrite Hp2 in Hin1. apply elem_of_cons in Hin1 as [->|Hin1]; [lia|]. by apply Hm2. }
      assert (c2 = c1) as ->.
      { symmetry. apply cand_same; [apply (Hco c1 Hin1)|apply (Hco c2 Hin2)|].
        rewrite Hc, Hp1 in Hin2. cbn in Hin2. apply elem_of_cons in Hin2 as [->|Hin2]; [done|].
        apply elem_of_app in Hin2 as [Hin2|Hin2].
        - pose proof (Hm1 c2 Hin2). lia.
        - destruct (Hx c2 Hin2) as [_ Hb]. pose proof (Hb f1 Hfin1). lia. }
      split; [done|]. rewrite Hp2, Hp1 in Hc. cbn in Hc. by apply Permutation_cons_inv in Hc. }
    destruct (iter_inv dist so2 LAWS2 Hnn h q ef2 layer ep d0 Hlinks s2 u2 Hi2 E2)
      as [[-> [Hnone|(c2 & k2 & f2 & Hpop2 & Hf2 & Hlt)]]|(c2 & k2 & f2 & cpt2 & nbs2 & s2' & -> & Hpop2 & Hf2 & Hle2 & Hc2 & Hn2 & _ & Hi2' & Hs2)].
    + exfalso. apply (law_pop_none _ LAWS2) in Hnone. rewrite Hnone, Hp1 in Hc. apply Permutation_nil in Hc. done.
    + exfalso. destruct (Hc12 _ _ Hpop2) as [-> _]. destruct (h_peek_some so2 LAWS2 _ _ Hf2) as [_ Hm2].
      rewrite Forall_forall in Hm2. pose proof (Hm2 x2 Hx2). lia.
    + destruct (Hc12 _ _ Hpop2) as [-> Hk]. assert (cpt2 = cpt) as -> by congruence. assert (nbs2 = nbs) as -> by congruence.
      destruct (scan_two nbs (SST so1 (s_ret so1 s1) k1 (s_vis so1 s1)) (SST so2 (s_ret so2 s2) k2 (s_vis so2 s2)) extra s1' s2') as [extra' Hr']; auto.
      { split; auto; cbn; auto. - destruct Hb1; split; done. - destruct Hb2; split; done. }
      by apply (IH fuel2 s1' s2' extra' r1 r2 t Hr').
Qed.

End Two.

Section Top.
Context {T : Type} (dist : list T -> list T -> Z) (so1 so2 : StdOps).
Context (LAWS1 : StdLaws so1) (LAWS2 : StdLaws so2) (Hnn : forall a b, (0 <= dist a b)%Z).

Lemma init_binv so (LAWS : StdLaws so) (h : hnsw (T:=T)) q ef ep s d : s_vis so s = [ep] -> h_iter so (s_ret so s) = [Nbr ep d] ->
  binv dist so h q ef s.
Proof.
  intros Hv Hr. split.
  - left. unfold h_len. by rewrite Hr, Hv.
  - rewrite Hr, Hv. intros p pt x Hp Hn. destruct Hn. csimpl. done.
Qed.

Lemma search_layer_mono (h : hnsw (T:=T)) q ep ept ef1 ef2 layer ly r1 r2 t :
  points_by_layer h !! layer = Some ly -> ly <> [] -> get_pt h ep = Some ept -> links_ok h layer (fun _ => True) ->
  (Nat.max 1 ef1 <= Nat.max 1 ef2)%nat ->
  (forall p p' pt pt', get_pt h p = Some pt -> get_pt h p' = Some pt' -> dist q (pt_data pt) = dist q (pt_data pt') -> p = p') ->
  search_layer dist so1 h q ep ef1 layer None = Ok r1 -> search_layer dist so2 h q ep ef2 layer None = Ok r2 ->
  (within t (h_iter so1 r1) <= within t (h_iter so2 r2))%nat.
Proof using LAWS1 LAWS2 Hnn.
  intros Hly Hne Hg Hl Hef Hdiff E1 E2. unfold search_layer in E1, E2. rewrite Hly in E1, E2. destruct ly as [|p0 ly]; [done|].
  destruct (search_init_inv dist so1 LAWS1 Hnn h q ef1 None (fun _ => True) ep ept Hg I) as (s1 & Es1 & Hi1 & _ & Hv1 & Hr1 & Hc1).
  destruct (search_init_inv dist so2 LAWS2 Hnn h q ef2 None (fun _ => True) ep ept Hg I) as (s2 & Es2 & Hi2 & _ & Hv2 & Hr2 & Hc2).
  rewrite Es1, bind_Ok in E1. rewrite Es2, bind_Ok in E2.
  eapply (loop_two dist so1 so2 LAWS1 LAWS2 Hnn h q ef1 ef2 layer ep (dist q (pt_data ept)) Hl Hef Hdiff _ _ s1 s2 []); eauto.
  split; auto.
  - by eapply init_binv.
  - by eapply init_binv.
  - congruence.
  - by rewrite Hc1, Hc2.
  - intros y Hy. by apply elem_of_nil in Hy.
Qed.

Lemma search_mono (h : hnsw (T:=T)) q k1 k2 e1 e2 r1 r2 : searchable h ->
  (forall p p' pt pt', get_pt h p = Some pt -> get_pt h p' = Some pt' -> dist q (pt_data pt) = dist q (pt_data pt') -> p = p') ->
  (k1 <= k2)%nat -> (Nat.max e1 k1 <= Nat.max e2 k2)%nat -> search dist so1 h q k1 e1 = Ok r1 -> search dist so2 h q k2 e2 = Ok r2 ->
  forall i a1, r1 !! i = Some a1 -> exists a2, r2 !! i = Some a2 /\ (distance a2 <= distance a1)%Z.
Proof using LAWS1 LAWS2 Hnn.
  intros Hc Hdiff Hk Hef E1 E2 i a1 Hi. unfold search in E1, E2. destruct (entry_point h) as [ep|] eqn:Eep.
  2:{ rewrite search_filter_empty in E1 by done. injection E1 as <-. done. }
  destruct (search_filter_srch dist so1 LAWS1 Hnn h q k1 e1 None ep Hc Eep ltac:(by left)) as
    (pv & pvt & ept & l & ly & hp1 & res1 & Hept & Hpvt & _ & Hly & Hne & Hl & Hlow & Hfp & Hs1 & Hf1 & _ & _ & _ & _ & _ & _ & _ & A1).
  destruct (search_filter_srch dist so2 LAWS2 Hnn h q k2 e2 None ep Hc Eep ltac:(by left)) as
    (pv' & pvt' & ept' & l' & ly' & hp2 & res2 & _ & _ & _ & Hly' & Hne' & _ & Hlow' & Hfp' & Hs2 & Hf2 & _ & _ & _ & _ & _ & _ & _ & A2).
  assert (pv' = pv) as -> by congruence.
  assert (l' = l) as ->.
  { destruct (Nat.lt_trichotomy l l') as [Hlt|[->|Hlt]]; [|done|].
    - pose proof (Hlow' _ Hlt). congruence.
    - pose proof (Hlow _ Hlt). congruence. }
  assert (r1 = res1) as -> by congruence. assert (r2 = res2) as -> by congruence.
  assert (Hd1 : (n_dist <$> take k1 (h_sorted so1 hp1)) !! i = Some (distance a1)). { rewrite <- A1, list_lookup_fmap, Hi. done. }
  rewrite list_lookup_fmap in Hd1. destruct (take k1 (h_sorted so1 hp1) !! i) as [x1|] eqn:Ex1; [|done]. cbn in Hd1. injection Hd1 as Hd1.
  apply lookup_take_Some in Ex1 as [Ex1 Hik].
  destruct (sorted_within (h_sorted so1 hp1) (h_sorted so2 hp2) i x1) as (x2 & Ex2 & Hle); auto using law_sorted.
  { intros t. rewrite (within_perm _ _ _ (law_sorted_perm _ LAWS1 hp1)), (within_perm _ _ _ (law_sorted_perm _ LAWS2 hp2)).
    eapply (search_layer_mono h q pv pvt (Nat.max e1 k1) (Nat.max e2 k2) l ly); eauto; [by apply (s_links _ Hc)|lia]. }
  assert (Hd2 : (distance <$> res2) !! i = Some (n_dist x2)).
  { rewrite A2, list_lookup_fmap, lookup_take, Ex2 by lia. done. }
  rewrite list_lookup_fmap in Hd2. destruct (res2 !! i) as [a2|] eqn:Ea2; [|done]. cbn in Hd2. injection Hd2 as Hd2.
  exists a2. split; [done|]. lia.
Qed.

End Top.
