(** The comparison of [MonoProofs.v] for filtered searches: with ef1 <= ef2 the second search visits all that the first visits, when no
    two points are at the same distance from the query. *)
From Verif Require Import Prelude Model Lib Table SearchProofs InsertProofs QueryProofs MonoProofs.

Section One.
Context {T : Type} (dist : list T -> list T -> Z) (so : StdOps).
Context (LAWS : StdLaws so) (Hnn : forall a b, (0 <= dist a b)%Z).
Context (h : hnsw (T:=T)) (q : list T) (flt : dataid -> bool) (ef layer : nat) (ep : pid) (d0 : Z).
Context (Hef1 : (1 <= ef)%nat).
Local Notation all := (fun _ : pid => True).
Context (Hlinks : links_ok h layer all).
Local Notation sinv := (sinv dist so h q ef (Some flt) all ep d0).
Local Notation ret s := (h_iter so (s_ret so s)).

(** the filter takes the point *)
Definition okp (p : pid) : Prop := exists pt, get_pt h p = Some pt /\ flt (pt_oid pt) = true.
Lemma okp_dec p : {okp p} + {~ okp p}.
Proof.
  unfold okp. destruct (get_pt h p) as [pt|]; [|right; intros (? & ? & _); done].
  destruct (flt (pt_oid pt)) eqn:E; [left; eauto|right]. intros (pt' & [= <-] & H). congruence.
Defined.

(** the start point alone, refused by the filter *)
Definition start_only (s : sst so) : Prop :=
  ret s = [Nbr ep d0] /\ ~ okp ep /\
  forall p pt, p ∈ s_vis so s -> okp p -> get_pt h p = Some pt -> (d0 <= dist q (pt_data pt))%Z /\ ef = 1%nat.
(** the best of the visited points that the filter takes *)
Definition best_taken (s : sst so) : Prop :=
  (forall x, x ∈ ret s -> okp (n_pid x)) /\
  ((forall p, p ∈ s_vis so s -> okp p -> p ∈ n_pid <$> ret s) \/ h_len so (s_ret so s) = ef) /\
  (forall p pt x, p ∈ s_vis so s -> okp p -> p ∉ n_pid <$> ret s -> get_pt h p = Some pt -> x ∈ ret s -> (n_dist x <= dist q (pt_data pt))%Z) /\
  (ef = 1%nat -> ~ okp ep -> forall x, x ∈ ret s -> (n_dist x < d0)%Z).
Definition finv (s : sst so) : Prop := start_only s \/ best_taken s.

Lemma len_pos s : sinv s -> (1 <= h_len so (s_ret so s) <= ef)%nat.
Proof using Hef1.
  clear - Hef1. intros Hi. pose proof (i_ne _ _ _ _ _ _ _ _ _ _ Hi) as Hne. pose proof (i_len _ _ _ _ _ _ _ _ _ _ Hi) as Hl. split; [|lia].
  unfold h_len. destruct (ret s); [done|cbn; lia].
Qed.
Lemma ret_dist s x pt : sinv s -> x ∈ ret s -> get_pt h (n_pid x) = Some pt -> n_dist x = dist q (pt_data pt).
Proof using Type.
  clear. intros Hi Hx Hp. pose proof (i_ret _ _ _ _ _ _ _ _ _ _ Hi) as H. rewrite Forall_forall in H.
  destruct (H x Hx) as (pt' & E & ->). congruence.
Qed.

Lemma step_accept s e ept f r0 : sinv s -> finv s -> e ∉ s_vis so s -> get_pt h e = Some ept -> h_peek so (s_ret so s) = Some f ->
  (dist q (pt_data ept) <? n_dist f)%Z || (h_len so (s_ret so s) <? ef)%nat = true ->
  push_ret so h (Some flt) e (pt_oid ept) (dist q (pt_data ept)) (s_ret so s) = Ok r0 ->
  let r' := shrink_ret so ef r0 in
  finv (SST so r' (h_push so (Nbr e (- dist q (pt_data ept))) (s_cand so s)) (e :: s_vis so s)) /\
  (h_len so (s_ret so s) = ef -> h_len so r' = ef /\
     forall t, (forall x, x ∈ ret s -> (n_dist x <= t)%Z) -> forall x, x ∈ h_iter so r' -> (n_dist x <= t)%Z).
Proof using LAWS Hef1.
  clear Hnn Hlinks. intros Hi Hb He Hpt Hf Hacc Hpush. cbn zeta.
  pose proof (len_pos s Hi) as Hlen. set (d := dist q (pt_data ept)) in *.
  destruct (h_peek_some so LAWS _ _ Hf) as [Hfin Hfmax].
  destruct (push_ret_spec dist so LAWS h q ef (Some flt) all ep d0 (or_intror Hef1) s e ept Hi Hpt He) as (r1 & Hr1 & Hcase).
  fold d in Hr1, Hcase. assert (r1 = r0) as -> by congruence. clear Hr1.
  destruct Hcase as [[-> (flt' & [= <-] & Hno)]|[[Hp [Hyes Hall]]|[Hp (flt' & x & [= <-] & Hyes & Hx & Hxe & Hxn)]]].
  - (* refused *)
    assert (Hne : ~ okp e) by (intros (pt & ? & ?); congruence).
    destruct (shrink_ret_spec so LAWS ef (s_ret so s)) as [[_ ->]|[Hgt _]]; [|lia]. split; [|done].
    destruct Hb as [(A & B & C)|(A & B & C & D)]; [left|right].
    + split; [done|]. split; [done|]. cbn [s_vis]. intros p pt [->|Hp]%elem_of_cons Ho; [done|]. by apply C.
    + split; [done|]. cbn [s_ret s_vis]. split; [|split; [|done]].
      * destruct B as [B|B]; [left|by right]. intros p [->|Hp]%elem_of_cons Ho; [done|]. by apply B.
      * intros p pt x [->|Hp]%elem_of_cons Ho; [done|]. by apply C.
  - (* pushed *)
    assert (Hoe : okp e) by (by exists ept).
    destruct Hb as [(A & B & _)|(A & B & C & D)].
    { exfalso. apply B. rewrite A, Forall_singleton in Hall. exact Hall. }
    assert (Hpl : h_len so r0 = S (h_len so (s_ret so s))) by (unfold h_len; by rewrite Hp).
    destruct (shrink_ret_spec so LAWS ef r0) as [[Hle ->]|[Hgt (x & Hx & Hmax)]].
    + (* room left *)
      split; [|lia]. right. unfold best_taken. cbn [s_ret s_vis].
      destruct B as [B|B]; [|lia].
      assert (Hin : forall p, p ∈ e :: s_vis so s -> okp p -> p ∈ n_pid <$> h_iter so r0).
      { intros p [->|Hp']%elem_of_cons Ho; rewrite Hp; csimpl; [left|right]. by apply B. }
      split; [|split; [by left|split]].
      * intros y Hy. rewrite Hp in Hy. apply elem_of_cons in Hy as [->|Hy]; [done|]. by apply A.
      * intros p pt y Hp' Ho Hn. destruct Hn. by apply Hin.
      * intros E. lia.
    + assert (Hfull : h_len so (s_ret so s) = ef) by lia.
      assert (Hlt : (d < n_dist f)%Z).
      { apply orb_true_iff in Hacc as [Hacc|Hacc]; [lia|]. apply Nat.ltb_lt in Hacc. lia. }
      assert (Hlen' : h_len so (shrink_ret so ef r0) = ef).
      { assert (h_len so r0 = S (h_len so (shrink_ret so ef r0))) by (unfold h_len; by rewrite Hx). lia. }
      assert (Hin : forall y, y ∈ h_iter so (shrink_ret so ef r0) -> y = Nbr e d \/ y ∈ ret s).
      { intros y Hy. apply elem_of_cons. rewrite <- Hp, Hx. by right. }
      split; [right; split; [|split; [|split]]|]; cbn [s_ret s_vis].
      * intros y Hy. destruct (Hin y Hy) as [->|Hy']; [done|]. by apply A.
      * by right.
      * intros p pt y Hp1 Ho Hp2 Hg Hy.
        destruct (decide (p = n_pid x)) as [->|Hpx].
        { assert (Hxd : n_dist x = dist q (pt_data pt)).
          { assert (Hx' : x ∈ Nbr e d :: ret s) by (rewrite <- Hp, Hx; left). apply elem_of_cons in Hx' as [->|Hx'].
            - cbn in Hg |- *. unfold d. congruence.
            - by apply (ret_dist s). }
          rewrite <- Hxd. rewrite Forall_forall in Hmax. by apply Hmax. }
        assert (Hpn : p ∉ n_pid <$> Nbr e d :: ret s).
        { rewrite <- Hp, Hx. csimpl. apply not_elem_of_cons. done. }
        csimpl in Hpn. apply not_elem_of_cons in Hpn as [Hpe Hpn]. apply elem_of_cons in Hp1 as [->|Hp1]; [done|].
        destruct (Hin y Hy) as [->|Hy'].
        -- cbn. pose proof (C p pt f Hp1 Ho Hpn Hg Hfin). lia.
        -- by apply (C p pt).
      * intros E1 Hep y Hy. pose proof (D E1 Hep f Hfin). destruct (Hin y Hy) as [->|Hy']; [cbn; lia|]. by apply D.
      * intros _. split; [done|]. intros t Ht y Hy. destruct (Hin y Hy) as [->|Hy']; [|by apply Ht].
        cbn. pose proof (Ht f Hfin). lia.
  - (* in the place of the start point *)
    assert (Hoe : okp e) by (by exists ept).
    assert (H1 : h_len so r0 = 1%nat) by (unfold h_len; by rewrite Hp).
    destruct (shrink_ret_spec so LAWS ef r0) as [[_ ->]|[Hgt _]]; [|lia].
    destruct Hb as [(A & B & C)|(A & _)].
    2: { exfalso. apply Hxn. apply A. rewrite Hx. left. }
    assert (f = Nbr ep d0) as ->. { rewrite A in Hfin. by apply elem_of_list_singleton in Hfin. }
    assert (Hs1 : h_len so (s_ret so s) = 1%nat) by (unfold h_len; by rewrite A).
    assert (Hd : ef = 1%nat -> (d < d0)%Z).
    { intros E. apply orb_true_iff in Hacc as [Hacc|Hacc]; [cbn in Hacc; lia|]. apply Nat.ltb_lt in Hacc. lia. }
    assert (Hnew : forall y, y ∈ h_iter so r0 -> y = Nbr e d) by (intros y Hy; rewrite Hp in Hy; by apply elem_of_list_singleton in Hy).
    split; [right; split; [|split; [|split]]|]; cbn [s_ret s_vis].
    + intros y ->%Hnew. done.
    + destruct (decide (ef = 1%nat)) as [->|Hn1]; [by right|]. left. intros p [->|Hp']%elem_of_cons Ho; [rewrite Hp; left|].
      destruct Ho as (pt & Hg & Ho). destruct (C p pt Hp') as [_ E]; [by exists pt|done|done].
    + intros p pt y Hp' Ho Hn Hg ->%Hnew. apply elem_of_cons in Hp' as [->|Hp']; [destruct Hn; rewrite Hp; left|].
      destruct (C p pt Hp' Ho Hg) as [Hge E]. cbn. specialize (Hd E). lia.
    + intros E _ y ->%Hnew. by apply Hd.
    + intros E. rewrite Hs1 in E. split; [congruence|]. intros t Ht y ->%Hnew. cbn. pose proof (Ht (Nbr ep d0) Hfin) as H. cbn in H.
      symmetry in E. specialize (Hd E). lia.
Qed.

Lemma step_skip s e ept f : sinv s -> finv s -> e ∉ s_vis so s -> get_pt h e = Some ept -> h_peek so (s_ret so s) = Some f ->
  (dist q (pt_data ept) <? n_dist f)%Z || (h_len so (s_ret so s) <? ef)%nat = false ->
  finv (SST so (s_ret so s) (s_cand so s) (e :: s_vis so s)) /\ h_len so (s_ret so s) = ef /\
  forall x, x ∈ ret s -> (n_dist x <= dist q (pt_data ept))%Z.
Proof using LAWS Hef1.
  clear Hnn Hlinks. intros Hi Hb He Hpt Hf Hacc.
  apply orb_false_iff in Hacc as [H1 H2]. apply Nat.ltb_ge in H2. pose proof (len_pos s Hi) as Hlen.
  destruct (h_peek_some so LAWS _ _ Hf) as [Hfin Hfmax]. rewrite Forall_forall in Hfmax.
  assert (Hd : forall x, x ∈ ret s -> (n_dist x <= dist q (pt_data ept))%Z).
  { intros x Hx. pose proof (Hfmax x Hx). lia. }
  assert (Hfull : h_len so (s_ret so s) = ef) by lia.
  split; [|done]. destruct Hb as [(A & B & C)|(A & B & C & D)]; [left|right].
  - split; [done|]. split; [done|]. cbn [s_vis]. intros p pt [->|Hp]%elem_of_cons Ho Hg; [|by apply (C p)].
    assert (pt = ept) as -> by congruence. split.
    + apply (Hd (Nbr ep d0)). rewrite A. left.
    + rewrite <- Hfull. unfold h_len. by rewrite A.
  - split; [done|]. cbn [s_ret s_vis]. split; [by right|]. split; [|done].
    intros p pt x [->|Hp]%elem_of_cons Ho Hn Hg Hx; [|by apply (C p)]. assert (pt = ept) as -> by congruence. by apply Hd.
Qed.

Lemma scan_one nbs : forall s s', sinv s -> finv s -> (forall n, n ∈ nbs -> valid h (n_pid n)) ->
  scan_neighbours dist so h q ef (Some flt) nbs s = Ok (false, s') -> sinv s' /\ finv s' /\ (forall p, p ∈ s_vis so s -> p ∈ s_vis so s').
Proof using LAWS Hnn Hef1.
  induction nbs as [|e nbs IH]; intros s s' Hi Hb Hv E; cbn [scan_neighbours] in E.
  - injection E as <-. done.
  - assert (Hv' : forall n, n ∈ nbs -> valid h (n_pid n)) by (intros n Hn; apply Hv; by right).
    destruct (decide (n_pid e ∈ s_vis so s)) as [Hvis|Hvis].
    { rewrite bool_decide_eq_true_2 in E by done. by apply IH. }
    rewrite bool_decide_eq_false_2 in E by done.
    destruct (h_peek_nonempty so LAWS (s_ret so s)) as [f Hf]; [apply Hi|]. rewrite Hf in E.
    destruct (Hv e) as [ept Hept]; [left|]. rewrite Hept in E.
    change (unwrap (Some ept)) with (Ok ept) in E. rewrite ?bind_Ok in E. cbn zeta in E.
    destruct (_ || _) eqn:Et.
    + apply bind_inv in E as (r0 & Er0 & E).
      destruct (step_accept s (n_pid e) ept f r0 Hi Hb Hvis Hept Hf Et Er0) as [Hb' _].
      pose proof (push_inv dist so LAWS Hnn h q ef (Some flt) all ep d0 (or_intror Hef1) s (n_pid e) ept _ Hi Hept I Hvis Er0) as Hi'.
      destruct (IH _ _ Hi' Hb' Hv' E) as (A & B & C). split_and!; auto. intros p Hp. apply C. by right.
    + destruct (step_skip s (n_pid e) ept f Hi Hb Hvis Hept Hf Et) as [Hb' _].
      assert (Hi' : sinv (SST so (s_ret so s) (s_cand so s) (n_pid e :: s_vis so s))).
      { apply skip_inv; auto. by exists ept. }
      destruct (IH _ _ Hi' Hb' Hv' E) as (A & B & C). split_and!; auto. intros p Hp. apply C. by right.
Qed.

(** inversion of one iteration *)
Lemma iter_inv s r : sinv s -> search_iter dist so h q ef layer (Some flt) s = Ok r ->
  (r = inl (s_ret so s) /\
    (h_pop so (s_cand so s) = None \/
     exists c cand' f, h_pop so (s_cand so s) = Some (c, cand') /\ h_peek so (s_ret so s) = Some f /\ (n_dist f < - n_dist c)%Z /\
       h_len so (s_ret so s) = ef)) \/
  exists c cand' f cpt nbs s', r = inr s' /\ h_pop so (s_cand so s) = Some (c, cand') /\ h_peek so (s_ret so s) = Some f /\
    ((- n_dist c <= n_dist f)%Z \/ h_len so (s_ret so s) <> ef) /\ get_pt h (n_pid c) = Some cpt /\ pt_nbs cpt !! layer = Some nbs /\
    (forall n, n ∈ nbs -> valid h (n_pid n)) /\ sinv (SST so (s_ret so s) cand' (s_vis so s)) /\
    scan_neighbours dist so h q ef (Some flt) nbs (SST so (s_ret so s) cand' (s_vis so s)) = Ok (false, s').
Proof using LAWS Hnn Hlinks Hef1.
  intros Hi E. unfold search_iter in E. pose proof (len_pos s Hi) as Hlen.
  destruct (h_pop so (s_cand so s)) as [[c cand']|] eqn:Epop; [|injection E as <-; auto].
  destruct (pop_inv dist so LAWS h q ef (Some flt) all ep d0 s c cand' Hi Epop) as (Hi1 & (cpt & Hc & Hcd) & Hcvis).
  destruct (h_peek_nonempty so LAWS (s_ret so s)) as [f Hf]; [apply Hi|].
  rewrite Hf in E. change (unwrap (Some f)) with (Ok f) in E. rewrite bind_Ok in E.
  apply bind_inv in E as (u1 & _ & E). apply bind_inv in E as (u2 & _ & E).
  destruct (_ && _) eqn:Et.
  { injection E as <-. left. split; [done|]. right. exists c, cand', f. apply andb_true_iff in Et as [Et1 Et2]. apply Nat.leb_le in Et2. split_and!; auto; lia. }
  right. rewrite Hc in E. change (unwrap (Some cpt)) with (Ok cpt) in E. rewrite bind_Ok in E.
  destruct (Hlinks (n_pid c) cpt I Hc) as (nbs & Hnbs & Hin). rewrite Hnbs in E.
  change (unwrap (Some nbs)) with (Ok nbs) in E. rewrite bind_Ok in E.
  destruct (scan_inv dist so LAWS Hnn h q ef (Some flt) all ep d0 (or_intror Hef1) nbs _ Hi1 Hin) as (s' & Hs & _).
  rewrite Hs, bind_Ok in E. injection E as <-. exists c, cand', f, cpt, nbs, s'.
  split_and!; auto.
  - apply andb_false_iff in Et as [Et|Et]; [left; lia|right]. apply Nat.leb_gt in Et. lia.
  - intros n Hn. by apply Hin.
Qed.

Lemma loop_one fuel : forall s r, sinv s -> finv s -> search_loop dist so fuel h q ef layer (Some flt) s = Ok r ->
  exists s', sinv s' /\ finv s' /\ r = s_ret so s' /\ forall p, p ∈ s_vis so s -> p ∈ s_vis so s'.
Proof using LAWS Hnn Hlinks Hef1.
  induction fuel as [|fuel IH]; intros s r Hi Hb E; [done|]. cbn [search_loop] in E. apply bind_inv in E as (r1 & E1 & E).
  destruct (iter_inv s r1 Hi E1) as [[-> _]|(c & cand' & f & cpt & nbs & s' & -> & Hpop & Hf & Hle & Hc & Hn & Hv & Hi1 & Hs)].
  - injection E as <-. by exists s.
  - destruct (scan_one nbs _ s' Hi1) as (A & B & C); auto.
    destruct (IH s' r A B E) as (s2 & ? & ? & ? & Hsub). exists s2. split_and!; auto.
Qed.

End One.

Section Two.
Context {T : Type} (dist : list T -> list T -> Z) (so1 so2 : StdOps).
Context (LAWS1 : StdLaws so1) (LAWS2 : StdLaws so2) (Hnn : forall a b, (0 <= dist a b)%Z).
Context (h : hnsw (T:=T)) (q : list T) (flt : dataid -> bool) (ef1 ef2 layer : nat) (ep : pid) (d0 : Z).
Local Notation all := (fun _ : pid => True).
Context (Hlinks : links_ok h layer all).
Context (H1 : (1 <= ef1)%nat) (Hef : (ef1 <= ef2)%nat).
Context (Hdiff : forall p p' pt pt', get_pt h p = Some pt -> get_pt h p' = Some pt' ->
  dist q (pt_data pt) = dist q (pt_data pt') -> p = p').
Local Notation sinv1 := (sinv dist so1 h q ef1 (Some flt) all ep d0).
Local Notation sinv2 := (sinv dist so2 h q ef2 (Some flt) all ep d0).
Local Notation finv1 := (finv dist so1 h q flt ef1 ep d0).
Local Notation finv2 := (finv dist so2 h q flt ef2 ep d0).
Local Notation ret1 s := (h_iter so1 (s_ret so1 s)).
Local Notation ret2 s := (h_iter so2 (s_ret so2 s)).
Local Notation okp := (okp h flt).

Lemma H2 : (1 <= ef2)%nat. Proof using H1 Hef. clear - H1 Hef. lia. Qed.

Lemma ret_in so ef s x : sinv dist so h q ef (Some flt) all ep d0 s -> x ∈ h_iter so (s_ret so s) ->
  exists pt, get_pt h (n_pid x) = Some pt /\ x = Nbr (n_pid x) (dist q (pt_data pt)) /\ n_pid x ∈ s_vis so s.
Proof using Type.
  clear. intros Hi Hx. pose proof (i_ret _ _ _ _ _ _ _ _ _ _ Hi) as H. rewrite Forall_forall in H.
  destruct (H x Hx) as (pt & E & Hd). exists pt. split; [done|]. split; [destruct x; cbn in *; by subst|].
  by apply (i_ret_vis _ _ _ _ _ _ _ _ _ _ Hi).
Qed.

(** two entries for the same point are the same entry *)
Lemma ret_same so ef s so' ef' s' x p : sinv dist so h q ef (Some flt) all ep d0 s -> sinv dist so' h q ef' (Some flt) all ep d0 s' ->
  x ∈ h_iter so (s_ret so s) -> n_pid x = p -> p ∈ n_pid <$> h_iter so' (s_ret so' s') -> x ∈ h_iter so' (s_ret so' s').
Proof using Type.
  clear. intros Hi Hi' Hx <- (y & Hxy & Hy)%elem_of_list_fmap.
  destruct (ret_in _ _ _ _ Hi Hx) as (pt & E & Hd & _). destruct (ret_in _ _ _ _ Hi' Hy) as (pt' & E' & Hd' & _).
  rewrite <- Hxy in E', Hd'. assert (pt' = pt) as -> by congruence. rewrite Hd, <- Hd'. done.
Qed.

(** what the first one returns, when the filter takes it, the second one returns or it has better *)
Lemma taken_le s1 s2 t : sinv1 s1 -> finv1 s1 -> sinv2 s2 -> finv2 s2 -> (forall p, p ∈ s_vis so1 s1 -> p ∈ s_vis so2 s2) ->
  (forall x, x ∈ ret1 s1 -> okp (n_pid x)) ->
  (forall x, x ∈ ret2 s2 -> okp (n_pid x)) /\ (within t (ret1 s1) <= within t (ret2 s2))%nat.
Proof using Hef H1.
  clear LAWS1 LAWS2 Hnn Hlinks Hdiff. intros Hi1 Hf1 Hi2 Hf2 Hsub Hok.
  destruct (ret1 s1) as [|y1 ly] eqn:Er1; [by destruct (i_ne _ _ _ _ _ _ _ _ _ _ Hi1)|].
  assert (Hy1 : y1 ∈ ret1 s1) by (rewrite Er1; left). rewrite <- Er1 in *. clear ly Er1.
  destruct Hf1 as [(A1 & B1 & _)|(A1 & B1 & C1 & D1)].
  { exfalso. apply B1. apply (Hok (Nbr ep d0)). rewrite A1. left. }
  destruct (ret_in _ _ _ _ Hi1 Hy1) as (pt1 & Eg1 & Ed1 & Hv1).
  destruct Hf2 as [(A2 & B2 & C2)|(A2 & B2 & C2 & D2)].
  { exfalso. destruct (C2 (n_pid y1) pt1 (Hsub _ Hv1) (Hok _ Hy1) Eg1) as [Hge ->]. assert (E1 : ef1 = 1%nat) by lia.
    pose proof (D1 E1 B2 y1 Hy1) as Hlt. rewrite Ed1 in Hlt. cbn in Hlt. lia. }
  split; [done|].
  assert (Hkey : (forall x, x ∈ ret1 s1 -> (n_dist x <= t)%Z -> x ∈ ret2 s2) -> (within t (ret1 s1) <= within t (ret2 s2))%nat).
  { intros H. unfold within. apply submseteq_length. apply NoDup_submseteq.
    - apply NoDup_filter. apply (NoDup_fmap_1 n_pid). apply Hi1.
    - intros x [Hx Hin]%elem_of_list_filter. apply elem_of_list_filter. split; [done|]. by apply H. }
  destruct (decide (Forall (fun x => (n_dist x <= t)%Z) (ret2 s2))) as [Hall|Hnall].
  - destruct B2 as [E|E].
    + apply Hkey. intros x Hx _. eapply (ret_same _ _ _ _ _ _ _ _ Hi1 Hi2 Hx eq_refl). apply E; [|by apply Hok].
      apply Hsub. by apply (i_ret_vis _ _ _ _ _ _ _ _ _ _ Hi1).
    + rewrite (within_all t (ret2 s2)) by done. pose proof (within_le t (ret1 s1)).
      pose proof (i_len _ _ _ _ _ _ _ _ _ _ Hi1). unfold h_len in *. lia.
  - apply Hkey. intros x Hx Ht. eapply (ret_same _ _ _ _ _ _ _ _ Hi1 Hi2 Hx eq_refl).
    destruct (decide (n_pid x ∈ n_pid <$> ret2 s2)) as [|Hn]; [done|exfalso]. apply Hnall. apply Forall_forall. intros z Hz.
    destruct (ret_in _ _ _ _ Hi1 Hx) as (pt & E & Hd & Hv).
    pose proof (C2 (n_pid x) pt z (Hsub _ Hv) (Hok _ Hx) Hn E Hz) as H. rewrite Hd in Ht. cbn in Ht. lia.
Qed.

(** with the same points visited: when the second is full so is the first, and no worse *)
Lemma full_full s1 s2 : sinv1 s1 -> finv1 s1 -> sinv2 s2 -> finv2 s2 -> s_vis so1 s1 = s_vis so2 s2 ->
  h_len so2 (s_ret so2 s2) = ef2 -> h_len so1 (s_ret so1 s1) = ef1.
Proof using Hef H1.
  clear LAWS1 LAWS2 Hnn Hlinks Hdiff. intros Hi1 Hf1 Hi2 Hf2 Hv Hfull. pose proof (len_pos dist so1 h q flt ef1 ep d0 H1 s1 Hi1) as Hl1.
  destruct (decide (h_len so1 (s_ret so1 s1) = ef1)) as [|Hn]; [done|exfalso].
  destruct Hf2 as [(A2 & B2 & C2)|(A2 & B2 & C2 & D2)]. { unfold h_len in Hfull. rewrite A2 in Hfull. cbn in Hfull. lia. }
  assert (Hne : exists y, y ∈ ret2 s2).
  { destruct (ret2 s2) as [|y l] eqn:E; [by destruct (i_ne _ _ _ _ _ _ _ _ _ _ Hi2)|]. exists y. left. }
  destruct Hne as [y Hy]. destruct (ret_in _ _ _ _ Hi2 Hy) as (pt & Eg & Ed & Hyv).
  destruct Hf1 as [(A1 & B1 & C1)|(A1 & B1 & C1 & D1)].
  - rewrite <- Hv in Hyv. destruct (C1 (n_pid y) pt Hyv (A2 y Hy) Eg) as [_ E]. apply Hn. unfold h_len. rewrite A1. cbn. lia.
  - destruct B1 as [B1|B1]; [|done].
    assert (Hs : n_pid <$> ret2 s2 ⊆+ n_pid <$> ret1 s1).
    { apply NoDup_submseteq; [apply Hi2|]. intros p (x & -> & Hx)%elem_of_list_fmap. apply B1; [|by apply A2].
      rewrite Hv. by apply (i_ret_vis _ _ _ _ _ _ _ _ _ _ Hi2). }
    apply submseteq_length in Hs. rewrite !fmap_length in Hs. unfold h_len in *. lia.
Qed.

Lemma worst_le s1 s2 x1 : sinv1 s1 -> finv1 s1 -> sinv2 s2 -> finv2 s2 -> s_vis so1 s1 = s_vis so2 s2 ->
  h_len so2 (s_ret so2 s2) = ef2 -> x1 ∈ ret1 s1 -> exists x2, x2 ∈ ret2 s2 /\ (n_dist x1 <= n_dist x2)%Z.
Proof using Hef H1.
  clear LAWS1 LAWS2 Hnn Hlinks Hdiff. intros Hi1 Hf1 Hi2 Hf2 Hv Hfull Hx1.
  destruct Hf2 as [(A2 & B2 & C2)|(A2 & B2 & C2 & D2)].
  { exists (Nbr ep d0). rewrite A2. split; [left|]. unfold h_len in Hfull. rewrite A2 in Hfull. cbn in Hfull.
    destruct Hf1 as [(A1 & B1 & C1)|(A1 & B1 & C1 & D1)].
    - rewrite A1 in Hx1. apply elem_of_list_singleton in Hx1 as ->. done.
    - assert (E1 : ef1 = 1%nat) by lia. pose proof (D1 E1 B2 x1 Hx1). cbn. lia. }
  destruct Hf1 as [(A1 & B1 & C1)|(A1 & B1 & C1 & D1)].
  { destruct (ret2 s2) as [|y l] eqn:E; [by destruct (i_ne _ _ _ _ _ _ _ _ _ _ Hi2)|]. exists y. split; [left|].
    assert (Hy : y ∈ ret2 s2) by (rewrite E; left). destruct (ret_in _ _ _ _ Hi2 Hy) as (pt & Eg & Ed & Hyv).
    rewrite <- Hv in Hyv. assert (Hoy : okp (n_pid y)) by (apply A2; left). destruct (C1 (n_pid y) pt Hyv Hoy Eg) as [Hge _].
    rewrite A1 in Hx1. apply elem_of_list_singleton in Hx1 as ->. rewrite Ed. cbn. exact Hge. }
  destruct (decide (Exists (fun x2 => (n_dist x1 <= n_dist x2)%Z) (ret2 s2))) as [Hex|Hno].
  { apply Exists_exists in Hex as (x2 & ? & ?). eauto. }
  exfalso. apply not_Exists_Forall in Hno; [|apply _]. rewrite Forall_forall in Hno. cbn beta in Hno.
  assert (Hn1 : n_pid x1 ∉ n_pid <$> ret2 s2).
  { intros H. apply (Hno x1); [|lia]. by apply (ret_same _ _ _ _ _ _ _ _ Hi1 Hi2 Hx1 eq_refl). }
  assert (Hsub : n_pid x1 :: (n_pid <$> ret2 s2) ⊆+ n_pid <$> ret1 s1).
  { apply NoDup_submseteq; [apply NoDup_cons; split; [done|apply Hi2]|].
    intros p [->|(x2 & -> & Hx2)%elem_of_list_fmap]%elem_of_cons; [by apply elem_of_list_fmap_1|].
    destruct (decide (n_pid x2 ∈ n_pid <$> ret1 s1)) as [|Hn]; [done|exfalso].
    destruct (ret_in _ _ _ _ Hi2 Hx2) as (pt & E & Hd & Hvis). rewrite <- Hv in Hvis.
    pose proof (C1 (n_pid x2) pt x1 Hvis (A2 _ Hx2) Hn E Hx1) as Hle. apply (Hno x2 Hx2). rewrite Hd. exact Hle. }
  apply submseteq_length in Hsub. cbn in Hsub. rewrite !fmap_length in Hsub.
  pose proof (i_len _ _ _ _ _ _ _ _ _ _ Hi1) as Hl1. unfold h_len in *. lia.
Qed.

Record rel (s1 : sst so1) (s2 : sst so2) (extra : list nbr) : Prop := {
  r_i1 : sinv1 s1; r_b1 : finv1 s1; r_i2 : sinv2 s2; r_b2 : finv2 s2;
  r_vis : s_vis so1 s1 = s_vis so2 s2;
  r_cand : h_iter so2 (s_cand so2 s2) ≡ₚ h_iter so1 (s_cand so1 s1) ++ extra;
  r_extra : forall y, y ∈ extra -> h_len so1 (s_ret so1 s1) = ef1 /\ forall x, x ∈ ret1 s1 -> (n_dist x <= - n_dist y)%Z
}.

Lemma accept_mono s1 s2 extra f1 f2 d : rel s1 s2 extra -> h_peek so1 (s_ret so1 s1) = Some f1 -> h_peek so2 (s_ret so2 s2) = Some f2 ->
  (d <? n_dist f1)%Z || (h_len so1 (s_ret so1 s1) <? ef1)%nat = true -> (d <? n_dist f2)%Z || (h_len so2 (s_ret so2 s2) <? ef2)%nat = true.
Proof using LAWS1 LAWS2 Hef H1.
  clear Hnn Hlinks Hdiff. intros [Hi1 Hb1 Hi2 Hb2 Hv _ _] Hf1 Hf2 Ha.
  pose proof (len_pos dist so2 h q flt ef2 ep d0 H2 s2 Hi2) as Hl2.
  destruct (decide (h_len so2 (s_ret so2 s2) = ef2)) as [Hfull|Hn].
  2: { apply orb_true_iff. right. apply Nat.ltb_lt. lia. }
  pose proof (full_full s1 s2 Hi1 Hb1 Hi2 Hb2 Hv Hfull) as Hfull1.
  apply orb_true_iff. apply orb_true_iff in Ha as [Ha|Ha]; [|apply Nat.ltb_lt in Ha; lia].
  left. destruct (h_peek_some so1 LAWS1 _ _ Hf1) as [Hin1 _]. destruct (h_peek_some so2 LAWS2 _ _ Hf2) as [Hin2 Hm2].
  rewrite Forall_forall in Hm2. destruct (worst_le s1 s2 f1 Hi1 Hb1 Hi2 Hb2 Hv Hfull Hin1) as (x2 & Hx2 & Hle).
  pose proof (Hm2 x2 Hx2). lia.
Qed.

Lemma scan_two nbs : forall s1 s2 extra s1' s2', rel s1 s2 extra -> (forall n, n ∈ nbs -> valid h (n_pid n)) ->
  scan_neighbours dist so1 h q ef1 (Some flt) nbs s1 = Ok (false, s1') ->
  scan_neighbours dist so2 h q ef2 (Some flt) nbs s2 = Ok (false, s2') -> exists extra', rel s1' s2' extra'.
Proof using LAWS1 LAWS2 Hnn Hef H1.
  clear Hlinks Hdiff. induction nbs as [|e nbs IH]; intros s1 s2 extra s1' s2' Hr Hv E1 E2; cbn [scan_neighbours] in E1, E2.
  - injection E1 as <-. injection E2 as <-. by exists extra.
  - assert (Hv' : forall n, n ∈ nbs -> valid h (n_pid n)) by (intros n Hn; apply Hv; by right).
    pose proof Hr as [Hi1 Hb1 Hi2 Hb2 Hvs Hc Hx].
    destruct (decide (n_pid e ∈ s_vis so1 s1)) as [Hvis1|Hvis1].
    { rewrite bool_decide_eq_true_2 in E1 by done. rewrite bool_decide_eq_true_2 in E2 by (by rewrite <- Hvs).
      by apply (IH s1 s2 extra). }
    assert (Hvis2 : n_pid e ∉ s_vis so2 s2) by (by rewrite <- Hvs).
    rewrite bool_decide_eq_false_2 in E1, E2 by done.
    destruct (h_peek_nonempty so1 LAWS1 (s_ret so1 s1)) as [f1 Hf1]; [apply Hi1|]. rewrite Hf1 in E1.
    destruct (h_peek_nonempty so2 LAWS2 (s_ret so2 s2)) as [f2 Hf2]; [apply Hi2|]. rewrite Hf2 in E2.
    destruct (Hv e) as [ept Hept]; [left|]. rewrite Hept in E1, E2.
    change (unwrap (Some ept)) with (Ok ept) in E1, E2. rewrite ?bind_Ok in E1; rewrite ?bind_Ok in E2. cbn zeta in E1, E2.
    pose proof (accept_mono s1 s2 extra f1 f2 (dist q (pt_data ept)) Hr Hf1 Hf2) as Hacc.
    pose proof (fun r0 => step_accept dist so1 LAWS1 h q flt ef1 ep d0 H1 s1 (n_pid e) ept f1 r0 Hi1 Hb1 Hvis1 Hept Hf1) as HA1.
    pose proof (step_skip dist so1 LAWS1 h q flt ef1 ep d0 H1 s1 (n_pid e) ept f1 Hi1 Hb1 Hvis1 Hept Hf1) as HS1.
    pose proof (fun r0 => step_accept dist so2 LAWS2 h q flt ef2 ep d0 H2 s2 (n_pid e) ept f2 r0 Hi2 Hb2 Hvis2 Hept Hf2) as HA2.
    pose proof (step_skip dist so2 LAWS2 h q flt ef2 ep d0 H2 s2 (n_pid e) ept f2 Hi2 Hb2 Hvis2 Hept Hf2) as HS2.
    pose proof (fun r0 => push_inv dist so1 LAWS1 Hnn h q ef1 (Some flt) all ep d0 (or_intror H1) s1 (n_pid e) ept r0 Hi1 Hept I Hvis1) as Hp1.
    pose proof (fun r0 => push_inv dist so2 LAWS2 Hnn h q ef2 (Some flt) all ep d0 (or_intror H2) s2 (n_pid e) ept r0 Hi2 Hept I Hvis2) as Hp2.
    assert (Hk1 : sinv1 (SST so1 (s_ret so1 s1) (s_cand so1 s1) (n_pid e :: s_vis so1 s1))).
    { apply skip_inv; auto. by exists ept. }
    assert (Hk2 : sinv2 (SST so2 (s_ret so2 s2) (s_cand so2 s2) (n_pid e :: s_vis so2 s2))).
    { apply skip_inv; auto. by exists ept. }
    set (d := dist q (pt_data ept)) in *.
    set (t1 := (d <? n_dist f1)%Z || (h_len so1 (s_ret so1 s1) <? ef1)%nat) in *.
    set (t2 := (d <? n_dist f2)%Z || (h_len so2 (s_ret so2 s2) <? ef2)%nat) in *.
    destruct t1.
    + rewrite (Hacc eq_refl) in E2, HA2. apply bind_inv in E1 as (r1 & Er1 & E1). apply bind_inv in E2 as (r2 & Er2 & E2).
      specialize (HA1 r1 eq_refl Er1) as [HA1 HA1']. specialize (HA2 r2 eq_refl Er2) as [HA2 _]. specialize (Hp1 r1 Er1). specialize (Hp2 r2 Er2).
      refine (IH _ _ extra _ _ _ Hv' E1 E2). split; auto.
      * cbn. by rewrite Hvs.
      * cbn [s_cand]. rewrite (law_push _ LAWS1), (law_push _ LAWS2), Hc. done.
      * cbn [s_ret]. intros y Hy. destruct (Hx y Hy) as [Hfull Hb]. destruct (HA1' Hfull) as [? Hb']. split; [done|].
        by apply Hb'.
    + specialize (HS1 eq_refl) as (HS1 & Hfull & Hbd). destruct t2.
      * apply bind_inv in E2 as (r2 & Er2 & E2). specialize (HA2 r2 eq_refl Er2) as [HA2 _]. specialize (Hp2 r2 Er2).
        refine (IH _ _ (Nbr (n_pid e) (- d) :: extra) _ _ _ Hv' E1 E2). split; auto.
        -- cbn. by rewrite Hvs.
        -- cbn [s_cand]. rewrite (law_push _ LAWS2), Hc. apply Permutation_middle.
        -- cbn [s_ret]. intros y [->|Hy]%elem_of_cons; [|by apply Hx]. split; [done|]. intros x Hx'. cbn.
           rewrite Z.opp_involutive. by apply Hbd.
      * specialize (HS2 eq_refl) as (HS2 & _ & _).
        refine (IH _ _ extra _ _ _ Hv' E1 E2). split; auto. cbn. by rewrite Hvs.
Qed.

Lemma loop_two fuel1 : forall fuel2 s1 s2 extra r1 r2 t, rel s1 s2 extra ->
  search_loop dist so1 fuel1 h q ef1 layer (Some flt) s1 = Ok r1 -> search_loop dist so2 fuel2 h q ef2 layer (Some flt) s2 = Ok r2 ->
  (forall x, x ∈ h_iter so1 r1 -> okp (n_pid x)) ->
  (forall x, x ∈ h_iter so2 r2 -> okp (n_pid x)) /\ (within t (h_iter so1 r1) <= within t (h_iter so2 r2))%nat.
Proof using LAWS1 LAWS2 Hnn Hlinks Hef H1 Hdiff.
  induction fuel1 as [|fuel1 IH]; intros fuel2 s1 s2 extra r1 r2 t Hr E1 E2 Hok; [done|].
  pose proof Hr as [Hi1 Hb1 Hi2 Hb2 Hvs Hc Hx].
  cbn [search_loop] in E1. apply bind_inv in E1 as (u1 & E1 & E1').
  destruct (iter_inv dist so1 LAWS1 Hnn h q flt ef1 layer ep d0 H1 Hlinks s1 u1 Hi1 E1)
    as [[-> _]|(c1 & k1 & f1 & cpt & nbs & s1' & -> & Hpop1 & Hf1 & Hle1 & Hc1 & Hn & Hval & Hi1' & Hs1)].
  - injection E1' as <-. destruct (loop_one dist so2 LAWS2 Hnn h q flt ef2 layer ep d0 H2 Hlinks fuel2 s2 r2 Hi2 Hb2 E2) as (s2' & A & B & -> & D).
    apply (taken_le s1 s2' t); auto. intros p Hp. apply D. by rewrite <- Hvs.
  - destruct fuel2 as [|fuel2]; [done|]. cbn [search_loop] in E2. apply bind_inv in E2 as (u2 & E2 & E2').
    destruct (law_pop_some _ LAWS1 _ _ _ Hpop1) as [Hp1 Hm1]. rewrite Forall_forall in Hm1.
    destruct (h_peek_some so1 LAWS1 _ _ Hf1) as [Hfin1 Hfm1].
    assert (Hc12 : forall c2 k2, h_pop so2 (s_cand so2 s2) = Some (c2, k2) -> c2 = c1 /\ h_iter so2 k2 ≡ₚ h_iter so1 k1 ++ extra).
    { intros c2 k2 Hpop2. destruct (law_pop_some _ LAWS2 _ _ _ Hpop2) as [Hp2 Hm2]. rewrite Forall_forall in Hm2.
      pose proof (i_cand _ _ _ _ _ _ _ _ _ _ Hi2) as Hco. rewrite Forall_forall in Hco.
      assert (Hin1 : c1 ∈ h_iter so2 (s_cand so2 s2)). { rewrite Hc, Hp1. left. }
      assert (Hin2 : c2 ∈ h_iter so2 (s_cand so2 s2)). { rewrite Hp2. left. }
      assert (Hge : (n_dist c1 <= n_dist c2)%Z).
      { rewrite Hp2 in Hin1. apply elem_of_cons in Hin1 as [->|Hin1]; [lia|]. by apply Hm2. }
      assert (c2 = c1) as ->.
      { symmetry. apply (cand_same dist h q Hdiff); [apply (Hco c1 Hin1)|apply (Hco c2 Hin2)|].
        rewrite Hc, Hp1 in Hin2. cbn in Hin2. apply elem_of_cons in Hin2 as [->|Hin2]; [done|].
        apply elem_of_app in Hin2 as [Hin2|Hin2].
        - pose proof (Hm1 c2 Hin2). lia.
        - destruct (Hx c2 Hin2) as [Hfull Hb]. pose proof (Hb f1 Hfin1). destruct Hle1 as [Hle1|Hle1]; [lia|done]. }
      split; [done|]. rewrite Hp2, Hp1 in Hc. cbn in Hc. by apply Permutation_cons_inv in Hc. }
    destruct (iter_inv dist so2 LAWS2 Hnn h q flt ef2 layer ep d0 H2 Hlinks s2 u2 Hi2 E2)
      as [[-> [Hnone|(c2 & k2 & f2 & Hpop2 & Hf2 & Hlt & Hfull2)]]|(c2 & k2 & f2 & cpt2 & nbs2 & s2' & -> & Hpop2 & Hf2 & Hle2 & Hc2 & Hn2 & _ & Hi2' & Hs2)].
    + exfalso. apply (law_pop_none _ LAWS2) in Hnone. rewrite Hnone, Hp1 in Hc. apply Permutation_nil in Hc. done.
    + exfalso. destruct (Hc12 _ _ Hpop2) as [-> _]. destruct (h_peek_some so2 LAWS2 _ _ Hf2) as [_ Hm2].
      rewrite Forall_forall in Hm2. pose proof (full_full s1 s2 Hi1 Hb1 Hi2 Hb2 Hvs Hfull2).
      destruct (worst_le s1 s2 f1 Hi1 Hb1 Hi2 Hb2 Hvs Hfull2 Hfin1) as (x2 & Hx2 & Hx2le).
      pose proof (Hm2 x2 Hx2). destruct Hle1 as [Hle1|Hle1]; [lia|done].
    + destruct (Hc12 _ _ Hpop2) as [-> Hk]. assert (cpt2 = cpt) as -> by congruence. assert (nbs2 = nbs) as -> by congruence.
      destruct (scan_two nbs (SST so1 (s_ret so1 s1) k1 (s_vis so1 s1)) (SST so2 (s_ret so2 s2) k2 (s_vis so2 s2)) extra s1' s2') as [extra' Hr']; auto.
      { split; auto; cbn; auto. }
      by apply (IH fuel2 s1' s2' extra' r1 r2 t Hr').
Qed.

End Two.

Section Top.
Context {T : Type} (dist : list T -> list T -> Z) (so1 so2 : StdOps).
Context (LAWS1 : StdLaws so1) (LAWS2 : StdLaws so2) (Hnn : forall a b, (0 <= dist a b)%Z).

Lemma init_finv so (h : hnsw (T:=T)) q flt ef ep ept s : get_pt h ep = Some ept -> s_vis so s = [ep] ->
  h_iter so (s_ret so s) = [Nbr ep (dist q (pt_data ept))] -> finv dist so h q flt ef ep (dist q (pt_data ept)) s.
Proof.
  intros Hg Hv Hr. destruct (okp_dec h flt ep) as [Ho|Ho]; [right|left].
  - split; [|split; [|split]]; rewrite ?Hr, ?Hv.
    + intros x ->%elem_of_list_singleton. done.
    + left. intros p ->%elem_of_list_singleton _. left.
    + intros p pt x ->%elem_of_list_singleton _ Hn. destruct Hn. left.
    + done.
  - split; [done|]. split; [done|]. rewrite Hv. intros p pt ->%elem_of_list_singleton. done.
Qed.

Lemma search_layer_mono_filter (h : hnsw (T:=T)) q flt ep ept ef1 ef2 layer ly r1 r2 t :
  points_by_layer h !! layer = Some ly -> ly <> [] -> get_pt h ep = Some ept -> links_ok h layer (fun _ => True) ->
  (1 <= ef1)%nat -> (ef1 <= ef2)%nat ->
  (forall p p' pt pt', get_pt h p = Some pt -> get_pt h p' = Some pt' -> dist q (pt_data pt) = dist q (pt_data pt') -> p = p') ->
  search_layer dist so1 h q ep ef1 layer (Some flt) = Ok r1 -> search_layer dist so2 h q ep ef2 layer (Some flt) = Ok r2 ->
  (forall x, x ∈ h_iter so1 r1 -> okp h flt (n_pid x)) ->
  (forall x, x ∈ h_iter so2 r2 -> okp h flt (n_pid x)) /\ (within t (h_iter so1 r1) <= within t (h_iter so2 r2))%nat.
Proof using LAWS1 LAWS2 Hnn.
  intros Hly Hne Hg Hl H1 Hef Hdiff E1 E2 Hok. unfold search_layer in E1, E2. rewrite Hly in E1, E2. destruct ly as [|p0 ly]; [done|].
  destruct (search_init_inv dist so1 LAWS1 Hnn h q ef1 (Some flt) (fun _ => True) ep ept Hg I) as (s1 & Es1 & Hi1 & _ & Hv1 & Hr1 & Hc1).
  destruct (search_init_inv dist so2 LAWS2 Hnn h q ef2 (Some flt) (fun _ => True) ep ept Hg I) as (s2 & Es2 & Hi2 & _ & Hv2 & Hr2 & Hc2).
  rewrite Es1, bind_Ok in E1. rewrite Es2, bind_Ok in E2.
  eapply (loop_two dist so1 so2 LAWS1 LAWS2 Hnn h q flt ef1 ef2 layer ep (dist q (pt_data ept)) Hl H1 Hef Hdiff _ _ s1 s2 []); eauto.
  split; auto.
  - by eapply init_finv.
  - by eapply init_finv.
  - congruence.
  - by rewrite Hc1, Hc2.
  - intros y Hy. by apply elem_of_nil in Hy.
Qed.

End Top.
