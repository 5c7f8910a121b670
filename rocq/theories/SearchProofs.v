(** Loop invariant of search_layer. *)
From Verif Require Import Prelude Model Lib Table.

Section Search.
Context {T : Type} (dist : list T -> list T -> Z) (so : StdOps).
Context (LAWS : StdLaws so) (Hnn : forall a b, (0 <= dist a b)%Z).
Context (h : hnsw (T:=T)) (q : list T) (ef layer : nat) (filter : option (dataid -> bool)).
(** a set of points closed under the links of the layer *)
Context (Sset : pid -> Prop).

Definition links_ok : Prop := forall p pt, Sset p -> get_pt h p = Some pt ->
  exists nbs, pt_nbs pt !! layer = Some nbs /\
    forall n, n ∈ nbs -> valid h (n_pid n) /\ Sset (n_pid n).

Definition elt_ok (x : nbr) : Prop :=
  exists pt, get_pt h (n_pid x) = Some pt /\ n_dist x = dist q (pt_data pt).
Definition cand_ok (x : nbr) : Prop :=
  exists pt, get_pt h (n_pid x) = Some pt /\ n_dist x = (- dist q (pt_data pt))%Z.
Definition accepted (flt : dataid -> bool) (x : nbr) : Prop :=
  exists pt, get_pt h (n_pid x) = Some pt /\ flt (pt_oid pt) = true.

Definition flt_ok (ep : pid) (l : list nbr) : Prop :=
  match filter with
  | None => True
  | Some flt => Forall (accepted flt) l \/ exists x, l = [x] /\ n_pid x = ep
  end.

Context (ep : pid) (d0 : Z).

Record sinv (s : sst so) : Prop := {
  i_ret : Forall elt_ok (h_iter so (s_ret so s));
  i_cand : Forall cand_ok (h_iter so (s_cand so s));
  i_ret_nd : NoDup (n_pid <$> h_iter so (s_ret so s));
  i_ret_vis : forall x, x ∈ h_iter so (s_ret so s) -> n_pid x ∈ s_vis so s;
  i_cand_nd : NoDup (n_pid <$> h_iter so (s_cand so s));
  i_cand_vis : forall x, x ∈ h_iter so (s_cand so s) -> n_pid x ∈ s_vis so s;
  i_vis_nd : NoDup (s_vis so s);
  i_vis : Forall (fun p => valid h p /\ Sset p) (s_vis so s);
  i_len : (h_len so (s_ret so s) <= Nat.max 1 ef)%nat;
  i_ne : h_iter so (s_ret so s) <> [];
  i_best : filter = None -> exists x, x ∈ h_iter so (s_ret so s) /\ (n_dist x <= d0)%Z;
  i_flt : flt_ok ep (h_iter so (s_ret so s))
}.

Lemma accepted_perm flt l l' : l ≡ₚ l' -> Forall (accepted flt) l -> Forall (accepted flt) l'.
Proof. by intros ->. Qed.

Lemma singleton_perm {A} (x : A) l : l ≡ₚ [x] -> l = [x].
Proof. apply Permutation_singleton_r. Qed.

Lemma skip_inv s e : sinv s -> valid h e -> Sset e -> e ∉ s_vis so s ->
  sinv (SST so (s_ret so s) (s_cand so s) (e :: s_vis so s)).
Proof.
  intros [] Hv HS He. constructor; simpl; auto.
  - intros x Hx. right. auto.
  - intros x Hx. right. auto.
  - by constructor.
Qed.

Hypothesis Hef : filter = None \/ (1 <= ef)%nat.

(** pushing a new element: the heap of returned points before shrinking *)
Lemma push_ret_spec s e ept :
  sinv s -> get_pt h e = Some ept -> e ∉ s_vis so s ->
  exists ret, push_ret so h filter e (pt_oid ept) (dist q (pt_data ept)) (s_ret so s) = Ok ret /\
    (* nothing pushed *)
    ((ret = s_ret so s /\ (exists flt, filter = Some flt /\ flt (pt_oid ept) = false)) \/
    (* pushed on the previous ones *)
     (h_iter so ret ≡ₚ Nbr e (dist q (pt_data ept)) :: h_iter so (s_ret so s) /\
      match filter with None => True | Some flt => flt (pt_oid ept) = true /\
         Forall (accepted flt) (h_iter so (s_ret so s)) end) \/
    (* pushed alone, replacing the rejected start point *)
     (h_iter so ret = [Nbr e (dist q (pt_data ept))] /\
      exists flt x, filter = Some flt /\ flt (pt_oid ept) = true /\
        h_iter so (s_ret so s) = [x] /\ n_pid x = ep /\ ~ accepted flt x)).
Proof.
  intros Hi He Hvis. unfold push_ret. destruct filter as [flt|] eqn:Ef.
  2: { eexists; split; [done|]. right; left. split; [apply (law_push _ LAWS)|done]. }
  destruct (flt (pt_oid ept)) eqn:Eflt; [|eexists; split; [done|]; left; eauto].
  destruct Hi as [? ? ? ? ? ? ? ? ? ? ? Hf]. unfold flt_ok in Hf. rewrite Ef in Hf.
  destruct (Nat.eqb_spec (h_len so (s_ret so s)) 1) as [E1|E1].
  - destruct (h_peek_nonempty so LAWS (s_ret so s)) as [o Ho]; [done|].
    destruct (h_peek_some so LAWS _ _ Ho) as [Hin _].
    unfold h_len in E1. destruct (h_iter so (s_ret so s)) as [|x [|]] eqn:Er; try done.
    apply elem_of_list_singleton in Hin as ->.
    assert (Hex : elt_ok x). { rewrite Forall_forall in i_ret0. apply i_ret0. left. }
    destruct Hex as (opt & Hopt & _).
    rewrite Ho. simpl. rewrite Hopt. simpl.
    destruct (flt (pt_oid opt)) eqn:Eo.
    + eexists; split; [done|]. right; left. rewrite (law_push _ LAWS), Er. split; [done|].
      split; [done|]. constructor; [|constructor]. exists opt. done.
    + eexists; split; [done|]. right; right. split.
      * apply singleton_perm. rewrite (law_push _ LAWS), (law_iter_empty _ LAWS). done.
      * exists flt, x. split; [done|]. split; [done|]. split; [done|]. split.
        -- destruct Hf as [Hf|(y & [= ->] & ?)]; [|done].
           inversion Hf as [|? ? (pt & Hpt & Hacc)]; subst. rewrite Hopt in Hpt. congruence.
        -- intros (pt & Hpt & Hacc). congruence.
  - eexists; split; [done|]. right; left. rewrite (law_push _ LAWS). split; [done|].
    split; [done|]. destruct Hf as [Hf|(y & Hy & ?)]; [done|].
    exfalso. apply E1. unfold h_len. by rewrite Hy.
Qed.

(** what the heap of returned points can become *)
Definition push_case (s : sst so) e (ept : point (T:=T)) ret : Prop :=
  (ret = s_ret so s /\ filter <> None) \/
  (h_iter so ret ≡ₚ Nbr e (dist q (pt_data ept)) :: h_iter so (s_ret so s) /\
   match filter with None => True | Some flt => flt (pt_oid ept) = true /\ Forall (accepted flt) (h_iter so (s_ret so s)) end) \/
  (h_iter so ret = [Nbr e (dist q (pt_data ept))] /\ exists flt, filter = Some flt /\ flt (pt_oid ept) = true).

Lemma push_case_inv s e ept ret :
  sinv s -> get_pt h e = Some ept -> Sset e -> e ∉ s_vis so s -> push_case s e ept ret ->
  sinv (SST so (shrink_ret so ef ret)
            (h_push so (Nbr e (- dist q (pt_data ept))) (s_cand so s)) (e :: s_vis so s)).
Proof.
  intros Hi He HS Hvis Hcase.
  destruct Hi.
  (* a uniform description of the new returned points *)
  assert (Hmain : Forall elt_ok (h_iter so ret) /\ NoDup (n_pid <$> h_iter so ret) /\
     (forall x, x ∈ h_iter so ret -> n_pid x ∈ e :: s_vis so s) /\
     h_iter so ret <> [] /\
     (h_len so ret <= S (Nat.max 1 ef))%nat /\
     (h_len so ret <= ef \/ (1 < h_len so ret /\ forall flt, filter = Some flt -> Forall (accepted flt) (h_iter so ret)))%nat /\
     (filter = None -> exists x, x ∈ h_iter so ret /\ (n_dist x <= d0)%Z) /\
     flt_ok ep (h_iter so ret)).
  { assert (Hnew : elt_ok (Nbr e (dist q (pt_data ept)))) by (exists ept; done).
    destruct Hcase as [[-> Ef]|[[Hp Hf]|[Hp (flt & Ef & Eacc)]]].
    - split_and!; auto.
      + intros x Hx. right; auto.
      + left. destruct Hef as [Hef'|Hef']; [congruence|]. lia.
    - assert (Hlen : h_len so ret = S (h_len so (s_ret so s))) by (unfold h_len; by rewrite Hp).
      split_and!.
      + rewrite Hp. by constructor.
      + rewrite Hp. simpl. constructor; [|done].
        intros (x & Hxe & Hx)%elem_of_list_fmap. apply Hvis. subst e. auto.
      + intros x Hx. rewrite Hp in Hx. apply elem_of_cons in Hx as [->|Hx]; simpl; [left|right; auto].
      + intros Hnil. rewrite Hnil in Hp. by apply Permutation_nil in Hp.
      + lia.
      + destruct (decide (h_len so ret <= ef)%nat) as [Hle|Hgt]; [by left|right]. split.
        * destruct (h_iter so (s_ret so s)) eqn:Er; [done|]. unfold h_len in *. rewrite Er in Hlen.
          simpl in Hlen. lia.
        * intros flt Hflt. rewrite Hflt in Hf. destruct Hf as [Hacc Hall].
          rewrite Hp. constructor; [|done]. exists ept; done.
      + intros Hnone. destruct (i_best0 Hnone) as (x & Hx & Hd). exists x. split; [|done].
        rewrite Hp. by right.
      + unfold flt_ok. destruct filter as [flt|]; [|done]. destruct Hf as [Hacc Hall]. left.
        rewrite Hp. constructor; [|done]. exists ept; done.
    - split_and!.
      + rewrite Hp. repeat constructor; done.
      + rewrite Hp. apply NoDup_singleton.
      + rewrite Hp. intros y ->%elem_of_list_singleton. left.
      + by rewrite Hp.
      + unfold h_len. rewrite Hp. simpl. lia.
      + left. unfold h_len. rewrite Hp. simpl. destruct Hef as [Hef'|Hef']; [congruence|lia].
      + congruence.
      + unfold flt_ok. rewrite Ef. left. rewrite Hp. repeat constructor. exists ept; done. }
  destruct Hmain as (M1 & M2 & M3 & M4 & M5 & M6 & M7 & M8).
  assert (Hcv : valid h e) by (exists ept; done).
  assert (Hcand : Forall cand_ok (h_iter so (h_push so (Nbr e (- dist q (pt_data ept))) (s_cand so s)))).
  { rewrite (law_push _ LAWS). constructor; [|done]. exists ept; done. }
  assert (Hcnd : NoDup (n_pid <$> h_iter so (h_push so (Nbr e (- dist q (pt_data ept))) (s_cand so s)))).
  { rewrite (law_push _ LAWS). simpl. constructor; [|done].
    intros (x & Hxe & Hx)%elem_of_list_fmap. apply Hvis. subst e. auto. }
  assert (Hcvis : forall x, x ∈ h_iter so (h_push so (Nbr e (- dist q (pt_data ept))) (s_cand so s)) ->
     n_pid x ∈ e :: s_vis so s).
  { intros x. rewrite (law_push _ LAWS), elem_of_cons. intros [->|Hx]; [left|right; auto]. }
  destruct (shrink_ret_spec so LAWS ef ret) as [[Hle ->]|[Hgt (x & Hp & Hmax)]].
  - constructor; simpl; auto; first [lia | constructor; auto].
  - destruct M6 as [?|[Hgt1 Hacc]]; [lia|].
    assert (Hlen : h_len so ret = S (h_len so (shrink_ret so ef ret))) by (unfold h_len; by rewrite Hp).
    constructor; simpl; auto.
    + rewrite Hp in M1. by inversion M1.
    + rewrite Hp in M2. simpl in M2. by inversion M2.
    + intros y Hy. apply M3. rewrite Hp. by right.
    + by constructor.
    + lia.
    + intros Hnil. unfold h_len in *. rewrite Hnil in Hlen. simpl in Hlen. lia.
    + intros Hnone. destruct (M7 Hnone) as (y & Hy & Hd). rewrite Hp in Hy.
      apply elem_of_cons in Hy as [->|Hy]; [|by exists y].
      destruct (h_iter so (shrink_ret so ef ret)) as [|z zs] eqn:Ez.
      { unfold h_len in *. rewrite Ez in Hlen. simpl in Hlen. lia. }
      exists z. split; [left|]. inversion Hmax; subst. lia.
    + unfold flt_ok. destruct filter as [flt|]; [|done]. left.
      specialize (Hacc flt eq_refl). rewrite Hp in Hacc. by inversion Hacc.
Qed.

Lemma push_inv s e ept ret :
  sinv s -> get_pt h e = Some ept -> Sset e -> e ∉ s_vis so s ->
  push_ret so h filter e (pt_oid ept) (dist q (pt_data ept)) (s_ret so s) = Ok ret ->
  sinv (SST so (shrink_ret so ef ret)
            (h_push so (Nbr e (- dist q (pt_data ept))) (s_cand so s)) (e :: s_vis so s)).
Proof.
  intros Hi He HS Hvis Hret.
  destruct (push_ret_spec s e ept Hi He Hvis) as (ret' & Hret' & Hcase).
  rewrite Hret in Hret'. injection Hret' as <-. apply push_case_inv; auto.
  destruct Hcase as [[-> (flt & Ef & _)]|[?|[Hp (flt & x & Ef & Eacc & _)]]]; [left; split; [done|congruence]|by right; left|].
  right; right. eauto.
Qed.

(** measure used for termination *)
Definition smeas (s : sst so) : nat :=
  h_len so (s_cand so s) + (table_size h - length (s_vis so s)).

Lemma vis_bound s : sinv s -> (length (s_vis so s) <= table_size h)%nat.
Proof.
  intros []. apply valid_count; [done|]. eapply Forall_impl; [done|]. by intros ? [? ?].
Qed.

Lemma scan_inv nbs s :
  sinv s -> (forall n, n ∈ nbs -> valid h (n_pid n) /\ Sset (n_pid n)) ->
  exists s', scan_neighbours dist so h q ef filter nbs s = Ok (false, s') /\ sinv s' /\
    (smeas s' <= smeas s)%nat /\
    (forall p, p ∈ s_vis so s -> p ∈ s_vis so s') /\
    (forall n, n ∈ nbs -> n_pid n ∈ s_vis so s').
Proof.
  revert s. induction nbs as [|e nbs IH]; intros s Hi Hn; simpl.
  - exists s. split_and!; auto. intros n Hin. by apply elem_of_nil in Hin.
  - destruct (Hn e) as [Hve HSe]; [left|].
    assert (Hn' : forall n, n ∈ nbs -> valid h (n_pid n) /\ Sset (n_pid n)).
    { intros n Hin. apply Hn. by right. }
    destruct (decide (n_pid e ∈ s_vis so s)) as [Hvis|Hvis].
    { rewrite bool_decide_eq_true_2 by done.
      destruct (IH s Hi Hn') as (s' & ? & ? & ? & ? & ?).
      exists s'. split_and!; auto. intros n [->|Hin]%elem_of_cons; auto. }
    rewrite bool_decide_eq_false_2 by done.
    destruct (h_peek_nonempty so LAWS (s_ret so s)) as [f Hf]; [apply Hi|].
    rewrite Hf. destruct Hve as [ept Hept]. rewrite Hept. simpl.
    destruct ((dist q (pt_data ept) <? n_dist f)%Z || (h_len so (s_ret so s) <? ef)%nat) eqn:Etest.
    + destruct (push_ret_spec s (n_pid e) ept Hi Hept Hvis) as (ret & Hret & _).
      rewrite Hret. simpl.
      pose proof (push_inv s (n_pid e) ept ret Hi Hept HSe Hvis Hret) as Hi'.
      destruct (IH _ Hi' Hn') as (s' & Hs & Hi2 & Hm & Hv1 & Hv2).
      exists s'. split_and!; auto.
      * etransitivity; [exact Hm|].
        pose proof (vis_bound _ Hi') as Hb. unfold smeas in *. simpl in *.
        rewrite (h_len_push so LAWS). lia.
      * intros p Hp. apply Hv1. by right.
      * intros n [->|Hin]%elem_of_cons; auto. apply Hv1. left.
    + assert (Hi' : sinv (SST so (s_ret so s) (s_cand so s) (n_pid e :: s_vis so s))).
      { apply skip_inv; auto. exists ept; done. }
      destruct (IH _ Hi' Hn') as (s' & Hs & Hi2 & Hm & Hv1 & Hv2).
      exists s'. split_and!; auto.
      * etransitivity; [exact Hm|]. unfold smeas. simpl. lia.
      * intros p Hp. apply Hv1. by right.
      * intros n [->|Hin]%elem_of_cons; auto. apply Hv1. left.
Qed.

(** the state after popping a candidate *)
Lemma pop_inv s c cand' : sinv s -> h_pop so (s_cand so s) = Some (c, cand') ->
  sinv (SST so (s_ret so s) cand' (s_vis so s)) /\ cand_ok c /\ n_pid c ∈ s_vis so s.
Proof.
  intros [] Hpop. destruct (law_pop_some _ LAWS _ _ _ Hpop) as [Hp _].
  rewrite Hp in i_cand0. inversion i_cand0; subst.
  rewrite Hp in i_cand_nd0. simpl in i_cand_nd0. inversion i_cand_nd0; subst.
  split; [|split; [done|]].
  - constructor; simpl; auto. intros x Hx. apply i_cand_vis0. rewrite Hp. by right.
  - apply i_cand_vis0. rewrite Hp. left.
Qed.

Hypothesis Hlinks : links_ok.

Lemma elt_in_S s x : sinv s -> n_pid x ∈ s_vis so s -> Sset (n_pid x).
Proof. intros [] Hx. rewrite Forall_forall in i_vis0. by apply i_vis0. Qed.

Lemma search_iter_inv s :
  sinv s ->
  (search_iter dist so h q ef layer filter s = Ok (inl (s_ret so s))) \/
  exists s', search_iter dist so h q ef layer filter s = Ok (inr s') /\ sinv s' /\
    (smeas s' < smeas s)%nat.
Proof.
  intros Hi. unfold search_iter.
  destruct (h_pop so (s_cand so s)) as [[c cand']|] eqn:Epop; [|by left].
  destruct (pop_inv s c cand' Hi Epop) as (Hi1 & (cpt & Hc & Hcd) & Hcvis).
  destruct (h_peek_nonempty so LAWS (s_ret so s)) as [f Hf]; [apply Hi|].
  rewrite Hf. simpl.
  assert (Hfd : (0 <= n_dist f)%Z).
  { destruct (h_peek_some so LAWS _ _ Hf) as [Hin _]. destruct Hi.
    rewrite Forall_forall in i_ret0. destruct (i_ret0 _ Hin) as (? & _ & ->). apply Hnn. }
  pose proof (Hnn q (pt_data cpt)) as Hcn.
  rewrite (assert_true (0 <=? n_dist f)%Z) by lia. simpl.
  rewrite (assert_true (n_dist c <=? 0)%Z) by lia. simpl.
  match goal with |- context [if ?b then _ else _] => destruct b end; [by left|].
  right. rewrite Hc. simpl.
  destruct (Hlinks (n_pid c) cpt) as (nbs & Hnbs & Hin); [by eapply elt_in_S|done|].
  rewrite Hnbs. simpl.
  destruct (scan_inv nbs _ Hi1 Hin) as (s' & Hs & Hi2 & Hm & _ & _).
  rewrite Hs. simpl. exists s'. split_and!; auto.
  eapply Nat.le_lt_trans; [exact Hm|]. unfold smeas. simpl.
  rewrite (h_len_pop so LAWS _ _ _ Epop). lia.
Qed.

Lemma search_loop_inv fuel s :
  sinv s -> (smeas s < fuel)%nat ->
  exists ret, search_loop dist so fuel h q ef layer filter s = Ok ret /\
    exists s', sinv s' /\ ret = s_ret so s'.
Proof.
  revert s. induction fuel as [|fuel IH]; intros s Hi Hm; [lia|]. simpl.
  destruct (search_iter_inv s Hi) as [->|(s' & -> & Hi' & Hm')]; simpl.
  - eauto.
  - apply IH; [done|lia].
Qed.

End Search.

Section SearchLayer.
Context {T : Type} (dist : list T -> list T -> Z) (so : StdOps).
Context (LAWS : StdLaws so) (Hnn : forall a b, (0 <= dist a b)%Z).

Lemma search_init_inv (h : hnsw (T:=T)) q ef filter (Sset : pid -> Prop) ep ept :
  get_pt h ep = Some ept -> Sset ep ->
  exists s, search_init dist so h q ep = Ok s /\
    sinv dist so h q ef filter Sset ep (dist q (pt_data ept)) s /\
    smeas so h s = table_size h /\ s_vis so s = [ep] /\
    h_iter so (s_ret so s) = [Nbr ep (dist q (pt_data ept))] /\
    h_iter so (s_cand so s) = [Nbr ep (- dist q (pt_data ept))].
Proof.
  intros Hg HS. unfold search_init. rewrite Hg. simpl. eexists. split; [done|].
  assert (H1 : forall x, h_iter so (h_push so x (h_empty so)) = [x]).
  { intros x. apply singleton_perm. by rewrite (law_push _ LAWS), (law_iter_empty _ LAWS). }
  assert (Hv : valid h ep) by (by exists ept).
  split_and!; simpl; auto.
  - constructor; simpl; rewrite ?H1; simpl.
    + repeat constructor. exists ept; done.
    + repeat constructor. exists ept; done.
    + apply NoDup_singleton.
    + intros x ->%elem_of_list_singleton. left.
    + apply NoDup_singleton.
    + intros x ->%elem_of_list_singleton. left.
    + apply NoDup_singleton.
    + constructor; [done|constructor].
    + unfold h_len. rewrite H1. simpl. lia.
    + done.
    + intros _. eexists; split; [left|]. simpl. lia.
    + unfold flt_ok. destruct filter; [|done]. right. eauto.
  - unfold smeas. simpl. unfold h_len. rewrite H1. simpl.
    assert (1 <= table_size h)%nat; [|lia].
    apply (valid_count h [ep]); [apply NoDup_singleton|]. repeat constructor; done.
Qed.

(** Main lemma on search_layer. *)
Lemma search_layer_spec (h : hnsw (T:=T)) q ep ept ef layer filter ly (Sset : pid -> Prop) :
  points_by_layer h !! layer = Some ly -> ly <> [] ->
  get_pt h ep = Some ept -> Sset ep -> links_ok h layer Sset ->
  (filter = None \/ (1 <= ef)%nat) ->
  exists ret, search_layer dist so h q ep ef layer filter = Ok ret /\
    Forall (elt_ok dist h q) (h_iter so ret) /\
    NoDup (n_pid <$> h_iter so ret) /\
    Forall (fun x => Sset (n_pid x)) (h_iter so ret) /\
    (h_len so ret <= Nat.max 1 ef)%nat /\
    h_iter so ret <> [] /\
    (filter = None -> exists x, x ∈ h_iter so ret /\ (n_dist x <= dist q (pt_data ept))%Z) /\
    flt_ok h filter ep (h_iter so ret).
Proof.
  intros Hly Hne Hg HS Hl Hef. unfold search_layer. rewrite Hly.
  destruct ly as [|p0 ly]; [done|].
  destruct (search_init_inv h q ef filter Sset ep ept Hg HS) as (s & -> & Hi & Hm & _).
  rewrite bind_Ok.
  destruct (search_loop_inv dist so LAWS Hnn h q ef layer filter Sset ep _ Hef Hl
     (S (table_size h)) s Hi) as (ret & -> & s' & Hi' & ->); [lia|].
  exists (s_ret so s'). split; [done|].
  pose proof Hi' as Hi''. destruct Hi'. split_and!; auto.
  rewrite Forall_forall. intros x Hx. rewrite Forall_forall in i_vis0. apply i_vis0. auto.
Qed.

End SearchLayer.
