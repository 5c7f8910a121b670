(** Two distances that order the pairs of vectors in the same way, and two implementations of the containers of the standard
    library: without ties the same calls do the same thing, step by step. *)
From Verif Require Import Prelude Model Lib Table.

(** the same outcome, with related values *)
Inductive orel {A B} (R : A -> B -> Prop) : outcome A -> outcome B -> Prop :=
| or_ok a b : R a b -> orel R (Ok a) (Ok b)
| or_err : orel R Err Err
| or_panicked : orel R Panic Panic
| or_exited : orel R Exit Exit
| or_fuel : orel R Fuel Fuel
| or_ub : orel R UB UB.

Lemma orel_bind {A B A' B'} (R : A -> B -> Prop) (S : A' -> B' -> Prop) m1 m2 f1 f2 :
  orel R m1 m2 -> (forall a b, R a b -> orel S (f1 a) (f2 b)) -> orel S (m1 ≫= f1) (m2 ≫= f2).
Proof. destruct 1; intros Hf; try constructor. by apply Hf. Qed.

Lemma orel_unwrap {A B} (R : A -> B -> Prop) o1 o2 : option_Forall2 R o1 o2 -> orel R (unwrap o1) (unwrap o2).
Proof. destruct 1; by constructor. Qed.

Lemma orel_impl {A B} (R S : A -> B -> Prop) m1 m2 : (forall a b, R a b -> S a b) -> orel R m1 m2 -> orel S m1 m2.
Proof. intros H. destruct 1; constructor; auto. Qed.

Lemma orel_eq {A} (m1 m2 : outcome A) : orel eq m1 m2 -> m1 = m2.
Proof. destruct 1; congruence. Qed.

Lemma orel_refl {A} (m : outcome A) : orel eq m m.
Proof. destruct m; by constructor. Qed.

Lemma orel_inv_l {A B} (R : A -> B -> Prop) m1 m2 a : orel R m1 m2 -> m1 = Ok a -> exists b, m2 = Ok b /\ R a b.
Proof. destruct 1; intros E; inversion E; subst; eauto. Qed.

Lemma orel_mapM {A B C D} (R : A -> B -> Prop) (S : C -> D -> Prop) f g l1 l2 :
  Forall2 R l1 l2 -> (forall a b, R a b -> orel S (f a) (g b)) -> orel (Forall2 S) (mapM f l1) (mapM g l2).
Proof.
  intros H Hf. induction H as [|a b l1 l2 Hab _ IH]; cbn [mapM]; [constructor; constructor|].
  eapply orel_bind; [by apply Hf|]. intros c d Hcd. eapply orel_bind; [exact IH|]. intros cs ds Hcds.
  constructor. by constructor.
Qed.

(* ------------------------------------------------------------------ *)
Definition mkn (k : pid -> Z) (p : pid) : nbr := Nbr p (k p).

Lemma mkn_pid k (ps : list pid) : n_pid <$> (mkn k <$> ps) = ps.
Proof. rewrite <- list_fmap_compose. by apply list_fmap_id. Qed.

Lemma mkn_inj k p p' : mkn k p = mkn k p' -> p = p'.
Proof. by intros [= ->]. Qed.

(** the two keys order the points of [V] in the same way, and differently from one another *)
Record keys (V : pid -> Prop) (k1 k2 : pid -> Z) : Prop := {
  k_agree : forall p p', V p -> V p' -> (k1 p <= k1 p')%Z <-> (k2 p <= k2 p')%Z;
  k_inj : forall p p', V p -> V p' -> k1 p = k1 p' -> p = p'
}.

Definition negk (k : pid -> Z) : pid -> Z := fun p => (- k p)%Z.

Lemma keys_neg V k1 k2 : keys V k1 k2 -> keys V (negk k1) (negk k2).
Proof.
  unfold negk. intros [H1 H2]. constructor; intros p p' Hp Hp'.
  - specialize (H1 p' p Hp' Hp). split; intros ?; [assert (k2 p' <= k2 p)%Z by (apply H1; lia)|assert (k1 p' <= k1 p)%Z by (apply H1; lia)]; lia.
  - intros ?. apply H2; [done|done|lia].
Qed.

Lemma keys_lt V k1 k2 p p' : keys V k1 k2 -> V p -> V p' -> (k1 p <? k1 p')%Z = (k2 p <? k2 p')%Z.
Proof. intros [H _] Hp Hp'. specialize (H p' p Hp' Hp). apply eq_true_iff_eq. rewrite !Z.ltb_lt. lia. Qed.

(** sorted lists of the same elements are the same *)
Lemma sorted_same V k1 k2 (ps1 ps2 : list pid) : keys V k1 k2 -> Forall V ps1 -> ps1 ≡ₚ ps2 ->
  sorted_by n_dist (mkn k1 <$> ps1) -> sorted_by n_dist (mkn k2 <$> ps2) -> ps1 = ps2.
Proof.
  intros K. revert ps2. induction ps1 as [|p ps1 IH]; intros ps2 HV HP S1 S2.
  { by apply Permutation_nil in HP. }
  destruct ps2 as [|p2 ps2]; [by apply Permutation_sym, Permutation_nil in HP|].
  pose proof HV as HV'. rewrite HP in HV'. inversion HV as [|? ? Vp HV1]; subst. inversion HV' as [|? ? Vp2 _]; subst.
  unfold sorted_by in S1, S2. csimpl in *. inversion S1 as [|? ? S1' F1]; subst. inversion S2 as [|? ? S2' F2]; subst.
  assert (p = p2) as ->.
  { destruct K as [KA KI]. apply KI; [done|done|].
    assert (k1 p <= k1 p2)%Z.
    { assert (Hin : p2 ∈ p :: ps1) by (rewrite HP; left). apply elem_of_cons in Hin as [->|Hin]; [lia|].
      rewrite Forall_fmap, Forall_forall in F1. exact (F1 _ Hin). }
    assert (k2 p2 <= k2 p)%Z.
    { assert (Hin : p ∈ p2 :: ps2) by (rewrite <- HP; left). apply elem_of_cons in Hin as [->|Hin]; [lia|].
      rewrite Forall_fmap, Forall_forall in F2. exact (F2 _ Hin). }
    apply KA in H0; [lia|done|done]. }
  f_equal. apply IH; auto. by apply Permutation_cons_inv in HP.
Qed.

(** a list whose elements are those of [mkn k <$> ps] *)
Lemma perm_mkn k (l : list nbr) (ps : list pid) : l ≡ₚ mkn k <$> ps -> exists ps', l = mkn k <$> ps' /\ ps' ≡ₚ ps.
Proof.
  intros H. exists (n_pid <$> l). split.
  - assert (F : Forall (fun x => x = mkn k (n_pid x)) l).
    { rewrite H. apply Forall_fmap, Forall_forall. done. }
    clear H. induction F as [|x l Hx _ IH]; [done|]. csimpl. by rewrite <- Hx, <- IH.
  - rewrite H, mkn_pid. done.
Qed.

Section Keys.
Context (so1 so2 : StdOps) (L1 : StdLaws so1) (L2 : StdLaws so2) (V : pid -> Prop).

Definition hrel (k1 k2 : pid -> Z) (a : heap so1) (b : heap so2) : Prop :=
  exists ps, Forall V ps /\ h_iter so1 a ≡ₚ mkn k1 <$> ps /\ h_iter so2 b ≡ₚ mkn k2 <$> ps.

Definition lrel (k1 k2 : pid -> Z) (l1 l2 : list nbr) : Prop :=
  exists ps, Forall V ps /\ l1 = mkn k1 <$> ps /\ l2 = mkn k2 <$> ps.

Lemma lrel_nil k1 k2 : lrel k1 k2 [] [].
Proof. by exists []. Qed.
Lemma lrel_snoc k1 k2 l1 l2 p : V p -> lrel k1 k2 l1 l2 -> lrel k1 k2 (l1 ++ [Nbr p (k1 p)]) (l2 ++ [Nbr p (k2 p)]).
Proof.
  intros Hp (ps & HV & -> & ->). exists (ps ++ [p]). rewrite !fmap_app. split_and!; auto. apply Forall_app. by repeat constructor.
Qed.
Lemma lrel_len k1 k2 l1 l2 : lrel k1 k2 l1 l2 -> length l1 = length l2.
Proof. intros (ps & _ & -> & ->). by rewrite !fmap_length. Qed.
Lemma lrel_pids k1 k2 l1 l2 : lrel k1 k2 l1 l2 -> n_pid <$> l1 = n_pid <$> l2.
Proof. intros (ps & _ & -> & ->). by rewrite !mkn_pid. Qed.
Lemma lrel_take k1 k2 l1 l2 n : lrel k1 k2 l1 l2 -> lrel k1 k2 (take n l1) (take n l2).
Proof. intros (ps & HV & -> & ->). exists (take n ps). rewrite !fmap_take. split_and!; auto. by apply Forall_take. Qed.

Lemma lrel_sort k1 k2 l1 l2 : keys V k1 k2 -> lrel k1 k2 l1 l2 ->
  lrel k1 k2 (u_sort so1 nbr n_dist l1) (u_sort so2 nbr n_dist l2).
Proof using L1 L2.
  intros K (ps & HV & -> & ->).
  destruct (perm_mkn k1 (u_sort so1 nbr n_dist (mkn k1 <$> ps)) ps) as (p1 & E1 & P1); [apply (law_usort_perm _ L1)|].
  destruct (perm_mkn k2 (u_sort so2 nbr n_dist (mkn k2 <$> ps)) ps) as (p2 & E2 & P2); [apply (law_usort_perm _ L2)|].
  assert (p1 = p2) as <-.
  { apply (sorted_same V k1 k2); [done|by rewrite P1|by rewrite P1, P2| |].
    - rewrite <- E1. apply (law_usort _ L1).
    - rewrite <- E2. apply (law_usort _ L2). }
  exists p1. split_and!; auto. by rewrite P1.
Qed.

Lemma hrel_sorted k1 k2 a b : keys V k1 k2 -> hrel k1 k2 a b -> lrel k1 k2 (h_sorted so1 a) (h_sorted so2 b).
Proof using L1 L2.
  intros K (ps & HV & Ha & Hb).
  destruct (perm_mkn k1 (h_sorted so1 a) ps) as (p1 & E1 & P1); [by rewrite (law_sorted_perm _ L1)|].
  destruct (perm_mkn k2 (h_sorted so2 b) ps) as (p2 & E2 & P2); [by rewrite (law_sorted_perm _ L2)|].
  assert (p1 = p2) as <-.
  { apply (sorted_same V k1 k2); [done|by rewrite P1|by rewrite P1, P2| |].
    - rewrite <- E1. apply (law_sorted _ L1).
    - rewrite <- E2. apply (law_sorted _ L2). }
  exists p1. split_and!; auto. by rewrite P1.
Qed.

Lemma hrel_empty k1 k2 : hrel k1 k2 (h_empty so1) (h_empty so2).
Proof using L1 L2. exists []. by rewrite (law_iter_empty _ L1), (law_iter_empty _ L2). Qed.

Lemma hrel_push k1 k2 a b p : V p -> hrel k1 k2 a b -> hrel k1 k2 (h_push so1 (Nbr p (k1 p)) a) (h_push so2 (Nbr p (k2 p)) b).
Proof using L1 L2.
  intros Hp (ps & HV & Ha & Hb). exists (p :: ps). rewrite (law_push _ L1), (law_push _ L2), Ha, Hb. split_and!; auto.
Qed.

Lemma hrel_len k1 k2 a b : hrel k1 k2 a b -> h_len so1 a = h_len so2 b.
Proof using Type. intros (ps & _ & Ha & Hb). unfold h_len. by rewrite Ha, Hb, !fmap_length. Qed.

Lemma hrel_pop k1 k2 a b : keys V k1 k2 -> hrel k1 k2 a b ->
  (h_pop so1 a = None /\ h_pop so2 b = None) \/
  exists p a' b', h_pop so1 a = Some (Nbr p (k1 p), a') /\ h_pop so2 b = Some (Nbr p (k2 p), b') /\ V p /\ hrel k1 k2 a' b'.
Proof using L1 L2.
  intros K R. pose proof (hrel_len _ _ _ _ R) as Hlen.
  destruct (h_pop so1 a) as [[x a']|] eqn:E1, (h_pop so2 b) as [[y b']|] eqn:E2; [|exfalso|exfalso|by left].
  2: { apply (law_pop_none _ L2) in E2. apply (h_len_pop so1 L1) in E1. unfold h_len in *. rewrite E2 in Hlen. simpl in Hlen. lia. }
  2: { apply (law_pop_none _ L1) in E1. apply (h_len_pop so2 L2) in E2. unfold h_len in *. rewrite E1 in Hlen. simpl in Hlen. lia. }
  right. destruct R as (ps & HV & Ha & Hb).
  destruct (law_pop_some _ L1 _ _ _ E1) as [P1 F1], (law_pop_some _ L2 _ _ _ E2) as [P2 F2].
  rewrite Ha in P1. rewrite Hb in P2.
  destruct (perm_mkn k1 (x :: h_iter so1 a') ps) as ([|p qs] & Ex & Q1); [by rewrite P1|done|].
  destruct (perm_mkn k2 (y :: h_iter so2 b') ps) as ([|p2 qs2] & Ey & Q2); [by rewrite P2|done|].
  csimpl in *. injection Ex as -> Ex. injection Ey as -> Ey.
  assert (HV1 : Forall V (p :: qs)) by (by rewrite Q1). assert (HV2 : Forall V (p2 :: qs2)) by (by rewrite Q2).
  inversion HV1 as [|? ? Vp Vqs]; subst. inversion HV2 as [|? ? Vp2 _]; subst.
  assert (p = p2) as <-.
  { destruct K as [KA KI]. apply KI; [done|done|].
    assert (k1 p2 <= k1 p)%Z.
    { assert (Hin : p2 ∈ p :: qs) by (rewrite Q1, <- Q2; left). apply elem_of_cons in Hin as [->|Hin]; [lia|].
      rewrite Ex, Forall_fmap, Forall_forall in F1. exact (F1 _ Hin). }
    assert (H2 : (k2 p <= k2 p2)%Z).
    { assert (Hin : p ∈ p2 :: qs2) by (rewrite Q2, <- Q1; left). apply elem_of_cons in Hin as [->|Hin]; [lia|].
      rewrite Ey, Forall_fmap, Forall_forall in F2. exact (F2 _ Hin). }
    apply KA in H2; [lia|done|done]. }
  exists p, a', b'. split_and!; auto. exists qs. rewrite Ex, Ey. split_and!; auto.
  apply fmap_Permutation. apply (Permutation_cons_inv (a:=p)). by rewrite Q1, Q2.
Qed.

Lemma hrel_peek k1 k2 a b : keys V k1 k2 -> hrel k1 k2 a b ->
  (h_peek so1 a = None /\ h_peek so2 b = None) \/
  exists p, h_peek so1 a = Some (Nbr p (k1 p)) /\ h_peek so2 b = Some (Nbr p (k2 p)) /\ V p.
Proof using L1 L2.
  intros K R. unfold h_peek. destruct (hrel_pop _ _ _ _ K R) as [[-> ->]|(p & a' & b' & -> & -> & Hp & _)]; [by left|right; by exists p].
Qed.

Lemma hrel_shrink k1 k2 a b ef : keys V k1 k2 -> hrel k1 k2 a b -> hrel k1 k2 (shrink_ret so1 ef a) (shrink_ret so2 ef b).
Proof using L1 L2.
  intros K R. unfold shrink_ret. rewrite (hrel_len _ _ _ _ R). destruct (_ <? _)%nat; [|done].
  destruct (hrel_pop _ _ _ _ K R) as [[-> ->]|(p & a' & b' & -> & -> & Hp & R')]; done.
Qed.
End Keys.

(* ------------------------------------------------------------------ *)
Section Sim.
Context {T : Type} (dist1 dist2 : list T -> list T -> Z) (so1 so2 : StdOps) (L1 : StdLaws so1) (L2 : StdLaws so2).
Context (Hnn1 : forall a b, (0 <= dist1 a b)%Z) (Hnn2 : forall a b, (0 <= dist2 a b)%Z).
Context (Hord : forall a b c d, (dist1 a b <= dist1 c d)%Z <-> (dist2 a b <= dist2 c d)%Z).
(** the vectors of the points *)
Context (vec : pid -> option (list T)).
Implicit Types (h : hnsw (T:=T)) (p np ep : pid).

Definition V p : Prop := is_Some (vec p).
Definition ky (dist : list T -> list T -> Z) (d : list T) : pid -> Z :=
  fun p => match vec p with Some v => dist d v | None => 0%Z end.
Definition no_ties (d : list T) : Prop :=
  forall p p' v v', vec p = Some v -> vec p' = Some v' -> dist1 d v = dist1 d v' -> p = p'.

Lemma keys_of d : no_ties d -> keys V (ky dist1 d) (ky dist2 d).
Proof using Hord.
  intros H. unfold ky, V. constructor; intros p p' [v Hv] [v' Hv']; rewrite Hv, Hv'; [apply Hord|]. by apply H.
Qed.

Record prel (pt1 pt2 : point (T:=T)) : Prop := {
  pr_data : pt_data pt1 = pt_data pt2;
  pr_oid : pt_oid pt1 = pt_oid pt2;
  pr_pid : pt_pid pt1 = pt_pid pt2;
  pr_nbs : Forall2 (lrel V (ky dist1 (pt_data pt1)) (ky dist2 (pt_data pt1))) (pt_nbs pt1) (pt_nbs pt2)
}.

Record irel h1 h2 : Prop := {
  ir_meta : same_meta h1 h2;
  ir_layers : Forall2 (Forall2 prel) (points_by_layer h1) (points_by_layer h2);
  ir_vec : forall p, pt_data <$> get_pt h1 p = vec p
}.

Lemma irel_get h1 h2 p : irel h1 h2 ->
  option_Forall2 (fun pt1 pt2 => prel pt1 pt2 /\ vec p = Some (pt_data pt1)) (get_pt h1 p) (get_pt h2 p).
Proof using Type.
  intros [_ HL Hv]. specialize (Hv p). unfold get_pt in *.
  destruct (points_by_layer h1 !! p.1) as [l1|] eqn:E1.
  - destruct (Forall2_lookup_l _ _ _ _ _ HL E1) as (l2 & E2 & HF). rewrite E2. cbn [mbind option_bind] in *.
    destruct (l1 !! p.2) as [pt1|] eqn:F1.
    + destruct (Forall2_lookup_l _ _ _ _ _ HF F1) as (pt2 & F2 & HP). rewrite F2. constructor. by split.
    + apply lookup_ge_None in F1. rewrite (Forall2_length _ _ _ HF) in F1. rewrite (lookup_ge_None_2 _ _ F1). constructor.
  - apply lookup_ge_None in E1. rewrite (Forall2_length _ _ _ HL) in E1. rewrite (lookup_ge_None_2 _ _ E1). constructor.
Qed.

Lemma irel_unwrap h1 h2 p : irel h1 h2 ->
  orel (fun pt1 pt2 => prel pt1 pt2 /\ vec p = Some (pt_data pt1)) (unwrap (get_pt h1 p)) (unwrap (get_pt h2 p)).
Proof using Type. intros R. by apply orel_unwrap, irel_get. Qed.

Lemma prel_nbs pt1 pt2 l : prel pt1 pt2 ->
  orel (lrel V (ky dist1 (pt_data pt1)) (ky dist2 (pt_data pt1))) (unwrap (pt_nbs pt1 !! l)) (unwrap (pt_nbs pt2 !! l)).
Proof using Type.
  intros [_ _ _ H]. apply orel_unwrap. destruct (pt_nbs pt1 !! l) as [x|] eqn:E.
  - destruct (Forall2_lookup_l _ _ _ _ _ H E) as (y & -> & ?). by constructor.
  - apply lookup_ge_None in E. rewrite (Forall2_length _ _ _ H) in E. rewrite (lookup_ge_None_2 _ _ E). constructor.
Qed.

Lemma irel_sizes h1 h2 : irel h1 h2 -> length <$> points_by_layer h1 = length <$> points_by_layer h2.
Proof using Type. intros [_ H _]. induction H as [|a b l1 l2 Hab _ IH]; [done|]. csimpl. by rewrite IH, (Forall2_length _ _ _ Hab). Qed.

Lemma irel_size h1 h2 : irel h1 h2 -> table_size h1 = table_size h2.
Proof using Type. intros H. unfold table_size. by rewrite (irel_sizes _ _ H). Qed.

(** ** search_layer *)
Section Query.
Context (q : list T) (Hq : no_ties q).
Notation k1 := (ky dist1 q).
Notation k2 := (ky dist2 q).
Notation R := (hrel so1 so2 V k1 k2).
Notation Rn := (hrel so1 so2 V (negk k1) (negk k2)).
Notation K := (keys_of q Hq).
Notation KN := (keys_neg _ _ _ (keys_of q Hq)).

Record srel (s1 : sst so1) (s2 : sst so2) : Prop := {
  sr_ret : R (s_ret so1 s1) (s_ret so2 s2);
  sr_cand : Rn (s_cand so1 s1) (s_cand so2 s2);
  sr_vis : s_vis so1 s1 = s_vis so2 s2
}.

Lemma ky_vec dist d p v : vec p = Some v -> ky dist d p = dist d v.
Proof using Type. unfold ky. by intros ->. Qed.

Lemma push_ret_sim h1 h2 flt p (pt1 : point (T:=T)) a b : irel h1 h2 -> V p -> R a b ->
  orel R (push_ret so1 h1 flt p (pt_oid pt1) (k1 p) a) (push_ret so2 h2 flt p (pt_oid pt1) (k2 p) b).
Proof using L1 L2 Hord Hq.
  intros HI Hp HR. unfold push_ret. destruct flt as [flt|]; [|constructor; by apply hrel_push].
  destruct (flt (pt_oid pt1)); [|by constructor].
  eapply (orel_bind R); [|intros a' b' R'; constructor; by apply hrel_push].
  rewrite (hrel_len _ _ _ _ _ _ _ HR). destruct (_ =? 1)%nat; [|by constructor].
  destruct (hrel_peek so1 so2 L1 L2 V k1 k2 a b K HR) as [[-> ->]|(o & -> & -> & Ho)]; [constructor|].
  cbn [unwrap]. rewrite !bind_Ok. eapply orel_bind; [by apply irel_unwrap|].
  intros x y [HP _]. rewrite (pr_oid _ _ HP). constructor. destruct (flt _); [done|apply hrel_empty; done].
Qed.

Lemma scan_sim h1 h2 ef flt ps : forall n1 n2 s1 s2, irel h1 h2 -> n_pid <$> n1 = ps -> n_pid <$> n2 = ps -> srel s1 s2 ->
  orel (fun r1 r2 => r1.1 = r2.1 /\ srel r1.2 r2.2) (scan_neighbours dist1 so1 h1 q ef flt n1 s1) (scan_neighbours dist2 so2 h2 q ef flt n2 s2).
Proof using L1 L2 Hord Hq.
  induction ps as [|p ps IH]; intros n1 n2 s1 s2 HI E1 E2 HS.
  - apply fmap_nil_inv in E1, E2. subst. constructor. done.
  - destruct n1 as [|x n1]; [done|]. destruct n2 as [|y n2]; [done|]. csimpl in *. injection E1 as Ex E1. injection E2 as Ey E2.
    destruct HS as [HR HC HV]. cbn [scan_neighbours]. rewrite Ex, Ey, HV.
    destruct (bool_decide _); [apply IH; auto; by constructor|].
    destruct (hrel_peek so1 so2 L1 L2 V k1 k2 _ _ K HR) as [[-> ->]|(o & -> & -> & Ho)].
    { constructor. split; [done|]. by constructor. }
    eapply orel_bind; [by apply irel_unwrap|]. intros ept1 ept2 [HP Hvec]. cbv zeta. cbn [n_dist].
    rewrite <- (pr_data _ _ HP), <- (ky_vec dist1 q p _ Hvec), <- (ky_vec dist2 q p _ Hvec).
    assert (Vp : V p) by (by exists (pt_data ept1)).
    rewrite (keys_lt _ _ _ p o K Vp Ho), (hrel_len _ _ _ _ _ _ _ HR). destruct (_ || _).
    + rewrite <- (pr_oid _ _ HP). eapply orel_bind; [by apply push_ret_sim|]. intros a b Hab. apply IH; auto. constructor; cbn.
      * by apply hrel_shrink; [..|exact K|].
      * by apply (hrel_push so1 so2 L1 L2 V (negk k1) (negk k2)).
      * done.
    + apply IH; auto. by constructor.
Qed.

Definition rrel (r1 : heap so1 + sst so1) (r2 : heap so2 + sst so2) : Prop :=
  match r1, r2 with inl a, inl b => R a b | inr s1, inr s2 => srel s1 s2 | _, _ => False end.

Lemma ky_nonneg1 d p : (0 <= ky dist1 d p)%Z.
Proof using Hnn1. unfold ky. destruct (vec p); [apply Hnn1|done]. Qed.
Lemma ky_nonneg2 d p : (0 <= ky dist2 d p)%Z.
Proof using Hnn2. unfold ky. destruct (vec p); [apply Hnn2|done]. Qed.

Lemma iter_sim h1 h2 ef layer flt s1 s2 : irel h1 h2 -> srel s1 s2 ->
  orel rrel (search_iter dist1 so1 h1 q ef layer flt s1) (search_iter dist2 so2 h2 q ef layer flt s2).
Proof using L1 L2 Hord Hq Hnn1 Hnn2.
  intros HI [HR HC HV]. unfold search_iter.
  destruct (hrel_pop so1 so2 L1 L2 V _ _ _ _ KN HC) as [[-> ->]|(c & a' & b' & -> & -> & Vc & HC')]; [by constructor|].
  destruct (hrel_peek so1 so2 L1 L2 V k1 k2 _ _ K HR) as [[-> ->]|(o & -> & -> & Ho)]; [constructor|].
  cbn [unwrap]. rewrite !bind_Ok. cbn [n_dist n_pid]. unfold negk.
  pose proof (ky_nonneg1 q o). pose proof (ky_nonneg2 q o). pose proof (ky_nonneg1 q c). pose proof (ky_nonneg2 q c).
  rewrite !assert_true by lia. rewrite !bind_Ok, !Z.opp_involutive, (keys_lt _ _ _ o c K Ho Vc), (hrel_len _ _ _ _ _ _ _ HR).
  destruct (_ && _); [by constructor|].
  eapply orel_bind; [by apply irel_unwrap|]. intros c1 c2 [HP _].
  eapply orel_bind; [by apply prel_nbs|]. intros n1 n2 Hn.
  eapply orel_bind; [eapply (scan_sim h1 h2 ef flt (n_pid <$> n1)); [done|done|by rewrite (lrel_pids _ _ _ _ _ Hn)|by constructor]|].
  intros [b1 s1'] [b2 s2'] [Eb Hs']. cbn in Eb, Hs'. subst b2. constructor. destruct b1; [by apply Hs'|done].
Qed.

Lemma loop_sim fuel h1 h2 ef layer flt : forall s1 s2, irel h1 h2 -> srel s1 s2 ->
  orel R (search_loop dist1 so1 fuel h1 q ef layer flt s1) (search_loop dist2 so2 fuel h2 q ef layer flt s2).
Proof using L1 L2 Hord Hq Hnn1 Hnn2.
  induction fuel as [|fuel IH]; intros s1 s2 HI HS; cbn [search_loop]; [constructor|].
  eapply orel_bind; [by apply iter_sim|]. intros [a|s1'] [b|s2'] HR; try done; [by constructor|by apply IH].
Qed.

Lemma search_layer_sim h1 h2 ep ef layer flt : irel h1 h2 ->
  orel R (search_layer dist1 so1 h1 q ep ef layer flt) (search_layer dist2 so2 h2 q ep ef layer flt).
Proof using L1 L2 Hord Hq Hnn1 Hnn2.
  intros HI. unfold search_layer. pose proof (ir_layers _ _ HI) as HL.
  destruct (points_by_layer h1 !! layer) as [l1|] eqn:E1.
  2: { apply lookup_ge_None in E1. rewrite (Forall2_length _ _ _ HL) in E1. rewrite (lookup_ge_None_2 _ _ E1). constructor. }
  destruct (Forall2_lookup_l _ _ _ _ _ HL E1) as (l2 & -> & HF). destruct HF; [constructor; by apply hrel_empty|].
  rewrite (irel_size _ _ HI). eapply (orel_bind srel); [|intros s1 s2 HS; by apply loop_sim].
  unfold search_init. eapply orel_bind; [by apply irel_unwrap|]. intros e1 e2 [HP Hv]. cbv zeta.
  assert (Vp : V ep) by (by exists (pt_data e1)).
  rewrite <- (pr_data _ _ HP), <- (ky_vec dist1 q ep _ Hv), <- (ky_vec dist2 q ep _ Hv). constructor. constructor; cbn; [| |done].
  - apply hrel_push; auto. by apply hrel_empty.
  - apply (hrel_push so1 so2 L1 L2 V (negk k1) (negk k2)); auto. by apply hrel_empty.
Qed.

(** ** search *)
Lemma pivot_scan_sim h1 h2 ps : irel h1 h2 -> forall n1 n2 acc1 acc2, n_pid <$> n1 = ps -> n_pid <$> n2 = ps ->
  orel (fun x y => V x.1 /\ x = (x.1, k1 x.1) /\ y = (x.1, k2 x.1)) acc1 acc2 ->
  orel (fun x y => V x.1 /\ x = (x.1, k1 x.1) /\ y = (x.1, k2 x.1))
    (foldl (fun acc n => '(pv, d) ← acc; npt ← unwrap (get_pt h1 (n_pid n)); let tmp := dist1 q (pt_data npt) in
       Ok (if (tmp <? d)%Z then (n_pid n, tmp) else (pv, d))) acc1 n1)
    (foldl (fun acc n => '(pv, d) ← acc; npt ← unwrap (get_pt h2 (n_pid n)); let tmp := dist2 q (pt_data npt) in
       Ok (if (tmp <? d)%Z then (n_pid n, tmp) else (pv, d))) acc2 n2).
Proof using Hord Hq.
  intros HI. induction ps as [|p ps IH]; intros n1 n2 acc1 acc2 E1 E2 HA.
  - apply fmap_nil_inv in E1, E2. by subst.
  - destruct n1 as [|x n1]; [done|]. destruct n2 as [|y n2]; [done|]. csimpl in *. injection E1 as Ex E1. injection E2 as Ey E2.
    apply IH; [done|done|]. eapply orel_bind; [exact HA|]. intros [a da] [b db] (Va & [= ->] & [= -> ->]). cbn in Va.
    rewrite Ex, Ey. eapply orel_bind; [by apply irel_unwrap|]. intros e1 e2 [HP Hv]. cbv zeta.
    assert (Vp : V p) by (by exists (pt_data e1)). constructor. cbn [fst].
    rewrite <- (pr_data _ _ HP), <- (ky_vec dist1 q p _ Hv), <- (ky_vec dist2 q p _ Hv), (keys_lt _ _ _ p a K Vp Va).
    destruct (_ <? _)%Z; done.
Qed.

Lemma pivot_descend_sim h1 h2 ls : irel h1 h2 -> forall p, V p ->
  orel (fun a b => V a /\ a = b) (pivot_descend dist1 ls h1 q p (k1 p)) (pivot_descend dist2 ls h2 q p (k2 p)).
Proof using Hord Hq.
  intros HI. induction ls as [|l ls IH]; intros p Vp; cbn [pivot_descend]; [by constructor|].
  eapply orel_bind; [by apply irel_unwrap|]. intros e1 e2 [HP Hv].
  eapply orel_bind; [by apply prel_nbs|]. intros n1 n2 Hn.
  eapply orel_bind.
  { unfold pivot_scan. eapply (pivot_scan_sim h1 h2 (n_pid <$> n1)); [done|done|by rewrite (lrel_pids _ _ _ _ _ Hn)|]. by constructor. }
  intros [a da] [b db] (Va & [= ->] & [= -> ->]). by apply IH.
Qed.

Lemma find_pivot_sim h1 h2 ep : irel h1 h2 ->
  orel (fun a b => V a /\ a = b) (find_pivot dist1 h1 q ep) (find_pivot dist2 h2 q ep).
Proof using Hord Hq.
  intros HI. unfold find_pivot. eapply orel_bind; [by apply irel_unwrap|]. intros e1 e2 [HP Hv].
  rewrite <- (pr_data _ _ HP), <- (ky_vec dist1 q ep _ Hv), <- (ky_vec dist2 q ep _ Hv).
  apply pivot_descend_sim; [done|]. by exists (pt_data e1).
Qed.

Lemma lowest_sim l1 l2 : Forall2 (Forall2 prel) l1 l2 -> forall n, lowest_from l1 n = lowest_from l2 n.
Proof using Type. induction 1 as [|a b l1 l2 Hab _ IH]; intros n; [done|]. destruct Hab; cbn; auto. Qed.

(** the answers are the same points, each with its own distance *)
Definition arel (a b : neighbour) : Prop :=
  d_id a = d_id b /\ p_id a = p_id b /\ exists v, vec (p_id a) = Some v /\ distance a = dist1 q v /\ distance b = dist2 q v.

Lemma search_filter_sim h1 h2 knbn efa flt : irel h1 h2 ->
  orel (Forall2 arel) (search_filter dist1 so1 h1 q knbn efa flt) (search_filter dist2 so2 h2 q knbn efa flt).
Proof using L1 L2 Hord Hq Hnn1 Hnn2.
  intros HI. unfold search_filter. pose proof (ir_meta _ _ HI) as (_ & _ & _ & _ & _ & _ & _ & Ee & _). rewrite Ee.
  destruct (entry_point h1) as [ep|]; [|constructor; constructor].
  eapply orel_bind; [by apply find_pivot_sim|]. intros pv ? [Vp <-]. cbv zeta.
  assert (El : layer_to_search h1 = layer_to_search h2) by (apply lowest_sim, HI). rewrite El.
  eapply orel_bind; [apply orel_refl|]. intros l ? <-.
  eapply orel_bind; [by apply search_layer_sim|]. intros a b HR.
  pose proof (hrel_sorted so1 so2 L1 L2 V _ _ _ _ K HR) as HS. rewrite (lrel_len _ _ _ _ _ HS).
  apply (lrel_take _ _ _ _ _ (Nat.min (Nat.min knbn (Nat.max efa knbn)) (length (h_sorted so2 b)))) in HS.
  destruct HS as (ps & HV & -> & ->). eapply (orel_mapM (fun x y => exists p, V p /\ x = mkn k1 p /\ y = mkn k2 p)).
  - clear - HV. induction HV; csimpl; constructor; eauto.
  - intros x y (p & Vp' & -> & ->). unfold to_answer. cbn [n_pid mkn n_dist].
    eapply orel_bind; [by apply irel_unwrap|]. intros e1 e2 [HP Hv]. constructor. split; [apply HP|]. split; [done|].
    exists (pt_data e1). cbn [p_id distance]. by rewrite !(ky_vec _ _ _ _ Hv).
Qed.
End Query.

(** ** selection of the neighbours *)
Definition pids_at h layer p : option (list pid) :=
  match get_pt h p with Some pt => fmap (M:=list) n_pid <$> pt_nbs pt !! layer | None => None end.

Lemma pids_at_sim h1 h2 layer p : irel h1 h2 -> pids_at h1 layer p = pids_at h2 layer p.
Proof using Type.
  intros HI. unfold pids_at. destruct (irel_get h1 h2 p HI) as [x y [HP _]|]; [|done]. cbn [mbind option_bind].
  pose proof (pr_nbs _ _ HP) as HF. destruct (pt_nbs x !! layer) as [n1|] eqn:E.
  - destruct (Forall2_lookup_l _ _ _ _ _ HF E) as (n2 & -> & HR). cbn. f_equal. by eapply lrel_pids.
  - apply lookup_ge_None in E. rewrite (Forall2_length _ _ _ HF) in E. by rewrite (lookup_ge_None_2 _ _ E).
Qed.

Lemma add_new_mem cset nbs acc : NoDup acc ->
  NoDup (add_new_candidates cset nbs acc) /\
  forall p, p ∈ add_new_candidates cset nbs acc <-> p ∈ acc \/ (p ∉ cset /\ p ∈ n_pid <$> nbs).
Proof using vec.
  unfold add_new_candidates. revert acc. induction nbs as [|n nbs IH]; intros acc Hnd.
  - cbn. split; [done|]. intros p. rewrite elem_of_nil. tauto.
  - cbn [foldl]. csimpl.
    destruct (decide (n_pid n ∈ cset)) as [Hc|Hc]; [|destruct (decide (n_pid n ∈ acc)) as [Ha|Ha]].
    + rewrite (bool_decide_eq_true_2 _ Hc). cbn [orb]. destruct (IH acc Hnd) as [H1 H2]. split; [done|]. intros p. rewrite H2, elem_of_cons.
      split; [tauto|]. intros [?|[? [->|?]]]; tauto.
    + rewrite (bool_decide_eq_true_2 _ Ha), orb_true_r. destruct (IH acc Hnd) as [H1 H2]. split; [done|]. intros p. rewrite H2, elem_of_cons.
      split; [tauto|]. intros [?|[? [->|?]]]; tauto.
    + rewrite (bool_decide_eq_false_2 _ Hc), (bool_decide_eq_false_2 _ Ha). cbn [orb].
      destruct (IH (n_pid n :: acc)) as [H1 H2]; [by constructor|]. split; [done|]. intros p. rewrite H2, !elem_of_cons.
      split; [|tauto]. intros [[->|?]|[? ?]]; tauto.
Qed.

Lemma collect_char h layer cset todo : forall acc, NoDup acc ->
  (collect_new_candidates h layer cset todo acc = Panic /\ exists c, c ∈ todo /\ pids_at h layer c = None) \/
  exists r, collect_new_candidates h layer cset todo acc = Ok r /\ NoDup r /\ (forall c, c ∈ todo -> pids_at h layer c <> None) /\
    forall p, p ∈ r <-> p ∈ acc \/ (p ∉ cset /\ exists c ps, c ∈ todo /\ pids_at h layer c = Some ps /\ p ∈ ps).
Proof using vec.
  induction todo as [|c todo IH]; intros acc Hnd; cbn [collect_new_candidates].
  - right. exists acc. split_and!; auto.
    + intros c Hc. by apply elem_of_nil in Hc.
    + intros p. split; [tauto|]. intros [?|(_ & c & ps & Hc & _)]; [done|]. by apply elem_of_nil in Hc.
  - destruct (get_pt h c) as [pt|] eqn:Ep.
    2: { left. split; [done|]. exists c. split; [left|]. unfold pids_at. by rewrite Ep. }
    cbn [unwrap]. rewrite bind_Ok. destruct (pt_nbs pt !! layer) as [nbs|] eqn:En.
    2: { left. split; [done|]. exists c. split; [left|]. unfold pids_at. rewrite Ep. cbn. by rewrite En. }
    cbn [unwrap]. rewrite bind_Ok.
    assert (Ec : pids_at h layer c = Some (n_pid <$> nbs)) by (unfold pids_at; rewrite Ep; cbn; by rewrite En).
    destruct (add_new_mem cset nbs acc Hnd) as [Hnd' Hm].
    destruct (IH (add_new_candidates cset nbs acc) Hnd') as [(-> & c' & Hc' & Hn)|(r & -> & Hr & Hall & Hmem)].
    + left. split; [done|]. exists c'. split; [by right|done].
    + right. exists r. split_and!; auto.
      * intros c' [->|Hc']%elem_of_cons; [congruence|by apply Hall].
      * intros p. rewrite Hmem, Hm. split.
        -- intros [[?|[? ?]]|(? & c' & ps & ? & ? & ?)]; [by left|right; split; [done|]; exists c, (n_pid <$> nbs); split_and!; auto; left|].
           right. split; [done|]. exists c', ps. split_and!; auto. by right.
        -- intros [?|(? & c' & ps & [->|Hc']%elem_of_cons & E & ?)]; [by left; left|left; right; split; [done|]; congruence|].
           right. split; [done|]. by exists c', ps.
Qed.

Section Select.
Context (data : list T) (Hq : no_ties data).
Notation k1 := (ky dist1 data).
Notation k2 := (ky dist2 data).
Notation R := (hrel so1 so2 V k1 k2).
Notation Rn := (hrel so1 so2 V (negk k1) (negk k2)).
Notation LR := (lrel V k1 k2).
Notation K := (keys_of data Hq).
Notation KN := (keys_neg _ _ _ (keys_of data Hq)).

Lemma from_pos_fold so (L : StdLaws so) k : (forall p, (0 <= k p)%Z) -> forall (ps : list pid) (acc : heap so),
  exists neg, foldl (fun acc (p : nbr) => neg ← acc; _ ← assert_ (0 <=? n_dist p)%Z; Ok (h_push so (Nbr (n_pid p) (- n_dist p)) neg)) (Ok acc) (mkn k <$> ps) = Ok neg /\
    h_iter so neg ≡ₚ (mkn (negk k) <$> ps) ++ h_iter so acc.
Proof using Type.
  intros Hk. induction ps as [|p ps IH]; intros acc; [by exists acc|]. cbn [fmap list_fmap foldl].
  rewrite bind_Ok, (assert_true (0 <=? n_dist (mkn k p))%Z) by (apply Z.leb_le, Hk). rewrite bind_Ok. cbn [n_dist n_pid mkn].
  destruct (IH (h_push so (Nbr p (- k p)) acc)) as (neg & -> & Hneg). exists neg. split; [done|].
  rewrite Hneg, (law_push _ L), <- Permutation_middle. done.
Qed.

Lemma from_pos_sim a b : R a b -> orel Rn (from_positive_to_negative so1 a) (from_positive_to_negative so2 b).
Proof using L1 L2 Hnn1 Hnn2.
  intros (ps & HV & Ha & Hb). unfold from_positive_to_negative.
  destruct (perm_mkn _ _ _ Ha) as (p1 & -> & P1), (perm_mkn _ _ _ Hb) as (p2 & -> & P2).
  destruct (from_pos_fold so1 L1 k1 (ky_nonneg1 data) p1 (h_empty so1)) as (n1 & -> & N1).
  destruct (from_pos_fold so2 L2 k2 (ky_nonneg2 data) p2 (h_empty so2)) as (n2 & -> & N2).
  constructor. exists ps. rewrite N1, N2, (law_iter_empty _ L1), (law_iter_empty _ L2), !app_nil_r, P1, P2. done.
Qed.

Lemma transfer_sim fuel : forall c1 c2 a1 a2, Rn c1 c2 -> LR a1 a2 -> orel LR (transfer so1 fuel c1 a1) (transfer so2 fuel c2 a2).
Proof using L1 L2 Hord Hq Hnn1 Hnn2.
  induction fuel as [|fuel IH]; intros c1 c2 a1 a2 HC HA; cbn [transfer];
    destruct (hrel_pop so1 so2 L1 L2 V _ _ _ _ KN HC) as [[-> ->]|(c & a' & b' & -> & -> & Vc & HC')]; try by constructor.
  cbn [n_dist n_pid]. unfold negk. rewrite !Z.opp_involutive.
  pose proof (ky_nonneg1 data c). pose proof (ky_nonneg2 data c). rewrite !assert_true by lia. rewrite !bind_Ok.
  apply IH; [done|]. by apply lrel_snoc.
Qed.

Lemma push_cands_fold dist so (L : StdLaws so) h : (forall p, pt_data <$> get_pt h p = vec p) ->
  forall ps cand, Forall V ps -> exists r, push_candidates dist so h data ps cand = Ok r /\
    h_iter so r ≡ₚ (mkn (negk (ky dist data)) <$> ps) ++ h_iter so cand.
Proof using Type.
  intros Hv. induction ps as [|p ps IH]; intros cand HV; cbn [push_candidates]; [by exists cand|].
  inversion HV as [|? ? Vp HV']; subst. destruct Vp as [v Hp]. pose proof (Hv p) as Hg. rewrite Hp in Hg.
  destruct (get_pt h p) as [pt|]; [|done]. injection Hg as Hg. cbn [unwrap]. rewrite bind_Ok.
  destruct (IH (h_push so (Nbr p (- dist data (pt_data pt))) cand) HV') as (r & -> & Hr). exists r. split; [done|].
  rewrite Hr, (law_push _ L), <- Permutation_middle. cbn [fmap list_fmap app].
  assert (E : mkn (negk (ky dist data)) p = Nbr p (- dist data (pt_data pt))) by (unfold mkn, negk; by rewrite (ky_vec dist data p v Hp), Hg).
  by rewrite E.
Qed.

Lemma irel_vec2 h1 h2 p : irel h1 h2 -> pt_data <$> get_pt h2 p = vec p.
Proof using Type.
  intros HI. rewrite <- (ir_vec _ _ HI p). destruct (irel_get h1 h2 p HI) as [x y [HP _]|]; [|done]. cbn. by rewrite (pr_data _ _ HP).
Qed.

Lemma extend_sim h1 h2 layer c1 c2 : irel h1 h2 -> Rn c1 c2 ->
  orel Rn (extend_cands dist1 so1 h1 data layer c1) (extend_cands dist2 so2 h2 data layer c2).
Proof using L1 L2.
  intros HI (ps & HV & Ha & Hb). unfold extend_cands. cbv zeta.
  set (s1 := remove_dups (n_pid <$> h_iter so1 c1)). set (s2 := remove_dups (n_pid <$> h_iter so2 c2)).
  assert (Hs : s1 ≡ₚ s2).
  { apply NoDup_Permutation; [apply NoDup_remove_dups|apply NoDup_remove_dups|]. intros p. unfold s1, s2.
    by rewrite !elem_of_remove_dups, Ha, Hb, !mkn_pid. }
  assert (Hm : m_iter so1 pid s1 ≡ₚ m_iter so2 pid s2) by (by rewrite (law_miter _ L1), (law_miter _ L2)).
  eapply (orel_bind (fun n1 n2 => n1 ≡ₚ n2 /\ Forall V n1)).
  - destruct (collect_char h1 layer s1 (m_iter so1 pid s1) [] (NoDup_nil_2)) as [(-> & c & Hc & Hn)|(r1 & -> & R1 & A1 & M1)];
    destruct (collect_char h2 layer s2 (m_iter so2 pid s2) [] (NoDup_nil_2)) as [(-> & c' & Hc' & Hn')|(r2 & -> & R2 & A2 & M2)].
    + constructor.
    + exfalso. apply (A2 c); [by rewrite <- Hm|]. by rewrite <- (pids_at_sim _ _ _ _ HI).
    + exfalso. apply (A1 c'); [by rewrite Hm|]. by rewrite (pids_at_sim _ _ _ _ HI).
    + constructor. split.
      * apply NoDup_Permutation; [done|done|]. intros p. rewrite M1, M2, Hs.
        assert (Heq : forall c qs, c ∈ m_iter so1 pid s1 /\ pids_at h1 layer c = Some qs <-> c ∈ m_iter so2 pid s2 /\ pids_at h2 layer c = Some qs).
        { intros c qs. by rewrite Hm, (pids_at_sim _ _ _ _ HI). }
        split; (intros [?|(? & c & qs & H1 & H2 & ?)]; [by left|right; split; [done|]; exists c, qs]).
        -- destruct (proj1 (Heq c qs) (conj H1 H2)). done.
        -- destruct (proj2 (Heq c qs) (conj H1 H2)). done.
      * rewrite Forall_forall. intros p Hp. apply M1 in Hp as [Hp|(_ & c & qs & _ & Hqs & Hp)]; [by apply elem_of_nil in Hp|].
        unfold pids_at in Hqs. destruct (irel_get h1 h2 c HI) as [x y [HP _]|]; [|done]. cbn in Hqs.
        destruct (pt_nbs x !! layer) as [nbs|] eqn:E; [|done]. cbn in Hqs. injection Hqs as <-.
        destruct (Forall2_lookup_l _ _ _ _ _ (pr_nbs _ _ HP) E) as (n2 & _ & (ps' & HV' & -> & _)).
        rewrite mkn_pid in Hp. rewrite Forall_forall in HV'. by apply HV'.
  - intros n1 n2 [Hn HVn].
    destruct (push_cands_fold dist1 so1 L1 h1 (ir_vec _ _ HI) (m_iter so1 pid n1) c1) as (r1 & -> & E1); [by rewrite (law_miter _ L1)|].
    destruct (push_cands_fold dist2 so2 L2 h2 (fun p => irel_vec2 _ _ p HI) (m_iter so2 pid n2) c2) as (r2 & -> & E2); [by rewrite (law_miter _ L2), <- Hn|].
    constructor. exists (n1 ++ ps). rewrite E1, E2, Ha, Hb, (law_miter _ L1), (law_miter _ L2), <- Hn, !fmap_app. split_and!; [|done|done].
    by apply Forall_app.
Qed.

Lemma dominated_sim h1 h2 ev p nv1 nv2 : irel h1 h2 -> vec p = Some ev -> LR nv1 nv2 ->
  orel eq (dominated dist1 h1 ev (k1 p) nv1) (dominated dist2 h2 ev (k2 p) nv2).
Proof using Hord.
  intros HI Hp (ps & HV & -> & ->). induction HV as [|c ps Vc HV IH]; csimpl; [by constructor|].
  eapply orel_bind; [by apply irel_unwrap|]. intros x y [HP Hx]. rewrite <- (pr_data _ _ HP), !(ky_vec _ _ _ _ Hp).
  assert (E : (dist1 ev (pt_data x) <=? dist1 data ev)%Z = (dist2 ev (pt_data x) <=? dist2 data ev)%Z).
  { apply eq_true_iff_eq. rewrite !Z.leb_le. apply Hord. }
  rewrite E. clear E. destruct (dist2 ev (pt_data x) <=? _)%Z; [by constructor|]. by rewrite !(ky_vec _ _ _ _ Hp) in IH.
Qed.

Definition selrel (x : list nbr * heap so1) (y : list nbr * heap so2) : Prop := LR x.1 y.1 /\ Rn x.2 y.2.

Lemma select_loop_sim fuel h1 h2 asked keep : irel h1 h2 -> forall c1 c2 nv1 nv2 d1 d2, Rn c1 c2 -> LR nv1 nv2 -> Rn d1 d2 ->
  orel selrel (select_loop dist1 so1 fuel h1 asked keep c1 nv1 d1) (select_loop dist2 so2 fuel h2 asked keep c2 nv2 d2).
Proof using L1 L2 Hord Hq Hnn1 Hnn2.
  intros HI. induction fuel as [|fuel IH]; intros c1 c2 nv1 nv2 d1 d2 HC HN HD; cbn [select_loop]; rewrite (lrel_len _ _ _ _ _ HN);
    (destruct (_ <? _)%nat; [|by constructor]);
    destruct (hrel_pop so1 so2 L1 L2 V _ _ _ _ KN HC) as [[-> ->]|(c & a' & b' & -> & -> & Vc & HC')]; try by constructor.
  cbn [n_dist n_pid]. eapply orel_bind; [by apply irel_unwrap|]. intros x y [HP Hx].
  unfold negk. rewrite !Z.opp_involutive.
  pose proof (ky_nonneg1 data c). pose proof (ky_nonneg2 data c). rewrite !assert_true by lia. rewrite !bind_Ok.
  rewrite <- (pr_data _ _ HP). eapply orel_bind; [by apply dominated_sim|]. intros dm ? <-. destruct dm.
  - apply IH; [done|done|]. destruct keep; [|done]. by apply (hrel_push so1 so2 L1 L2 V (negk k1) (negk k2)).
  - apply IH; [done| |done]. by apply lrel_snoc.
Qed.

Lemma keep_loop_sim fuel asked : forall nv1 nv2 d1 d2, LR nv1 nv2 -> Rn d1 d2 ->
  orel LR (keep_loop so1 fuel asked nv1 d1) (keep_loop so2 fuel asked nv2 d2).
Proof using L1 L2 Hord Hq Hnn1 Hnn2.
  induction fuel as [|fuel IH]; intros nv1 nv2 d1 d2 HN HD; cbn [keep_loop]; rewrite (lrel_len _ _ _ _ _ HN);
    (destruct (_ <? _)%nat; [|by constructor]);
    destruct (hrel_pop so1 so2 L1 L2 V _ _ _ _ KN HD) as [[-> ->]|(c & a' & b' & -> & -> & Vc & HD')]; try by constructor.
  cbn [n_dist n_pid]. unfold negk. rewrite !Z.opp_involutive.
  pose proof (ky_nonneg1 data c). pose proof (ky_nonneg2 data c). rewrite !assert_true by lia. rewrite !bind_Ok.
  apply IH; [|done]. by apply lrel_snoc.
Qed.

Lemma select_sim h1 h2 c1 c2 asked ext layer keep : irel h1 h2 -> Rn c1 c2 ->
  orel LR (select_neighbours dist1 so1 h1 data c1 asked ext layer keep) (select_neighbours dist2 so2 h2 data c2 asked ext layer keep).
Proof using L1 L2 Hord Hq Hnn1 Hnn2.
  intros HI HC. unfold select_neighbours. cbv zeta. rewrite (hrel_len _ _ _ _ _ _ _ HC). destruct (_ && _).
  { apply transfer_sim; [done|]. apply lrel_nil. }
  eapply (orel_bind Rn).
  { destruct (_ <=? _)%nat; [by apply extend_sim|by constructor]. }
  intros e1 e2 HE. rewrite (hrel_len _ _ _ _ _ _ _ HE).
  eapply orel_bind; [apply select_loop_sim; [done|done|apply lrel_nil|by apply hrel_empty]|].
  intros [nv1 d1] [nv2 d2] [HN HD]. cbn in HN, HD. destruct keep; [|by constructor].
  rewrite (hrel_len _ _ _ _ _ _ _ HD). by apply keep_loop_sim.
Qed.
End Select.

(** ** insertion *)
Lemma upd_sim h1 h2 p l f1 f2 d : irel h1 h2 -> vec p = Some d ->
  (forall n1 n2, lrel V (ky dist1 d) (ky dist2 d) n1 n2 -> lrel V (ky dist1 d) (ky dist2 d) (f1 n1) (f2 n2)) ->
  orel irel (upd_nbs h1 p l f1) (upd_nbs h2 p l f2).
Proof using Type.
  intros HI Hd Hf. pose proof HI as [HM HL HV].
  destruct (upd_nbs h1 p l f1) as [h1'| | | | |] eqn:E1, (upd_nbs h2 p l f2) as [h2'| | | | |] eqn:E2; unfold upd_nbs in E1, E2;
    destruct (points_by_layer h1 !! p.1) as [l1|] eqn:A1;
    try (destruct (Forall2_lookup_l _ _ _ _ _ HL A1) as (l2 & A2 & HF); rewrite A2 in E2; cbn [unwrap] in E1, E2; rewrite bind_Ok in E1, E2;
         destruct (l1 !! p.2) as [pt1|] eqn:B1;
         [destruct (Forall2_lookup_l _ _ _ _ _ HF B1) as (pt2 & B2 & HP); rewrite B2 in E2; cbn [unwrap] in E1, E2; rewrite bind_Ok in E1, E2;
          destruct (pt_nbs pt1 !! l) as [n1|] eqn:C1;
          [destruct (Forall2_lookup_l _ _ _ _ _ (pr_nbs _ _ HP) C1) as (n2 & C2 & HN); rewrite C2 in E2; cbn [unwrap] in E1, E2; rewrite bind_Ok in E1, E2
          |apply lookup_ge_None in C1; rewrite (Forall2_length _ _ _ (pr_nbs _ _ HP)) in C1; rewrite (lookup_ge_None_2 _ _ C1) in E2]
         |apply lookup_ge_None in B1; rewrite (Forall2_length _ _ _ HF) in B1; rewrite (lookup_ge_None_2 _ _ B1) in E2]);
    try (apply lookup_ge_None in A1; rewrite (Forall2_length _ _ _ HL) in A1; rewrite (lookup_ge_None_2 _ _ A1) in E2);
    cbn in E1, E2; try done; try (constructor; fail).
  injection E1 as <-. injection E2 as <-. constructor.
  assert (Hg : get_pt h1 p = Some pt1) by (apply get_pt_lookup; eauto).
  assert (Hdd : pt_data pt1 = d) by (pose proof (HV p) as X; rewrite Hg, Hd in X; by injection X).
  constructor.
  - exact HM.
  - cbn [points_by_layer set_layers]. apply Forall2_insert; [done|]. apply Forall2_insert; [done|]. destruct HP as [P1 P2 P3 P4].
    constructor; cbn; auto. apply Forall2_insert; [done|]. rewrite Hdd. apply Hf. by rewrite <- Hdd.
  - intros p'. rewrite <- HV. unfold get_pt. cbn [points_by_layer set_layers]. destruct (decide (p'.1 = p.1)) as [->|Hne].
    + rewrite list_lookup_insert by (by eapply lookup_lt_Some). rewrite A1. cbn [mbind option_bind].
      destruct (decide (p'.2 = p.2)) as [->|Hne2].
      * rewrite list_lookup_insert by (by eapply lookup_lt_Some). rewrite B1. done.
      * by rewrite list_lookup_insert_ne by done.
    + by rewrite list_lookup_insert_ne by done.
Qed.

Lemma meta_eqs h1 h2 : irel h1 h2 ->
  ef_construction h2 = ef_construction h1 /\ max_nb_connection h2 = max_nb_connection h1 /\ extend_candidates h2 = extend_candidates h1 /\
  keep_pruned h2 = keep_pruned h1 /\ entry_point h2 = entry_point h1.
Proof using Type. intros [(?&?&?&?&?&?&?&?&?&?) _ _]. by split_and!. Qed.

Section Insert.
Context (np : pid) (data : list T) (Hnp : vec np = Some data) (Hq : no_ties data).
Context (Hall : forall p v, vec p = Some v -> no_ties v).
Context (Hsym1 : forall a b, dist1 a b = dist1 b a) (Hsym2 : forall a b, dist2 a b = dist2 b a).
Notation k1 := (ky dist1 data).
Notation k2 := (ky dist2 data).
Notation R := (hrel so1 so2 V k1 k2).
Notation LR := (lrel V k1 k2).
Notation K := (keys_of data Hq).

Lemma descend_use_sim h1 h2 l a b ep : irel h1 h2 -> V ep -> R a b ->
  orel (fun x y => irel x.1.1 y.1.1 /\ V x.1.2 /\ x.1.2 = y.1.2 /\ x.2 = k1 x.1.2 /\ y.2 = k2 x.1.2)
    (descend_use dist1 so1 h1 np data l a ep (k1 ep)) (descend_use dist2 so2 h2 np data l b ep (k2 ep)).
Proof using L1 L2 Hord Hq Hnp.
  intros HI Hep HR. unfold descend_use. rewrite (hrel_len _ _ _ _ _ _ _ HR). destruct (1 <? _)%nat; [constructor|].
  destruct (hrel_pop so1 so2 L1 L2 V _ _ _ _ K HR) as [[-> ->]|(c & a' & b' & -> & -> & Vc & _)]; [by constructor|].
  eapply (orel_bind irel).
  { unfold push_upper. destruct (meta_eqs _ _ HI) as (_ & EM & _). unfold get_max_nb_connection. rewrite EM.
    eapply upd_sim; [done|exact Hnp|]. intros n1 n2 Hn. rewrite (lrel_len _ _ _ _ _ Hn). destruct (_ <? _)%nat; [|done]. by apply lrel_snoc. }
  intros h1' h2' HI'. cbn [n_pid]. eapply orel_bind; [by apply irel_unwrap|]. intros x y [HP Hx]. cbv zeta.
  rewrite <- (pr_data _ _ HP), <- (ky_vec dist1 data c _ Hx), <- (ky_vec dist2 data c _ Hx), (keys_lt _ _ _ c ep K Vc Hep).
  destruct (_ <? _)%Z; by constructor.
Qed.

Lemma descend_sim ls : forall h1 h2 ep, irel h1 h2 -> V ep ->
  orel (fun x y => irel x.1 y.1 /\ V x.2 /\ x.2 = y.2) (descend dist1 so1 ls h1 np data ep (k1 ep)) (descend dist2 so2 ls h2 np data ep (k2 ep)).
Proof using L1 L2 Hord Hnn1 Hnn2 Hq Hnp.
  induction ls as [|l ls IH]; intros h1 h2 ep HI Hep; cbn [descend]; [by constructor|].
  eapply orel_bind; [by apply search_layer_sim|]. intros a b HR.
  eapply orel_bind; [by apply descend_use_sim|]. intros [[x1 e1] t1] [[x2 e2] t2] (HI' & Ve & E & Ea & Eb). cbn in *. subst.
  by apply IH.
Qed.

Lemma connect_use_sim h1 h2 l a b ep : irel h1 h2 -> V ep -> R a b ->
  orel (fun x y => irel x.1 y.1 /\ V x.2 /\ x.2 = y.2) (connect_use dist1 so1 h1 np data l a ep) (connect_use dist2 so2 h2 np data l b ep).
Proof using L1 L2 Hord Hnn1 Hnn2 Hq Hnp.
  intros HI Hep HR. unfold connect_use. eapply orel_bind; [by apply from_pos_sim|]. intros n1 n2 HN.
  rewrite (hrel_len _ _ _ _ _ _ _ HN). destruct (_ =? 0)%nat; [by constructor|].
  destruct (meta_eqs _ _ HI) as (E1 & E2 & E3 & E4 & E5). unfold nb_conn, extend_c. rewrite E2, E3, E4.
  eapply orel_bind; [by apply select_sim|]. intros v1 v2 Hv. cbv zeta. apply (lrel_sort so1 so2 L1 L2 V _ _ _ _ K) in Hv.
  eapply orel_bind; [eapply upd_sim; [done|exact Hnp|done]|]. intros h1' h2' HI'. constructor. cbn [fst snd].
  split; [done|]. destruct Hv as ([|c cs] & HV & -> & ->); csimpl; [done|]. inversion HV; by subst.
Qed.

Lemma connect_sim ls : forall h1 h2 ep, irel h1 h2 -> V ep ->
  orel irel (connect dist1 so1 ls h1 np data ep) (connect dist2 so2 ls h2 np data ep).
Proof using L1 L2 Hord Hnn1 Hnn2 Hq Hnp.
  induction ls as [|l ls IH]; intros h1 h2 ep HI Hep; cbn [connect]; [by constructor|].
  destruct (meta_eqs _ _ HI) as (E1 & _). rewrite E1.
  eapply orel_bind; [by apply search_layer_sim|]. intros a b HR.
  eapply orel_bind; [by apply connect_use_sim|]. intros [x1 e1] [x2 e2] (HI' & Ve & E). cbn in *. subst. by apply IH.
Qed.

Lemma rev_one_sim h1 h2 p : irel h1 h2 -> V p ->
  orel irel (rev_one so1 h1 np (Nbr p (k1 p))) (rev_one so2 h2 np (Nbr p (k2 p))).
Proof using L1 L2 Hord Hnp Hall Hsym1 Hsym2.
  intros HI [v Hv]. unfold rev_one. cbn [n_pid n_dist]. destruct (bool_decide _); [by constructor|].
  destruct (meta_eqs _ _ HI) as (_ & EM & _). rewrite EM. eapply upd_sim; [done|exact Hv|]. intros n1 n2 Hn.
  unfold rev_list. rewrite (lrel_pids _ _ _ _ _ Hn), (lrel_len _ _ _ _ _ Hn). destruct (bool_decide _); [done|]. cbv zeta.
  assert (Hs : lrel V (ky dist1 v) (ky dist2 v) (u_sort so1 nbr n_dist (n1 ++ [Nbr np (k1 p)])) (u_sort so2 nbr n_dist (n2 ++ [Nbr np (k2 p)]))).
  { apply lrel_sort; [done|done|apply keys_of; by eapply Hall|].
    assert (F1 : k1 p = ky dist1 v np) by (rewrite (ky_vec _ _ _ _ Hv), (ky_vec _ _ _ _ Hnp); apply Hsym1).
    assert (F2 : k2 p = ky dist2 v np) by (rewrite (ky_vec _ _ _ _ Hv), (ky_vec _ _ _ _ Hnp); apply Hsym2).
    rewrite F1, F2. apply lrel_snoc; [by exists data|done]. }
  rewrite (lrel_len _ _ _ _ _ Hs). destruct (_ <? _)%nat; [|done]. by apply lrel_take.
Qed.

Lemma rev_many_sim ps : forall h1 h2, Forall V ps -> irel h1 h2 ->
  orel irel (rev_many so1 h1 np (mkn k1 <$> ps)) (rev_many so2 h2 np (mkn k2 <$> ps)).
Proof using L1 L2 Hord Hnp Hall Hsym1 Hsym2.
  induction ps as [|p ps IH]; intros h1 h2 HV HI; cbn [fmap list_fmap rev_many]; [by constructor|].
  inversion HV; subst. eapply orel_bind; [by apply rev_one_sim|]. intros h1' h2' HI'. by apply IH.
Qed.

Lemma rev_layers_sim ls : forall h1 h2, irel h1 h2 -> orel irel (rev_layers so1 ls h1 np) (rev_layers so2 ls h2 np).
Proof using L1 L2 Hord Hnp Hall Hsym1 Hsym2.
  induction ls as [|l ls IH]; intros h1 h2 HI; cbn [rev_layers]; [by constructor|].
  eapply orel_bind; [by apply irel_unwrap|]. intros x y [HP Hx]. rewrite Hnp in Hx. injection Hx as Hx.
  eapply orel_bind; [by apply prel_nbs|]. intros n1 n2 (ps & HV & -> & ->). rewrite <- Hx.
  eapply orel_bind; [by apply rev_many_sim|]. intros h1' h2' HI'. by apply IH.
Qed.

Lemma check_sim h1 h2 : irel h1 h2 -> irel (check_entry_point h1 np) (check_entry_point h2 np).
Proof using Type.
  intros [HM HL HV]. unfold check_entry_point. pose proof HM as (?&?&?&?&?&?&?&E&?&?). rewrite E.
  destruct (entry_point h1) as [ep|] eqn:Ee; [destruct (ep.1 <? np.1)%nat|]; constructor; cbn; auto; repeat split; cbn; auto; congruence.
Qed.
End Insert.
End Sim.

Section Run.
Context {T : Type} (dist1 dist2 : list T -> list T -> Z) (so1 so2 : StdOps) (L1 : StdLaws so1) (L2 : StdLaws so2).
Context (Hnn1 : forall a b, (0 <= dist1 a b)%Z) (Hnn2 : forall a b, (0 <= dist2 a b)%Z).
Context (Hsym1 : forall a b, dist1 a b = dist1 b a) (Hsym2 : forall a b, dist2 a b = dist2 b a).
Context (Hord : forall a b c d, (dist1 a b <= dist1 c d)%Z <-> (dist2 a b <= dist2 c d)%Z).
Implicit Types (h : hnsw (T:=T)) (p np ep : pid).

Definition vecs h p : option (list T) := pt_data <$> get_pt h p.
Definition simh h1 h2 : Prop := irel dist1 dist2 (vecs h1) h1 h2.
Definition tie_free h : Prop := forall p v, vecs h p = Some v -> no_ties dist1 (vecs h) v.

Lemma prel_mono vec vec' (x y : point (T:=T)) : (forall p v, vec p = Some v -> vec' p = Some v) ->
  prel dist1 dist2 vec x y -> prel dist1 dist2 vec' x y.
Proof using Type.
  intros Hm [P1 P2 P3 P4]. constructor; auto. eapply Forall2_impl; [exact P4|]. intros n1 n2 (ps & HV & -> & ->). exists ps.
  split_and!.
  - eapply Forall_impl; [exact HV|]. intros p [v Hv]. exists v. by apply Hm.
  - apply list_fmap_ext. intros i p Hp. unfold mkn, ky. rewrite Forall_lookup in HV. destruct (HV i p Hp) as [v Hv]. by rewrite Hv, (Hm _ _ Hv).
  - apply list_fmap_ext. intros i p Hp. unfold mkn, ky. rewrite Forall_lookup in HV. destruct (HV i p Hp) as [v Hv]. by rewrite Hv, (Hm _ _ Hv).
Qed.

Lemma layers_mono vec vec' (l1 l2 : list (list (point (T:=T)))) : (forall p v, vec p = Some v -> vec' p = Some v) ->
  Forall2 (Forall2 (prel dist1 dist2 vec)) l1 l2 -> Forall2 (Forall2 (prel dist1 dist2 vec')) l1 l2.
Proof using Type.
  intros Hm H. eapply Forall2_impl; [exact H|]. intros a b Hab. eapply Forall2_impl; [exact Hab|]. intros x y. by apply prel_mono.
Qed.

Lemma irel_self vec h1 h2 : irel dist1 dist2 vec h1 h2 -> simh h1 h2.
Proof using Type.
  intros [HM HL HV]. constructor; [done| |done]. eapply layers_mono; [|exact HL]. intros p v Hv. unfold vecs. by rewrite HV.
Qed.

Lemma push_point_sim h1 h2 data oid level : simh h1 h2 ->
  orel (fun x y => x.2 = y.2 /\ simh x.1 y.1 /\ vecs x.1 x.2 = Some data /\ push_point h1 data oid level = Ok x)
    (push_point h1 data oid level) (push_point h2 data oid level).
Proof using Type.
  intros HI. pose proof HI as [HM HL HV]. destruct (push_point h1 data oid level) as [[h0 np]| | | | |] eqn:E1; unfold push_point in E1 |- *;
    (destruct (points_by_layer h1 !! level) as [l1|] eqn:A1;
     [destruct (Forall2_lookup_l _ _ _ _ _ HL A1) as (l2 & -> & HF)
     |apply lookup_ge_None in A1; rewrite (Forall2_length _ _ _ HL) in A1; rewrite (lookup_ge_None_2 _ _ A1)]); cbn in E1; try done; [|constructor].
  cbn [unwrap]. rewrite bind_Ok. constructor. cbn [fst snd].
  assert (E0 : push_point h1 data oid level = Ok (h0, np)) by (unfold push_point; rewrite A1; exact E1).
  destruct (push_point_inv _ _ _ _ _ _ E0) as (_ & _ & Hnone & Hnew & Ho & _).
  injection E1 as E1 <-. rewrite <- (Forall2_length _ _ _ HF). split_and!; auto; [|unfold vecs; by rewrite Hnew].
  subst h0. constructor; [exact HM| |done]. cbn [points_by_layer set_layers].
  assert (Hmono : forall p v, vecs h1 p = Some v -> vecs (set_layers (<[level:=l1 ++ [new_pt data oid (level, length l1)]]> (points_by_layer h1)) h1) p = Some v).
  { intros p v Hv. unfold vecs in *. rewrite Ho; [done|]. intros ->. by rewrite Hnone in Hv. }
  apply Forall2_insert; [by eapply layers_mono|]. apply Forall2_app.
  - eapply Forall2_impl; [exact HF|]. intros x y. by apply prel_mono.
  - constructor; [|constructor]. constructor; cbn [pt_data pt_oid pt_pid pt_nbs new_pt]; auto.
    apply Forall2_replicate. apply lrel_nil.
Qed.

Lemma insert_sim h1 h2 data oid d : simh h1 h2 ->
  (forall level h0 np, push_point h1 data oid level = Ok (h0, np) -> tie_free h0) ->
  orel simh (insert_slice dist1 so1 h1 data oid d) (insert_slice dist2 so2 h2 data oid d).
Proof using L1 L2 Hnn1 Hnn2 Hsym1 Hsym2 Hord.
  intros HI Ht. pose proof (ir_meta _ _ _ _ _ HI) as (_ & _ & _ & _ & EM & ES & _ & _). unfold insert_slice, generate_new_point.
  rewrite EM, ES. destruct (generate (level_scale h1) (max_layer h1) d) as [level| | | | |]; try by constructor. rewrite !bind_Ok.
  pose proof (push_point_sim h1 h2 data oid level HI) as HP.
  destruct HP as [[h1a np] [h2a np2] (E & HIa & Hnp & Hpush)| | | | |]; try by constructor. cbn [fst snd] in *. subst np2.
  rewrite !bind_Ok. unfold incr_nb_point. rewrite !bind_Ok. cbn [fst snd]. cbn beta iota zeta.
  specialize (Ht _ _ _ Hpush). pose proof (ir_meta _ _ _ _ _ HIa) as (M1 & M2 & M3 & M4 & M5 & M6 & M7 & M8 & M9 & M10).
  set (b1 := set_nb_point (S (nb_point h1a)) h1a). set (b2 := set_nb_point (S (nb_point h2a)) h2a).
  assert (HIb : irel dist1 dist2 (vecs h1a) b1 b2).
  { constructor; [|apply HIa|apply (ir_vec _ _ _ _ _ HIa)]. unfold same_meta, b1, b2; cbn. rewrite M7. by split_and!. }
  assert (HE : entry_point b2 = entry_point b1) by exact M8.
  rewrite HE, M7. destruct (entry_point b1) as [ep|] eqn:Ee.
  2: { constructor. eapply irel_self. by apply check_sim. }
  destruct (_ =? 1)%nat; [constructor; by eapply irel_self|].
  eapply orel_bind; [by apply irel_unwrap|]. intros x y [HP Hx].
  assert (Hq : no_ties dist1 (vecs h1a) data) by (by eapply Ht).
  rewrite <- (pr_data _ _ _ _ _ HP), <- (ky_vec (vecs h1a) dist1 data ep _ Hx), <- (ky_vec (vecs h1a) dist2 data ep _ Hx).
  eapply orel_bind; [eapply descend_sim; eauto; by exists (pt_data x)|]. intros [c1 e1] [c2 e2] (HIc & Ve & Eq). cbn [fst snd] in *. subst e2.
  eapply orel_bind; [by eapply connect_sim|]. intros c1' c2' HId.
  eapply orel_bind; [unfold reverse_update; by eapply rev_layers_sim|]. intros c1'' c2'' HIe.
  constructor. eapply irel_self. by apply check_sim.
Qed.

Lemma simh_eq h1 h2 : (forall a b, dist1 a b = dist2 a b) -> simh h1 h2 -> h1 = h2.
Proof using Type.
  intros He [(?&?&?&?&?&?&?&?&?&?) HL _].
  assert (Hpt : forall x y, prel dist1 dist2 (vecs h1) x y -> x = y).
  { intros x y [P1 P2 P3 P4]. destruct x as [xd xo xp xn], y as [yd yo yp yn]. cbn in *. subst. f_equal.
    clear - P4 He. induction P4 as [|a b l l' (ps & _ & -> & ->) _ IH]; [done|]. f_equal; [|done].
    apply list_fmap_ext. intros i p _. unfold mkn, ky. f_equal. destruct (vecs h1 p); [apply He|done]. }
  assert (Hls : points_by_layer h1 = points_by_layer h2).
  { clear - HL Hpt. induction HL as [|a b l l' Hab _ IH]; [done|]. f_equal; [|done]. clear - Hab Hpt.
    induction Hab as [|x y l l' Hxy _ IH]; [done|]. f_equal; [by apply Hpt|done]. }
  destruct h1, h2; cbn in *. congruence.
Qed.
End Run.
