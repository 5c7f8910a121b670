(** What select_neighbours chooses. *)
From stdpp Require Import relations.
From Verif Require Import Prelude Model Lib Table SearchProofs SelectProofs ExhaustProofs SpecInsert.

Section Div.
Context {T : Type} (dist : list T -> list T -> Z) (so : StdOps).
Context (LAWS : StdLaws so) (Hnn : forall a b, (0 <= dist a b)%Z).
Context (h : hnsw (T:=T)) (q : list T).

Definition vecp (p : pid) : list T := match get_pt h p with Some pt => pt_data pt | None => [] end.
Definition dq (p : pid) : Z := dist q (vecp p).
Definition dd (p p' : pid) : Z := dist (vecp p) (vecp p').

Lemma elt_dq n : elt_ok dist h q n -> n_dist n = dq (n_pid n).
Proof using Type. intros (pt & Hpt & ->). unfold dq, vecp. by rewrite Hpt. Qed.
Lemma cand_dq n : cand_ok dist h q n -> n_dist n = (- dq (n_pid n))%Z.
Proof using Type. intros (pt & Hpt & ->). unfold dq, vecp. by rewrite Hpt. Qed.

Lemma dominated_val ev bound nv :
  Forall (elt_ok dist h q) nv ->
  exists b, dominated dist h ev bound nv = Ok b /\
    (b = true -> exists a, a ∈ n_pid <$> nv /\ (dist ev (vecp a) <= bound)%Z) /\
    (b = false -> forall a, a ∈ n_pid <$> nv -> (bound < dist ev (vecp a))%Z).
Proof using Type.
  induction 1 as [|n nv (pt & Hpt & _) _ IH]; simpl.
  - exists false. split_and!; [done..|]. intros _ a Ha. by apply elem_of_nil in Ha.
  - rewrite Hpt. simpl.
    assert (Ev : vecp (n_pid n) = pt_data pt) by (unfold vecp; by rewrite Hpt).
    destruct (Z.leb_spec (dist ev (pt_data pt)) bound) as [Hle|Hgt].
    + exists true. split_and!; [done| |done]. intros _. exists (n_pid n). rewrite Ev. split; [left|done].
    + destruct IH as (b & -> & H1 & H2). exists b. split_and!; [done|..].
      * intros Hb. destruct (H1 Hb) as (a & ? & ?). exists a. split; [by right|done].
      * intros Hb a [->|Ha]%elem_of_cons; [rewrite Ev; done|auto].
Qed.

Definition apart (x y : pid) : Prop := (dq x <= dq y)%Z /\ (dq y < dd y x)%Z.

Record divinv (nv : list nbr) (rej rest : list pid) : Prop := {
  di_elt : Forall (elt_ok dist h q) nv;
  di_sorted : StronglySorted apart (n_pid <$> nv);
  di_order : forall x y, x ∈ (n_pid <$> nv) ++ rej -> y ∈ rest -> (dq x <= dq y)%Z;
  di_rej : forall r, r ∈ rej -> exists a, a ∈ n_pid <$> nv /\ (dq a <= dq r)%Z /\ (dd r a <= dq r)%Z
}.

Lemma divinv_perm nv rej rest rest' : rest ≡ₚ rest' -> divinv nv rej rest -> divinv nv rej rest'.
Proof using Type. intros E [H1 H2 H3 H4]. constructor; auto. intros x y Hx Hy. rewrite <- E in Hy. auto. Qed.

Lemma StronglySorted_snoc {A} (R : A -> A -> Prop) l x :
  StronglySorted R l -> Forall (fun y => R y x) l -> StronglySorted R (l ++ [x]).
Proof using Type.
  induction 1 as [|y l Hs IH Hf]; intros Hx; simpl; [repeat constructor|].
  inversion Hx; subst. constructor; [by apply IH|]. apply Forall_app. split; [done|]. by repeat constructor.
Qed.

Lemma select_loop_div fuel asked (keep : bool) cand nv disc rej nv' disc' :
  divinv nv rej (n_pid <$> h_iter so cand) -> Forall (cand_ok dist h q) (h_iter so cand) ->
  (if keep then n_pid <$> h_iter so disc ≡ₚ rej /\ Forall (cand_ok dist h q) (h_iter so disc) else True) ->
  (length nv <= asked)%nat ->
  select_loop dist so fuel h asked keep cand nv disc = Ok (nv', disc') ->
  exists rej' rest, divinv nv' rej' rest /\
    (n_pid <$> nv') ++ rej' ++ rest ≡ₚ (n_pid <$> nv) ++ rej ++ (n_pid <$> h_iter so cand) /\
    (if keep then n_pid <$> h_iter so disc' ≡ₚ rej' /\ Forall (cand_ok dist h q) (h_iter so disc') else True) /\
    (length nv' <= asked)%nat /\ (rest = [] \/ length nv' = asked).
Proof using LAWS Hnn.
  revert cand nv disc rej. induction fuel as [|fuel IH]; intros cand nv disc rej Hi Hc Hd Hlen Hrun; simpl in Hrun.
  - destruct (Nat.ltb_spec (length nv) asked) as [El|El].
    + destruct (h_pop so cand) as [[e cand']|] eqn:E; [done|]. injection Hrun as <- <-.
      apply (law_pop_none _ LAWS) in E. rewrite E in *. exists rej, []. split_and!; auto.
    + injection Hrun as <- <-. exists rej, (n_pid <$> h_iter so cand). split_and!; auto. right. lia.
  - destruct (Nat.ltb_spec (length nv) asked) as [El|El].
    2: { injection Hrun as <- <-. exists rej, (n_pid <$> h_iter so cand). split_and!; auto. right. lia. }
    destruct (h_pop so cand) as [[e cand']|] eqn:E.
    2: { injection Hrun as <- <-. apply (law_pop_none _ LAWS) in E. rewrite E in *. exists rej, []. split_and!; auto. }
    destruct (law_pop_some _ LAWS _ _ _ E) as [Hp Hmax].
    assert (Hp' : n_pid <$> h_iter so cand ≡ₚ n_pid e :: (n_pid <$> h_iter so cand')) by (by rewrite Hp).
    rewrite Hp in Hc. inversion Hc as [|? ? He Hc']; subst. pose proof He as (pt & Hpt & Hed).
    rewrite Hpt in Hrun. simpl in Hrun. apply bind_inv in Hrun as (_ & _ & Hrun).
    apply (divinv_perm _ _ _ _ Hp') in Hi. destruct Hi as [I1 I2 I3 I4].
    destruct (dominated_val (pt_data pt) (- n_dist e) nv I1) as (dom & Edom & D1 & D2).
    rewrite Edom in Hrun. simpl in Hrun.
    assert (Ev : vecp (n_pid e) = pt_data pt) by (unfold vecp; by rewrite Hpt).
    assert (Ed : (- n_dist e = dq (n_pid e))%Z) by (rewrite (cand_dq _ He); lia).
    assert (Hnext : forall y, y ∈ n_pid <$> h_iter so cand' -> (dq (n_pid e) <= dq y)%Z).
    { intros y (z & -> & Hz)%elem_of_list_fmap. rewrite Forall_forall in Hmax, Hc'.
      specialize (Hmax z Hz). rewrite (cand_dq z (Hc' z Hz)) in Hmax. rewrite <- Ed. clear -Hmax. lia. }
    destruct dom.
    + destruct (D1 eq_refl) as (a & Ha & Hda). rewrite <- Ev, Ed in Hda.
      assert (Hi' : divinv nv (n_pid e :: rej) (n_pid <$> h_iter so cand')).
      { constructor; auto.
        - intros x y Hx Hy. apply elem_of_app in Hx as [Hx|[->|Hx]%elem_of_cons]; [|auto|].
          + apply I3; [apply elem_of_app; by left|by right].
          + apply I3; [apply elem_of_app; by right|by right].
        - intros r [->|Hr]%elem_of_cons; [|auto]. exists a. split_and!; [done| |done].
          apply I3; [apply elem_of_app; by left|left]. }
      destruct (IH cand' nv (if keep then h_push so (Nbr (n_pid e) (n_dist e)) disc else disc) (n_pid e :: rej) Hi')
        as (rej' & rest & R1 & R2 & R3); auto.
      { destruct keep; [|done]. destruct Hd as [Hd1 Hd2]. split.
        - rewrite (law_push _ LAWS). simpl. by rewrite Hd1.
        - rewrite (law_push _ LAWS). constructor; [|done]. exists pt. done. }
      exists rej', rest. split; [done|]. split; [|done]. rewrite R2, Hp'. simpl.
      by rewrite Permutation_middle.
    + specialize (D2 eq_refl). rewrite <- Ev, Ed in D2.
      assert (Hi' : divinv (nv ++ [Nbr (n_pid e) (- n_dist e)]) rej (n_pid <$> h_iter so cand')).
      { constructor.
        - apply Forall_app. split; [done|]. constructor; [|constructor]. exists pt. simpl. split; [done|]. lia.
        - rewrite fmap_app. apply StronglySorted_snoc; [done|]. simpl. rewrite Forall_forall.
          intros x Hx. split; [|by apply D2]. apply I3; [apply elem_of_app; by left|left].
        - intros x y Hx Hy. rewrite fmap_app, <- app_assoc in Hx. simpl in Hx.
          rewrite elem_of_app, elem_of_cons in Hx. destruct Hx as [Hx|[->|Hx]]; [|auto|].
          + apply I3; [apply elem_of_app; by left|by right].
          + apply I3; [apply elem_of_app; by right|by right].
        - intros r Hr. destruct (I4 r Hr) as (a & ? & ? & ?). exists a. split_and!; auto.
          rewrite fmap_app. apply elem_of_app. by left. }
      destruct (IH cand' _ disc rej Hi') as (rej' & rest & R1 & R2 & R3); auto.
      { rewrite app_length. simpl. lia. }
      exists rej', rest. split; [done|]. split; [|done]. rewrite R2, Hp', fmap_app. simpl.
      rewrite <- app_assoc. simpl. by rewrite <- (Permutation_middle rej).
Qed.

Lemma keep_loop_div fuel asked nv disc nv' :
  Forall (cand_ok dist h q) (h_iter so disc) -> (length nv <= asked)%nat ->
  keep_loop so fuel asked nv disc = Ok nv' ->
  exists extra left, n_pid <$> nv' = (n_pid <$> nv) ++ extra /\
    n_pid <$> h_iter so disc ≡ₚ extra ++ left /\
    (forall x y, x ∈ extra -> y ∈ left -> (dq x <= dq y)%Z) /\
    (length nv' <= asked)%nat /\ (left = [] \/ length nv' = asked).
Proof using LAWS Hnn.
  revert nv disc. induction fuel as [|fuel IH]; intros nv disc Hc Hlen Hrun; simpl in Hrun.
  - destruct (Nat.ltb_spec (length nv) asked) as [El|El].
    + destruct (h_pop so disc) as [[e cand']|] eqn:E; [done|]. injection Hrun as <-.
      apply (law_pop_none _ LAWS) in E. rewrite E. exists [], []. rewrite app_nil_r. split_and!; auto.
      intros x y Hx. by apply elem_of_nil in Hx.
    + injection Hrun as <-. exists [], (n_pid <$> h_iter so disc). rewrite app_nil_r. split_and!; auto.
      * intros x y Hx. by apply elem_of_nil in Hx.
      * right. lia.
  - destruct (Nat.ltb_spec (length nv) asked) as [El|El].
    2: { injection Hrun as <-. exists [], (n_pid <$> h_iter so disc). rewrite app_nil_r. split_and!; auto.
         - intros x y Hx. by apply elem_of_nil in Hx.
         - right. lia. }
    destruct (h_pop so disc) as [[e disc2]|] eqn:E.
    2: { injection Hrun as <-.
      apply (law_pop_none _ LAWS) in E. rewrite E. exists [], []. rewrite app_nil_r. split_and!; auto.
      intros x y Hx. by apply elem_of_nil in Hx. }
    destruct (law_pop_some _ LAWS _ _ _ E) as [Hp Hmax].
    rewrite Hp in Hc. inversion Hc as [|? ? He Hc']; subst.
    apply bind_inv in Hrun as (_ & _ & Hrun).
    assert (El' : (length (nv ++ [Nbr (n_pid e) (- n_dist e)]) <= asked)%nat) by (rewrite app_length; simpl; lia).
    destruct (IH _ disc2 Hc' El' Hrun) as (extra & lft & X1 & X2 & X3 & X4 & X5).
    exists (n_pid e :: extra), lft. split_and!; auto.
    + rewrite X1, fmap_app, <- app_assoc. done.
    + rewrite Hp. simpl. by rewrite X2.
    + intros x y [->|Hx]%elem_of_cons Hy; [|auto].
      assert (Hy' : y ∈ n_pid <$> h_iter so disc2) by (rewrite X2; apply elem_of_app; by right).
      apply elem_of_list_fmap in Hy' as (z & -> & Hz). rewrite Forall_forall in Hmax, Hc'.
      specialize (Hmax z Hz). rewrite (cand_dq z (Hc' z Hz)), (cand_dq e He) in Hmax. clear -Hmax. lia.
Qed.

(** sorted and apart lists *)
Lemma apart_pairs l : StronglySorted apart l ->
  forall a b, a ∈ l -> b ∈ l -> a <> b -> apart a b \/ apart b a.
Proof using Type.
  induction 1 as [|x l Hs IH Hf]; intros a b Ha Hb Hne; [by apply elem_of_nil in Ha|].
  rewrite Forall_forall in Hf.
  apply elem_of_cons in Ha as [->|Ha]; apply elem_of_cons in Hb as [->|Hb]; auto; done.
Qed.

Lemma divinv_diversified nv rej rest C asked :
  divinv nv rej rest -> C ≡ₚ (n_pid <$> nv) ++ rej ++ rest -> NoDup C ->
  (length nv <= asked)%nat -> (rest = [] \/ length nv = asked) ->
  diversified dq dd asked C (n_pid <$> nv).
Proof using Type.
  clear Hnn LAWS.
  intros [I1 I2 I3 I4] HC Hnd Hlen Hend. constructor.
  - intros a Ha. rewrite HC. apply elem_of_app. by left.
  - rewrite HC in Hnd. by apply NoDup_app in Hnd as [? _].
  - by rewrite fmap_length.
  - intros a b Ha Hb Hlt. destruct (apart_pairs _ I2 a b Ha Hb) as [[_ ?]|[? _]]; [|done|lia].
    intros ->. lia.
  - intros a b Ha Hb Hne Heq. destruct (apart_pairs _ I2 a b Ha Hb Hne) as [[_ ?]|[_ ?]]; auto.
  - intros c Hc Hn. rewrite HC, !elem_of_app in Hc. destruct Hc as [?|[Hc|Hc]]; [done|left; auto|].
    right. destruct Hend as [->|He]; [by apply elem_of_nil in Hc|]. rewrite fmap_length. split; [done|].
    intros a Ha. apply I3; [|done]. apply elem_of_app. by left.
Qed.

Lemma select_phase (keep : bool) asked cand nv :
  Forall (cand_ok dist h q) (h_iter so cand) -> NoDup (n_pid <$> h_iter so cand) ->
  ('(nv0, disc) ← select_loop dist so (h_len so cand) h asked keep cand [] (h_empty so);
   if keep then keep_loop so (h_len so disc) asked nv0 disc else Ok nv0) = Ok nv ->
  chosen keep dq dd asked (n_pid <$> h_iter so cand) (n_pid <$> nv).
Proof using LAWS Hnn.
  intros Hc Hnd Hrun. apply bind_inv in Hrun as ([nv0 disc] & Hsel & Hrun).
  destruct (select_loop_div (h_len so cand) asked keep cand [] (h_empty so) [] nv0 disc) as
    (rej & rest & Hi & Hperm & Hdisc & Hlen & Hend); auto.
  { constructor; [constructor..| |].
    - intros x y Hx. by apply elem_of_nil in Hx.
    - intros r Hr. by apply elem_of_nil in Hr. }
  { destruct keep; [|done]. by rewrite (law_iter_empty _ LAWS). }
  { simpl. lia. }
  simpl in Hperm.
  assert (Hdv : diversified dq dd asked (n_pid <$> h_iter so cand) (n_pid <$> nv0)).
  { apply (divinv_diversified nv0 rej rest); [done|by symmetry|done..]. }
  destruct keep; [|injection Hrun as <-; done].
  destruct Hdisc as [Hdp Hdc].
  destruct (keep_loop_div _ _ _ _ _ Hdc Hlen Hrun) as (extra & lft & X1 & X2 & X3 & X4 & X5).
  rewrite <- Hperm in Hnd. rewrite Hdp in X2.
  assert (Hnd2 : NoDup ((n_pid <$> nv0) ++ extra ++ lft ++ rest)).
  { rewrite (app_assoc extra), <- X2. done. }
  unfold chosen, filled_up. exists (n_pid <$> nv0), extra. rewrite X1. split_and!; auto.
  - rewrite app_assoc in Hnd2. by apply NoDup_app in Hnd2 as [? _].
  - intros a Ha. rewrite <- Hperm, !elem_of_app. right; left. rewrite X2. apply elem_of_app. by left.
  - rewrite <- (fmap_length n_pid) in X4, X5, Hlen, Hend. rewrite X1 in X4, X5.
    rewrite <- Hperm, X2. rewrite !app_length in *.
    destruct X5 as [->|X5]; simpl in *; [|lia].
    destruct Hend as [->|Hend]; simpl in *; lia.
  - intros x c Hx Hc2 Hn. rewrite <- Hperm, X2, !elem_of_app in Hc2. rewrite elem_of_app in Hn.
    destruct Hc2 as [?|[[?|?]|Hc2]]; [tauto|tauto|auto|].
    apply (di_order _ _ _ Hi); [|done]. rewrite X2, !elem_of_app. auto.
Qed.

(** the candidates after extension *)
Lemma add_new_elem cset nbs acc p :
  p ∈ add_new_candidates cset nbs acc <-> p ∈ acc \/ (p ∉ cset /\ p ∈ n_pid <$> nbs).
Proof using Type.
  revert acc. induction nbs as [|n nbs IH]; intros acc; simpl.
  - rewrite elem_of_nil. tauto.
  - rewrite IH. rewrite elem_of_cons.
    destruct (decide (n_pid n ∈ cset)) as [E1|E1].
    { rewrite bool_decide_eq_true_2 by done. simpl. split; [intros [?|[? ?]]; auto|].
      intros [?|[? [->|?]]]; [auto|done|auto]. }
    rewrite (bool_decide_eq_false_2 _ E1). simpl.
    destruct (decide (n_pid n ∈ acc)) as [E2|E2].
    { rewrite bool_decide_eq_true_2 by done. split; [intros [?|[? ?]]; auto|].
      intros [?|[? [->|?]]]; auto. }
    rewrite (bool_decide_eq_false_2 _ E2), elem_of_cons. split.
    + intros [[->|?]|[? ?]]; auto.
    + intros [?|[? [->|?]]]; auto.
Qed.

Lemma collect_elem layer cset todo acc news :
  collect_new_candidates h layer cset todo acc = Ok news ->
  forall p, p ∈ news <-> p ∈ acc \/ (p ∉ cset /\ exists x, x ∈ todo /\ link h layer x p).
Proof using Type.
  revert acc. induction todo as [|x todo IH]; intros acc Hrun p; simpl in Hrun.
  - injection Hrun as <-. split; [auto|]. intros [?|[_ (x & Hx & _)]]; [done|by apply elem_of_nil in Hx].
  - apply bind_inv in Hrun as (pt & Hpt & Hrun). apply bind_inv in Hrun as (nbs & Hnbs & Hrun).
    apply unwrap_inv in Hpt, Hnbs. rewrite (IH _ Hrun), add_new_elem. split.
    + intros [[?|[? Hin]]|[? (y & ? & ?)]]; [auto|right; split; [done|]..].
      * exists x. split; [left|]. apply elem_of_list_fmap in Hin as (n & -> & Hn). by exists pt, nbs, n.
      * exists y. split; [by right|done].
    + intros [?|[? (y & [->|Hy]%elem_of_cons & Hl)]]; [auto|left; right|right; eauto].
      split; [done|]. destruct Hl as (pt' & nbs' & n & Hpt' & Hnbs' & Hn & <-).
      rewrite Hpt in Hpt'. injection Hpt' as <-. rewrite Hnbs in Hnbs'. injection Hnbs' as <-.
      apply elem_of_list_fmap. eauto.
Qed.

Lemma extend_elem layer cand cand' :
  Forall (cand_ok dist h q) (h_iter so cand) ->
  extend_cands dist so h q layer cand = Ok cand' ->
  forall p, p ∈ n_pid <$> h_iter so cand' <->
    p ∈ n_pid <$> h_iter so cand \/ exists x, x ∈ n_pid <$> h_iter so cand /\ link h layer x p.
Proof using LAWS.
  intros Hc Hrun p. unfold extend_cands in Hrun.
  apply bind_inv in Hrun as (news & Hnews & Hrun).
  assert (Hpush : forall ps c c', push_candidates dist so h q ps c = Ok c' ->
     n_pid <$> h_iter so c' ≡ₚ ps ++ (n_pid <$> h_iter so c)).
  { clear -LAWS. induction ps as [|x ps IH]; intros c c' Hrun; simpl in Hrun; [by injection Hrun as <-|].
    apply bind_inv in Hrun as (pt & Hpt & Hrun). rewrite (IH _ _ Hrun), (law_push _ LAWS). simpl.
    by rewrite Permutation_middle. }
  rewrite (Hpush _ _ _ Hrun), (law_miter _ LAWS), elem_of_app, (collect_elem _ _ _ _ _ Hnews).
  rewrite elem_of_nil, elem_of_remove_dups. split.
  - intros [[?|[? (x & Hx & ?)]]|?]; [done|right|auto].
    rewrite (law_miter _ LAWS), elem_of_remove_dups in Hx. eauto.
  - intros [?|(x & Hx & Hl)]; [auto|].
    destruct (decide (p ∈ n_pid <$> h_iter so cand)) as [?|Hn]; [auto|left; right].
    split; [done|]. exists x. rewrite (law_miter _ LAWS), elem_of_remove_dups. done.
Qed.

(** what is chosen among the points found by the search *)
Lemma select_chosen (Sset : pid -> Prop) cand asked extend layer keep nv :
  links_ok h layer Sset -> cands_good dist h q Sset (h_iter so cand) ->
  select_neighbours dist so h q cand asked extend layer keep = Ok nv ->
  let F := n_pid <$> h_iter so cand in
  if (length F <=? asked)%nat then
    if extend then
      exists C, NoDup C /\ (forall p, p ∈ C <-> p ∈ F \/ exists x, x ∈ F /\ link h layer x p) /\
        chosen keep dq dd asked C (n_pid <$> nv)
    else n_pid <$> nv ≡ₚ F
  else chosen keep dq dd asked F (n_pid <$> nv).
Proof using LAWS Hnn.
  intros Hl Hgood Hrun F. unfold select_neighbours in Hrun.
  assert (EF : length F = h_len so cand) by (unfold F, h_len; by rewrite fmap_length).
  rewrite EF. destruct (Nat.leb_spec (h_len so cand) asked) as [Hfew|Hmany]; simpl in Hrun.
  - destruct extend; simpl in Hrun.
    + destruct (extend_spec dist so LAWS h q Sset layer cand Hl Hgood) as (cand1 & E1 & Hgood1).
      rewrite E1, bind_Ok in Hrun. exists (n_pid <$> h_iter so cand1).
      split; [apply Hgood1|]. split.
      * intros p. eapply extend_elem; eauto. apply Hgood.
      * apply select_phase; auto; apply Hgood1.
    + destruct (transfer_spec dist so LAWS Hnn h q (h_len so cand) cand []) as (nv' & E & Hp); [apply Hgood|lia|].
      rewrite Hrun in E. injection E as <-. simpl in Hp. rewrite Hp. by rewrite negn_pid.
  - apply select_phase; auto; apply Hgood.
Qed.

(** the nearest candidate is always chosen *)
Lemma chosen_nearest keep asked C sel c :
  chosen keep dq dd asked C sel -> (1 <= asked)%nat -> c ∈ C -> exists a, a ∈ sel /\ (dq a <= dq c)%Z.
Proof using Type.
  clear Hnn LAWS. intros Hch Ha Hc.
  assert (Hd : forall sel, diversified dq dd asked C sel -> exists a, a ∈ sel /\ (dq a <= dq c)%Z).
  { clear sel Hch. intros sel Hd. destruct (decide (c ∈ sel)) as [?|Hn]; [exists c; split; [done|lia]|].
    destruct (dv_why _ _ _ _ _ Hd c Hc Hn) as [(a & ? & ? & ?)|[Hlen Hall]]; [eauto|].
    destruct sel as [|a sel]; [simpl in *; lia|]. exists a. split; [left|]. apply Hall. left. }
  destruct keep; [|by apply Hd]. destruct Hch as (core & extra & Hp & _ & Hdv & _).
  destruct (Hd core Hdv) as (a & Hin & ?). exists a. split; [|done]. rewrite Hp. apply elem_of_app. by left.
Qed.

End Div.
