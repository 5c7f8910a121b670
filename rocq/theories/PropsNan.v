(** Property C78: a distance function that may give NaN, or panic. *)
From Coq Require Import SpecFloat.
From stdpp Require Import relations.
From Verif Require Import Prelude Model StdInst Lib Table InsertProofs IterProofs SpecProofs SpecBuilt BuiltProofs QueryProofs PropsSearch NegProofs Nan NanProofs.
Local Open Scope list_scope.

(** ** Specification *)
Section SpecNan.
Context {T : Type} (ndist : list T -> list T -> outcome (option Z)) (so : StdOps) (no : NanOps).

(** [numbered inv_ln M ml ef hist h]: [h] was made by Hnsw::new and then insertions that returned, of the vectors and identifiers of
    [hist], and setter calls. *)
Inductive numbered (inv_ln : nat -> f64) (M ml ef : nat) : list (list T * dataid) -> hnsw (T:=T) -> Prop :=
| numbered_new h : hnsw_new inv_ln M ml ef = Ok h -> numbered inv_ln M ml ef [] h
| numbered_insert hist h v id d h' : numbered inv_ln M ml ef hist h -> ninsert ndist so no v id d h = (Ok tt, h') ->
    numbered inv_ln M ml ef (hist ++ [(v, id)]) h'
| numbered_extend hist h b : numbered inv_ln M ml ef hist h -> numbered inv_ln M ml ef hist (set_extend_candidates b h)
| numbered_keep hist h b : numbered inv_ln M ml ef hist h -> numbered inv_ln M ml ef hist (set_keeping_pruned b h)
| numbered_search hist h b : numbered inv_ln M ml ef hist h -> numbered inv_ln M ml ef hist (set_searching_mode b h)
| numbered_scale hist h m : numbered inv_ln M ml ef hist h -> numbered inv_ln M ml ef hist (modify_level_scale m h).

(** [attempts P h h']: from [h], some insertions of vectors of which [P] holds were attempted, and what they did, returning or not, led
    to [h']. *)
Inductive attempts (P : list T -> Prop) (h : hnsw (T:=T)) : hnsw (T:=T) -> Prop :=
| attempts_none : attempts P h h
| attempts_one h1 v id d : attempts P h h1 -> P v -> attempts P h (ninsert ndist so no v id d h1).2.
End SpecNan.

(** the distance, if it is a positive number *)
Definition zdist {T} (ndist : list T -> list T -> outcome (option Z)) (a b : list T) : Z := match ndist a b with Ok (Some d) => Z.max 0 d | _ => 0%Z end.
Lemma zdist_nn {T} (ndist : list T -> list T -> outcome (option Z)) a b : (0 <= zdist ndist a b)%Z.
Proof. unfold zdist. destruct (ndist a b) as [[]| | | | |]; lia. Qed.

Section Facts.
Context {T : Type} (ndist : list T -> list T -> outcome (option Z)) (so : StdOps) (LAWS : StdLaws so) (no : NanOps) (NL : NanLaws so no).
Context (clean : list T -> Prop) (Hc : forall a b, clean a -> clean b -> exists d, ndist a b = Ok (Some d) /\ (0 <= d)%Z).

Lemma zdist_clean a b : clean a -> clean b -> ndist a b = Ok (Some (zdist ndist a b)).
Proof using Hc. intros Ha Hb. unfold zdist. destruct (Hc a b Ha Hb) as (d & -> & Hd). do 2 f_equal. lia. Qed.

Lemma stored_clean (h : hnsw (T:=T)) hist : stored h ≡ₚ hist -> Forall (fun x => clean x.1) hist -> all_good clean h.
Proof using.
  clear. intros Hs Hf p pt Hp. apply stored_at in Hp. rewrite Hs in Hp. rewrite Forall_forall in Hf. by apply Hf in Hp.
Qed.

Lemma numbered_built (dist : list T -> list T -> Z) : (forall a b, (0 <= dist a b)%Z) -> (forall a b, clean a -> clean b -> ndist a b = Ok (Some (dist a b))) ->
  forall inv_ln M ml ef hist h, numbered ndist so no inv_ln M ml ef hist h -> Forall (fun x => clean x.1) hist -> built dist so inv_ln M ml ef hist h.
Proof using LAWS NL.
  intros Hnn Hz. induction 1 as [h H|hist h v id d h' Hm IH H| | | |]; intros Hf; try (by constructor; auto).
  apply Forall_app in Hf as [Hf Hv]. apply Forall_cons in Hv as [Hv _]. cbn in Hv. specialize (IH Hf). apply (built_insert _ _ _ _ _ _ hist h v id d); [exact IH|].
  destruct (built_facts dist so LAWS Hnn _ _ _ _ _ _ IH) as (_ & _ & _ & _ & Hst & _).
  pose proof (insert_E ndist dist so no NL clean Hz h v id d (stored_clean _ _ Hst Hf) Hv) as Hr.
  rewrite H in Hr. destruct (insert_slice dist so h v id d) as [h1| | | | |]; cbn in Hr; try done. congruence.
Qed.

(** what holds after insertions that do not return *)
Lemma attempts_facts (P : list T -> Prop) h h1 : attempts ndist so no P h h1 -> nb_point h <> 0%nat ->
  forall ep ept, entry_point h = Some ep -> get_pt h ep = Some ept -> (forall v, P v -> no_number (ndist v (pt_data ept))) ->
  entry_point h1 = Some ep /\ (forall p pt, get_pt h p = Some pt -> get_pt h1 p = Some pt) /\
  (table_size h <= table_size h1)%nat /\ nb_point h1 <> 0%nat /\ (get_layer_nb_point h 0 <= get_layer_nb_point h1 0)%nat.
Proof using NL.
  clear Hc clean. intros Ha Hnb ep ept He Hep HP. induction Ha as [|h1 v id d Ha (I1 & I2 & I3 & I4 & I5) Hv]; [done|].
  destruct (generate_new_point h1 v id d) as [[[h0 np] rank]| | | | |] eqn:Eg.
  2-6: assert (Hsame : (ninsert ndist so no v id d h1).2 = h1) by (unfold ninsert, sbind at 1, sput at 1; rewrite Eg; done); rewrite Hsame; done.
  rewrite (nan_insert ndist so no NL h1 v id d ep ept h0 np rank I1 (I2 _ _ Hep) I4 (HP v Hv) Eg). cbn [snd].
  unfold generate_new_point in Eg. apply bind_inv in Eg as (lv & _ & Eg). apply bind_inv in Eg as ([h2 p1] & H1 & [= <- <- <-]).
  assert (H2 := H1). apply push_point_inv in H1 as (Hlv & _ & Hno & Hnew & Ho & (_ & _ & _ & _ & _ & _ & Hnb1 & He1 & _) & _ & Hts).
  split_and!; cbn [entry_point set_nb_point nb_point].
  - by rewrite He1.
  - intros p pt Hp. change (get_pt h2 p = Some pt). apply I2 in Hp. rewrite Ho; [done|]. intros ->. congruence.
  - change (table_size (set_nb_point (S (nb_point h2)) h2)) with (table_size h2). lia.
  - lia.
  - change (get_layer_nb_point (set_nb_point (S (nb_point h2)) h2) 0) with (get_layer_nb_point h2 0).
    etransitivity; [exact I5|]. unfold push_point in H2. apply bind_inv in H2 as (ly & Hly & [= <- <-]). apply unwrap_inv in Hly.
    unfold get_layer_nb_point. cbn [points_by_layer set_layers]. destruct (decide (lv = 0%nat)) as [->|Hne].
    + rewrite Hly, list_lookup_insert by (by eapply lookup_lt_Some). rewrite app_length. lia.
    + by rewrite list_lookup_insert_ne.
Qed.

Lemma insert_not_ok h v id d ep ept : entry_point h = Some ep -> get_pt h ep = Some ept -> nb_point h <> 0%nat ->
  no_number (ndist v (pt_data ept)) -> (ninsert ndist so no v id d h).1 = Panic.
Proof using NL.
  clear Hc clean. intros He Hep Hnb Hn. destruct (generate_new_point h v id d) as [[[h0 np] rank]| | | | |] eqn:Eg.
  { by rewrite (nan_insert ndist so no NL h v id d ep ept h0 np rank He Hep Hnb Hn Eg). }
  2: { unfold ninsert, sbind at 1, sput at 1. by rewrite Eg. }
  all: exfalso; unfold generate_new_point, generate in Eg; destruct (_ <=? _)%N; [destruct (max_layer h); [done|]|];
    cbn [mbind outcome_bind] in Eg; unfold push_point in Eg; destruct (points_by_layer h !! _); done.
Qed.
End Facts.

(** C78. [clean] vectors are at a distance that is a number from one another; the index holds clean vectors. (1) A search from a clean
    vector returns, and gives the numbers; an insertion of a clean vector returns. (2) From a vector whose distance to every
    stored vector is not a number (NaN, or the function panics), a search does not return and an insertion panics, if the index is not empty. (3) Any number of such attempted
    insertions, caught by the caller, leaves the answers to searches from clean vectors what they were, if the index has a point at
    layer 0. *)
Theorem C78_nan_is_contained :
  forall {T} (ndist : list T -> list T -> outcome (option Z)) so no, StdLaws so -> NanLaws so no ->
  forall (clean : list T -> Prop), (forall a b, clean a -> clean b -> exists d, ndist a b = Ok (Some d) /\ (0 <= d)%Z) ->
  forall inv_ln M ml ef hist h, numbered ndist so no inv_ln M ml ef hist h -> Forall (fun x => clean x.1) hist ->
  let strange v := forall w id, (w, id) ∈ hist -> ndist v w = Ok None \/ ndist v w = Panic in
  (forall q knbn ef_arg filter, clean q -> filter = None \/ (1 <= Nat.max ef_arg knbn)%nat ->
     exists r, nsearch_filter ndist no h q knbn ef_arg filter = Ok r /\
     forall a, a ∈ r -> exists v z, (v, nd_id a) ∈ hist /\ ndistance a = Some z /\ ndist q v = Ok (Some z)) /\
  (forall v id d, (1 <= ml)%nat -> clean v -> exists h', ninsert ndist so no v id d h = (Ok tt, h')) /\
  (hist <> [] -> forall v, strange v ->
     (forall knbn ef_arg filter r, nsearch_filter ndist no h v knbn ef_arg filter <> Ok r) /\
     (forall id d, (ninsert ndist so no v id d h).1 = Panic)) /\
  (get_layer_nb_point h 0 <> 0%nat -> forall h1, attempts ndist so no strange h h1 ->
     forall q knbn ef_arg filter, clean q -> filter = None \/ (1 <= Nat.max ef_arg knbn)%nat ->
       nsearch_filter ndist no h1 q knbn ef_arg filter = nsearch_filter ndist no h q knbn ef_arg filter).
Proof.
  intros T ndist so no LAWS NL clean Hc inv_ln M ml ef hist h Hm Hf strange.
  pose proof (numbered_built ndist so LAWS no NL clean (zdist ndist) (zdist_nn ndist) (zdist_clean ndist clean Hc) _ _ _ _ _ _ Hm Hf) as Hb.
  destruct (built_facts (zdist ndist) so LAWS (zdist_nn ndist) _ _ _ _ _ _ Hb) as (Hwf & Hml & _ & _ & Hst & Hnb).
  pose proof (stored_clean clean _ _ Hst Hf) as Hg.
  pose proof (zdist_clean ndist clean Hc) as Hz.
  destruct (C10_no_panic (zdist ndist) so LAWS (zdist_nn ndist)) as [_ H10]. destruct (H10 _ _ _ _ _ _ Hb) as [_ Hin]. clear H10.
  assert (Hent : hist <> [] -> exists ep ept, entry_point h = Some ep /\ get_pt h ep = Some ept /\ nb_point h <> 0%nat /\ 
            forall v, strange v -> no_number (ndist v (pt_data ept))).
  { intros Hne. pose proof (w_entry _ _ Hwf) as We. destruct (entry_point h) as [ep|].
    - destruct We as [[ept Hept] _]. exists ep, ept. split_and!; [done|done|rewrite Hnb; by destruct hist|].
      intros v Hv. apply stored_at in Hept. rewrite Hst in Hept. by eapply Hv.
    - rewrite <- (w_count _ _ Hwf), Hnb in We. by destruct hist. }
  split_and!.
  - intros q k e flt Hq Hfl. destruct (search_filter_facts (zdist ndist) so LAWS (zdist_nn ndist) h q k e flt (wf_lwf _ _ Hwf) Hfl) as (r & Hr & _ & _ & _ & Hok).
    exists (En <$> r). rewrite (search_E ndist (zdist ndist) so no NL clean Hz h q k e flt Hg Hq), Hr. split; [done|].
    intros a Ha. apply elem_of_list_fmap in Ha as (x & -> & Hx). rewrite Forall_forall in Hok. destruct (Hok x Hx) as (pt & Hpt & Hid & Hdx).
    exists (pt_data pt), (distance x). split_and!.
    + cbn. rewrite Hid, <- Hst. by eapply stored_at.
    + done.
    + rewrite Hdx. apply Hz; [done|by eapply Hg].
  - intros v id d Hm1 Hv. destruct (Hin Hm1 v id d) as [h' Hh']. exists h'.
    pose proof (insert_E ndist (zdist ndist) so no NL clean Hz h v id d Hg Hv) as Hr. by rewrite Hh' in Hr.
  - intros Hne v Hv. destruct (Hent Hne) as (ep & ept & He & Hep & Hnb0 & Hs). split.
    + intros k e flt r. eapply nan_search; [done|exact He|exact Hep|by apply Hs].
    + intros id d. eapply insert_not_ok; [done|exact He|exact Hep|done|by apply Hs].
  - intros Hl h1 Ha q k e flt Hq Hfl.
    assert (Hne : hist <> []).
    { intros ->. rewrite (w_count _ _ Hwf) in Hnb. apply Hl. unfold get_layer_nb_point. destruct (points_by_layer h !! 0%nat) as [[|x ly]|] eqn:E0; try done.
      exfalso. assert (Hv : valid h (0%nat, 0%nat)) by (exists x; unfold get_pt; cbn; by rewrite E0). by eapply table_size_0_valid. }
    destruct (Hent Hne) as (ep & ept & He & Hep & Hnb0 & Hs).
    destruct (attempts_facts ndist so no NL strange h h1 Ha Hnb0 ep ept He Hep Hs) as (A1 & A2 & A3 & A4 & A5).
    destruct (search_filter_facts (zdist ndist) so LAWS (zdist_nn ndist) h q k e flt (wf_lwf _ _ Hwf) Hfl) as (r & Hr & _).
    rewrite (search_E ndist (zdist ndist) so no NL clean Hz h q k e flt Hg Hq), Hr.
    assert (L0 : forall hh : hnsw (T:=T), get_layer_nb_point hh 0 <> 0%nat -> exists x ly, points_by_layer hh !! 0%nat = Some (x :: ly)).
    { intros hh. unfold get_layer_nb_point. destruct (points_by_layer hh !! 0%nat) as [[|x ly]|]; try done. eauto. }
    destruct (L0 h Hl) as (x & ly & Hx). destruct (L0 h1 ltac:(lia)) as (x1 & ly1 & Hx1).
    assert (Hl0 : forall (hh : hnsw (T:=T)) y k, points_by_layer hh !! 0%nat = Some (y :: k) -> layer_to_search hh = Ok 0%nat).
    { intros hh y k' Hy. unfold layer_to_search. destruct (points_by_layer hh) as [|[|] ?]; try done. }
    eapply proj1, (search_B ndist (zdist ndist) so LAWS no NL clean Hz (fun _ => True) h h1); [| |exact Hq|congruence|done|by erewrite !Hl0| |done|exact Hr].
    + intros p pt _ Hp. split; [by apply A2|by eapply Hg].
    + done.
    + intros l Hll. erewrite Hl0 in Hll by exact Hx. injection Hll as <-. unfold emptiness. by rewrite Hx, Hx1.
Qed.
Print Assumptions C78_nan_is_contained.

(** C78, without NaN: an index made of clean vectors is an index of the other files, made with the same history, and a search from a
    clean vector gives what it gives there. *)
Theorem C78_without_nan :
  forall {T} (ndist : list T -> list T -> outcome (option Z)) so no, StdLaws so -> NanLaws so no ->
  forall (clean : list T -> Prop) (dist : list T -> list T -> Z), (forall a b, (0 <= dist a b)%Z) -> (forall a b, clean a -> clean b -> ndist a b = Ok (Some (dist a b))) ->
  forall inv_ln M ml ef hist h, numbered ndist so no inv_ln M ml ef hist h -> Forall (fun x => clean x.1) hist ->
  built dist so inv_ln M ml ef hist h /\
  (forall q knbn ef_arg filter, clean q -> nsearch_filter ndist no h q knbn ef_arg filter =
     fmap (M:=list) (fun a => NNeighbour (d_id a) (Some (distance a)) (p_id a)) <$> search_filter dist so h q knbn ef_arg filter).
Proof.
  intros T ndist so no LAWS NL clean dist Hnn Hz inv_ln M ml ef hist h Hm Hf.
  pose proof (numbered_built ndist so LAWS no NL clean dist Hnn Hz _ _ _ _ _ _ Hm Hf) as Hb. split; [done|].
  destruct (built_facts dist so LAWS Hnn _ _ _ _ _ _ Hb) as (_ & _ & _ & _ & Hst & _). intros q k e flt Hq.
  apply (search_E ndist dist so no NL clean Hz h q k e flt); [by eapply stored_clean|done].
Qed.
Print Assumptions C78_without_nan.

(** C78, an unlucky start: when the first vector inserted is at no numeric distance from any vector, itself included, its insertion returns,
    but no later search or insertion ever does. *)
Theorem C78_nan_first :
  forall {T} (ndist : list T -> list T -> outcome (option Z)) so no, StdLaws so -> NanLaws so no ->
  forall inv_ln M ml ef h0 v id d, hnsw_new inv_ln M ml ef = Ok h0 -> (1 <= ml)%nat -> (forall w, ndist w v = Ok None \/ ndist w v = Panic) ->
  exists h, ninsert ndist so no v id d h0 = (Ok tt, h) /\
  forall h1, attempts ndist so no (fun _ => True) h h1 ->
    (forall q knbn ef_arg filter r, nsearch_filter ndist no h1 q knbn ef_arg filter <> Ok r) /\
    (forall w id' d', (ninsert ndist so no w id' d' h1).1 = Panic).
Proof.
  intros T ndist so no LAWS NL inv_ln M ml ef h0 v id d Hn Hml Hv.
  assert (Hi : exists h ep, ninsert ndist so no v id d h0 = (Ok tt, h) /\ entry_point h = Some ep /\ get_pt h ep = Some (new_pt v id ep) /\ nb_point h = 1%nat).
  { unfold hnsw_new in Hn. destruct (256 <? M)%nat; [done|]. injection Hn as <-.
    match goal with |- context [ninsert _ _ _ _ _ _ ?x] => set (h0 := x) end.
    destruct (generate_ok (level_scale h0) (max_layer h0) d) as [lv Hlv]; [change (max_layer h0) with (Nat.min NB_LAYER_MAX ml); unfold NB_LAYER_MAX; lia|].
    assert (Hlt := generate_lt _ _ _ _ Hlv).
    destruct (push_point h0 v id lv) as [[h1 np]| | | | |] eqn:Ep.
    2-6: exfalso; unfold push_point in Ep; cbn [points_by_layer h0] in Ep; rewrite lookup_replicate_2 in Ep by exact Hlt; done.
    assert (Hp := Ep). apply push_point_inv in Hp as (_ & _ & _ & Hnew & _ & (_ & _ & _ & _ & _ & _ & Hnb1 & He1 & _) & _).
    assert (Hg : generate_new_point h0 v id d = Ok (set_nb_point (S (nb_point h1)) h1, np, S (nb_point h1))).
    { unfold generate_new_point. rewrite Hlv. cbn [mbind outcome_bind]. rewrite Ep. done. }
    exists (set_entry (Some np) (set_nb_point (S (nb_point h1)) h1)), np. split_and!; [|done|exact Hnew|cbn; by rewrite Hnb1].
    unfold ninsert, sbind at 1, sput at 1. rewrite Hg. cbn [mbind outcome_bind]. unfold sbind, sread. cbn [entry_point set_nb_point].
    rewrite He1. cbn. unfold sput, check_entry_point. cbn. by rewrite He1. }
  destruct Hi as (h & ep & Hi & He & Hep & Hnb). exists h. split; [done|]. intros h1 Ha.
  destruct (attempts_facts ndist so no NL _ h h1 Ha ltac:(lia) ep _ He Hep) as (A1 & A2 & _ & A4 & _); [intros; apply Hv|].
  apply A2 in Hep. split.
  - intros q k e flt r. eapply nan_search; [done|exact A1|exact Hep|apply Hv].
  - intros w id' d'. eapply insert_not_ok; [done|exact A1|exact Hep|done|apply Hv].
Qed.
Print Assumptions C78_nan_first.

(** ** Containers with NaN: an instance *)
Fixpoint npop_max (l : list nnbr) : option (nnbr * list nnbr) :=
  match l with
  | [] => None
  | x :: l' =>
      match npop_max l' with
      | None => Some (x, [])
      | Some (y, r) => if (default 0 y.2 <=? default 0 x.2)%Z then Some (x, l') else Some (y, x :: r)
      end
  end.
Definition simple_nan : NanOps := {|
  nheap := list nnbr;
  n_empty := [];
  n_push := fun x h => Ok (x :: h);
  n_pop := fun h => Ok (npop_max h);
  n_iter := fun h => h;
  n_sorted := fun h => Ok (isort (fun x : nnbr => default 0%Z x.2) h)
|}.
Definition lifts : list nbr -> list nnbr := fmap lift_nbr.
Lemma lift_pop (l : list nbr) : npop_max (lifts l) = option_map (fun x => (lift_nbr x.1, lifts x.2)) (pop_max l).
Proof.
  induction l as [|x l IH]; [done|]. cbn. rewrite IH. destruct (pop_max l) as [[y r]|]; cbn; [|done]. by destruct (_ <=? _)%Z.
Qed.
Lemma lift_sort (l : list nbr) : isort (fun x : nnbr => default 0%Z x.2) (lifts l) = lifts (isort n_dist l).
Proof.
  induction l as [|x l IH]; [done|]. cbn. change (ins_key (fun x : nnbr => default 0%Z x.2) (lift_nbr x) (isort (fun x : nnbr => default 0%Z x.2) (lifts l)) = lifts (ins_key n_dist x (isort n_dist l))). rewrite IH. clear IH.
  induction (isort n_dist l) as [|y k IHk]; [done|]. cbn. destruct (_ <=? _)%Z; [done|]. cbn. rewrite IHk. done.
Qed.
Definition simple_nan_laws : NanLaws simple_ops simple_nan.
Proof.
  refine {| emb := lifts : heap simple_ops -> nheap simple_nan; single := fun p => [(p, None)] : nheap simple_nan |}; try done.
  - intros h. cbn. by rewrite lift_pop.
  - intros h. cbn. by rewrite lift_sort.
  - intros x h h' [= <-]. done.
  - intros h x h' [= H]. revert x h' H. induction h as [|a l IH]; intros x h' H; cbn in *; [done|].
    destruct (npop_max l) as [[y r]|] eqn:Ey; [|injection H as <- <-; split; [by left|set_solver]].
    destruct (IH y r eq_refl) as [I1 I2]. destruct (_ <=? _)%Z; injection H as <- <-; set_solver.
Defined.

(** Vectors of one coordinate, [None] being a NaN (the distance panics if there is not exactly one): 0, 5 and 9 are inserted; then a NaN is. The search from 7 gives 9 and 5, before
    and after; the search from NaN panics. *)
Definition gap (a b : list (option Z)) : outcome (option Z) :=
  match a, b with
  | [x], [y] => Ok (match x, y with Some x, Some y => Some (Z.abs (x - y)) | _, _ => None end)
  | _, _ => Panic
  end.
Definition number (v : list (option Z)) : Prop := exists z, v = [Some z].
Definition low : draw := Draw (S754_zero false) 0.
Definition nan_step (h : hnsw (T:=option Z)) (z : option Z) (id : dataid) : hnsw (T:=option Z) := (ninsert gap simple_ops simple_nan [z] id low h).2.
Definition nan_0 : hnsw (T:=option Z) := Eval vm_compute in
  match hnsw_new (fun _ => f64_1) 4 16 10 with Ok h => h | _ => Hnsw 0 0 false false 0 [] f64_1 0 None false false end.
Definition nan_1 := Eval vm_compute in nan_step nan_0 (Some 0%Z) 1%N.
Definition nan_2 := Eval vm_compute in nan_step nan_1 (Some 5%Z) 2%N.
Definition nan_3 := Eval vm_compute in nan_step nan_2 (Some 9%Z) 3%N.
Definition nan_4 := Eval vm_compute in nan_step nan_3 None 4%N.
Example C78_example :
  (forall a b, number a -> number b -> exists d, gap a b = Ok (Some d) /\ (0 <= d)%Z) /\
  numbered gap simple_ops simple_nan (fun _ => f64_1) 4 16 10 [([Some 0%Z], 1%N); ([Some 5%Z], 2%N); ([Some 9%Z], 3%N)] nan_3 /\
  Forall (fun x : list (option Z) * dataid => number x.1) [([Some 0%Z], 1%N); ([Some 5%Z], 2%N); ([Some 9%Z], 3%N)] /\
  (forall w, gap [None] w = Ok None \/ gap [None] w = Panic) /\ get_layer_nb_point nan_3 0 = 3%nat /\
  attempts gap simple_ops simple_nan (fun v => v = [None]) nan_3 nan_4 /\ get_nb_point nan_4 = 4%nat /\
  (exists r, nsearch_filter gap simple_nan nan_3 [Some 7%Z] 2 10 None = Ok r /\ nsearch_filter gap simple_nan nan_4 [Some 7%Z] 2 10 None = Ok r /\
     ndistance <$> r = [Some 2; Some 2]%Z) /\
  nsearch_filter gap simple_nan nan_3 [None] 2 10 None = Panic.
Proof.
  split_and!.
  - intros a b [x ->] [y ->]. eexists. split; [done|lia].
  - apply (numbered_insert _ _ _ _ _ _ _ [_; _] nan_2 _ _ low); [|vm_compute; reflexivity].
    apply (numbered_insert _ _ _ _ _ _ _ [_] nan_1 _ _ low); [|vm_compute; reflexivity].
    apply (numbered_insert _ _ _ _ _ _ _ [] nan_0 _ _ low); [|vm_compute; reflexivity].
    apply numbered_new. vm_compute. reflexivity.
  - repeat constructor; eexists; reflexivity.
  - intros [|[x|] [|]]; auto.
  - done.
  - change nan_4 with (nan_step nan_3 None 4%N). apply attempts_one; [constructor|done].
  - done.
  - eexists. split_and!; vm_compute; reflexivity.
  - vm_compute. reflexivity.
Qed.
(** The first vector inserted is a NaN: the second insertion panics. *)
Example C78_example_first :
  (forall w, gap w [None] = Ok None \/ gap w [None] = Panic) /\ (exists h, ninsert gap simple_ops simple_nan [None] 1%N low nan_0 = (Ok tt, h) /\
  (ninsert gap simple_ops simple_nan [Some 5%Z] 2%N low h).1 = Panic /\ nsearch_filter gap simple_nan h [Some 7%Z] 2 10 None = Panic).
Proof.
  split; [intros [|[x|] [|]]; auto|]. eexists. split_and!; vm_compute; reflexivity.
Qed.
