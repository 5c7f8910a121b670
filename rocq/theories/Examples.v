(** Concrete indexes used to show that the hypotheses of the theorems are met by non trivial
    cases, and as witnesses of the refuted properties. *)
From Coq Require Import SpecFloat.
From Verif Require Import Prelude Model StdInst Io Spec SpecIo SpecBuilt.

(** vectors of length 1 over Z, absolute difference *)
Definition d1 (a b : list Z) : Z :=
  match a, b with x :: _, y :: _ => Z.abs (x - y) | _, _ => 0%Z end.
Lemma d1_nonneg a b : (0 <= d1 a b)%Z.
Proof. destruct a, b; simpl; lia. Qed.
Lemma d1_sym a b : d1 a b = d1 b a.
Proof. destruct a, b; simpl; lia. Qed.

(** a draw giving level n when the scale is 1 *)
Definition lv (n : nat) : draw :=
  Draw (match n with O => S754_zero false | S _ => S754_finite false (Pos.of_nat n) 0 end) 0.

Definition ins_all {T} (dist : list T -> list T -> Z) (so : StdOps)
    (l : list (list T * dataid * nat)) (h : hnsw) : outcome (hnsw (T:=T)) :=
  foldl (fun acc x => h ← acc; insert_slice dist so h x.1.1 x.1.2 (lv x.2)) (Ok h) l.

Lemma ins_all_bad {T} (dist : list T -> list T -> Z) so (l : list (list T * dataid * nat)) acc h' :
  foldl (fun acc x => h ← acc; insert_slice dist so h x.1.1 x.1.2 (lv x.2)) acc l = Ok h' ->
  exists h, acc = Ok h.
Proof.
  revert acc. induction l as [|x l IH]; intros acc; simpl; [eauto|].
  intros H. apply IH in H as [h H]. destruct acc; simpl in H; try done. eauto.
Qed.

Lemma ins_all_plain {T} (dist : list T -> list T -> Z) so inv_ln M ml ef
    (l : list (list T * dataid * nat)) hist h h' :
  built_plain dist so inv_ln M ml ef hist h -> ins_all dist so l h = Ok h' ->
  built_plain dist so inv_ln M ml ef (hist ++ (fst <$> l)) h'.
Proof.
  revert hist h. induction l as [|[[v i] n] l IH]; intros hist h Hb H.
  - injection H as <-. by rewrite app_nil_r.
  - unfold ins_all in H. simpl in H. pose proof H as H'. apply ins_all_bad in H' as [h1 H1].
    rewrite H1 in H. csimpl. change ((v, i) :: (fst <$> l)) with ([(v, i)] ++ (fst <$> l)).
    rewrite app_assoc. eapply IH; [|exact H]. econstructor; [exact Hb|exact H1].
Qed.

Lemma ins_all_built {T} (dist : list T -> list T -> Z) so inv_ln M ml ef
    (l : list (list T * dataid * nat)) hist h h' :
  built dist so inv_ln M ml ef hist h -> ins_all dist so l h = Ok h' ->
  built dist so inv_ln M ml ef (hist ++ (fst <$> l)) h'.
Proof.
  revert hist h. induction l as [|[[v i] n] l IH]; intros hist h Hb H.
  - injection H as <-. by rewrite app_nil_r.
  - unfold ins_all in H. simpl in H. pose proof H as H'. apply ins_all_bad in H' as [h1 H1].
    rewrite H1 in H. csimpl. change ((v, i) :: (fst <$> l)) with ([(v, i)] ++ (fst <$> l)).
    rewrite app_assoc. eapply IH; [|exact H]. econstructor; [exact Hb|exact H1].
Qed.

Definition one_scale : nat -> f64 := fun _ => f64_1.
Definition the {A} (d : A) (o : outcome A) : A := match o with Ok a => a | _ => d end.
Definition empty_index (M ml ef : nat) : hnsw (T:=Z) :=
  Hnsw ef M false false (Nat.min 16 ml) (replicate (Nat.min 16 ml) []) f64_1 0 None false false.
Definition mk (so : StdOps) (M ml ef : nat) (l : list (Z * N * nat)) : outcome (hnsw (T:=Z)) :=
  h ← hnsw_new one_scale M ml ef; ins_all d1 so ((fun x => ([x.1.1], x.1.2, x.2)) <$> l) h.

Lemma mk_plain so M ml ef l h : mk so M ml ef l = Ok h ->
  built_plain d1 so one_scale M ml ef ((fun x => ([x.1.1], x.1.2)) <$> l) h.
Proof.
  unfold mk. intros H. destruct (hnsw_new one_scale M ml ef) as [h0| | | | |] eqn:E; try done. simpl in H.
  pose proof (ins_all_plain _ _ _ _ _ _ _ [] _ _ (plain_new _ _ _ _ _ _ _ E) H) as Hb.
  simpl in Hb. rewrite <- list_fmap_compose in Hb. exact Hb.
Qed.
Lemma mk_built so M ml ef l h : mk so M ml ef l = Ok h ->
  built d1 so one_scale M ml ef ((fun x => ([x.1.1], x.1.2)) <$> l) h.
Proof.
  unfold mk. intros H. destruct (hnsw_new one_scale M ml ef) as [h0| | | | |] eqn:E; try done. simpl in H.
  pose proof (ins_all_built _ _ _ _ _ _ _ [] _ _ (built_new _ _ _ _ _ _ _ E) H) as Hb.
  simpl in Hb. rewrite <- list_fmap_compose in Hb. exact Hb.
Qed.

(** Seven points on three layers, M = 2, ef_construction = 10. *)
Definition ex1_points : list (Z * N * nat) :=
  [(0, 10%N, 0%nat); (10, 11%N, 1%nat); (20, 12%N, 0%nat); (5, 13%N, 0%nat); (7, 14%N, 2%nat); (30, 15%N, 0%nat);
   (1, 16%N, 0%nat)]%Z.
Definition ex1_hist : list (list Z * dataid) :=
  [([0], 10%N); ([10], 11%N); ([20], 12%N); ([5], 13%N); ([7], 14%N); ([30], 15%N); ([1], 16%N)]%Z.
Definition ex1 : hnsw (T:=Z) := Eval vm_compute in the (empty_index 2 16 10) (mk simple_ops 2 16 10 ex1_points).
Lemma ex1_ok : mk simple_ops 2 16 10 ex1_points = Ok ex1.
Proof. vm_compute. reflexivity. Qed.
Lemma ex1_built : built d1 simple_ops one_scale 2 16 10 ex1_hist ex1.
Proof. exact (mk_built _ _ _ _ _ _ ex1_ok). Qed.

(** The same with the other implementation of the containers. *)
Definition ex1r : hnsw (T:=Z) := Eval vm_compute in the (empty_index 2 16 10) (mk reversed_ops 2 16 10 ex1_points).
Lemma ex1r_built : built d1 reversed_ops one_scale 2 16 10 ex1_hist ex1r.
Proof. apply (mk_built _ _ _ _ ex1_points). vm_compute. reflexivity. Qed.

(** A flat index of five points, M = 2. *)
Definition ex2_points : list (Z * N * nat) :=
  [(0, 1%N, 0%nat); (10, 2%N, 0%nat); (20, 3%N, 0%nat); (5, 4%N, 0%nat); (7, 5%N, 0%nat)]%Z.
Definition ex2_hist : list (list Z * dataid) := [([0], 1%N); ([10], 2%N); ([20], 3%N); ([5], 4%N); ([7], 5%N)]%Z.
Definition ex2 : hnsw (T:=Z) := Eval vm_compute in the (empty_index 2 1 10) (mk simple_ops 2 1 10 ex2_points).
Lemma ex2_ok : mk simple_ops 2 1 10 ex2_points = Ok ex2.
Proof. vm_compute. reflexivity. Qed.
Lemma ex2_plain : built_plain d1 simple_ops one_scale 2 1 10 ex2_hist ex2.
Proof. exact (mk_plain _ _ _ _ _ _ ex2_ok). Qed.

(** Two points, the second one on layer 1: the reverse link is stored at layer 1 only. *)
Definition ex3_points : list (Z * N * nat) := [(0, 1%N, 0%nat); (10, 2%N, 1%nat)]%Z.
Definition ex3_hist : list (list Z * dataid) := [([0], 1%N); ([10], 2%N)]%Z.
Definition ex3 : hnsw (T:=Z) := Eval vm_compute in the (empty_index 2 16 10) (mk simple_ops 2 16 10 ex3_points).
Lemma ex3_built : built d1 simple_ops one_scale 2 16 10 ex3_hist ex3.
Proof. apply (mk_built _ _ _ _ ex3_points). vm_compute. reflexivity. Qed.

(** Two points on layer 0. *)
Definition ex4_points : list (Z * N * nat) := [(0, 1%N, 0%nat); (10, 2%N, 0%nat)]%Z.
Definition ex4 : hnsw (T:=Z) := Eval vm_compute in the (empty_index 2 16 10) (mk simple_ops 2 16 10 ex4_points).
Lemma ex4_built : built d1 simple_ops one_scale 2 16 10 ex3_hist ex4.
Proof. apply (mk_built _ _ _ _ ex4_points). vm_compute. reflexivity. Qed.
