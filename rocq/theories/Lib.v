(** Generic lemmas: outcomes, heaps, sorted lists. *)
From Verif Require Import Prelude Model.

Lemma bind_Ok {A B} (a : A) (k : A -> outcome B) : (Ok a ≫= k) = k a.
Proof. done. Qed.

Lemma bind_inv {A B} (m : outcome A) (k : A -> outcome B) b :
  (m ≫= k) = Ok b -> exists a, m = Ok a /\ k a = Ok b.
Proof. destruct m; try done. intros H. eauto. Qed.

Lemma unwrap_inv {A} (o : option A) a : unwrap o = Ok a -> o = Some a.
Proof. destruct o; intros H; inversion H; done. Qed.

Lemma assert_true b : b = true -> assert_ b = Ok tt.
Proof. by intros ->. Qed.

Lemma mapM_outcome_Ok {A B} (f : A -> outcome B) l :
  (forall x, x ∈ l -> is_ok (f x)) -> is_ok (mapM f l).
Proof.
  induction l as [|x l IH]; intros H; [by exists []|].
  destruct (H x) as [y Hy]; [left|].
  destruct IH as [ys Hys]; [intros; apply H; by right|].
  exists (y :: ys). simpl. rewrite Hy, bind_Ok, Hys. done.
Qed.

Lemma mapM_outcome_inv {A B} (f : A -> outcome B) l k :
  mapM f l = Ok k -> Forall2 (fun x y => f x = Ok y) l k.
Proof.
  revert k. induction l as [|x l IH]; intros k; simpl.
  - intros H; inversion H; constructor.
  - intros H. apply bind_inv in H as (y & Hy & H). apply bind_inv in H as (ys & Hys & H).
    inversion H; subst. constructor; auto.
Qed.

Lemma sorted_by_take {A} (key : A -> Z) n l : sorted_by key l -> sorted_by key (take n l).
Proof.
  unfold sorted_by. intros H. revert n. induction H as [|x l Hs IH Hf]; intros n.
  - rewrite take_nil. constructor.
  - destruct n; simpl; [constructor|]. constructor; [done|].
    by apply Forall_take.
Qed.

Lemma sorted_by_lookup {A} (key : A -> Z) l i j x y :
  sorted_by key l -> (i <= j)%nat -> l !! i = Some x -> l !! j = Some y -> (key x <= key y)%Z.
Proof.
  unfold sorted_by. intros H. revert i j. induction H as [|a l Hs IH Hf]; intros i j Hij Hi Hj; [done|].
  destruct i, j; simpl in *; simplify_eq; try lia.
  - rewrite Forall_lookup in Hf. eauto.
  - eapply IH; [|done..]. lia.
Qed.

Lemma sorted_by_fmap {A} (key : A -> Z) l : sorted_by key l <-> sorted_by id (key <$> l).
Proof.
  unfold sorted_by. induction l as [|x l IH]; csimpl; [split; constructor|]. split; intros H; inversion H as [|? ? H1 H2]; subst.
  - constructor; [by apply IH|]. rewrite Forall_fmap. exact H2.
  - constructor; [by apply IH|]. rewrite Forall_fmap in H2. exact H2.
Qed.

Section HeapLemmas.
Context (so : StdOps) (LAWS : StdLaws so).

Lemma h_peek_some hp x : h_peek so hp = Some x ->
  x ∈ h_iter so hp /\ Forall (fun y => (n_dist y <= n_dist x)%Z) (h_iter so hp).
Proof.
  unfold h_peek. destruct (h_pop so hp) as [[y r]|] eqn:E; [|done]. simpl. intros [= ->].
  destruct (law_pop_some _ LAWS _ _ _ E) as [Hp Hf].
  rewrite Hp. split; [left|]. constructor; [lia|done].
Qed.

Lemma h_peek_none hp : h_peek so hp = None -> h_iter so hp = [].
Proof.
  unfold h_peek. destruct (h_pop so hp) as [[y r]|] eqn:E; [done|]. intros _.
  by apply (law_pop_none _ LAWS).
Qed.

Lemma h_peek_nonempty hp : h_iter so hp <> [] -> exists x, h_peek so hp = Some x.
Proof. intros H. destruct (h_peek so hp) eqn:E; [eauto|]. by apply h_peek_none in E. Qed.

Lemma h_pop_nonempty hp : h_iter so hp <> [] -> exists x r, h_pop so hp = Some (x, r).
Proof.
  intros H. destruct (h_pop so hp) as [[x r]|] eqn:E; [eauto|]. by apply (law_pop_none _ LAWS) in E.
Qed.

Lemma h_len_push x hp : h_len so (h_push so x hp) = S (h_len so hp).
Proof. unfold h_len. by rewrite (law_push _ LAWS). Qed.

Lemma h_len_pop hp x r : h_pop so hp = Some (x, r) -> h_len so hp = S (h_len so r).
Proof. intros H. unfold h_len. destruct (law_pop_some _ LAWS _ _ _ H) as [-> _]. done. Qed.

Lemma h_pop_0 hp : h_len so hp = 0 -> h_pop so hp = None.
Proof.
  intros H. destruct (h_pop so hp) as [[x r]|] eqn:E; [|done]. apply h_len_pop in E. lia.
Qed.

Lemma h_len_0 hp : h_len so hp = 0 -> h_iter so hp = [].
Proof. unfold h_len. apply nil_length_inv. Qed.

(** [shrink_ret] either keeps the heap or removes one maximal element of a too large one. *)
Lemma shrink_ret_spec ef hp :
  (h_len so hp <= ef /\ shrink_ret so ef hp = hp) \/
  (ef < h_len so hp /\ exists x, h_iter so hp ≡ₚ x :: h_iter so (shrink_ret so ef hp) /\
     Forall (fun y => (n_dist y <= n_dist x)%Z) (h_iter so (shrink_ret so ef hp))).
Proof.
  unfold shrink_ret. destruct (Nat.ltb_spec ef (h_len so hp)) as [H|H]; [right|left; split; [lia|done]].
  split; [done|].
  destruct (h_pop so hp) as [[x r]|] eqn:E.
  - exists x. by apply (law_pop_some _ LAWS).
  - apply (law_pop_none _ LAWS) in E. unfold h_len in H. rewrite E in H. simpl in H. lia.
Qed.

End HeapLemmas.
