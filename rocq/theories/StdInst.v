(** A concrete instance of the standard containers, showing that [StdLaws] is satisfiable and
    used to run the model on concrete histories. *)
From Verif Require Import Prelude.

(** insertion sort by key *)
Fixpoint ins_key {A} (key : A -> Z) (x : A) (l : list A) : list A :=
  match l with
  | [] => [x]
  | y :: l' => if (key x <=? key y)%Z then x :: y :: l' else y :: ins_key key x l'
  end.
Definition isort {A} (key : A -> Z) (l : list A) : list A := foldr (ins_key key) [] l.

(** removal of a maximal element (first among equals) *)
Fixpoint pop_max (l : list nbr) : option (nbr * list nbr) :=
  match l with
  | [] => None
  | x :: l' =>
      match pop_max l' with
      | None => Some (x, [])
      | Some (y, r) =>
          if (n_dist y <=? n_dist x)%Z then Some (x, l') else Some (y, x :: r)
      end
  end.

Definition simple_ops : StdOps := {|
  heap := list nbr;
  h_empty := [];
  h_push := cons;
  h_pop := pop_max;
  h_iter := fun h => h;
  h_sorted := isort n_dist;
  u_sort := @isort;
  m_iter := fun _ l => l
|}.

Lemma ins_key_perm {A} key (x : A) l : ins_key key x l ≡ₚ x :: l.
Proof.
  induction l as [|y l IH]; simpl; [done|].
  destruct (key x <=? key y)%Z; [done|]. rewrite IH. constructor.
Qed.

Lemma isort_perm {A} key (l : list A) : isort key l ≡ₚ l.
Proof. induction l as [|x l IH]; simpl; [done|]. by rewrite ins_key_perm, IH. Qed.

Lemma ins_key_sorted {A} key (x : A) l : sorted_by key l -> sorted_by key (ins_key key x l).
Proof.
  unfold sorted_by. induction 1 as [|y l Hs IH Hf]; simpl.
  - repeat constructor.
  - destruct (key x <=? key y)%Z eqn:E.
    + constructor; [by constructor|]. constructor; [lia|].
      eapply Forall_impl; [exact Hf|]. simpl; lia.
    + constructor; [done|]. rewrite ins_key_perm. constructor; [lia|done].
Qed.

Lemma isort_sorted {A} key (l : list A) : sorted_by key (isort key l).
Proof.
  induction l as [|x l IH]; simpl; [constructor|]. by apply ins_key_sorted.
Qed.

Lemma pop_max_none l : pop_max l = None -> l = [].
Proof.
  destruct l as [|x l]; simpl; [done|].
  destruct (pop_max l) as [[y r]|]; [|done]. by destruct (n_dist y <=? n_dist x)%Z.
Qed.

Lemma pop_max_some l x l' : pop_max l = Some (x, l') ->
  l ≡ₚ x :: l' /\ Forall (fun y => (n_dist y <= n_dist x)%Z) l'.
Proof.
  revert x l'. induction l as [|a l IH]; intros x l'; simpl; [done|].
  destruct (pop_max l) as [[y r]|] eqn:E.
  - destruct (IH _ _ eq_refl) as [Hp Hf].
    destruct (n_dist y <=? n_dist a)%Z eqn:E2; intros [= <- <-].
    + split; [done|]. rewrite Hp. constructor; [lia|].
      eapply Forall_impl; [exact Hf|]. simpl; lia.
    + split.
      * rewrite Hp. constructor.
      * constructor; [lia|done].
  - intros [= <- <-]. apply pop_max_none in E as ->. split; [done|constructor].
Qed.

Lemma simple_laws : StdLaws simple_ops.
Proof.
  constructor; simpl; intros; try done.
  - by apply pop_max_none.
  - by apply pop_max_some.
  - apply isort_perm.
  - apply isort_sorted.
  - apply isort_perm.
  - apply isort_sorted.
Qed.

(** insertion sort leaves sorted lists as they are *)
Lemma simple_keeps_sorted A (key : A -> Z) l : sorted_by key l -> u_sort simple_ops A key l = l.
Proof.
  unfold sorted_by. simpl. induction 1 as [|x l Hs IH Hf]; simpl; [done|]. rewrite IH.
  destruct Hf as [|y l Hy Hf]; simpl; [done|]. by destruct (Z.leb_spec (key x) (key y)); [|lia].
Qed.

(** An instance with other iteration orders and other ties, used to check that examples do not
    depend on them. *)
Definition reversed_ops : StdOps := {|
  heap := list nbr;
  h_empty := [];
  h_push := fun x h => h ++ [x];
  h_pop := pop_max;
  h_iter := fun h => rev h;
  h_sorted := fun h => isort n_dist (rev h);
  u_sort := fun A key l => isort key (rev l);
  m_iter := fun _ l => rev l
|}.

Lemma reversed_laws : StdLaws reversed_ops.
Proof.
  constructor; simpl; intros; try done.
  - rewrite rev_app_distr. simpl. done.
  - by rewrite (pop_max_none h).
  - destruct (pop_max_some _ _ _ H) as [Hp Hf]. rewrite <- !Permutation_rev.
    split; [exact Hp|exact Hf].
  - by rewrite isort_perm.
  - apply isort_sorted.
  - by rewrite isort_perm, <- Permutation_rev.
  - apply isort_sorted.
  - by rewrite <- Permutation_rev.
Qed.
