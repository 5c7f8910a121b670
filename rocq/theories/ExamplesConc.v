(** Concrete interleavings. *)
From stdpp Require Import relations.
From Verif Require Import Prelude Model StdInst Spec SpecIo SpecBuilt Conc SpecConc Examples.

Section Sched.
Context {T : Type}.
Implicit Types (c : config (T:=T)).

(** [n] steps of thread [i], or fewer if it is blocked or finished *)
Fixpoint go (i n : nat) c : config :=
  match n with
  | O => c
  | S n => match step i c with Some c' => go i n c' | None => c end
  end.
(** a schedule: which thread runs, for how many steps *)
Definition play (s : list (nat * nat)) c : config := foldl (fun c x => go x.1 x.2 c) c s.

Lemma go_rtc i n c : rtc cstep c (go i n c).
Proof.
  revert c. induction n as [|n IH]; intros c; simpl; [done|]. destruct (step i c) as [c'|] eqn:E; [|done].
  eapply rtc_l; [|apply IH]. by exists i.
Qed.
Lemma play_rtc s c : rtc cstep c (play s c).
Proof.
  revert c. induction s as [|x s IH]; intros c; simpl; [done|]. eapply rtc_transitive; [apply go_rtc|apply IH].
Qed.
Lemma play_during dist so h ts s : during dist so h ts (play s (initial dist so h ts)).
Proof. apply play_rtc. Qed.

(** what each thread has returned *)
Definition results c : list (option tres) :=
  (fun p => match p with Halt (Ok r) => Some r | _ => None end) <$> c_threads c.
Lemma results_finished c rs : results c = Some <$> rs -> finished c rs.
Proof.
  unfold results, finished. revert rs. induction (c_threads c) as [|p ps IH]; intros [|r rs] H; csimpl in *; try done.
  injection H as H1 H2. f_equal; [|by apply IH]. destruct p as [[]| | | |]; congruence.
Qed.
Lemma play_after dist so h ts s rs :
  results (play s (initial dist so h ts)) = Some <$> rs ->
  after dist so h ts (c_sh (play s (initial dist so h ts))) rs.
Proof. intros H. eexists. split; [apply play_during|]. split; [by apply results_finished|done]. Qed.

(** nobody can make a step, and somebody has not returned *)
Definition is_stuck c : bool :=
  forallb (fun i => match step i c with None => true | _ => false end) (seq 0 (length (c_threads c))) &&
  existsb (fun p => match p with Halt _ => false | _ => true end) (c_threads c).
Lemma is_stuck_deadlocked c : is_stuck c = true -> deadlocked c.
Proof.
  unfold is_stuck. intros [H1 H2]%andb_true_iff. rewrite forallb_forall in H1. split.
  - intros c' [i Hs]. destruct (c_threads c !! i) as [p|] eqn:E.
    + specialize (H1 i). rewrite in_seq in H1. apply lookup_lt_Some in E. rewrite Hs in H1. by specialize (H1 ltac:(lia)).
    + unfold step in Hs. by rewrite E in Hs.
  - apply existsb_exists in H2 as (p & Hin & Hp). apply elem_of_list_In, elem_of_list_lookup in Hin as [i Hi].
    exists i, p. split; [done|]. intros o ->. done.
Qed.
End Sched.

(** two insertions into an empty index, the first one stopped between its counting and its look at the entry point *)
Definition ce_tasks : list (task (T:=Z)) := [TInsert [0%Z] 1%N (lv 1); TInsert [5%Z] 2%N (lv 0)].
Definition ce_sched : list (nat * nat) := [(0, 9); (1, 100); (0, 100)].
Definition ce_end := play ce_sched (initial d1 simple_ops (empty_index 2 16 10) ce_tasks).
Definition ce_h : hnsw (T:=Z) := Eval vm_compute in c_sh ce_end.
Lemma ce_after : after d1 simple_ops (empty_index 2 16 10) ce_tasks ce_h [RInserted (1, 0); RInserted (0, 0)].
Proof.
  assert (E : ce_h = c_sh ce_end) by (vm_compute; reflexivity). rewrite E. apply play_after. vm_compute. reflexivity.
Qed.

(** the indexes in which the threads meet: a point on layer 2 and one on layer 0 *)
Definition exd_points : list (Z * N * nat) := [(0%Z, 10%N, 2); (100%Z, 11%N, 0)].
Definition exd_hist : list (list Z * dataid) := [([0%Z], 10%N); ([100%Z], 11%N)].
Definition exd : hnsw (T:=Z) := Eval vm_compute in the (empty_index 2 16 10) (mk simple_ops 2 16 10 exd_points).
Lemma exd_built : built d1 simple_ops one_scale 2 16 10 exd_hist exd.
Proof. apply (mk_built _ _ _ _ exd_points). vm_compute. reflexivity. Qed.

(** two insertions, at levels 2 and 1. The first stops after its work on layer 2, the second goes on until it holds the
    read lock on its neighbours for layer 0. *)
Definition cd_vectors : list (list Z * dataid) := [([1%Z], 1%N); ([2%Z], 2%N)].
Definition cd_draws : list draw := [lv 2; lv 1].
Definition cd_sched : list (nat * nat) := [(0, 53); (1, 72); (0, 100); (1, 100)].
Definition cd_end := play cd_sched (initial d1 simple_ops exd (parallel_insert cd_vectors cd_draws)).
Lemma cd_deadlocked : deadlocked cd_end.
Proof. apply is_stuck_deadlocked. vm_compute. reflexivity. Qed.

(** three insertions, at levels 1, 0 and 0. The first stops after its work on layer 1, the second after it has linked itself to the nearest
    stored point: then each waits for another. *)
Definition cl_vectors : list (list Z * dataid) := [([60%Z], 1%N); ([110%Z], 2%N); ([70%Z], 3%N)].
Definition cl_draws : list draw := [lv 1; lv 0; lv 0].
Definition cl_sched : list (nat * nat) := [(0, 64); (1, 71); (2, 300); (0, 300); (1, 300)].
Definition cl_end := play cl_sched (initial d1 simple_ops exd (parallel_insert cl_vectors cl_draws)).
Lemma cl_deadlocked : deadlocked cl_end.
Proof. apply is_stuck_deadlocked. vm_compute. reflexivity. Qed.

(** an iteration that has yielded a point, and an insertion that waits for the table *)
Definition ci_tasks : list (task (T:=Z)) := [TIterate; TInsert [1%Z] 1%N (lv 0)].
Definition ci_sched : list (nat * nat) := [(0, 2); (1, 3); (0, 100); (1, 100)].
Definition ci_end := play ci_sched (initial d1 simple_ops exd ci_tasks).
Lemma ci_deadlocked : deadlocked ci_end.
Proof. apply is_stuck_deadlocked. vm_compute. reflexivity. Qed.

(** two insertions, a search, a filtered search and an iteration, interleaved, that all return *)
Definition ca_tasks : list (task (T:=Z)) :=
  [TInsert [1%Z] 1%N (lv 2); TInsert [2%Z] 2%N (lv 1); TSearch [2%Z] 2 4 None;
   TSearch [2%Z] 2 4 (Some (fun d => d =? 11)%N); TIterate].
Definition ca_sched : list (nat * nat) :=
  [(0, 40); (4, 100); (1, 40); (2, 3); (0, 20); (2, 10); (3, 10); (1, 200); (0, 200); (1, 200); (2, 200); (3, 200)].
Definition ca_end := play ca_sched (initial d1 simple_ops exd ca_tasks).
Definition ca_h : hnsw (T:=Z) := Eval vm_compute in c_sh ca_end.
Definition ca_results : list (tres (T:=Z)) := Eval vm_compute in omap id (results ca_end).
Lemma ca_after : after d1 simple_ops exd ca_tasks ca_h ca_results.
Proof.
  assert (E : ca_h = c_sh ca_end) by (vm_compute; reflexivity). rewrite E. apply play_after. vm_compute. reflexivity.
Qed.
