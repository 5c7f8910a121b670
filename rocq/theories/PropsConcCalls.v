(** Property C92: an index used by several threads at once, with a distance function that panics.
    Model: ConcCalls.v. *)
From stdpp Require Import relations.
From Verif Require Import Prelude Model Lib Table StdInst SearchProofs InsertProofs IterProofs SpecProofs Spec SpecIo SpecBuilt BuiltProofs Calls Conc SpecConc
  ConcSafe ConcGlobal ConcEnd ConcLive ConcCalls ConcCallsProofs Examples ExamplesConc PropsConc PropsCalls.
Local Open Scope list_scope.

(** the vector that a task inserts or searches for *)
Definition deals_with {T} (t : task (T:=T)) (u : list T) : Prop :=
  (exists id dr, t = TInsert u id dr) \/ exists k e filter, t = TSearch u k e filter.
(** the lists of tasks for which C46 excludes a deadlock *)
Definition mild {T} (h : hnsw (T:=T)) (ts : list (task (T:=T))) : Prop :=
  Forall (fun t => ~ is_insertion t) ts \/
  Forall (fun t => ~ is_iteration t) ts /\ (length (inserts ts) <= 1)%nat \/
  Forall (fun t => ~ is_iteration t) ts /\ exists l, Forall (at_level h l) ts.

(** C92: tasks run at once on any index, with a distance function that answers [dist] or does not answer, in any interleaving.
    - No interleaving goes on for ever.
    - At any moment: a thread that has ended, normally or not, holds no lock; one that ended abnormally was inserting or searching for a
      vector, and the distance does not answer on some pair made of that vector or a stored one, and a stored one (in the index before, or
      inserted by the tasks); a search that has returned has a right answer, as in C59; when no interleaving without panics
      deadlocks (the cases of C46), none with panics does: the threads left can go on.
    - When all have ended, the index is as after insertions that succeeded: every vector of the tasks, inserted normally or not, is in it
      once, is counted, and all the properties of [used] indexes hold, with any distance that agrees with [dist]. *)
Theorem C92_panics_in_parallel :
  forall {T} (dist : list T -> list T -> Z) so, StdLaws so -> (forall a b, (0 <= dist a b)%Z) ->
  forall inv_ln M ml ef hist h, used dist so inv_ln M ml ef hist h -> (1 <= ml)%nat ->
  forall ts, Forall (may_run h) ts ->
  forall d : list T -> list T -> outcome Z, (forall a b z, d a b = Ok z -> z = dist a b) ->
  (forall f : nat -> config, f 0%nat = initial_c d so h ts -> ~ forall n, cstep (f n) (f (S n))) /\
  (forall c, during_c d so h ts c ->
    (forall i t o, ts !! i = Some t -> c_threads c !! i = Some (Halt o) ->
      (forall l, i ∉ lk_readers (c_locks c l) /\ lk_writer (c_locks c l) <> Some i) /\
      ((exists r, o = Ok r) \/
       exists u a b, deals_with t u /\ (a = u \/ inserted_vector (hist ++ inserts ts) a) /\
         inserted_vector (hist ++ inserts ts) b /\ forall z, d a b <> Ok z)) /\
    (forall i q knbn e filter r, ts !! i = Some (TSearch q knbn e filter) -> returned c i r ->
      exists ns, r = RFound ns /\ (length ns <= knbn)%nat /\ sorted_by distance ns /\ NoDup (p_id <$> ns) /\
        (forall n, n ∈ ns -> exists pt, layer_point (c_sh c) (p_id n) pt /\ d_id n = pt_oid pt /\ distance n = dist q (pt_data pt)) /\
        (hist <> [] -> (1 <= knbn)%nat -> ns <> []) /\
        (forall flt, filter = Some flt -> (forall n, n ∈ ns -> flt (d_id n) = true) \/ length ns = 1%nat)) /\
    (mild h ts -> ~ deadlocked c)) /\
  (forall h' outs, after_c d so h ts h' outs ->
    length outs = length ts /\ used dist so inv_ln M ml ef (hist ++ inserts ts) h' /\
    (exists xs, contents h' xs /\ xs ≡ₚ hist ++ inserts ts) /\ nb_point h' = length (hist ++ inserts ts)).
Proof.
  intros T dist so LAWS Hnn inv_ln M ml ef hist h Hu Hml ts Hok d Hd.
  destruct (used_facts dist so LAWS Hnn _ _ _ _ _ _ Hu) as (Hwf & Eml & EM & _ & Hst & Hnb).
  assert (Hpos : (0 < max_layer h)%nat) by (rewrite Eml; lia).
  assert (Hkn : forall v, known h ts v -> inserted_vector (hist ++ inserts ts) v).
  { intros v. unfold known. rewrite Hst. intros ([v' id] & -> & Hin)%elem_of_list_fmap. by exists id. }
  assert (Hwhy : forall t, why d (known h ts) t -> exists u a b, deals_with t u /\ (a = u \/ inserted_vector (hist ++ inserts ts) a) /\
         inserted_vector (hist ++ inserts ts) b /\ forall z, d a b <> Ok z).
  { intros t Hw. assert (Hs : exists u, deals_with t u /\ silent d (known h ts) u).
    { destruct t as [v id dr|q k e f| |]; try done; [exists v|exists q]; (split; [|done]).
      - left. eauto.
      - right. eauto. }
    destruct Hs as (u & Hu' & a & b & [Ha Hb] & Hn). exists u, a, b. split; [done|]. split; [|split; [by apply Hkn|done]].
    destruct Ha as [->|Ha]; [by left|right; by apply Hkn]. }
  split; [|split].
  - intros f _ Hf. assert (H : forall c, Acc (fun c' c => cstep c c') c -> forall n, f n <> c).
    { induction 1 as [c _ IH]. intros n <-. eapply (IH (f (S n))); [apply Hf|done]. }
    by apply (H _ (cstep_acc (f 0%nat)) 0%nat).
  - intros c Hc. destruct (both_reach dist d so LAWS Hnn Hd h ts Hwf Hpos Hok c Hc) as (g & xs & B). split; [|split].
    + intros i t o Ht Hi. split; [by eapply (both_free dist d so LAWS Hnn h ts Hwf Hpos Hok)|].
      destruct (both_halt dist d so LAWS Hnn h ts Hwf Hpos Hok c g xs i o B Hi) as (t' & x & Ht' & _ & _ & _ & _ & [(r & -> & _)|(_ & Hw & _)]).
      * left. by exists r.
      * right. rewrite Ht in Ht'. injection Ht' as <-. by apply Hwhy.
    + intros i q k e filter r Ht Hr.
      destruct (both_halt dist d so LAWS Hnn h ts Hwf Hpos Hok c g xs i _ B Hr) as (t' & x & Ht' & _ & _ & _ & _ & [(r' & [= <-] & Hg)|(Hn & _)]);
        [|by destruct (Hn r)].
      destruct (C59_concurrent_search dist so LAWS Hnn _ _ _ _ _ _ Hu Hml ts Hok g (y_reach _ _ _ _ _ _ _ _ B) i q k e filter Ht) as [_ HC].
      rewrite <- (y_sh _ _ _ _ _ _ _ _ B). by apply HC.
    + intros Hcase. apply (both_live dist d so LAWS Hnn h ts Hwf Hpos Hok c g xs B). intros dead.
      pose proof (y_reach _ _ _ _ _ _ _ _ B) as Hg. destruct Hcase as [H|[[H H1]|[Hit [l Hl]]]].
      * refine (reads_no_stuck dist so LAWS Hnn h ts Hwf Hpos Hok _ g dead Hg). eapply Forall_impl; [exact H|]. by intros [].
      * refine (single_no_stuck dist so LAWS Hnn h ts Hwf Hpos Hok _ _ g dead Hg).
        -- eapply Forall_impl; [exact H|]. by intros [].
        -- intros i j ti tj Hi Hj Ti Tj. exact (one_insertion ts H1 i j ti tj Hi Hj Ti Tj).
      * refine (level_no_stuck dist so LAWS Hnn h ts Hwf Hpos Hok l _ g dead Hg).
        apply Forall_forall. intros t Ht. rewrite Forall_forall in Hit, Hl. specialize (Hit t Ht). specialize (Hl t Ht). destruct t; simpl in *; tauto.
  - intros h' outs Ha. assert (Hu' : used dist so inv_ln M ml ef (hist ++ inserts ts) h') by (by eapply used_panic_parallel).
    split; [|split; [done|]].
    + destruct Ha as (c & Hc & Ho & _). destruct (both_reach dist d so LAWS Hnn Hd h ts Hwf Hpos Hok c Hc) as (g & xs & B).
      rewrite <- (y_len1 _ _ _ _ _ _ _ _ B), Ho. by rewrite fmap_length.
    + destruct (used_facts dist so LAWS Hnn _ _ _ _ _ _ Hu') as (Hwf' & _ & _ & _ & Hst' & Hnb'). split; [|done].
      exists (stored h'). split; [apply (contents_stored dist); [apply Hwf'|done]|done].
Qed.
Print Assumptions C92_panics_in_parallel.

(** Two insertions and two searches; the distance panics when 7 is compared with another vector. The insertion of 7 and the search for 7 end
    abnormally, the other two return; the point of 7 is in the index. *)
Definition cp_dist (a b : list Z) : outcome Z := if bool_decide (a = [7%Z]) then Panic else Ok (d1 a b).
Definition cp_tasks : list (task (T:=Z)) :=
  [TInsert [7%Z] 1%N (lv 0); TInsert [2%Z] 2%N (lv 0); TSearch [3%Z] 2 4 None; TSearch [7%Z] 2 4 None].
Definition cp_sched : list (nat * nat) := [(0, 9); (1, 30); (3, 100); (0, 100); (1, 100); (2, 100)].
Definition cp_end := play cp_sched (initial_c cp_dist simple_ops exd cp_tasks).
Definition cp_outs : list (outcome (tres (T:=Z))) :=
  [Panic; Ok (RInserted (0, 2)%nat); Ok (RFound [Neighbour 2%N 1 (0, 2)%nat; Neighbour 10%N 3 (2, 0)%nat]); Panic].
Example C92_example :
  built d1 simple_ops one_scale 2 16 10 exd_hist exd /\ Forall (may_run exd) cp_tasks /\ mild exd cp_tasks /\
  (forall a b z, cp_dist a b = Ok z -> z = d1 a b) /\ after_c cp_dist simple_ops exd cp_tasks (c_sh cp_end) cp_outs /\
  (([7%Z], 1%N) ∈ stored (c_sh cp_end)) /\ nb_point (c_sh cp_end) = S (S (nb_point exd)).
Proof.
  split; [exact exd_built|]. split; [repeat constructor; simpl; try lia; auto; right; simpl; lia|].
  split. { right; right. split; [repeat constructor; simpl; auto|]. exists 0%nat. repeat constructor. }
  split. { intros a b z. unfold cp_dist. case_bool_decide; [done|]. by intros [= ->]. }
  split. { exists cp_end. split; [apply play_rtc|]. split; [vm_compute; reflexivity|done]. }
  split; [|vm_compute; reflexivity].
  apply elem_of_list_lookup. vm_compute. by exists 1%nat.
Qed.
