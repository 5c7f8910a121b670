(** Property C72: tasks that only read do not disturb each other. *)
From Coq Require Import Strings.String Strings.Byte.
From stdpp Require Import relations.
From Verif Require Import Prelude Model StdInst Lib Table SearchProofs InsertProofs QueryProofs Spec SpecProofs
  Io SpecIo SpecBuilt Conc SpecConc ConcDump ConcDumpProofs ConcSeq ConcTrace ConcEnd BuiltProofs
  Examples ExamplesConc ExamplesIo PropsConc PropsDump.
Local Open Scope list_scope.

(** C72: searches, iterations and dumps that run at the same time, without insertion, leave the index as it is; none panics, no
    deadlock is possible, and, whatever the interleaving, a search returns what it returns alone, an iteration yields what it
    yields alone, and a dump writes the files that it writes alone. *)
Theorem C72_readers_as_if_alone :
  forall {T} (dist : list T -> list T -> Z) so, StdLaws so -> (forall a b, (0 <= dist a b)%Z) ->
  forall inv_ln M ml ef hist h, used dist so inv_ln M ml ef hist h -> (1 <= ml)%nat ->
  forall ts, Forall (may_run h) ts -> Forall (fun t => ~ is_insertion t) ts ->
  forall c, during dist so h ts c ->
  c_sh c = h /\ (forall i, ~ panicked c i) /\ ~ deadlocked c /\ ((exists c', cstep c c') \/ exists rs, finished c rs) /\
  (forall i q k e f r, ts !! i = Some (TSearch q k e f) -> returned c i r ->
     exists res, search_filter dist so h q k e f = Ok res /\ r = RFound res) /\
  (forall i r, ts !! i = Some TIterate -> returned c i r -> exists pts, iter_points h = Ok pts /\ r = RPoints pts) /\
  (forall i r, ts !! i = Some TDump -> returned c i r ->
     exists d, r = RDumped d /\ forall el dname, dumped_files el dname h d = dump el dname h Full).
Proof.
  intros T dist so LAWS Hnn inv_ln M ml ef hist h Hu Hml ts Hok Hro c Hd.
  destruct (used_facts dist so LAWS Hnn _ _ _ _ _ _ Hu) as (Hwf & _). pose proof (l_core _ _ Hwf) as Hc.
  destruct (C44_always_well_formed dist so LAWS Hnn _ _ _ _ _ _ Hu Hml ts Hok c Hd) as [Hnp _].
  destruct (C46_no_deadlock_partial dist so LAWS Hnn _ _ _ _ _ _ Hu Hml ts Hok (or_introl Hro) c Hd) as [Hnd Hend].
  destruct (quiet_during dist so h ts c Hro Hd) as [Hsh _].
  split; [done|]. split; [done|]. split; [done|]. split; [done|].
  pose proof (fun i t r => quiet_returned dist so h ts c i t r Hro Hd) as Hrun. rewrite Forall_lookup in Hok. split_and!.
  - intros i q k e f r Hi Hr. specialize (Hrun i _ r Hi Hr).
    destruct (search_filter_facts dist so LAWS Hnn h q k e f Hwf (Hok _ _ Hi)) as (res & Hs & _). exists res. split; [done|].
    cbn [start] in Hrun. erewrite run_bind_Ok in Hrun; [|apply run_search_filter; [exact Hs|lia|]].
    + by injection Hrun as <-.
    + rewrite (c_len _ _ Hc). apply Hc.
  - intros i r Hi Hr. specialize (Hrun i _ r Hi Hr). destruct (iter_points_ok dist h Hwf (Hok _ _ Hi)) as [pts Hp]. exists pts. split; [done|].
    cbn [start] in Hrun. erewrite run_bind_Ok in Hrun; [|apply run_iter_points; [exact Hp|lia]]. by injection Hrun as <-.
  - intros i r Hi Hr. specialize (Hrun i _ r Hi Hr). destruct (run_dump dist h Hwf) as [R1 R2]. exists (dread_all h). split; [|done].
    cbn [start] in Hrun. erewrite run_bind_Ok in Hrun; [|exact R1]. by injection Hrun as <-.
Qed.
Print Assumptions C72_readers_as_if_alone.
(** two searches, an iteration and a dump, interleaved *)
Definition cr_tasks : list (task (T:=byte)) :=
  [TSearch [x03; x03] 2 4 None; TDump; TSearch [x0a; x03] 3 0 (Some (fun d => d =? 11)%N); TIterate].
Definition cr_end := play [(0, 7); (1, 40); (2, 9); (3, 5); (0, 200); (1, 90); (3, 200); (2, 200); (1, 2000)]%nat (initial dB simple_ops exb cr_tasks).
Example C72_example : during dB simple_ops exb cr_tasks cr_end /\ Forall (may_run exb) cr_tasks /\
  Forall (fun t => ~ is_insertion t) cr_tasks /\
  (exists rs, results cr_end = Some <$> rs /\ length rs = 4%nat) /\ (exists r, returned cr_end 0 r) /\ (exists r, returned cr_end 1 r).
Proof.
  split; [apply play_during|]. split; [repeat constructor; simpl; auto; right; vm_compute; lia|]. split; [repeat constructor; auto|].
  split; [eexists [_; _; _; _]; split; [vm_compute; reflexivity|done]|]. split; eexists; vm_compute; reflexivity.
Qed.
