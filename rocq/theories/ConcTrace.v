(** Two facts about interleavings that need no invariant of the index: tasks that only read act as if alone, and whatever a
    thread read was there at some moment. *)
From stdpp Require Import relations.
From Verif Require Import Prelude Model Lib Table SearchProofs InsertProofs IterProofs Conc SpecConc ConcSeq.

Section Quiet.
Context {T : Type} (dist : list T -> list T -> Z) (so : StdOps).

(** a program that changes nothing *)
Inductive quiet {A} : prog (T:=T) A -> Prop :=
| quiet_halt o : quiet (Halt o)
| quiet_lock m l k : quiet k -> quiet (Lock m l k)
| quiet_pend l k : quiet k -> quiet (Pend l k)
| quiet_unlock m l k : quiet k -> quiet (Unlock m l k)
| quiet_do f k : (forall h, f h = h) -> (forall h, quiet (k h)) -> quiet (Do f k).

Lemma quiet_bind {A B} (p : prog A) (k : A -> prog B) : quiet p -> (forall a, quiet (k a)) -> quiet (p ≫= k).
Proof. intros Hp Hk. unfold mbind, prog_bind. induction Hp as [[]| | | |]; simpl; try constructor; auto. Qed.
Lemma quiet_ret {A} (a : A) : quiet (ret a).
Proof. constructor. Qed.
Lemma quiet_peek {A} (f : hnsw -> outcome A) : quiet (peek f).
Proof. constructor; [done|]. intros. constructor. Qed.
Lemma quiet_read {A} l (f : hnsw -> outcome A) : quiet (with_read l f).
Proof. repeat constructor. Qed.
Local Hint Resolve quiet_bind quiet_ret quiet_peek quiet_read quiet_halt : core.

Lemma quiet_search_loop fuel q ef layer filter : forall s, quiet (search_loop_p dist so fuel q ef layer filter s).
Proof.
  induction fuel as [|fuel IH]; intros s; cbn [search_loop_p]; [done|]. apply quiet_bind; [done|]. intros [res|c]; [done|].
  apply quiet_bind; [done|]. intros [res|s']; [done|apply IH].
Qed.
Lemma quiet_search_layer fuel q ep ef layer filter : quiet (search_layer_p dist so fuel q ep ef layer filter).
Proof. unfold search_layer_p. apply quiet_bind; [done|]. intros []; [done|]. apply quiet_bind; [done|]. intros s. apply quiet_search_loop. Qed.
Lemma quiet_pivot ls data : forall pv dte, quiet (pivot_descend_p dist ls data pv dte).
Proof. induction ls as [|l ls IH]; intros pv dte; cbn [pivot_descend_p]; [done|]. apply quiet_bind; [done|]. intros r. apply IH. Qed.
Lemma quiet_lowest n : forall l, quiet (lowest_p (T:=T) n l).
Proof.
  induction n as [|n IH]; intros l; cbn [lowest_p]; [done|]. apply quiet_bind.
  - unfold layer_nb_point_p. apply quiet_bind; [done|]. intros k. by destruct (l <? k)%nat.
  - intros k. destruct (0 <? k)%nat; [done|apply IH].
Qed.
Lemma quiet_search fuel q k ef filter : quiet (search_filter_p dist so fuel q k ef filter).
Proof.
  unfold search_filter_p. apply quiet_bind; [done|]. intros [ep|]; [|done]. apply quiet_bind; [done|]. intros dte.
  apply quiet_bind; [apply quiet_pivot|]. intros pv. cbv zeta. apply quiet_bind; [apply quiet_lowest|]. intros l.
  apply quiet_bind; [apply quiet_search_layer|]. done.
Qed.
Lemma quiet_iter_next st : quiet (iter_next_p (T:=T) st).
Proof.
  unfold iter_next_p. destruct (match st with None => (0, 0)%nat | Some s => s end) as [layer slot]. apply quiet_bind; [done|].
  intros [pt|]; [done|]. do 2 constructor. apply quiet_bind; [done|]. intros r. repeat constructor.
Qed.
Lemma quiet_iter_collect fuel : forall st, quiet (iter_collect_p (T:=T) fuel st).
Proof.
  induction fuel as [|fuel IH]; intros st; cbn [iter_collect_p]; [done|]. apply quiet_bind; [apply quiet_iter_next|].
  intros r. destruct r.1; [|done]. apply quiet_bind; [apply IH|done].
Qed.
Lemma quiet_iter fuel : quiet (iter_points_p (T:=T) fuel).
Proof. constructor. apply quiet_bind; [apply quiet_iter_collect|]. intros l. repeat constructor. Qed.
Lemma quiet_dump_points i n : forall j, quiet (dump_points_p (T:=T) i j n).
Proof.
  induction n as [|n IH]; intros j; cbn [dump_points_p]; [done|]. apply quiet_bind; [done|]. intros s.
  apply quiet_bind; [done|]. intros ls. apply quiet_bind; [apply IH|done].
Qed.
Lemma quiet_dump_layers n : forall i, quiet (dump_layers_p (T:=T) i n).
Proof.
  induction n as [|n IH]; intros i; cbn [dump_layers_p]; [done|]. apply quiet_bind; [done|]. intros len.
  apply quiet_bind; [apply quiet_dump_points|]. intros pts. apply quiet_bind; [apply IH|done].
Qed.
Lemma quiet_dump : quiet (dump_p (T:=T)).
Proof.
  unfold dump_p. apply quiet_bind; [done|]. intros dim. apply quiet_bind; [done|]. intros nb. constructor.
  apply quiet_bind; [done|]. intros n. apply quiet_bind; [apply quiet_dump_layers|]. intros lys.
  apply quiet_bind; [apply quiet_read|]. intros e. repeat constructor.
Qed.
Lemma quiet_start fuel t : ~ is_insertion t -> quiet (start dist so fuel t).
Proof.
  destruct t as [v id d|q k e f| |]; intros H; cbn [start].
  - by destruct H.
  - apply quiet_bind; [apply quiet_search|done].
  - apply quiet_bind; [apply quiet_iter|done].
  - apply quiet_bind; [apply quiet_dump|done].
Qed.

(** If no task inserts, the index never changes and each thread does what it would do alone. *)
Lemma quiet_during h ts c : Forall (fun t => ~ is_insertion t) ts -> during dist so h ts c ->
  c_sh c = h /\
  Forall2 (fun t p => quiet p /\ run p h = run (start dist so (S (S (S (table_size h + length ts)))) t) h) ts (c_threads c).
Proof.
  intros Hts Hd. unfold during in Hd.
  set (F := S (S (S (table_size h + length ts)))).
  assert (H0 : c_sh (initial dist so h ts) = h /\
    Forall2 (fun t p => quiet p /\ run p h = run (start dist so F t) h) ts (c_threads (initial dist so h ts))).
  { split; [done|]. unfold initial. cbn [c_threads]. fold F. clearbody F. apply Forall2_fmap_r. apply Forall2_same_length_lookup_2; [done|]. intros j x y Hx Hy.
    rewrite Hx in Hy. injection Hy as <-. split; [|done]. apply quiet_start. rewrite Forall_lookup in Hts. by eapply Hts. }
  clear Hts. clearbody F. revert H0. induction Hd as [c|c c' c'' [i Hs] _ IH]; [done|]. intros [Hsh HF]. apply IH. clear IH.
  unfold step in Hs. destruct (c_threads c !! i) as [p|] eqn:Ei; [|done]. cbn [mbind option_bind] in Hs.
  destruct (Forall2_lookup_r _ _ _ _ _ HF Ei) as (t & Ht & Hq & Hr).
  assert (Hupd : forall p', quiet p' -> run p' h = run p h ->
    Forall2 (fun t p => quiet p /\ run p h = run (start dist so F t) h) ts (<[i := p']> (c_threads c))).
  { intros p' Hq' Hr'. rewrite <- (list_insert_id ts i t Ht). apply Forall2_insert; [done|]. split; [done|congruence]. }
  destruct p as [o|m l k|l k|m l k|f k]; [done|..]; inversion Hq as [| | | |? ? Hf Hk]; subst.
  - destruct m, (lk_writer (c_locks c l)); try done; injection Hs as <-; split; try done; cbn [c_threads c_sh]; apply Hupd; auto. by constructor.
  - destruct (lk_readers (c_locks c l)); [|done]. injection Hs as <-. split; [done|]. by apply Hupd.
  - destruct m; injection Hs as <-; (split; [done|]); by apply Hupd.
  - injection Hs as <-. split; [apply Hf|]. apply Hupd; [done|]. cbn [run]. by rewrite Hf.
Qed.
Lemma quiet_returned h ts c i t r : Forall (fun t => ~ is_insertion t) ts -> during dist so h ts c ->
  ts !! i = Some t -> returned c i r ->
  run (start dist so (S (S (S (table_size h + length ts)))) t) h = Ok (h, r).
Proof.
  intros Hts Hd Ht Hr. destruct (quiet_during h ts c Hts Hd) as [_ HF].
  destruct (Forall2_lookup_lr _ _ _ _ _ _ HF Ht Hr) as [_ E]. by rewrite <- E.
Qed.
End Quiet.

Section Collects.
Context {T : Type} (dist : list T -> list T -> Z) (so : StdOps) (R : hnsw (T:=T) -> Prop).

(** whatever indexes with [R] it meets, if the program returns, what it returns has [Q] *)
Inductive collects {A} (Q : A -> Prop) : prog (T:=T) A -> Prop :=
| collects_halt o : (forall a, o = Ok a -> Q a) -> collects Q (Halt o)
| collects_lock m l k : collects Q k -> collects Q (Lock m l k)
| collects_pend l k : collects Q k -> collects Q (Pend l k)
| collects_unlock m l k : collects Q k -> collects Q (Unlock m l k)
| collects_do f k : (forall h, R h -> collects Q (k h)) -> collects Q (Do f k).

Lemma collects_bind {A B} (Q : A -> Prop) (Q' : B -> Prop) p k :
  collects Q p -> (forall a, Q a -> collects Q' (k a)) -> collects Q' (p ≫= k).
Proof.
  intros Hp Hk. unfold mbind, prog_bind. induction Hp as [o Ho| | | |]; simpl; try (constructor; auto; done).
  destruct o; simpl; try (constructor; done). apply Hk. by apply Ho.
Qed.
Lemma collects_ret {A} (Q : A -> Prop) a : Q a -> collects Q (ret a).
Proof. intros H. constructor. by intros ? [= <-]. Qed.
Lemma collects_peek {A} (Q : A -> Prop) (f : hnsw -> outcome A) : (forall h a, R h -> f h = Ok a -> Q a) -> collects Q (peek f).
Proof. intros H. constructor. intros h Hh. constructor. eauto. Qed.
Lemma collects_read {A} (Q : A -> Prop) l (f : hnsw -> outcome A) : (forall h a, R h -> f h = Ok a -> Q a) -> collects Q (with_read l f).
Proof. intros H. do 2 constructor. intros h Hh. do 2 constructor. eauto. Qed.
Lemma collects_any {A} (p : prog (T:=T) A) : collects (fun _ => True) p.
Proof. induction p; constructor; auto. Qed.

(** what a dump read of a point was there at one moment *)
Definition seen (x : dpoint (T:=T)) : Prop :=
  (exists h pt, R h /\ get_pt h (dp_pid x) = Some pt /\ pt_pid pt = dp_pid x /\ pt_oid pt = dp_oid x /\ pt_data pt = dp_data x) /\
  exists h pt, R h /\ get_pt h (dp_pid x) = Some pt /\ get_neighborhood_id h pt = Ok (dp_lists x).

Lemma collects_points i n : forall j, collects (Forall seen) (dump_points_p i j n).
Proof.
  induction n as [|n IH]; intros j; cbn [dump_points_p]; [by apply collects_ret|].
  eapply collects_bind; [apply (collects_peek (fun s => s.1.2 = (i, j) /\ exists h pt, R h /\ get_pt h (i, j) = Some pt /\
    pt_pid pt = s.1.2 /\ pt_oid pt = s.1.1 /\ pt_data pt = s.2))|].
  { intros h a Hh Ha. apply bind_inv in Ha as (pt & Hpt & Ha). apply unwrap_inv in Hpt.
    apply bind_inv in Ha as ([] & Has & Ha). injection Ha as <-. unfold assert_ in Has.
    destruct (bool_decide (pt_pid pt = (i, j))) eqn:E; [|done]. apply bool_decide_eq_true in E. cbn. eauto 10. }
  intros [[o p] v] (Ep & Hs). cbn [fst snd] in *. subst p.
  eapply collects_bind; [apply (collects_read (fun ls => exists h pt, R h /\ get_pt h (i, j) = Some pt /\ get_neighborhood_id h pt = Ok ls))|].
  { intros h a Hh Ha. apply bind_inv in Ha as (pt & Hpt & Ha). apply unwrap_inv in Hpt. eauto. }
  intros ls Hls. eapply collects_bind; [apply IH|]. intros rest Hrest. apply collects_ret. constructor; [|done]. by split.
Qed.
Lemma collects_layers n : forall i, collects (Forall (Forall seen)) (dump_layers_p i n).
Proof.
  induction n as [|n IH]; intros i; cbn [dump_layers_p]; [by apply collects_ret|].
  eapply collects_bind; [apply collects_any|]. intros len _. eapply collects_bind; [apply collects_points|].
  intros pts Hp. eapply collects_bind; [apply IH|]. intros rest Hrest. apply collects_ret. by constructor.
Qed.
Definition seen_all (d : dumped (T:=T)) : Prop :=
  (exists h, R h /\ dd_dim d = get_data_dimension h) /\
  (exists h, R h /\ dd_nb d = nb_point h) /\
  Forall (Forall seen) (dd_layers d) /\
  (forall o ep, dd_entry d = Some (o, ep) -> exists h p pt, R h /\ entry_point h = Some p /\ get_pt h p = Some pt /\ pt_pid pt = ep /\ pt_oid pt = o).
Lemma collects_dump : collects seen_all dump_p.
Proof.
  unfold dump_p. eapply collects_bind; [apply (collects_read (fun n => exists h, R h /\ n = get_data_dimension h))|].
  { intros h a Hh [= <-]. eauto. }
  intros dim Hdim. eapply collects_bind; [apply (collects_read (fun n => exists h, R h /\ n = nb_point h))|].
  { intros h a Hh [= <-]. eauto. }
  intros nb Hnb. constructor. eapply collects_bind; [apply collects_any|]. intros n _.
  eapply collects_bind; [apply collects_layers|]. intros lys Hlys.
  eapply collects_bind; [apply (collects_read (fun e => forall o ep, e = Some (o, ep) -> exists h p pt, R h /\ entry_point h = Some p /\
    get_pt h p = Some pt /\ pt_pid pt = ep /\ pt_oid pt = o))|].
  { intros h a Hh Ha o ep ->. destruct (entry_point h) as [p|] eqn:E; [|done]. apply bind_inv in Ha as (pt & Hpt & Ha).
    apply unwrap_inv in Hpt. injection Ha as <- <-. eauto 10. }
  intros e He. constructor. apply collects_ret. by split_and!.
Qed.
End Collects.

Section During.
Context {T : Type} (dist : list T -> list T -> Z) (so : StdOps).

(** the index at some moment of the run *)
Definition at_some_moment (h : hnsw (T:=T)) (ts : list task) (h1 : hnsw) : Prop := exists c, during dist so h ts c /\ c_sh c = h1.

Lemma collects_during h ts (Q : nat -> tres -> Prop) c :
  (forall i t, ts !! i = Some t ->
     collects (at_some_moment h ts) (Q i) (start dist so (S (S (S (table_size h + length ts)))) t)) ->
  during dist so h ts c -> forall i p, c_threads c !! i = Some p -> collects (at_some_moment h ts) (Q i) p.
Proof.
  intros H0 Hd. unfold during in Hd. revert Hd. apply (rtc_ind_r (fun c => forall i p, c_threads c !! i = Some p ->
    collects (at_some_moment h ts) (Q i) p)).
  - intros i p Hp. unfold initial in Hp. cbn [c_threads] in Hp. rewrite list_lookup_fmap in Hp.
    destruct (ts !! i) as [t|] eqn:E; [|done]. injection Hp as <-. by apply H0.
  - clear c. intros c c' Hd [j Hs] IH i p Hp. unfold step in Hs. destruct (c_threads c !! j) as [q|] eqn:Ej; [|done].
    cbn [mbind option_bind] in Hs. pose proof (IH j q Ej) as Hq.
    assert (Hupd : forall q', c_threads c' = <[j := q']> (c_threads c) -> collects (at_some_moment h ts) (Q j) q' ->
      collects (at_some_moment h ts) (Q i) p).
    { intros q' E Hq'. rewrite E in Hp. destruct (decide (i = j)) as [->|Hne].
      - rewrite list_lookup_insert in Hp by (by eapply lookup_lt_Some). by injection Hp as <-.
      - rewrite list_lookup_insert_ne in Hp by done. by apply IH. }
    destruct q as [o|m l k|l k|m l k|f k]; [done|..]; inversion Hq as [| | | |? ? Hk]; subst.
    + destruct m, (lk_writer (c_locks c l)); try done; injection Hs as <-; (eapply Hupd; [reflexivity|]); [done|by constructor].
    + destruct (lk_readers (c_locks c l)); [|done]. injection Hs as <-. by eapply Hupd.
    + destruct m; injection Hs as <-; by eapply Hupd.
    + injection Hs as <-. eapply Hupd; [reflexivity|]. apply Hk. by exists c.
Qed.
Lemma dump_seen h ts c i d : during dist so h ts c -> ts !! i = Some TDump -> returned c i (RDumped d) ->
  seen_all (at_some_moment h ts) d.
Proof.
  intros Hd Hi Hr. unshelve epose proof (collects_during h ts (fun j r => forall d, ts !! j = Some TDump -> r = RDumped d ->
    seen_all (at_some_moment h ts) d) c _ Hd i _ Hr) as H.
  - intros j t Ht. destruct t as [v id dr|q k e f| |]; cbn [start].
    1-3: eapply collects_bind; [apply collects_any|]; intros a _; apply collects_ret; intros ? _ ?; congruence.
    eapply collects_bind; [apply collects_dump|]. intros a Ha. apply collects_ret. by intros ? _ [= <-].
  - inversion H as [o Ho| | | |]; subst. by eapply Ho.
Qed.
End During.

(** the iteration ends, also when the entry point is not on the top layer *)
Section Iter.
Context {T : Type}.
Lemma iter_collect_ok fuel (h : hnsw (T:=T)) ep st l s ly :
  entry_point h = Some ep -> (ep.1 < length (points_by_layer h))%nat ->
  (match st with None => (0, 0)%nat | Some x => x end) = (l, s) ->
  points_by_layer h !! l = Some ly ->
  (length (drop s ly) + length (concat (drop (S l) (points_by_layer h))) < fuel)%nat ->
  exists pts, iter_collect fuel h st = Ok pts.
Proof.
  intros Hep Hepl. revert st l s ly. induction fuel as [|fuel IH]; intros st l s ly Hst Hly Hf; [lia|].
  cbn [iter_collect]. unfold iter_next. rewrite Hst, Hly. simpl.
  destruct (ly !! s) as [pt|] eqn:Es.
  - rewrite bind_Ok. rewrite (drop_S _ _ _ Es) in *. simpl in Hf.
    destruct (IH (Some (l, S s)) l (S s) ly) as [pts ->]; [done..|lia|]. by exists (pt :: pts).
  - rewrite Hep. simpl.
    destruct (skip_empty_spec (length (points_by_layer h)) h ep.1 (S l) Hepl ltac:(lia))
      as (l' & -> & Hle & Hemp & Hne & Hmax).
    rewrite bind_Ok. apply lookup_ge_None in Es. rewrite drop_ge in * by done. simpl in *.
    destruct (Nat.leb_spec l' ep.1) as [Hl'|Hl']; [|by exists []].
    destruct (Hne Hl') as (pt & ly' & Hly'). rewrite Hly'. simpl.
    assert (E : concat (drop (S l) (points_by_layer h)) = concat (drop l' (points_by_layer h))).
    { apply concat_drop_skip; [done|]. intros j lj Hj Hlj. eapply Hemp; [done|lia|done]. }
    rewrite E in Hf. rewrite (drop_S _ _ _ Hly') in Hf. simpl in Hf. rewrite app_length in Hf.
    destruct (IH (Some (l', 1)%nat) l' 1%nat (pt :: ly')) as [pts ->]; [done..|change (drop 1 (pt :: ly')) with ly'; lia|]. by exists (pt :: pts).
Qed.
Lemma iter_points_ok dist (h : hnsw (T:=T)) : lwf dist h -> (0 < nb_point h)%nat -> exists pts, iter_points h = Ok pts.
Proof.
  intros [Hc Hcnt Hent] H0. destruct (entry_point h) as [ep|] eqn:Hep; [|lia].
  destruct (core_layer dist h ep Hc Hent) as [Hl _]. rewrite <- (c_len _ _ Hc) in Hl.
  destruct (lookup_lt_is_Some_2 (points_by_layer h) 0) as [ly Hly]; [lia|].
  unfold iter_points. eapply (iter_collect_ok _ h ep None 0 0 ly); auto.
  rewrite <- all_points_length. unfold all_points. destruct (points_by_layer h) as [|ly0 ls]; [done|]. injection Hly as ->.
  simpl. rewrite app_length. unfold drop. lia.
Qed.
End Iter.
