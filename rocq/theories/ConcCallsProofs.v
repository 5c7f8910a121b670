(** Parallel use of an index when the distance may panic (ConcCalls.v), compared with the same use when it does not (Conc.v). *)
From stdpp Require Import relations.
From Verif Require Import Prelude Model Lib Table SearchProofs SelectProofs InsertProofs QueryProofs IterProofs Spec SpecProofs Calls CallsProofs
  Conc SpecConc ConcSafe ConcSafe2 ConcSafe3 ConcSafe4 ConcGlobal ConcEnd ConcLive ConcCalls.
Local Open Scope list_scope.

(** what a thread has done: stored its point, counted it, seen an entry point; the locks it holds *)
Record ix : Type := Ix { i_st : bool; i_ct : bool; i_e : bool; i_hd : list (lmode * lockid) }.
Definition b2n (b : bool) : nat := if b then 1 else 0.
Definition with_hd (x : ix) hd : ix := Ix (i_st x) (i_ct x) (i_e x) hd.

Lemma bind_not_ok {A B} (o : outcome A) (k : A -> outcome B) : (forall a, o <> Ok a) -> forall b, o ≫= k <> Ok b.
Proof. intros H b. destruct o; try done. by destruct (H a). Qed.

Section Sim.
Context {T : Type} (dist : list T -> list T -> Z) (d : list T -> list T -> outcome Z) (so : StdOps).
Context (Hd : forall a b z, d a b = Ok z -> z = dist a b).
Implicit Types (h : hnsw (T:=T)) (x y : ix).

(** [V]: the vectors that are or will be stored; [J h]: only these are stored in [h] *)
Context (V : list T -> Prop).
Definition J h : Prop := forall p pt, get_pt h p = Some pt -> V (pt_data pt).
(** the distance does not answer on some of the vectors on which a thread that deals with the vector [u] may call it *)
Definition asked (u a b : list T) : Prop := (a = u \/ V a) /\ V b.
Definition silent (u : list T) : Prop := exists a b, asked u a b /\ forall z, d a b <> Ok z.

Lemma run_cases {A} u (p : dprog (T:=T) A) : safe dist (fun _ => asked u) p ->
  Calls.run d p = Calls.run (tot dist) p \/ (silent u /\ forall a, Calls.run d p <> Ok a).
Proof.
  induction p as [o|h a b k IH]; simpl; [by left|]. intros [Hab Hs]. destruct (d a b) as [z| | | | |] eqn:E.
  1: rewrite (Hd _ _ _ E); by apply IH.
  all: right; split; [|done]; exists a, b; split; [done|]; by rewrite E.
Qed.

(** the vectors on which the programs of Calls.v call the distance *)
Lemma asks_scan u h ef filter nbs s : J h -> safe dist (fun _ => asked u) (scan_neighbours_d so h u ef filter nbs s).
Proof.
  intros HJ. revert s. induction nbs as [|e nbs IH]; intros s; cbn [scan_neighbours_d]; [done|].
  destruct (bool_decide _); [apply IH|]. destruct (h_peek so (s_ret so s)) as [f|]; [|done]. cbn zeta.
  apply safe_done. intros ept He%unwrap_inv. apply safe_eval; [split; [by left|by eapply HJ]|].
  destruct (_ || _); [|apply IH]. apply safe_done. intros r _. apply IH.
Qed.
Lemma asks_iter u h ef layer filter s : J h -> safe dist (fun _ => asked u) (search_iter_d so h u ef layer filter s).
Proof.
  intros HJ. unfold search_iter_d. destruct (h_pop so (s_cand so s)) as [[c cand']|]; [|done].
  apply safe_done. intros f _. apply safe_done. intros _ _. apply safe_done. intros _ _. destruct (_ && _); [done|].
  apply safe_done. intros cpt _. apply safe_done. intros nbs _. apply safe_bind; [by apply asks_scan|]. by intros [stop s'] _.
Qed.
Lemma asks_init u h ep : J h -> safe dist (fun _ => asked u) (search_init_d so h u ep).
Proof.
  intros HJ. unfold search_init_d. apply safe_done. intros ept He%unwrap_inv. apply safe_eval; [|done]. split; [by left|by eapply HJ].
Qed.
Lemma asks_push u h ps cand : J h -> safe dist (fun _ => asked u) (push_candidates_d so h u ps cand).
Proof.
  intros HJ. revert cand. induction ps as [|p ps IH]; intros cand; cbn [push_candidates_d]; [done|].
  apply safe_done. intros pt Hp%unwrap_inv. apply safe_eval; [split; [by left|by eapply HJ]|]. apply IH.
Qed.
Lemma asks_dominated u h ev bound nv : J h -> V ev -> safe dist (fun _ => asked u) (dominated_d h ev bound nv).
Proof.
  intros HJ Hv. induction nv as [|n nv IH]; cbn [dominated_d]; [done|].
  apply safe_done. intros pt Hp%unwrap_inv. apply safe_eval; [split; [by right|by eapply HJ]|]. by destruct (_ <=? _)%Z.
Qed.
Lemma asks_select u fuel h asked_nb keep cand nv disc : J h -> safe dist (fun _ => asked u) (select_loop_d so fuel h asked_nb keep cand nv disc).
Proof.
  intros HJ. revert cand nv disc. induction fuel as [|fuel IH]; intros cand nv disc; cbn [select_loop_d];
    (destruct (_ <? _)%nat; [|done]); (destruct (h_pop so cand) as [[e cand']|]; [|done]); [done|].
  apply safe_done. intros ept He%unwrap_inv. apply safe_done. intros _ _.
  apply safe_bind; [apply asks_dominated; [done|by eapply HJ]|]. intros [|] _; apply IH.
Qed.
Lemma asks_pivot u h nbs pv z : J h -> safe dist (fun _ => asked u) (pivot_scan_d h u nbs pv z).
Proof.
  intros HJ. revert pv z. induction nbs as [|n nbs IH]; intros pv z; cbn [pivot_scan_d]; [done|].
  apply safe_done. intros pt Hp%unwrap_inv. apply safe_eval; [split; [by left|by eapply HJ]|]. destruct (_ <? _)%Z; apply IH.
Qed.

(** the state goes from [h] to [h'] and the thread's account from [x] to [y] *)
Definition change x h h' y : Prop :=
  (table_size h' + b2n (i_st x) = table_size h + b2n (i_st y))%nat /\
  (nb_point h' + b2n (i_ct x) = nb_point h + b2n (i_ct y))%nat /\
  (i_e y = true -> i_e x = true \/ entry_point h' <> None) /\
  (entry_point h <> None -> entry_point h' <> None) /\
  i_hd y = i_hd x.

Section B.
Context (b : bool) (S : Prop).

Inductive sim {A} (Q : ix -> A -> Prop) : ix -> prog (T:=T) A -> prog (T:=T) A -> Prop :=
| sim_ok x a : Q x a -> sim Q x (Halt (Ok a)) (Halt (Ok a))
| sim_bad x o : (forall a, o <> Ok a) -> sim Q x (Halt o) (Halt o)
| sim_dead x o q : (forall a, o <> Ok a) -> S -> x = Ix b b true [] -> sim Q x (Halt o) q
| sim_lock m l x p q : sim Q (with_hd x ((m, l) :: i_hd x)) p q -> sim Q x (Lock m l p) (Lock m l q)
| sim_pend l x p q : sim Q x p q -> sim Q x (Pend l p) (Pend l q)
| sim_unlock m l x hd p q : i_hd x = (m, l) :: hd -> sim Q (with_hd x hd) p q -> sim Q x (Unlock m l p) (Unlock m l q)
| sim_do f x (y : hnsw (T:=T) -> ix) k k' :
    (forall h, J h -> change x h (f h) (y h)) -> (forall h, J h -> sim Q (y h) (k h) (k' h)) -> sim Q x (Do f k) (Do f k').

Lemma sim_bind {A B} (Q : ix -> A -> Prop) (R : ix -> B -> Prop) x p q (k k' : A -> prog (T:=T) B) :
  sim Q x p q -> (forall y a, Q y a -> sim R y (k a) (k' a)) -> sim R x (p ≫= k) (q ≫= k').
Proof.
  intros H HK. induction H as [x a Ha|x o Ho|x o q Ho Hs Hx|m l x p q _ IH|l x p q _ IH|m l x hd p q Hl _ IH|f x y j j' Hc _ IH];
    unfold mbind, prog_bind in *; simpl.
  - by apply HK.
  - destruct o; simpl; try (by apply sim_bad). by destruct (Ho a).
  - destruct o; simpl; try (by apply sim_dead). by destruct (Ho a).
  - by apply sim_lock.
  - by apply sim_pend.
  - by eapply sim_unlock.
  - by eapply sim_do.
Qed.
Lemma sim_mono {A} (Q R : ix -> A -> Prop) x p q : sim Q x p q -> (forall y a, Q y a -> R y a) -> sim R x p q.
Proof.
  intros H HK. induction H; [apply sim_ok; auto|apply sim_bad; auto|apply sim_dead; auto|apply sim_lock; auto|apply sim_pend; auto|
    eapply sim_unlock; eauto|eapply sim_do; eauto].
Qed.

Lemma sim_halt {A} (Q : ix -> A -> Prop) x (o : outcome A) : (forall a, o = Ok a -> Q x a) -> sim Q x (Halt o) (Halt o).
Proof. intros H. destruct o; [apply sim_ok; auto|..]; by apply sim_bad. Qed.
Lemma change_id x h y : i_st y = i_st x -> i_ct y = i_ct x -> i_hd y = i_hd x ->
  (i_e y = true -> i_e x = true \/ entry_point h <> None) -> change x h h y.
Proof. unfold change. intros -> -> ->. auto. Qed.
Lemma change_refl x h : change x h h x.
Proof. apply change_id; auto. Qed.

(** the two ways an access that computes distances ends *)
Definition answers {A} (Q : ix -> A -> Prop) x y (o o' : outcome A) : Prop :=
  (o = o' /\ forall a, o = Ok a -> Q y a) \/ (x = Ix b b true [] /\ y = x /\ S /\ forall a, o <> Ok a).

Lemma sim_peek {A} (Q : ix -> A -> Prop) x (f f' : hnsw (T:=T) -> outcome A) :
  (forall h, J h -> answers Q x x (f h) (f' h)) -> sim Q x (peek f) (peek f').
Proof.
  intros H. apply (sim_do Q id x (fun _ => x)); [intros h _; apply change_refl|]. intros h Hj.
  destruct (H h Hj) as [[-> HQ]|(-> & _ & Hs & Ho)]; [by apply sim_halt|by apply sim_dead].
Qed.
Lemma sim_read {A} (Q : ix -> A -> Prop) x (y : hnsw (T:=T) -> ix) l (f f' : hnsw (T:=T) -> outcome A) :
  (forall h, change x h h (y h)) -> (forall h, J h -> answers Q x (y h) (f h) (f' h)) -> sim Q x (with_read l f) (with_read l f').
Proof.
  intros Hc H. apply sim_lock.
  apply (sim_do Q id _ (fun h => with_hd (y h) ((Rd, l) :: i_hd x))).
  - intros h _. destruct (Hc h) as (H1 & H2 & H3 & H4 & H5). by repeat split.
  - intros h Hj. eapply (sim_unlock Q Rd l _ (i_hd x)); [done|].
    assert (E : with_hd (with_hd (y h) ((Rd, l) :: i_hd x)) (i_hd x) = y h).
    { destruct (Hc h) as (_ & _ & _ & _ & <-). by destruct (y h). }
    rewrite E. destruct (H h Hj) as [[-> HQ]|(-> & -> & Hs & Ho)]; [by apply sim_halt|by apply sim_dead].
Qed.
Lemma sim_write {A} (Q : ix -> A -> Prop) x y l (f : hnsw (T:=T) -> outcome (hnsw (T:=T) * A)) :
  (forall h h' a, f h = Ok (h', a) -> change x h h' y /\ Q y a) -> sim Q x (with_write l f) (with_write l f).
Proof.
  intros H. apply sim_lock.
  apply (sim_do Q _ _ (fun h => match f h with Ok _ => with_hd y ((Wr, l) :: i_hd x) | _ => with_hd x ((Wr, l) :: i_hd x) end)).
  - intros h _. destruct (f h) as [[h' a]| | | | |] eqn:E; try (by repeat split; auto).
    destruct (H _ _ _ E) as [(H1 & H2 & H3 & H4 & H5) _]. by repeat split.
  - intros h _. destruct (f h) as [[h' a]| | | | |] eqn:E; simpl;
      (eapply (sim_unlock Q Wr l _ (i_hd x)); [done|]); try (by apply sim_bad).
    destruct (H _ _ _ E) as [(_ & _ & _ & _ & H5) HQ]. apply sim_ok. rewrite <- H5. by destruct y.
Qed.

(** programs after which the account is what it was *)
Definition steady {A} (x : ix) (p q : prog (T:=T) A) : Prop := sim (fun y (_ : A) => y = x) x p q.
Lemma steady_bind {A B} x (p q : prog (T:=T) A) (k k' : A -> prog (T:=T) B) (R : ix -> B -> Prop) :
  steady x p q -> (forall a, sim R x (k a) (k' a)) -> sim R x (p ≫= k) (q ≫= k').
Proof. intros H HK. eapply sim_bind; [exact H|]. intros y a ->. auto. Qed.
Lemma steady_halt {A} x (o : outcome A) : steady x (Halt o) (Halt o).
Proof. by apply sim_halt. Qed.
Lemma steady_peek {A} x (f : hnsw (T:=T) -> outcome A) : steady x (peek f) (peek f).
Proof. apply sim_peek. intros h _. by left. Qed.
Lemma steady_read {A} x l (f : hnsw (T:=T) -> outcome A) : steady x (with_read l f) (with_read l f).
Proof. apply (sim_read _ x (fun _ => x)); [intros; apply change_refl|]. intros h _. by left. Qed.
Lemma upd_same h p l g h' : upd_nbs h p l g = Ok h' -> table_size h' = table_size h /\ nb_point h' = nb_point h /\ entry_point h' = entry_point h.
Proof.
  intros (pt & nbs & _ & _ & _ & _ & Hs)%upd_nbs_inv. pose proof Hs as (Hm & Hl & _).
  split; [by apply table_size_fmap|]. unfold same_meta in Hm. intuition congruence.
Qed.
Lemma steady_upd x p l g : steady x (with_write (LPoint p) (fun h => h1 ← upd_nbs h p l g; Ok (h1, tt)))
  (with_write (LPoint p) (fun h => h1 ← upd_nbs h p l g; Ok (h1, tt))).
Proof.
  apply (sim_write _ x x). intros h h' a. destruct (upd_nbs h p l g) as [h1| | | | |] eqn:E; try done.
  intros [= <- <-]. split; [|done]. apply upd_same in E as (E1 & E2 & E3). unfold change. rewrite E1, E2, E3. auto.
Qed.
Lemma steady_rev_one x np q : steady x (rev_one_p so np q) (rev_one_p so np q).
Proof.
  unfold rev_one_p. destruct (bool_decide _) eqn:Ep; [apply steady_halt|].
  apply (sim_write _ x x). intros h h' a. destruct (rev_one so h np q) as [h1| | | | |] eqn:E; try done.
  intros [= <- <-]. split; [|done]. unfold rev_one in E. rewrite Ep in E.
  apply upd_same in E as (E1 & E2 & E3). unfold change. rewrite E1, E2, E3. auto.
Qed.
Lemma steady_rev_many x np qs : steady x (rev_many_p so np qs) (rev_many_p so np qs).
Proof.
  induction qs as [|q qs IH]; cbn [rev_many_p]; [apply steady_halt|]. eapply steady_bind; [apply steady_rev_one|]. done.
Qed.
Lemma steady_rev_layer x np l : steady x (rev_layer_p so np l) (rev_layer_p so np l).
Proof.
  unfold rev_layer_p. apply sim_lock. eapply steady_bind; [apply steady_peek|]. intros qs.
  eapply steady_bind; [apply steady_rev_many|]. intros _. eapply sim_unlock; [done|]. apply sim_ok. by destruct x.
Qed.
Lemma steady_rev_layers x np ls : steady x (rev_layers_p so ls np) (rev_layers_p so ls np).
Proof.
  induction ls as [|l ls IH]; cbn [rev_layers_p]; [apply steady_halt|]. eapply steady_bind; [apply steady_rev_layer|]. done.
Qed.
Lemma steady_check x np : steady x (check_entry_point_p np) (check_entry_point_p np).
Proof.
  apply (sim_write _ x x). intros h h' a [= <- <-]. split; [|done].
  unfold change, check_entry_point. destruct (entry_point h) as [ep|] eqn:E; [destruct (_ <? _)%nat|]; simpl; rewrite ?E; auto.
Qed.
Lemma steady_collect x layer cset todo acc : steady x (collect_p layer cset todo acc) (collect_p layer cset todo acc).
Proof.
  revert acc. induction todo as [|p todo IH]; intros acc; cbn [collect_p]; [apply steady_halt|].
  eapply steady_bind; [apply steady_read|]. intros nbs. apply IH.
Qed.
Lemma steady_lowest x n l : steady x (lowest_p n l) (lowest_p n l).
Proof.
  revert l. induction n as [|n IH]; intros l; cbn [lowest_p]; [apply steady_halt|]. eapply steady_bind.
  - unfold layer_nb_point_p. eapply steady_bind; [apply steady_read|]. intros m. destruct (l <? m)%nat; [apply steady_read|apply steady_halt].
  - intros k. destruct (0 <? k)%nat; [apply steady_halt|apply IH].
Qed.
Lemma steady_iter_next x st : steady x (iter_next_p st) (iter_next_p st).
Proof.
  unfold iter_next_p. destruct (match st with None => (0, 0) | Some s => s end) as [layer slot].
  eapply steady_bind; [apply steady_peek|]. intros [pt|]; [apply steady_halt|].
  apply sim_lock, sim_lock. eapply steady_bind; [apply steady_peek|]. intros r.
  eapply sim_unlock; [done|]. eapply sim_unlock; [done|]. apply sim_ok. by destruct x.
Qed.
Lemma steady_iter_collect x fuel st : steady x (iter_collect_p fuel st) (iter_collect_p fuel st).
Proof.
  revert st. induction fuel as [|fuel IH]; intros st; cbn [iter_collect_p]; [apply steady_halt|].
  eapply steady_bind; [apply steady_iter_next|]. intros [[pt|] st']; cbn [fst snd]; [|apply steady_halt].
  eapply steady_bind; [apply IH|]. intros rest. apply steady_halt.
Qed.
Lemma steady_iter x fuel : steady x (iter_points_p fuel) (iter_points_p fuel).
Proof.
  apply sim_lock. eapply steady_bind; [apply steady_iter_collect|]. intros l. eapply sim_unlock; [done|]. apply sim_ok. by destruct x.
Qed.
Lemma steady_dump_points x i j n : steady x (dump_points_p i j n) (dump_points_p i j n).
Proof.
  revert j. induction n as [|n IH]; intros j; cbn [dump_points_p]; [apply steady_halt|].
  eapply steady_bind; [apply steady_peek|]. intros s. eapply steady_bind; [apply steady_read|]. intros ls.
  eapply steady_bind; [apply IH|]. intros rest. apply steady_halt.
Qed.
Lemma steady_dump_layers x i n : steady x (dump_layers_p i n) (dump_layers_p i n).
Proof.
  revert i. induction n as [|n IH]; intros i; cbn [dump_layers_p]; [apply steady_halt|].
  eapply steady_bind; [apply steady_peek|]. intros len. eapply steady_bind; [apply steady_dump_points|]. intros pts.
  eapply steady_bind; [apply IH|]. intros rest. apply steady_halt.
Qed.
Lemma steady_dump x : steady x dump_p dump_p.
Proof.
  unfold dump_p. eapply steady_bind; [apply steady_read|]. intros dim. eapply steady_bind; [apply steady_read|]. intros nb.
  apply sim_lock. eapply steady_bind; [apply steady_peek|]. intros n. eapply steady_bind; [apply steady_dump_layers|]. intros lys.
  eapply steady_bind; [apply steady_read|]. intros e. eapply sim_unlock; [done|]. apply sim_ok. by destruct x.
Qed.

(** the programs that compute distances, once the thread has done what precedes them *)
Context (u : list T) (HS : silent u -> S).
Local Notation X := (Ix b b true []).
Definition ends {A} (o o' : outcome A) : Prop := o = o' \/ (S /\ forall a, o <> Ok a).
Lemma ends_run {A} (p : dprog (T:=T) A) o : safe dist (fun _ => asked u) p -> Calls.run (tot dist) p = o -> ends (Calls.run d p) o.
Proof. intros Hs <-. destruct (run_cases u p Hs) as [?|[? ?]]; [by left|right; auto]. Qed.
Lemma ends_bind {A B} (o o' : outcome A) (k k' : A -> outcome B) : ends o o' -> (forall a, ends (k a) (k' a)) -> ends (o ≫= k) (o' ≫= k').
Proof.
  intros [->|[Hs Ho]] HK.
  - destruct o' as [a| | | | |]; [apply HK|by left..].
  - right. split; [done|]. by apply bind_not_ok.
Qed.
Lemma ends_refl {A} (o : outcome A) : ends o o.
Proof. by left. Qed.
Lemma ends_d h p : J h -> ends (ept ← unwrap (get_pt h p); d u (pt_data ept)) (ept ← unwrap (get_pt h p); Ok (dist u (pt_data ept))).
Proof.
  intros HJ. destruct (get_pt h p) as [pt|] eqn:Ep; [|by left]. cbn [unwrap mbind outcome_bind].
  destruct (d u (pt_data pt)) as [z| | | | |] eqn:E; [left; f_equal; by apply Hd|..];
    (right; split; [|done]; apply HS; exists u, (pt_data pt); split; [split; [by left|by eapply HJ]|by rewrite E]).
Qed.
Lemma ends_answers {A} (o o' : outcome A) : ends o o' -> answers (fun y (_ : A) => y = X) X X o o'.
Proof. intros [->|[Hs Ho]]; [by left|by right]. Qed.
Lemma st_peek {A} (f f' : hnsw (T:=T) -> outcome A) : (forall h, J h -> ends (f h) (f' h)) -> steady X (peek f) (peek f').
Proof. intros H. apply sim_peek. intros h Hj. by apply ends_answers, H. Qed.
Lemma st_read {A} l (f f' : hnsw (T:=T) -> outcome A) : (forall h, J h -> ends (f h) (f' h)) -> steady X (with_read l f) (with_read l f').
Proof. intros H. apply (sim_read _ X (fun _ => X)); [intros; apply change_refl|]. intros h Hj. by apply ends_answers, H. Qed.

Lemma st_loop fuel ef layer filter s :
  steady X (search_loop_c d so fuel u ef layer filter s) (search_loop_p dist so fuel u ef layer filter s).
Proof.
  revert s. induction fuel as [|fuel IH]; intros s; cbn [search_loop_c search_loop_p]; [apply steady_halt|].
  eapply steady_bind; [apply steady_halt|]. intros [res|c]; [apply steady_halt|].
  eapply steady_bind; [apply st_read; intros h Hj; apply ends_run; [by apply asks_iter|apply run_iter]|]. intros [res|s']; [apply steady_halt|apply IH].
Qed.
Lemma st_layer fuel ep ef layer filter :
  steady X (search_layer_c d so fuel u ep ef layer filter) (search_layer_p dist so fuel u ep ef layer filter).
Proof.
  unfold search_layer_c, search_layer_p. eapply steady_bind; [apply steady_read|]. intros [|]; [apply steady_halt|].
  eapply steady_bind; [apply st_peek; intros h Hj; apply ends_run; [by apply asks_init|apply run_init]|]. intros s. apply st_loop.
Qed.
Lemma st_select cand asked ext layer keep :
  steady X (select_neighbours_c d so u cand asked ext layer keep) (select_neighbours_p dist so u cand asked ext layer keep).
Proof.
  unfold select_neighbours_c, select_neighbours_p. destruct (_ && _); [apply steady_halt|]. eapply steady_bind.
  - destruct (_ <=? _)%nat; [|apply steady_halt]. unfold extend_cands_c, extend_cands_p.
    eapply steady_bind; [apply steady_collect|]. intros news. apply st_peek. intros h Hj. apply ends_run; [by apply asks_push|apply run_push_candidates].
  - intros cand1. apply st_peek. intros h Hj. apply ends_bind; [apply ends_run; [by apply asks_select|apply run_select_loop]|]. intros [nv disc]. apply ends_refl.
Qed.
Lemma st_descend_use np l sorted ep dte :
  steady X (descend_use_c d so np u l sorted ep dte) (descend_use_p dist so np u l sorted ep dte).
Proof.
  unfold descend_use_c, descend_use_p. destruct (1 <? _)%nat; [apply steady_halt|]. destruct (h_pop so sorted) as [[e rst]|]; [|apply steady_halt].
  eapply steady_bind; [apply steady_read|]. intros short.
  eapply steady_bind; [destruct short; [apply steady_upd|apply steady_halt]|]. intros _.
  eapply steady_bind.
  { apply st_peek. intros h Hj. by apply ends_d. }
  intros tmp. apply steady_halt.
Qed.
Lemma st_descend fuel ls np ep dte : steady X (descend_c d so fuel ls np u ep dte) (descend_p dist so fuel ls np u ep dte).
Proof.
  revert ep dte. induction ls as [|l ls IH]; intros ep dte; cbn [descend_c descend_p]; [apply steady_halt|].
  eapply steady_bind; [apply st_layer|]. intros sorted. eapply steady_bind; [apply st_descend_use|]. intros r. apply IH.
Qed.
Lemma st_connect_use np l found ep :
  steady X (connect_use_c d so np u l found ep) (connect_use_p dist so np u l found ep).
Proof.
  unfold connect_use_c, connect_use_p. eapply steady_bind; [apply steady_halt|]. intros neg. destruct (_ =? 0)%nat; [apply steady_halt|].
  eapply steady_bind; [apply steady_peek|]. intros cfg. eapply steady_bind; [apply st_select|]. intros nv.
  eapply steady_bind; [apply steady_upd|]. intros _. apply steady_halt.
Qed.
Lemma st_connect fuel ls np ep : steady X (connect_c d so fuel ls np u ep) (connect_p dist so fuel ls np u ep).
Proof.
  revert ep. induction ls as [|l ls IH]; intros ep; cbn [connect_c connect_p]; [apply steady_halt|].
  eapply steady_bind; [apply steady_peek|]. intros ef. eapply steady_bind; [apply st_layer|]. intros found.
  eapply steady_bind; [apply st_connect_use|]. intros ep1. apply IH.
Qed.
Lemma st_pivot ls pv dte : steady X (pivot_descend_c d ls u pv dte) (pivot_descend_p dist ls u pv dte).
Proof.
  revert pv dte. induction ls as [|l ls IH]; intros pv dte; cbn [pivot_descend_c pivot_descend_p]; [apply steady_halt|].
  eapply steady_bind; [|intros r; apply IH]. apply st_read. intros h Hj. apply ends_bind; [apply ends_refl|]. intros nbs. apply ends_run; [by apply asks_pivot|apply run_pivot_scan].
Qed.

(** reading the entry point *)
Lemma sim_entry x : sim (fun y (eo : option pid) => y = Ix (i_st x) (i_ct x) (i_e x || bool_decide (eo <> None)) (i_hd x)) x
  (with_read LEntry (fun h => Ok (entry_point h))) (with_read LEntry (fun h => Ok (entry_point h))).
Proof.
  apply (sim_read _ x (fun h => Ix (i_st x) (i_ct x) (i_e x || bool_decide (entry_point h <> None)) (i_hd x))).
  - intros h. apply change_id; try done. simpl. intros [H|H%bool_decide_eq_true]%orb_true_iff; auto.
  - intros h _. left. split; [done|]. by intros a [= <-].
Qed.
End B.

(** what is known of a thread that returns *)
Definition fin {A} (b : bool) (x : ix) (_ : A) : Prop := i_st x = b /\ i_ct x = b /\ i_hd x = [].
Definition x_start : ix := Ix false false false [].

Lemma sim_insert fuel data oid dr : sim true (silent data) (fin true) x_start (insert_c d so fuel data oid dr) (insert_p dist so fuel data oid dr).
Proof.
  unfold insert_c, insert_p. eapply steady_bind; [apply steady_peek|]. intros level.
  eapply (sim_bind true (silent data) (fun y (_ : pid) => y = Ix true false false [])).
  { apply (sim_write true (silent data) _ _ (Ix true false false [])). intros h h' np (_ & _ & _ & _ & _ & Hm & _ & Es)%push_point_inv. split; [|done].
    unfold change, same_meta in *. simpl. rewrite Es. destruct_and!. split_and!; try done; [lia|congruence|congruence]. }
  intros y np ->. eapply (sim_bind true (silent data) (fun y (_ : nat) => y = Ix true true false [])).
  { apply (sim_write true (silent data) _ _ (Ix true true false [])). intros h h' n [= <- <-]. split; [|done].
    unfold change. simpl. split_and!; try done; lia. }
  intros y rank ->. eapply sim_bind; [apply sim_entry|]. cbn [i_st i_ct i_e i_hd orb x_start]. intros y [ep|] ->.
  2:{ eapply steady_bind; [apply steady_check|]. intros _. by apply sim_ok. }
  rewrite bool_decide_eq_true_2 by done. destruct (rank =? 1)%nat; [by apply sim_ok|].
  eapply steady_bind.
  { apply st_peek. intros h Hj. by apply ends_d. }
  intros dte. eapply steady_bind; [by apply st_descend|]. intros ep1. eapply steady_bind; [by apply st_connect|]. intros _.
  eapply steady_bind; [apply steady_rev_layers|]. intros _. eapply steady_bind; [apply steady_check|]. intros _. by apply sim_ok.
Qed.
Lemma sim_search fuel q k efa filter : sim false (silent q) (fin false) x_start (search_filter_c d so fuel q k efa filter) (search_filter_p dist so fuel q k efa filter).
Proof.
  unfold search_filter_c, search_filter_p. eapply sim_bind; [apply sim_entry|]. cbn [i_st i_ct i_e i_hd orb x_start]. intros y [ep|] E; subst y; [|by apply sim_ok].
  rewrite bool_decide_eq_true_2 by done. eapply steady_bind.
  { apply st_peek. intros h Hj. by apply ends_d. }
  intros dte. eapply steady_bind; [by apply st_pivot|]. intros pv. eapply steady_bind; [apply steady_lowest|]. intros l.
  eapply steady_bind; [by apply st_layer|]. intros hp. eapply sim_mono; [apply steady_peek|]. by intros y a ->.
Qed.

Definition inserting (t : task (T:=T)) : bool := match t with TInsert _ _ _ => true | _ => false end.
(** the vector a task deals with, if any *)
Definition why (t : task (T:=T)) : Prop := match t with TInsert v _ _ => silent v | TSearch q _ _ _ => silent q | _ => False end.
Lemma sim_start fuel t : sim (inserting t) (why t) (fin (inserting t)) x_start (start_c d so fuel t) (start dist so fuel t).
Proof.
  destruct t as [v id dr|q k e f| |]; cbn [start_c start inserting why].
  - eapply sim_bind; [apply sim_insert|]. intros y np H. by apply sim_ok.
  - eapply sim_bind; [apply sim_search|]. intros y np H. by apply sim_ok.
  - eapply steady_bind; [apply steady_iter|]. intros l. by apply sim_ok.
  - eapply steady_bind; [apply steady_dump|]. intros l. by apply sim_ok.
Qed.
End Sim.

(** ** All the threads *)
Definition total (g : ix -> bool) (xs : list ix) : nat := sum_list ((fun x => b2n (g x)) <$> xs).
Lemma total_insert g xs i x y : xs !! i = Some x -> (total g (<[i := y]> xs) + b2n (g x) = total g xs + b2n (g y))%nat.
Proof.
  unfold total. revert i. induction xs as [|z xs IH]; intros [|i] H; try done; csimpl.
  - injection H as ->. lia.
  - specialize (IH i H). lia.
Qed.
Lemma total_start g n : g x_start = false -> total g (replicate n x_start) = 0%nat.
Proof. intros H. induction n as [|n IH]; [done|]. unfold total in *. csimpl. by rewrite H. Qed.

Section All.
Context {T : Type} (dist : list T -> list T -> Z) (d : list T -> list T -> outcome Z) (so : StdOps).
Context (LAWS : StdLaws so) (Hnn : forall a b, (0 <= dist a b)%Z) (Hd : forall a b z, d a b = Ok z -> z = dist a b).
Context (h0 : hnsw (T:=T)) (ts : list (task (T:=T))).
Context (Hwf : lwf dist h0) (Hml : (0 < max_layer h0)%nat) (Hok : Forall (may_run h0) ts).
Implicit Types (h : hnsw (T:=T)) (x y : ix) (xs : list ix) (c g : config (T:=T)) (t : task (T:=T)).

(** the vectors that are in the index or that the tasks insert *)
Definition known (v : list T) : Prop := v ∈ ((stored h0 ++ inserts ts).*1).
Lemma glob_known g phs : Glob dist h0 ts g phs -> J known (c_sh g).
Proof using Type.
  clear. intros G p pt Hp. unfold known. rewrite fmap_app. apply elem_of_app.
  destruct (g_cover _ _ _ _ _ G p (ex_intro _ pt Hp)) as [[pt0 Hv]|(i & ph & Hi & Ho)].
  - left. assert (Hs : static h0 p = Some (pt_data pt0, pt_oid pt0, pt_pid pt0)) by (unfold static; by rewrite Hv).
    pose proof (static_grows _ _ _ _ (g_grows _ _ _ _ _ G) Hs) as Hs'. unfold static in Hs'. rewrite Hp in Hs'. injection Hs' as E _ _.
    rewrite E. apply elem_of_list_fmap. exists (pt_data pt0, pt_oid pt0). split; [done|].
    rewrite stored_static. apply elem_of_list_omap. exists p. split; [apply elem_of_pids; by exists pt0|]. by rewrite Hs.
  - right. destruct (lookup_lt_is_Some_2 ts i) as [t Ht]; [rewrite <- (g_len1 _ _ _ _ _ G); by eapply lookup_lt_Some|].
    destruct (g_quiet _ _ _ _ _ G i t ph p Ht Hi Ho) as (v & id & dr & ->).
    pose proof (g_ph _ _ _ _ _ G i _ ph Ht Hi) as Hpo.
    assert (Hs : static (c_sh g) p = Some (v, id, p)) by (destruct ph; simpl in Ho; try done; injection Ho as ->; apply Hpo).
    unfold static in Hs. rewrite Hp in Hs. injection Hs as -> _ _. apply elem_of_list_fmap. exists (v, id). split; [done|].
    apply elem_of_list_omap. exists (TInsert v id dr). split; [by eapply elem_of_list_lookup_2|done].
Qed.

(** [c]: the situation with the distance that may panic; [g]: one with the distance that does not, in which the threads that
    ended abnormally in [c] are waiting *)
Record Both c g xs : Prop := {
  y_reach : rtc cstep (initial dist so h0 ts) g;
  y_sh : c_sh g = c_sh c;
  y_locks : c_locks g = c_locks c;
  y_len : length xs = length ts;
  y_len1 : length (c_threads c) = length ts;
  y_len2 : length (c_threads g) = length ts;
  y_sim : forall i t p q x, ts !! i = Some t -> c_threads c !! i = Some p -> c_threads g !! i = Some q -> xs !! i = Some x ->
    sim known (inserting t) (why d known t) (fin (inserting t)) x p q;
  y_size : table_size (c_sh c) = (table_size h0 + total i_st xs)%nat;
  y_nb : nb_point (c_sh c) = (nb_point h0 + total i_ct xs)%nat;
  y_e : forall i x, xs !! i = Some x -> i_e x = true -> entry_point (c_sh c) <> None;
  y_rd : forall l i, occ i (lk_readers (c_locks c l)) = occ (Rd, l) (default [] (i_hd <$> xs !! i));
  y_wr : forall l i, occ (Wr, l) (default [] (i_hd <$> xs !! i)) = if decide (lk_writer (c_locks c l) = Some i) then 1 else 0
}.

Lemma both_start : Both (initial_c d so h0 ts) (initial dist so h0 ts) (replicate (length ts) x_start).
Proof.
  constructor; simpl; auto; try by rewrite ?fmap_length, ?replicate_length.
  - intros i t p q x Ht Hp Hq Hx. rewrite list_lookup_fmap, Ht in Hp, Hq. injection Hp as <-. injection Hq as <-.
    apply lookup_replicate in Hx as [-> _]. by apply sim_start.
  - by rewrite total_start, Nat.add_0_r.
  - by rewrite total_start, Nat.add_0_r.
  - intros i x [-> _]%lookup_replicate. done.
  - intros l i. destruct (replicate _ _ !! i) as [x|] eqn:E; [|done]. apply lookup_replicate in E as [-> _]. done.
  - intros l i. destruct (replicate _ _ !! i) as [x|] eqn:E; [|done]. apply lookup_replicate in E as [-> _]. done.
Qed.

(** a step of thread [i] by which it goes from [p], [q], [x] to [p'], [q'], [y] *)
Lemma both_next c g xs i t p q x sh' ls' p' q' y :
  Both c g xs -> ts !! i = Some t -> c_threads c !! i = Some p -> c_threads g !! i = Some q -> xs !! i = Some x ->
  step i g = Some (Config sh' ls' (<[i := q']> (c_threads g))) ->
  sim known (inserting t) (why d known t) (fin (inserting t)) y p' q' ->
  (table_size sh' + b2n (i_st x) = table_size (c_sh c) + b2n (i_st y))%nat ->
  (nb_point sh' + b2n (i_ct x) = nb_point (c_sh c) + b2n (i_ct y))%nat ->
  (i_e y = true -> i_e x = true \/ entry_point sh' <> None) ->
  (entry_point (c_sh c) <> None -> entry_point sh' <> None) ->
  (forall l j, occ j (lk_readers (ls' l)) + (if decide (j = i) then occ (Rd, l) (i_hd x) else 0) =
     occ j (lk_readers (c_locks c l)) + (if decide (j = i) then occ (Rd, l) (i_hd y) else 0))%nat ->
  (forall l j, j <> i -> lk_writer (ls' l) = Some j <-> lk_writer (c_locks c l) = Some j) ->
  (forall l, occ (Wr, l) (i_hd y) = if decide (lk_writer (ls' l) = Some i) then 1 else 0) ->
  Both (Config sh' ls' (<[i := p']> (c_threads c))) (Config sh' ls' (<[i := q']> (c_threads g))) (<[i := y]> xs).
Proof.
  intros [] Ht Hp Hq Hx Hs Hsim H1 H2 H3 H4 H5 H6 H7.
  pose proof (lookup_lt_Some _ _ _ Hx) as Hlx. pose proof (lookup_lt_Some _ _ _ Hp) as Hlp. pose proof (lookup_lt_Some _ _ _ Hq) as Hlq.
  constructor; simpl; auto; try by rewrite insert_length.
  - eapply rtc_r; [exact y_reach0|]. by exists i.
  - intros j t' a b z Ht' Ha Hb Hz. destruct (decide (i = j)) as [<-|Hne].
    + rewrite list_lookup_insert in Ha by done. rewrite list_lookup_insert in Hb by done. rewrite list_lookup_insert in Hz by done. simplify_eq. done.
    + rewrite list_lookup_insert_ne in Ha by done. rewrite list_lookup_insert_ne in Hb by done. rewrite list_lookup_insert_ne in Hz by done. eauto.
  - pose proof (total_insert i_st xs i x y Hx). lia.
  - pose proof (total_insert i_ct xs i x y Hx). lia.
  - intros j z Hz Ez. destruct (decide (i = j)) as [<-|Hne].
    + rewrite list_lookup_insert in Hz by done. injection Hz as <-. destruct (H3 Ez) as [Ex|?]; [|done]. apply H4. eauto.
    + rewrite list_lookup_insert_ne in Hz by done. apply H4. eauto.
  - intros l j. specialize (H5 l j). pose proof (y_rd0 l j) as E. destruct (decide (j = i)) as [->|Hne].
    + rewrite list_lookup_insert by done. rewrite Hx in E. simpl in *. lia.
    + rewrite list_lookup_insert_ne by done. lia.
  - intros l j. destruct (decide (j = i)) as [->|Hne].
    + rewrite list_lookup_insert by done. simpl. apply H7.
    + rewrite list_lookup_insert_ne by done. rewrite (y_wr0 l j). specialize (H6 l j Hne).
      destruct (decide (lk_writer (c_locks c l) = Some j)), (decide (lk_writer (ls' l) = Some j)); tauto || done.
Qed.

Lemma both_step c g xs c' : Both c g xs -> cstep c c' -> exists g' xs', Both c' g' xs'.
Proof.
  intros B [i Hs]. unfold step in Hs. destruct (c_threads c !! i) as [p|] eqn:Hp; [|done]. cbn [mbind option_bind] in Hs.
  pose proof (lookup_lt_Some _ _ _ Hp) as Hlt. rewrite (y_len1 _ _ _ B) in Hlt.
  destruct (lookup_lt_is_Some_2 ts i Hlt) as [t Ht].
  destruct (lookup_lt_is_Some_2 (c_threads g) i) as [q Hq]; [by rewrite (y_len2 _ _ _ B)|].
  destruct (lookup_lt_is_Some_2 xs i) as [x Hx]; [by rewrite (y_len _ _ _ B)|].
  pose proof (y_sim _ _ _ B i t p q x Ht Hp Hq Hx) as Hsim.
  pose proof (fun l => y_wr _ _ _ B l i) as Gwr. rewrite Hx in Gwr. simpl in Gwr.
  assert (Hg : forall gg, step i g = Some gg <-> (match q with
    | Halt _ => None
    | Lock Rd l k => match lk_writer (c_locks c l) with None => Some (Config (c_sh c)
        (upd_lock l (Lk (i :: lk_readers (c_locks c l)) None) (c_locks c)) (<[i := k]> (c_threads g))) | Some _ => None end
    | Lock Wr l k => match lk_writer (c_locks c l) with None => Some (Config (c_sh c)
        (upd_lock l (Lk (lk_readers (c_locks c l)) (Some i)) (c_locks c)) (<[i := Pend l k]> (c_threads g))) | Some _ => None end
    | Pend l k => match lk_readers (c_locks c l) with [] => Some (Config (c_sh c) (c_locks c) (<[i := k]> (c_threads g))) | _ => None end
    | Unlock Rd l k => Some (Config (c_sh c)
        (upd_lock l (Lk (remove_one i (lk_readers (c_locks c l))) (lk_writer (c_locks c l))) (c_locks c)) (<[i := k]> (c_threads g)))
    | Unlock Wr l k => Some (Config (c_sh c) (upd_lock l (Lk (lk_readers (c_locks c l)) None) (c_locks c)) (<[i := k]> (c_threads g)))
    | Do f k => Some (Config (f (c_sh c)) (c_locks c) (<[i := k (c_sh c)]> (c_threads g)))
    end = Some gg)).
  { intros gg. unfold step. rewrite Hq, (y_sh _ _ _ B), (y_locks _ _ _ B). cbn [mbind option_bind]. done. }
  inversion Hsim as [x0 a Ha|x0 o Ho|x0 o q0 Ho|m l x0 p1 q1 Hk|l x0 p1 q1 Hk|m l x0 hd p1 q1 Hl Hk|f x0 y k k' Hc Hk]; subst p x0; try done;
    subst q.
  - (* Lock *)
    destruct (lk_writer (c_locks c l)) as [w|] eqn:Ew; [by destruct m|]. destruct m; injection Hs as <-.
    + exists (Config (c_sh c) (upd_lock l (Lk (i :: lk_readers (c_locks c l)) None) (c_locks c)) (<[i := q1]> (c_threads g))).
      eexists. eapply both_next; [exact B|exact Ht|exact Hp|exact Hq|exact Hx|by apply Hg|exact Hk|..]; simpl; auto.
      * intros l' j. unfold upd_lock. destruct (decide (l' = l)) as [->|Hne]; simpl.
        -- destruct (decide (j = i)); [|lia]. destruct (decide ((Rd, l) = (Rd, l))); [lia|done].
        -- destruct (decide (j = i)); [|lia]. destruct (decide ((Rd, l') = (Rd, l))); [congruence|lia].
      * intros l' j Hj. unfold upd_lock. destruct (decide (l' = l)) as [->|]; simpl; [by rewrite Ew|done].
      * intros l'. destruct (decide ((Wr, l') = (Rd, l))); [congruence|]. simpl. rewrite Gwr. unfold upd_lock.
        destruct (decide (l' = l)) as [->|]; simpl; [by rewrite Ew|done].
    + exists (Config (c_sh c) (upd_lock l (Lk (lk_readers (c_locks c l)) (Some i)) (c_locks c)) (<[i := Pend l q1]> (c_threads g))).
      eexists. eapply both_next; [exact B|exact Ht|exact Hp|exact Hq|exact Hx|by apply Hg|apply sim_pend, Hk|..]; simpl; auto.
      * intros l' j. unfold upd_lock. destruct (decide ((Rd, l') = (Wr, l))); [congruence|]. simpl. by destruct (decide (l' = l)) as [->|].
      * intros l' j Hj. unfold upd_lock. destruct (decide (l' = l)) as [->|]; simpl; [|done]. rewrite Ew. split; congruence.
      * intros l'. rewrite Gwr. unfold upd_lock. destruct (decide (l' = l)) as [->|Hne]; simpl.
        -- rewrite Ew. destruct (decide ((Wr, l) = (Wr, l))); [|done]. destruct (decide (Some i = Some i)); done.
        -- destruct (decide ((Wr, l') = (Wr, l))); [congruence|]. lia.
  - (* Pend *)
    destruct (lk_readers (c_locks c l)) as [|? ?] eqn:Er; [|done]. injection Hs as <-.
    exists (Config (c_sh c) (c_locks c) (<[i := q1]> (c_threads g))).
    eexists. eapply both_next; [exact B|exact Ht|exact Hp|exact Hq|exact Hx|by apply Hg|exact Hk|..]; simpl; auto.
  - (* Unlock *)
    destruct m; injection Hs as <-.
    + exists (Config (c_sh c) (upd_lock l (Lk (remove_one i (lk_readers (c_locks c l))) (lk_writer (c_locks c l))) (c_locks c)) (<[i := q1]> (c_threads g))).
      eexists. eapply both_next; [exact B|exact Ht|exact Hp|exact Hq|exact Hx|by apply Hg|exact Hk|..]; simpl; auto.
      * intros l' j. pose proof (y_rd _ _ _ B l' j) as Er. unfold upd_lock. destruct (decide (l' = l)) as [->|Hne]; simpl.
        -- rewrite occ_remove_one. destruct (decide (j = i)) as [->|]; [|lia]. rewrite Hx in Er. simpl in Er. rewrite Hl in Er |- *. simpl in *.
           destruct (decide ((Rd, l) = (Rd, l))); [lia|done].
        -- destruct (decide (j = i)) as [->|]; [|lia]. rewrite Hl. simpl. destruct (decide ((Rd, l') = (Rd, l))); [congruence|lia].
      * intros l' j Hj. unfold upd_lock. by destruct (decide (l' = l)) as [->|].
      * intros l'. specialize (Gwr l'). rewrite Hl in Gwr. simpl in Gwr. destruct (decide ((Wr, l') = (Rd, l))); [congruence|]. simpl in Gwr. rewrite Gwr.
        unfold upd_lock. by destruct (decide (l' = l)) as [->|].
    + exists (Config (c_sh c) (upd_lock l (Lk (lk_readers (c_locks c l)) None) (c_locks c)) (<[i := q1]> (c_threads g))).
      assert (Ew : lk_writer (c_locks c l) = Some i /\ occ (Wr, l) hd = 0%nat).
      { specialize (Gwr l). rewrite Hl in Gwr. simpl in Gwr. destruct (decide ((Wr, l) = (Wr, l))); [|done].
        destruct (decide (lk_writer (c_locks c l) = Some i)); [|lia]. split; [done|lia]. }
      destruct Ew as [Ew Eo].
      eexists. eapply both_next; [exact B|exact Ht|exact Hp|exact Hq|exact Hx|by apply Hg|exact Hk|..]; simpl; auto.
      * intros l' j. rewrite Hl. simpl. destruct (decide ((Rd, l') = (Wr, l))); [congruence|]. unfold upd_lock. simpl.
        by destruct (decide (l' = l)) as [->|].
      * intros l' j Hj. unfold upd_lock. destruct (decide (l' = l)) as [->|]; simpl; [|done]. rewrite Ew. split; congruence.
      * intros l'. specialize (Gwr l'). rewrite Hl in Gwr. simpl in Gwr. unfold upd_lock.
        destruct (decide (l' = l)) as [->|Hne]; simpl; [by rewrite Eo|].
        destruct (decide ((Wr, l') = (Wr, l))); [congruence|]. exact Gwr.
  - assert (HJ : J known (c_sh c)).
    { rewrite <- (y_sh _ _ _ B). destruct (glob_reach dist so LAWS Hnn h0 ts Hwf Hml Hok g (y_reach _ _ _ B)) as [phs G]. by eapply glob_known. }
    injection Hs as <-. destruct (Hc (c_sh c) HJ) as (C1 & C2 & C3 & C4 & C5).
    exists (Config (f (c_sh c)) (c_locks c) (<[i := k' (c_sh c)]> (c_threads g))).
    eexists. eapply both_next; [exact B|exact Ht|exact Hp|exact Hq|exact Hx|by apply Hg|by apply Hk|..]; simpl; auto.
    * intros l j. by rewrite C5.
    * intros l. by rewrite C5, Gwr.
Qed.

Lemma both_reach c : during_c d so h0 ts c -> exists g xs, Both c g xs.
Proof.
  unfold during_c. intros H. apply rtc_ind_r with (P := fun c => exists g xs, Both c g xs) (z := c) in H; auto.
  - eexists _, _. apply both_start.
  - intros c1 c2 _ Hs (g & xs & B). by eapply both_step.
Qed.
End All.

(** ** What follows *)
Section End.
Context {T : Type} (dist : list T -> list T -> Z) (d : list T -> list T -> outcome Z) (so : StdOps).
Context (LAWS : StdLaws so) (Hnn : forall a b, (0 <= dist a b)%Z) (Hd : forall a b z, d a b = Ok z -> z = dist a b).
Context (h0 : hnsw (T:=T)) (ts : list (task (T:=T))).
Context (Hwf : lwf dist h0) (Hml : (0 < max_layer h0)%nat) (Hok : Forall (may_run h0) ts).
Implicit Types (h : hnsw (T:=T)) (x : ix) (xs : list ix) (c g : config (T:=T)) (t : task (T:=T)) (phs : list phase).
Local Notation Both := (Both dist d so h0 ts).
Local Notation known := (known h0 ts).

Lemma both_glob c g xs : Both c g xs -> exists phs, Glob dist h0 ts g phs.
Proof using LAWS Hnn Hwf Hml Hok. intros B. apply (glob_reach dist so LAWS Hnn h0 ts Hwf Hml Hok). apply B. Qed.

Lemma both_thread c g xs i p : Both c g xs -> c_threads c !! i = Some p ->
  exists t q x, ts !! i = Some t /\ c_threads g !! i = Some q /\ xs !! i = Some x /\ sim known (inserting t) (why d known t) (fin (inserting t)) x p q.
Proof using Type.
  intros B Hp. pose proof (lookup_lt_Some _ _ _ Hp) as Hlt. rewrite (y_len1 _ _ _ _ _ _ _ _ B) in Hlt.
  destruct (lookup_lt_is_Some_2 ts i Hlt) as [t Ht].
  destruct (lookup_lt_is_Some_2 (c_threads g) i) as [q Hq]; [by rewrite (y_len2 _ _ _ _ _ _ _ _ B)|].
  destruct (lookup_lt_is_Some_2 xs i) as [x Hx]; [by rewrite (y_len _ _ _ _ _ _ _ _ B)|].
  exists t, q, x. split_and!; auto. by eapply (y_sim _ _ _ _ _ _ _ _ B).
Qed.

(** a thread that has ended *)
Lemma both_halt c g xs i o : Both c g xs -> c_threads c !! i = Some (Halt o) ->
  exists t x, ts !! i = Some t /\ xs !! i = Some x /\ i_st x = inserting t /\ i_ct x = inserting t /\ i_hd x = [] /\
    ((exists r, o = Ok r /\ c_threads g !! i = Some (Halt (Ok r))) \/ ((forall r, o <> Ok r) /\ why d known t /\ i_e x = true)).
Proof using LAWS Hnn Hwf Hml Hok.
  intros B Hp. destruct (both_thread c g xs i _ B Hp) as (t & q & x & Ht & Hq & Hx & Hs). exists t, x.
  inversion Hs as [x0 a Ha|x0 o' Ho|x0 o' q0 Ho Hsil Ex| | | |]; subst.
  - destruct Ha as (E1 & E2 & E3). split_and!; auto. left. eauto.
  - exfalso. destruct (both_glob c g xs B) as [phs G]. destruct (glob_no_panic dist h0 ts g phs G i o) as [r ->]; [done|]. by apply (Ho r).
  - split_and!; auto.
Qed.

(** it holds no lock *)
Lemma both_free c g xs i o : Both c g xs -> c_threads c !! i = Some (Halt o) ->
  forall l, i ∉ lk_readers (c_locks c l) /\ lk_writer (c_locks c l) <> Some i.
Proof using LAWS Hnn Hwf Hml Hok.
  intros B Hp l. destruct (both_halt c g xs i o B Hp) as (t & x & Ht & Hx & _ & _ & E & _).
  pose proof (y_rd _ _ _ _ _ _ _ _ B l i) as Hr. pose proof (y_wr _ _ _ _ _ _ _ _ B l i) as Hw. rewrite Hx in Hr, Hw. simpl in Hr, Hw.
  rewrite E in Hr, Hw. simpl in Hr, Hw. split.
  - intros Hin%occ_elem. lia.
  - intros Ew. rewrite Ew in Hw. by destruct (decide (Some i = Some i)).
Qed.

(** a thread of [g] whose counterpart has not ended can do what it does *)
Lemma both_steps c g xs i g' : Both c g xs -> step i g = Some g' -> (forall o, c_threads c !! i <> Some (Halt o)) -> exists c', step i c = Some c'.
Proof using Type.
  intros B Hs Hn. destruct (c_threads g !! i) as [q|] eqn:Hq; [|by (unfold step in Hs; rewrite Hq in Hs)].
  destruct (lookup_lt_is_Some_2 (c_threads c) i) as [p Hp].
  { rewrite (y_len1 _ _ _ _ _ _ _ _ B), <- (y_len2 _ _ _ _ _ _ _ _ B). by eapply lookup_lt_Some. }
  destruct (both_thread c g xs i p B Hp) as (t & q' & x & Ht & Hq' & Hx & Hsim). rewrite Hq in Hq'. injection Hq' as <-.
  unfold step in Hs |- *. rewrite Hp. rewrite Hq, (y_locks _ _ _ _ _ _ _ _ B), (y_sh _ _ _ _ _ _ _ _ B) in Hs. cbn [mbind option_bind] in Hs |- *.
  inversion Hsim as [x0 a Ha|x0 o' Ho|x0 o' q0 Ho Hsil Ex|m l x0 p1 q1 Hk|l x0 p1 q1 Hk|m l x0 hd p1 q1 Hl Hk|f x0 y k k' Hc Hk]; subst;
    try (exfalso; by eapply Hn).
  - destruct m, (lk_writer (c_locks c l)); try done; eauto.
  - destruct (lk_readers (c_locks c l)); try done; eauto.
  - destruct m; eauto.
  - eauto.
Qed.

(** nobody is blocked for ever when nobody can be without panics *)
Lemma both_live c g xs : Both c g xs -> (forall dead, gone g dead -> ~ stuck_but g dead) -> ~ deadlocked c.
Proof using LAWS Hnn Hwf Hml Hok.
  intros B H [Hst (i & p & Hp & Hno)]. apply (H (fun j => exists o, c_threads c !! j = Some (Halt o) /\ forall r, o <> Ok r)).
  - intros j (o & Hj & _) l. rewrite (y_locks _ _ _ _ _ _ _ _ B). by eapply both_free.
  - split.
    + intros j g' Hj Hs.
      assert (Hn : forall o, c_threads c !! j <> Some (Halt o)).
      { intros o Ho. destruct (both_halt c g xs j o B Ho) as (_ & _ & _ & _ & _ & _ & _ & [(r & -> & Hg)|(Hb & _)]).
        - unfold step in Hs. by rewrite Hg in Hs.
        - apply Hj. eauto. }
      destruct (both_steps c g xs j g' B Hs Hn) as [c' Hc']. apply (Hst c'). by exists j.
    + destruct (both_thread c g xs i p B Hp) as (t & q & x & Ht & Hq & Hx & Hsim). exists i, q. split_and!; auto.
      * intros (o & Ho & _). rewrite Hp in Ho. injection Ho as ->. by apply (Hno o).
      * intros o ->. inversion Hsim; subst; by eapply Hno.
Qed.

Lemma total_all (f : ix -> bool) tl xs : Forall2 (fun t x => f x = inserting t) tl xs -> total f xs = length (inserts tl).
Proof using Type.
  induction 1 as [|t x tl xs E _ IH]; [done|]. unfold total in *. csimpl. rewrite IH, E. destruct t; done.
Qed.
Lemma count_all (f : phase -> bool) tl phs :
  Forall2 (fun t ph => f ph = true -> inserting t = true) tl phs ->
  (count f phs <= length (inserts tl))%nat /\
  (count f phs = length (inserts tl) -> Forall2 (fun t ph => f ph = inserting t) tl phs).
Proof using Type.
  clear. induction 1 as [|t ph tl phs E H [IH1 IH2]]; [by split|]. unfold count in *. rewrite filter_cons.
  destruct (f ph) eqn:Ef; simpl.
  - specialize (E eq_refl). destruct t; try done. csimpl. split; [lia|]. intros En. constructor; [by rewrite Ef|]. apply IH2. lia.
  - destruct t; csimpl.
    + split; [lia|]. intros En. lia.
    + split; [done|]. intros En. constructor; [by rewrite Ef|]. by apply IH2.
    + split; [done|]. intros En. constructor; [by rewrite Ef|]. by apply IH2.
    + split; [done|]. intros En. constructor; [by rewrite Ef|]. by apply IH2.
Qed.

(** every thread has ended *)
Lemma both_end c g xs outs : Both c g xs -> c_threads c = Halt <$> outs ->
  lwf dist (c_sh c) /\ max_layer (c_sh c) = max_layer h0 /\ max_nb_connection (c_sh c) = max_nb_connection h0 /\
  ef_construction (c_sh c) = ef_construction h0 /\ stored (c_sh c) ≡ₚ stored h0 ++ inserts ts /\
  nb_point (c_sh c) = (nb_point h0 + length (inserts ts))%nat.
Proof using LAWS Hnn Hwf Hml Hok.
  intros B Ho. destruct (both_glob c g xs B) as [phs G].
  assert (Hh : forall i t x, ts !! i = Some t -> xs !! i = Some x -> i_st x = inserting t /\ i_ct x = inserting t /\
    ((exists r, c_threads g !! i = Some (Halt (Ok r))) \/ i_e x = true)).
  { intros i t x Ht Hx. destruct (lookup_lt_is_Some_2 outs i) as [o Hoi].
    { assert (El : length outs = length ts) by (rewrite <- (y_len1 _ _ _ _ _ _ _ _ B), Ho; by rewrite fmap_length). rewrite El. by eapply lookup_lt_Some. }
    assert (Hp : c_threads c !! i = Some (Halt o)) by (by rewrite Ho, list_lookup_fmap, Hoi).
    destruct (both_halt c g xs i o B Hp) as (t' & x' & Ht' & Hx' & E1 & E2 & _ & E3). simplify_eq.
    split_and!; auto. destruct E3 as [(r & _ & ?)|(_ & _ & ?)]; eauto. }
  assert (Hxt : forall f, f = i_st \/ f = i_ct -> total f xs = length (inserts ts)).
  { intros f Hf. apply total_all. apply Forall2_same_length_lookup_2; [symmetry; apply B|]. intros i t x Ht Hx.
    destruct (Hh i t x Ht Hx) as (E1 & E2 & _). by destruct Hf as [-> | ->]. }
  assert (Hsz : table_size (c_sh c) = (table_size h0 + length (inserts ts))%nat) by (rewrite (y_size _ _ _ _ _ _ _ _ B); by rewrite Hxt by auto).
  assert (Hnb : nb_point (c_sh c) = (nb_point h0 + length (inserts ts))%nat) by (rewrite (y_nb _ _ _ _ _ _ _ _ B); by rewrite Hxt by auto).
  rewrite <- (y_sh _ _ _ _ _ _ _ _ B) in *.
  assert (Hq : forall f, (forall ph, f ph = true -> exists p, own ph = Some p) -> Forall2 (fun t ph => f ph = true -> inserting t = true) ts phs).
  { intros f Hf. apply Forall2_same_length_lookup_2; [symmetry; by eapply g_len1|]. intros i t ph Ht Hph Hst.
    destruct (Hf ph Hst) as [p Hp]. destruct (g_quiet _ _ _ _ _ G i t ph p Ht Hph Hp) as (v & id & dr & ->). done. }
  assert (Es : Forall2 (fun t ph => started ph = inserting t) ts phs).
  { apply count_all; [apply Hq; intros [] Hx; try done; simpl; eauto|]. pose proof (g_size _ _ _ _ _ G). lia. }
  assert (Ec : Forall2 (fun t ph => counted ph = inserting t) ts phs).
  { apply count_all; [apply Hq; intros [] Hx; try done; simpl; eauto|]. pose proof (g_nb _ _ _ _ _ G) as En. unfold nb0 in En. lia. }
  assert (He : Forall2 (ended (c_sh g)) ts phs).
  { apply Forall2_same_length_lookup_2; [symmetry; by eapply g_len1|]. intros i t ph Ht Hph.
    pose proof (g_ph _ _ _ _ _ G i t ph Ht Hph) as Hpo.
    pose proof (Forall2_lookup_lr _ _ _ _ _ _ Es Ht Hph) as E1. pose proof (Forall2_lookup_lr _ _ _ _ _ _ Ec Ht Hph) as E2.
    destruct t as [v id dr|q k e f| |]; simpl in *.
    - destruct ph as [|p|p|p]; try done; exists p; simpl; split_and!; auto; apply Hpo.
    - by destruct ph.
    - by destruct ph.
    - by destruct ph. }
  destruct (g_params _ _ _ _ _ G) as (P1' & P2' & _ & _ & P5 & _).
  split_and!; auto.
  - pose proof (g_inv _ _ _ _ _ G) as Hi. constructor.
    + apply Hi.
    + rewrite Hnb, Hsz. by rewrite (l_count _ _ Hwf).
    + destruct (entry_point (c_sh g)) as [ep|] eqn:Eep.
      { apply (v_pub _ _ _ _ _ Hi). by apply (v_entry _ _ _ _ _ Hi). }
      assert (Hr : forall i p, c_threads g !! i = Some p -> exists r, p = Halt (Ok r)).
      { intros i p Hp. pose proof (lookup_lt_Some _ _ _ Hp) as Hlt. rewrite (y_len2 _ _ _ _ _ _ _ _ B) in Hlt.
        destruct (lookup_lt_is_Some_2 ts i Hlt) as [t Ht].
        destruct (lookup_lt_is_Some_2 xs i) as [x Hx]; [by rewrite (y_len _ _ _ _ _ _ _ _ B)|].
        destruct (Hh i t x Ht Hx) as (_ & _ & [(r & Hr)|Hx']); [exists r; congruence|].
        exfalso. apply (y_e _ _ _ _ _ _ _ _ B i x Hx Hx'). by rewrite <- (y_sh _ _ _ _ _ _ _ _ B). }
      assert (Hf : exists rs, finished g rs).
      { unfold finished. clear -Hr. induction (c_threads g) as [|p ps IH]; [by exists []|].
        destruct (Hr 0%nat p eq_refl) as [r ->]. destruct IH as [rs ->]; [intros i; exact (Hr (S i))|]. by exists (r :: rs). }
      destruct Hf as [rs Hf]. pose proof (l_entry _ _ (glob_lwf dist h0 ts g phs rs Hwf G Hf)) as Hl. by rewrite Eep in Hl.
  - rewrite !stored_static. rewrite (glob_pids dist h0 ts g phs G), omap_app. rewrite <- (ended_stored _ _ _ He). f_equiv.
    match goal with |- ?a ≡ₚ ?b => replace a with b; [done|] end. apply list_omap_ext.
    apply Forall2_same_length_lookup_2; [done|]. intros i a b Ha Hb. rewrite Ha in Hb. injection Hb as <-.
    apply elem_of_list_lookup_2, elem_of_pids in Ha as [pt Hpt].
    assert (Hs : static h0 a = Some (pt_data pt, pt_oid pt, pt_pid pt)) by (unfold static; by rewrite Hpt).
    rewrite Hs. by rewrite (static_grows _ _ _ _ (g_grows _ _ _ _ _ G) Hs).
Qed.

Lemma after_c_lwf h outs : after_c d so h0 ts h outs ->
  lwf dist h /\ max_layer h = max_layer h0 /\ max_nb_connection h = max_nb_connection h0 /\
  ef_construction h = ef_construction h0 /\ stored h ≡ₚ stored h0 ++ inserts ts /\
  nb_point h = (nb_point h0 + length (inserts ts))%nat.
Proof using LAWS Hnn Hwf Hml Hok Hd.
  intros (c & Hc & Ho & <-). destruct (both_reach dist d so LAWS Hnn Hd h0 ts Hwf Hml Hok c Hc) as (g & xs & B). by eapply both_end.
Qed.
End End.
