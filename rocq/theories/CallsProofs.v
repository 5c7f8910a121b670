(** The programs of Calls.v: what they compute, whom they call, and how often. *)
From Verif Require Import Prelude Model Lib Table SearchProofs SelectProofs InsertProofs QueryProofs Calls.
Local Open Scope list_scope.

Section CallsProofs.
Context {T : Type} (dist : list T -> list T -> Z) (so : StdOps).
Implicit Types (h : hnsw (T:=T)) (p np ep : pid) (q data : list T).

(** a distance that always answers *)
Definition tot (a b : list T) : outcome Z := Ok (dist a b).

Lemma run_bind {A B} d (p : dprog (T:=T) A) (k : A -> dprog (T:=T) B) : run d (p ≫= k) = run d p ≫= (fun a => run d (k a)).
Proof.
  unfold mbind at 1, dprog_bind. induction p as [o|h a b q IH]; simpl; [by destruct o|].
  destruct (d a b); simpl; auto.
Qed.
Lemma run_done {A B} d (o : outcome A) (k : A -> dprog (T:=T) B) : run d (Done o ≫= k) = o ≫= (fun a => run d (k a)).
Proof. by rewrite run_bind. Qed.
Lemma run_eval {B} h a b (k : Z -> dprog (T:=T) B) : run tot (eval h a b ≫= k) = run tot (k (dist a b)).
Proof. done. Qed.

Lemma bind_ext {A B} (m : outcome A) (k k' : A -> outcome B) : (forall a, k a = k' a) -> m ≫= k = m ≫= k'.
Proof. intros H. destruct m; try done. apply H. Qed.

Lemma run_scan h q ef filter nbs s : run tot (scan_neighbours_d so h q ef filter nbs s) = scan_neighbours dist so h q ef filter nbs s.
Proof.
  revert s. induction nbs as [|e nbs IH]; intros s; [done|]. cbn [scan_neighbours_d scan_neighbours].
  destruct (bool_decide _); [apply IH|]. destruct (h_peek so (s_ret so s)); [|done]. rewrite run_done. apply bind_ext. intros ept.
  rewrite run_eval. cbn zeta. destruct (_ || _); [|apply IH]. rewrite run_done. apply bind_ext. intros ret. apply IH.
Qed.
Lemma run_iter h q ef layer filter s : run tot (search_iter_d so h q ef layer filter s) = search_iter dist so h q ef layer filter s.
Proof.
  unfold search_iter_d, search_iter. destruct (h_pop so (s_cand so s)) as [[c cand']|]; [|done].
  rewrite run_done. apply bind_ext. intros f. rewrite run_done. apply bind_ext. intros _. rewrite run_done. apply bind_ext. intros _.
  destruct (_ && _); [done|]. rewrite run_done. apply bind_ext. intros cpt. rewrite run_done. apply bind_ext. intros nbs.
  rewrite run_bind, run_scan. apply bind_ext. by intros [stop s'].
Qed.
Lemma run_loop fuel h q ef layer filter s : run tot (search_loop_d so fuel h q ef layer filter s) = search_loop dist so fuel h q ef layer filter s.
Proof.
  revert s. induction fuel as [|fuel IH]; intros s; [done|]. cbn [search_loop_d search_loop].
  rewrite run_bind, run_iter. apply bind_ext. intros [ret|s']; [done|apply IH].
Qed.
Lemma run_init h q ep : run tot (search_init_d so h q ep) = search_init dist so h q ep.
Proof. unfold search_init_d, search_init. rewrite run_done. by apply bind_ext. Qed.
Lemma run_layer h q ep ef layer filter : run tot (search_layer_d so h q ep ef layer filter) = search_layer dist so h q ep ef layer filter.
Proof.
  unfold search_layer_d, search_layer. destruct (points_by_layer h !! layer) as [[|p0 ly]|]; [done| |done].
  rewrite run_bind, run_init. apply bind_ext. intros s. apply run_loop.
Qed.
Lemma run_push_candidates h data ps cand : run tot (push_candidates_d so h data ps cand) = push_candidates dist so h data ps cand.
Proof.
  revert cand. induction ps as [|p ps IH]; intros cand; [done|]. cbn [push_candidates_d push_candidates].
  rewrite run_done. apply bind_ext. intros pt. rewrite run_eval. apply IH.
Qed.
Lemma run_extend h data layer cand : run tot (extend_cands_d so h data layer cand) = extend_cands dist so h data layer cand.
Proof. unfold extend_cands_d, extend_cands. rewrite run_done. apply bind_ext. intros news. apply run_push_candidates. Qed.
Lemma run_dominated h ev bound nv : run tot (dominated_d h ev bound nv) = dominated dist h ev bound nv.
Proof.
  induction nv as [|d nv IH]; [done|]. cbn [dominated_d dominated]. rewrite run_done. apply bind_ext. intros dpt. rewrite run_eval.
  by destruct (_ <=? _)%Z.
Qed.
Lemma run_select_loop fuel h asked keep cand nv disc :
  run tot (select_loop_d so fuel h asked keep cand nv disc) = select_loop dist so fuel h asked keep cand nv disc.
Proof.
  revert cand nv disc. induction fuel as [|fuel IH]; intros cand nv disc; cbn [select_loop_d select_loop].
  - destruct (_ <? _)%nat; [|done]. by destruct (h_pop so cand) as [[e cand']|].
  - destruct (_ <? _)%nat; [|done]. destruct (h_pop so cand) as [[e cand']|]; [|done].
    rewrite run_done. apply bind_ext. intros ept. rewrite run_done. apply bind_ext. intros _.
    rewrite run_bind, run_dominated. apply bind_ext. intros [|]; apply IH.
Qed.
Lemma run_select h data cand asked extend layer keep :
  run tot (select_neighbours_d so h data cand asked extend layer keep) = select_neighbours dist so h data cand asked extend layer keep.
Proof.
  unfold select_neighbours_d, select_neighbours. destruct (_ && _); [done|]. rewrite run_bind.
  replace (run tot (if (h_len so cand <=? asked)%nat then extend_cands_d so h data layer cand else Done (Ok cand)))
    with (if (h_len so cand <=? asked)%nat then extend_cands dist so h data layer cand else Ok cand).
  2: { destruct (_ <=? _)%nat; [|done]. by rewrite run_extend. }
  apply bind_ext. intros cand1. rewrite run_bind, run_select_loop. apply bind_ext. intros [nv disc]. by destruct keep.
Qed.
Lemma run_descend_use h np data l sorted ep dte :
  run tot (descend_use_d so h np data l sorted ep dte) = descend_use dist so h np data l sorted ep dte.
Proof.
  unfold descend_use_d, descend_use. destruct (_ <? _)%nat; [done|]. destruct (h_pop so sorted) as [[e r]|]; [|done].
  rewrite run_done. apply bind_ext. intros h1. rewrite run_done. apply bind_ext. intros ept. rewrite run_eval. cbn zeta.
  by destruct (_ <? _)%Z.
Qed.
Lemma run_descend ls h np data ep dte : run tot (descend_d so ls h np data ep dte) = descend dist so ls h np data ep dte.
Proof.
  revert h ep dte. induction ls as [|l ls IH]; intros h ep dte; [done|]. cbn [descend_d descend].
  rewrite run_bind, run_layer. apply bind_ext. intros sorted. rewrite run_bind, run_descend_use. apply bind_ext. intros [[h1 ep1] dte1]. apply IH.
Qed.
Lemma run_connect_use h np data l found ep : run tot (connect_use_d so h np data l found ep) = connect_use dist so h np data l found ep.
Proof.
  unfold connect_use_d, connect_use. rewrite run_done. apply bind_ext. intros neg. destruct (_ =? _)%nat; [done|].
  rewrite run_bind, run_select. apply bind_ext. intros nv. cbn zeta. rewrite run_done. by apply bind_ext.
Qed.
Lemma run_connect ls h np data ep : run tot (connect_d so ls h np data ep) = connect dist so ls h np data ep.
Proof.
  revert h ep. induction ls as [|l ls IH]; intros h ep; [done|]. cbn [connect_d connect].
  rewrite run_bind, run_layer. apply bind_ext. intros found. rewrite run_bind, run_connect_use. apply bind_ext. intros [h1 ep1]. apply IH.
Qed.
Lemma run_insert h data oid dr : run tot (insert_slice_d so h data oid dr) = insert_slice dist so h data oid dr.
Proof.
  unfold insert_slice_d, insert_slice. rewrite run_done. apply bind_ext. intros [[h0 np] rank]. destruct (entry_point h0) as [ep|]; [|done].
  destruct (_ =? _)%nat; [done|]. rewrite run_done. apply bind_ext. intros ept. cbn zeta. rewrite run_eval, run_bind, run_descend.
  apply bind_ext. intros [h1 ep1]. rewrite run_bind, run_connect. apply bind_ext. intros h2. rewrite run_done. by apply bind_ext.
Qed.
Lemma pivot_scan_stuck h data nbs (o : outcome (pid * Z)) : (forall x, o <> Ok x) ->
  foldl (fun acc n => '(pv, d) ← acc; npt ← unwrap (get_pt h (n_pid n));
           let tmp := dist data (pt_data npt) in Ok (if (tmp <? d)%Z then (n_pid n, tmp) else (pv, d))) o nbs = o.
Proof. intros H. induction nbs as [|n nbs IH]; [done|]. simpl. destruct o; try done. by destruct (H a). Qed.
Lemma run_pivot_scan h data nbs pv d : run tot (pivot_scan_d h data nbs pv d) = pivot_scan dist h data nbs pv d.
Proof.
  unfold pivot_scan. revert pv d. induction nbs as [|n nbs IH]; intros pv d; [done|]. cbn [pivot_scan_d foldl]. rewrite run_done, bind_Ok.
  destruct (unwrap (get_pt h (n_pid n))) as [npt| | | | |] eqn:E; cbn [mbind outcome_bind]; try (by rewrite pivot_scan_stuck).
  change (mbind ?k (Ok npt)) with (k npt). rewrite run_eval. cbn zeta. destruct (_ <? _)%Z; apply IH.
Qed.
Lemma run_pivot_descend ls h data pv d : run tot (pivot_descend_d ls h data pv d) = pivot_descend dist ls h data pv d.
Proof.
  revert pv d. induction ls as [|l ls IH]; intros pv d; [done|]. cbn [pivot_descend_d pivot_descend].
  rewrite run_done. apply bind_ext. intros pt. rewrite run_done. apply bind_ext. intros nbs.
  rewrite run_bind, run_pivot_scan. apply bind_ext. intros [pv' d']. apply IH.
Qed.
Lemma run_find_pivot h data ep : run tot (find_pivot_d h data ep) = find_pivot dist h data ep.
Proof. unfold find_pivot_d, find_pivot. rewrite run_done. apply bind_ext. intros ept. rewrite run_eval. apply run_pivot_descend. Qed.
Lemma run_search h data k efa filter : run tot (search_filter_d so h data k efa filter) = search_filter dist so h data k efa filter.
Proof.
  unfold search_filter_d, search_filter. destruct (entry_point h) as [ep|]; [|done]. rewrite run_bind, run_find_pivot. apply bind_ext. intros pv.
  cbn zeta. rewrite run_done. apply bind_ext. intros l. rewrite run_bind, run_layer. by apply bind_ext.
Qed.

(** ** Whom the programs call *)
Fixpoint safe {A} (P : hnsw (T:=T) -> list T -> list T -> Prop) (p : dprog (T:=T) A) : Prop :=
  match p with
  | Done _ => True
  | Ask h a b k => P h a b /\ safe P (k (dist a b))
  end.
Lemma safe_bind {A B} P (p : dprog (T:=T) A) (k : A -> dprog (T:=T) B) :
  safe P p -> (forall a, run tot p = Ok a -> safe P (k a)) -> safe P (p ≫= k).
Proof.
  unfold mbind, dprog_bind. induction p as [o|h a b q IH]; simpl.
  - intros _ H. destruct o; try done. by apply H.
  - intros [H1 H2] H. split; [done|]. apply IH; [done|]. intros x Hx. apply H. done.
Qed.
Lemma safe_done {A B} P (o : outcome A) (k : A -> dprog (T:=T) B) :
  (forall a, o = Ok a -> safe P (k a)) -> safe P (Done o ≫= k).
Proof. intros H. by apply safe_bind. Qed.
Lemma safe_eval {B} (P : hnsw (T:=T) -> list T -> list T -> Prop) h a b (k : Z -> dprog (T:=T) B) :
  P h a b -> safe P (k (dist a b)) -> safe P (eval h a b ≫= k).
Proof. by split. Qed.
Lemma safe_mono {A} (P Q : hnsw (T:=T) -> list T -> list T -> Prop) (p : dprog (T:=T) A) :
  (forall h a b, P h a b -> Q h a b) -> safe P p -> safe Q p.
Proof. intros H. induction p as [o|h a b q IH]; simpl; [done|]. intros [H1 H2]. auto. Qed.
Lemma safe_calls {A} P (p : dprog (T:=T) A) : safe P p -> forall a b, (a, b) ∈ calls dist p -> exists h, P h a b.
Proof.
  induction p as [o|h x y q IH]; simpl; [by intros _ a b ?%elem_of_nil|]. intros [H1 H2] a b [[= -> ->]|Hin]%elem_of_cons; eauto.
Qed.
(** the distance matters only where it is called *)
Lemma safe_agree {A} P d (p : dprog (T:=T) A) : safe P p -> (forall h a b, P h a b -> d a b = Ok (dist a b)) -> run d p = run tot p /\ left_at d p = None.
Proof.
  intros Hs Hd. induction p as [o|h a b q IH]; simpl in *; [done|]. destruct Hs as [H1 H2]. rewrite (Hd _ _ _ H1). simpl. by apply IH.
Qed.
Lemma safe_left {A} P d (p : dprog (T:=T) A) h : safe P p -> (forall a b z, d a b = Ok z -> z = dist a b) -> left_at d p = Some h ->
  exists a b, P h a b /\ forall z, d a b <> Ok z.
Proof.
  intros Hs Hd. induction p as [o|h0 a b q IH]; simpl in *; [done|]. destruct Hs as [H1 H2].
  destruct (d a b) as [z| | | | |] eqn:E; try (intros [= <-]; exists a, b; split; [done|]; rewrite E; done).
  rewrite (Hd _ _ _ E). by apply IH.
Qed.

Lemma run_left {A} d (p : dprog (T:=T) A) : (forall a b z, d a b = Ok z -> z = dist a b) -> left_at d p = None -> run d p = run tot p.
Proof.
  intros Hd. induction p as [o|h0 a b q IH]; simpl; [done|]. destruct (d a b) as [z| | | | |] eqn:E; try done.
  rewrite (Hd _ _ _ E). apply IH.
Qed.
Lemma calls_bind {A B} (p : dprog (T:=T) A) (k : A -> dprog (T:=T) B) :
  calls dist (p ≫= k) = calls dist p ++ match run tot p with Ok a => calls dist (k a) | _ => [] end.
Proof.
  unfold mbind, dprog_bind. induction p as [o|h a b q IH]; simpl; [by destruct o|]. rewrite IH. done.
Qed.
Lemma calls_done {A B} (o : outcome A) (k : A -> dprog (T:=T) B) :
  calls dist (Done o ≫= k) = match o with Ok a => calls dist (k a) | _ => [] end.
Proof. by rewrite calls_bind. Qed.
Lemma calls_eval {B} h a b (k : Z -> dprog (T:=T) B) : calls dist (eval h a b ≫= k) = (a, b) :: calls dist (k (dist a b)).
Proof. done. Qed.

Context (LAWS : StdLaws so) (Hnn : forall a b, (0 <= dist a b)%Z).

Section Layer.
Context (h : hnsw (T:=T)) (q : list T) (Sset : pid -> Prop) (P : hnsw (T:=T) -> list T -> list T -> Prop).
Hypothesis (HP : forall p pt, Sset p -> get_pt h p = Some pt -> P h q (pt_data pt)).

Lemma safe_scan ef filter nbs s : (forall n, n ∈ nbs -> Sset (n_pid n)) -> safe P (scan_neighbours_d so h q ef filter nbs s).
Proof using HP.
  revert s. induction nbs as [|e nbs IH]; intros s Hn; [done|]. cbn [scan_neighbours_d].
  assert (Hn' : forall n, n ∈ nbs -> Sset (n_pid n)) by (intros n Hin; apply Hn; by right).
  destruct (bool_decide _); [by apply IH|]. destruct (h_peek so (s_ret so s)); [|done].
  apply safe_done. intros ept Ept%unwrap_inv. apply safe_eval; [eapply HP; [|exact Ept]; apply Hn; left|].
  destruct (_ || _); [|by apply IH]. apply safe_done. intros ret _. by apply IH.
Qed.
Lemma count_scan ef filter nbs s st s' : scan_neighbours dist so h q ef filter nbs s = Ok (st, s') ->
  (length (calls dist (scan_neighbours_d so h q ef filter nbs s)) + length (s_vis so s) <= length (s_vis so s'))%nat.
Proof using Type.
  clear HP P Sset Hnn LAWS. revert s. induction nbs as [|e nbs IH]; intros s; cbn [scan_neighbours scan_neighbours_d]; [intros [= <- <-]; simpl; lia|].
  destruct (bool_decide _); [apply IH|]. destruct (h_peek so (s_ret so s)); [|intros [= <- <-]; simpl; lia].
  intros (ept & Ept & H)%bind_inv. rewrite calls_done, Ept, calls_eval. cbn zeta in H. destruct (_ || _).
  - apply bind_inv in H as (ret & Er & H). rewrite calls_done, Er. apply IH in H. cbn [s_vis length] in *. lia.
  - apply IH in H. cbn [s_vis length] in *. lia.
Qed.

Context (ef layer : nat) (filter : option (dataid -> bool)) (ep : pid) (d0 : Z).
Hypothesis Hef : filter = None \/ (1 <= ef)%nat.
Hypothesis Hlinks : links_ok h layer Sset.
Local Notation sinv := (sinv dist so h q ef filter Sset ep d0).

Lemma safe_iter s : sinv s -> safe P (search_iter_d so h q ef layer filter s).
Proof using HP LAWS Hlinks.
  intros Hi. unfold search_iter_d. destruct (h_pop so (s_cand so s)) as [[c cand']|] eqn:Epop; [|done].
  destruct (pop_inv dist so LAWS h q ef filter Sset ep d0 s c cand' Hi Epop) as (Hi1 & _ & Hcvis).
  apply safe_done. intros f _. apply safe_done. intros _ _. apply safe_done. intros _ _. destruct (_ && _); [done|].
  apply safe_done. intros cpt Hc%unwrap_inv. apply safe_done. intros nbs Hn%unwrap_inv.
  destruct (Hlinks (n_pid c) cpt) as (nbs' & Hnbs & Hin); [by eapply elt_in_S|done|]. rewrite Hn in Hnbs. injection Hnbs as <-.
  apply safe_bind; [|by intros [st s'] _]. apply safe_scan. intros n Hn'. by apply Hin.
Qed.
Lemma count_iter s : sinv s ->
  match search_iter dist so h q ef layer filter s with
  | Ok (inl _) => length (calls dist (search_iter_d so h q ef layer filter s)) = 0%nat
  | Ok (inr s') => (length (calls dist (search_iter_d so h q ef layer filter s)) + length (s_vis so s) <= length (s_vis so s'))%nat
  | _ => True
  end.
Proof using LAWS Hnn Hlinks Hef.
  clear HP P.
  intros Hi. unfold search_iter_d, search_iter. destruct (h_pop so (s_cand so s)) as [[c cand']|] eqn:Epop; [|done].
  destruct (pop_inv dist so LAWS h q ef filter Sset ep d0 s c cand' Hi Epop) as (Hi1 & _ & Hcvis).
  rewrite calls_done. destruct (unwrap (h_peek so (s_ret so s))); try done. rewrite bind_Ok.
  rewrite calls_done. destruct (assert_ (0 <=? _)%Z); try done. rewrite bind_Ok.
  rewrite calls_done. destruct (assert_ (_ <=? 0)%Z); try done. rewrite bind_Ok.
  destruct (_ && _); [done|]. rewrite calls_done. destruct (unwrap (get_pt h (n_pid c))) as [cpt| | | | |] eqn:Hc; try done. rewrite bind_Ok.
  rewrite calls_done. destruct (unwrap (pt_nbs cpt !! layer)) as [nbs| | | | |] eqn:Hn; try done. rewrite bind_Ok.
  apply unwrap_inv in Hc, Hn.
  destruct (Hlinks (n_pid c) cpt) as (nbs' & Hnbs & Hin); [by eapply elt_in_S|done|]. rewrite Hn in Hnbs. injection Hnbs as <-.
  destruct (scan_inv dist so LAWS Hnn h q ef filter Sset ep d0 Hef nbs _ Hi1 Hin) as (s' & Hs & _). rewrite Hs, bind_Ok.
  pose proof (count_scan _ _ _ _ _ _ Hs) as Hct. rewrite calls_bind, run_scan, Hs. cbn [calls]. rewrite app_nil_r. exact Hct.
Qed.
Lemma safe_loop fuel s : sinv s -> safe P (search_loop_d so fuel h q ef layer filter s).
Proof using HP LAWS Hnn Hlinks Hef.
  revert s. induction fuel as [|fuel IH]; intros s Hi; [done|]. cbn [search_loop_d]. apply safe_bind; [by apply safe_iter|].
  intros r Hr. rewrite run_iter in Hr. destruct (search_iter_inv dist so LAWS Hnn h q ef layer filter Sset ep d0 Hef Hlinks s Hi) as [E|(s' & E & Hi' & _)];
    rewrite E in Hr; injection Hr as <-; [done|by apply IH].
Qed.
Lemma count_loop fuel s : sinv s -> (length (calls dist (search_loop_d so fuel h q ef layer filter s)) + length (s_vis so s) <= table_size h)%nat.
Proof using LAWS Hnn Hlinks Hef.
  clear HP P.
  revert s. induction fuel as [|fuel IH]; intros s Hi; [exact (vis_bound dist so h q ef filter Sset ep d0 s Hi)|]. cbn [search_loop_d].
  rewrite calls_bind, run_iter, app_length. pose proof (count_iter s Hi) as Hct.
  destruct (search_iter_inv dist so LAWS Hnn h q ef layer filter Sset ep d0 Hef Hlinks s Hi) as [E|(s' & E & Hi' & _)]; rewrite E in Hct |- *.
  - pose proof (vis_bound dist so h q ef filter Sset ep d0 s Hi). simpl. lia.
  - specialize (IH s' Hi'). lia.
Qed.
End Layer.

Lemma safe_layer h q (Sset : pid -> Prop) (P : hnsw (T:=T) -> list T -> list T -> Prop) (epx : pid) ef layer (filter : option (dataid -> bool)) :
  (forall p pt, Sset p -> get_pt h p = Some pt -> P h q (pt_data pt)) ->
  filter = None \/ (1 <= ef)%nat -> links_ok h layer Sset -> Sset epx ->
  safe P (search_layer_d so h q epx ef layer filter) /\ (length (calls dist (search_layer_d so h q epx ef layer filter)) <= table_size h)%nat.
Proof using LAWS Hnn.
  intros HP Hef Hl HS. unfold search_layer_d. destruct (points_by_layer h !! layer) as [[|p0 ly]|]; [split; [done|simpl; lia]| |split; [done|simpl; lia]].
  split.
  - apply safe_bind.
    + unfold search_init_d. apply safe_done. intros ept Hept%unwrap_inv. apply safe_eval; [eauto|done].
    + intros s Hs. rewrite run_init in Hs. assert (exists ept, get_pt h epx = Some ept) as [ept Hept].
      { unfold search_init in Hs. apply bind_inv in Hs as (ept & Hept%unwrap_inv & _). eauto. }
      destruct (search_init_inv dist so LAWS Hnn h q ef filter Sset epx ept Hept HS) as (s0 & E & Hi & _). rewrite Hs in E. injection E as <-.
      by eapply safe_loop.
  - rewrite calls_bind, run_init, app_length. unfold search_init_d. rewrite calls_done.
    destruct (unwrap (get_pt h epx)) as [ept| | | | |] eqn:Hept; try (unfold search_init; rewrite Hept; simpl; lia).
    apply unwrap_inv in Hept.
    destruct (search_init_inv dist so LAWS Hnn h q ef filter Sset epx ept Hept HS) as (s0 & E & Hi & _ & Hv & _). rewrite E, calls_eval. cbn [length calls].
    pose proof (count_loop h q Sset ef layer filter epx _ Hef Hl (S (table_size h)) s0 Hi) as Hct. rewrite Hv in Hct. cbn [length] in Hct. lia.
Qed.

(** ** A search *)
Definition on_stored h q : hnsw (T:=T) -> list T -> list T -> Prop := fun h' a b => h' = h /\ a = q /\ exists p pt, get_pt h p = Some pt /\ b = pt_data pt.
Lemma on_stored_ok h q p pt : True -> get_pt h p = Some pt -> on_stored h q h q (pt_data pt).
Proof. intros _ Hp. split_and!; eauto. Qed.

Lemma safe_pivot_scan h q nbs pv d : safe (on_stored h q) (pivot_scan_d h q nbs pv d) /\ (length (calls dist (pivot_scan_d h q nbs pv d)) <= length nbs)%nat.
Proof.
  revert pv d. induction nbs as [|n nbs IH]; intros pv d; [split; [done|simpl; lia]|]. cbn [pivot_scan_d]. split.
  - apply safe_done. intros npt Hn%unwrap_inv. apply safe_eval; [by eapply on_stored_ok|]. destruct (_ <? _)%Z; apply IH.
  - rewrite calls_done. destruct (unwrap (get_pt h (n_pid n))) as [npt| | | | |]; try (simpl; lia). rewrite calls_eval. cbn [length].
    destruct (_ <? _)%Z; [destruct (IH (n_pid n) (dist q (pt_data npt)))|destruct (IH pv d)]; lia.
Qed.
Lemma safe_pivot_descend ls h q pv d : core dist h -> (forall l, l ∈ ls -> (1 <= l)%nat) ->
  safe (on_stored h q) (pivot_descend_d ls h q pv d) /\ (length (calls dist (pivot_descend_d ls h q pv d)) <= max_nb_connection h * length ls)%nat.
Proof.
  intros Hc. revert pv d. induction ls as [|l ls IH]; intros pv d Hl; [split; [done|simpl; lia]|]. cbn [pivot_descend_d].
  assert (Hl' : forall l, l ∈ ls -> (1 <= l)%nat) by (intros l' ?; apply Hl; by right). split.
  - apply safe_done. intros pt Hpt. apply safe_done. intros nbs Hn. apply safe_bind; [apply safe_pivot_scan|].
    intros [pv' d'] _. by apply IH.
  - rewrite calls_done. destruct (unwrap (get_pt h pv)) as [pt| | | | |] eqn:Hpt; try (simpl; lia).
    rewrite calls_done. destruct (unwrap (pt_nbs pt !! l)) as [nbs| | | | |] eqn:Hn; try (simpl; lia).
    apply unwrap_inv in Hpt, Hn. destruct (c_lists _ _ Hc _ _ _ _ Hpt Hn) as [_ _ _ _ Hcap].
    unfold nb_conn in Hcap. destruct (Nat.eqb_spec l 0) as [->|_]; [specialize (Hl 0%nat ltac:(left)); lia|].
    rewrite calls_bind, app_length. destruct (safe_pivot_scan h q nbs pv d) as [_ H1].
    destruct (run tot (pivot_scan_d h q nbs pv d)) as [[pv' d']| | | | |]; simpl; try lia.
    destruct (IH pv' d' Hl') as [_ H2]. lia.
Qed.
Lemma search_calls h q k efa filter ep : lwf dist h -> entry_point h = Some ep -> (filter = None \/ 1 <= Nat.max efa k)%nat ->
  safe (on_stored h q) (search_filter_d so h q k efa filter) /\
  (length (calls dist (search_filter_d so h q k efa filter)) <= 1 + max_nb_connection h * ep.1 + table_size h)%nat.
Proof using LAWS Hnn.
  intros Hwf Hep Hef. pose proof (l_core _ _ Hwf) as Hc. pose proof (l_entry _ _ Hwf) as Hv. rewrite Hep in Hv. pose proof Hv as [ept Hept].
  destruct (search_filter_run dist so LAWS Hnn h q k efa filter ep Hwf Hep Hef) as
    (pv & pvt & ept' & l & ly & hp & res & E1 & E2 & _ & E3 & E4 & E5 & E6 & E7 & E8 & _).
  assert (El : layer_to_search h = Ok l).
  { destruct (layer_to_search_spec h ep Hv) as (l' & ly' & -> & Hly' & Hne' & _ & Hlow). f_equal.
    destruct (Nat.lt_trichotomy l l') as [Hlt|[->|Hlt]]; [|done|].
    - rewrite Hlow in E3 by done. congruence.
    - rewrite E6 in Hly' by done. congruence. }
  destruct (safe_layer h q (fun _ => True) (on_stored h q) pv (Nat.max efa k) l filter (on_stored_ok h q) Hef (core_links dist h l Hc E5) I) as [S1 S2].
  assert (Hls : forall l, l ∈ rev (seq 1 ep.1) -> (1 <= l)%nat).
  { intros l' Hl'. apply elem_of_list_In, in_rev, in_seq in Hl'. lia. }
  destruct (safe_pivot_descend (rev (seq 1 ep.1)) h q ep (dist q (pt_data ept)) Hc Hls) as [S3 S4].
  rewrite rev_length, seq_length in S4.
  unfold search_filter_d. rewrite Hep. split.
  - apply safe_bind.
    + unfold find_pivot_d. apply safe_done. intros pt Hpt%unwrap_inv. rewrite Hept in Hpt. injection Hpt as <-.
      apply safe_eval; [by eapply on_stored_ok|done].
    + intros pv' Hpv'. rewrite run_find_pivot, E7 in Hpv'. injection Hpv' as <-. cbn zeta. apply safe_done. intros l' Hl'.
      rewrite El in Hl'. injection Hl' as <-. apply safe_bind; [done|]. by intros hp' _.
  - rewrite calls_bind, run_find_pivot, E7, app_length. unfold find_pivot_d. rewrite calls_done, Hept. cbn [unwrap]. rewrite calls_eval. cbn [length].
    cbn zeta. rewrite calls_done, El, calls_bind, run_layer, E8. cbn [calls]. rewrite app_nil_r. lia.
Qed.

(** ** An insertion *)
Section Select.
Context (h : hnsw (T:=T)) (q : list T) (Sset : pid -> Prop) (P : hnsw (T:=T) -> list T -> list T -> Prop).
Hypothesis (HP : forall p pt, Sset p -> get_pt h p = Some pt -> P h q (pt_data pt)).
Hypothesis (HP2 : forall p pt p' pt', Sset p -> get_pt h p = Some pt -> Sset p' -> get_pt h p' = Some pt' -> P h (pt_data pt) (pt_data pt')).

Lemma safe_push_candidates ps cand : Forall Sset ps -> safe P (push_candidates_d so h q ps cand).
Proof using HP.
  intros Hf. revert cand. induction Hf as [|p ps Hp Hf IH]; intros cand; [done|]. cbn [push_candidates_d].
  apply safe_done. intros pt Hpt%unwrap_inv. apply safe_eval; [eauto|]. apply IH.
Qed.
Lemma count_push_candidates ps cand : (length (calls dist (push_candidates_d so h q ps cand)) <= length ps)%nat.
Proof using Type.
  clear HP HP2 P Hnn LAWS Sset. revert cand. induction ps as [|p ps IH]; intros cand; [done|]. cbn [push_candidates_d]. rewrite calls_done.
  destruct (unwrap (get_pt h p)) as [pt| | | | |]; try (simpl; lia). rewrite calls_eval. cbn [length].
  specialize (IH (h_push so (Nbr p (- dist q (pt_data pt))) cand)). lia.
Qed.
Lemma safe_extend layer cand : links_ok h layer Sset -> cands_good dist h q Sset (h_iter so cand) ->
  safe P (extend_cands_d so h q layer cand) /\ (length (calls dist (extend_cands_d so h q layer cand)) <= table_size h)%nat.
Proof using HP LAWS Hnn.
  intros Hl (Hc & Hnd & HS). unfold extend_cands_d. set (cset := remove_dups (n_pid <$> h_iter so cand)).
  assert (Hcs : Forall (fun p => valid h p /\ Sset p) cset).
  { rewrite Forall_forall. intros p Hp. unfold cset in Hp.
    apply elem_of_remove_dups, elem_of_list_fmap in Hp as (n & -> & Hn).
    rewrite Forall_forall in Hc, HS. destruct (Hc n Hn) as (pt & Hpt & _). split; [by exists pt|auto]. }
  destruct (collect_spec h Sset layer cset (m_iter so pid cset) []) as (news & E & Hnd' & Hd & Hv); auto.
  { by rewrite (law_miter _ LAWS). }
  { constructor. }
  { by intros p ?%elem_of_nil. }
  split.
  - apply safe_done. intros news' E'. rewrite E in E'. injection E' as <-. apply safe_push_candidates. rewrite (law_miter _ LAWS).
    eapply Forall_impl; [exact Hv|]. by intros ? [_ ?].
  - rewrite calls_done, E. etransitivity; [apply count_push_candidates|]. rewrite (law_miter _ LAWS).
    apply valid_count; [done|]. eapply Forall_impl; [exact Hv|]. by intros ? [? _].
Qed.
Lemma safe_dominated p pt bound nv : Sset p -> get_pt h p = Some pt -> Forall (fun n => Sset (n_pid n)) nv ->
  safe P (dominated_d h (pt_data pt) bound nv) /\ (length (calls dist (dominated_d h (pt_data pt) bound nv)) <= length nv)%nat.
Proof using HP2.
  clear HP LAWS Hnn so q.
  intros HS Hp Hf. induction Hf as [|n nv Hn Hf IH]; [split; [done|simpl; lia]|]. destruct IH as [I1 I2]. cbn [dominated_d]. split.
  - apply safe_done. intros dpt Hdpt%unwrap_inv. apply safe_eval; [eauto|]. by destruct (_ <=? _)%Z.
  - rewrite calls_done. destruct (unwrap (get_pt h (n_pid n))) as [dpt| | | | |]; try (simpl; lia). rewrite calls_eval. cbn [length].
    destruct (_ <=? _)%Z; [simpl; lia|lia].
Qed.
Lemma safe_select_loop fuel asked keep cand nv disc :
  sel_good dist h q Sset nv (h_iter so cand) (h_iter so disc) -> (length nv <= asked)%nat ->
  safe P (select_loop_d so fuel h asked keep cand nv disc) /\
  (length (calls dist (select_loop_d so fuel h asked keep cand nv disc)) <= h_len so cand * asked)%nat.
Proof using HP2 LAWS Hnn.
  clear HP.
  revert cand nv disc. induction fuel as [|fuel IH]; intros cand nv disc Hg Hlen; cbn [select_loop_d].
  - destruct (_ <? _)%nat; [|split; [done|simpl; lia]]. destruct (h_pop so cand) as [[e cand']|]; (split; [done|simpl; lia]).
  - destruct (Nat.ltb_spec (length nv) asked) as [El|El]; [|split; [done|simpl; lia]].
    destruct (h_pop so cand) as [[e cand']|] eqn:E; [|split; [done|simpl; lia]].
    destruct (law_pop_some _ LAWS _ _ _ E) as [Hp _].
    apply (sel_good_perm dist h q Sset nv nv _ _ (h_iter so disc) (h_iter so disc)) in Hp as Hg'; try done.
    pose proof Hg' as (Hnv & Hc & _ & _ & HSall). inversion Hc as [|? ? (pt & Hpt & Hd) _]; subst.
    apply Forall_app in HSall as [HSnv HSe]. simpl in HSe. inversion HSe as [|? ? HSe' _]; subst.
    rewrite (h_len_pop so LAWS _ _ _ E). destruct (safe_dominated (n_pid e) pt (- n_dist e) nv HSe' Hpt HSnv) as [D1 D2].
    assert (IH1 : forall disc', disc' = (if keep then h_push so (Nbr (n_pid e) (n_dist e)) disc else disc) ->
      safe P (select_loop_d so fuel h asked keep cand' nv disc') /\
      (length (calls dist (select_loop_d so fuel h asked keep cand' nv disc')) <= h_len so cand' * asked)%nat).
    { intros disc' ->. apply IH; auto. destruct keep.
      - eapply sel_good_perm; [done|done| |by apply sel_move_disc]. rewrite (law_push _ LAWS). by destruct e.
      - by eapply sel_drop. }
    destruct (IH1 _ eq_refl) as [I1 I2].
    destruct (IH cand' (nv ++ [negn e]) disc) as [I3 I4]; [by apply sel_move_nv|rewrite app_length; simpl; lia|].
    split.
    + apply safe_done. intros ept Hept%unwrap_inv. rewrite Hpt in Hept. injection Hept as <-. apply safe_done. intros _ _.
      apply safe_bind; [done|]. by intros [|] _.
    + rewrite calls_done, Hpt. cbn [unwrap]. rewrite calls_done. destruct (assert_ _); try (simpl; lia).
      rewrite calls_bind, app_length. destruct (run tot (dominated_d h (pt_data pt) (- n_dist e) nv)) as [[|]| | | | |]; cbn [length]; try lia.
      unfold negn in I4. lia.
Qed.
Lemma cands_count l : cands_good dist h q Sset l -> (length l <= table_size h)%nat.
Proof using Type.
  clear HP HP2. intros (H1 & H2 & _). rewrite <- (fmap_length n_pid l). apply valid_count; [done|]. apply Forall_fmap. eapply Forall_impl; [exact H1|].
  intros n (pt & Hpt & _). by exists pt.
Qed.
Lemma safe_select cand asked extend layer keep : links_ok h layer Sset -> cands_good dist h q Sset (h_iter so cand) ->
  safe P (select_neighbours_d so h q cand asked extend layer keep) /\
  (length (calls dist (select_neighbours_d so h q cand asked extend layer keep)) <= table_size h + table_size h * asked)%nat.
Proof using HP HP2 LAWS Hnn.
  intros Hl Hc. unfold select_neighbours_d. destruct (_ && _); [split; [done|simpl; lia]|].
  assert (Hcont : forall cand1, cands_good dist h q Sset (h_iter so cand1) ->
    let p := '(nv, disc) ← select_loop_d so (h_len so cand1) h asked keep cand1 [] (h_empty so);
      (if keep then Done (keep_loop so (h_len so disc) asked nv disc) else Done (Ok nv)) in
    safe P p /\ (length (calls dist p) <= table_size h * asked)%nat).
  { intros cand1 Hc1. pose proof (cands_count _ Hc1) as Hn. destruct Hc1 as (H1 & H2 & H3).
    destruct (safe_select_loop (h_len so cand1) asked keep cand1 [] (h_empty so)) as [S1 S2]; [|simpl; lia|].
    { rewrite (law_iter_empty _ LAWS). unfold sel_good. simpl. rewrite !app_nil_r. split_and!; auto. }
    cbn zeta. split.
    - apply safe_bind; [done|]. intros [nv disc] _. by destruct keep.
    - rewrite calls_bind, app_length. destruct (run tot _) as [[nv disc]| | | | |]; cbn [length]; try destruct keep; cbn [length calls]; unfold h_len in *; nia. }
  destruct (h_len so cand <=? asked)%nat.
  - destruct (safe_extend layer cand Hl Hc) as [S1 S2].
    destruct (extend_spec dist so LAWS h q Sset layer cand Hl Hc) as (cand1 & E1 & Hc1). destruct (Hcont cand1 Hc1) as [S3 S4]. split.
    + apply safe_bind; [done|]. intros x Hx. rewrite run_extend, E1 in Hx. injection Hx as <-. done.
    + rewrite calls_bind, run_extend, E1, app_length. cbn zeta in S4. lia.
  - destruct (Hcont cand Hc) as [S3 S4]. split; [done|]. cbn zeta in S4.
    change (mbind ?k (Done (Ok cand))) with (k cand). cbn beta. lia.
Qed.
End Select.

(** what an insertion of [np], pushed as in [h0], may ask while the index is [h] *)
Definition old_vec h0 np (b : list T) : Prop := exists p s, p <> np /\ static h0 p = Some s /\ s.1.1 = b.
Definition ins_ask h0 np data : hnsw (T:=T) -> list T -> list T -> Prop := fun h a b =>
  fresh dist h np data /\ same_table h0 h /\ (a = data \/ old_vec h0 np a) /\ old_vec h0 np b.
Lemma old_vec_same h0 h np p pt : same_table h0 h -> p <> np -> get_pt h p = Some pt -> old_vec h0 np (pt_data pt).
Proof using Type.
  intros (_ & _ & Hs) Hne Hp. exists p, (pt_data pt, pt_oid pt, pt_pid pt). split; [done|]. rewrite <- Hs. unfold static. by rewrite Hp.
Qed.
Lemma safe_layer_fresh h0 h np data ep ef l : fresh dist h np data -> same_table h0 h -> (l < NB_LAYER_MAX)%nat -> ep <> np ->
  safe (ins_ask h0 np data) (search_layer_d so h data ep ef l None) /\
  (length (calls dist (search_layer_d so h data ep ef l None)) <= table_size h)%nat.
Proof using LAWS Hnn.
  intros Hf Hst Hl Hne. apply (safe_layer h data (fun p => p <> np)); auto.
  - intros p pt Hp Hpt. split_and!; auto. by eapply old_vec_same.
  - apply (core_links_ne dist); [apply Hf|apply Hf|done].
Qed.

Lemma safe_descend_use h0 h np data l hp ep dte :
  fresh dist h np data -> same_table h0 h -> (l < NB_LAYER_MAX)%nat -> own_list h np l = Some [] ->
  found_ok dist so h np data hp -> (h_len so hp <= 1)%nat -> valid h ep -> ep <> np ->
  safe (ins_ask h0 np data) (descend_use_d so h np data l hp ep dte) /\
  (length (calls dist (descend_use_d so h np data l hp ep dte)) <= 1)%nat.
Proof using LAWS Hnn.
  intros Hf Hst Hl Hown Hfo Hlen Hep Hne.
  destruct (descend_use_spec dist so LAWS Hnn h np data l hp ep dte Hf Hl Hown Hfo Hlen Hep Hne) as (h' & ep' & dte' & E & Hf' & Hst' & _).
  unfold descend_use in E. unfold descend_use_d. destruct (_ <? _)%nat; [done|]. destruct (h_pop so hp) as [[e r]|] eqn:Epop; [|split; [done|simpl; lia]].
  destruct (law_pop_some _ LAWS _ _ _ Epop) as [Hp _]. destruct Hfo as (_ & _ & G3). rewrite Hp in G3. inversion G3 as [|? ? Hene _]; subst.
  apply bind_inv in E as (h1 & E1 & E). apply bind_inv in E as (ept & E2 & E). cbn zeta in E.
  assert (h1 = h') as -> by (destruct (_ <? _)%Z; congruence). split.
  - apply safe_done. intros h1' E1'. rewrite E1 in E1'. injection E1' as <-. apply safe_done. intros ept' E2'. rewrite E2 in E2'. injection E2' as <-.
    apply unwrap_inv in E2. apply safe_eval; [|by destruct (_ <? _)%Z].
    assert (Hst2 : same_table h0 h') by (by eapply same_table_trans). split_and!; auto. by eapply old_vec_same.
  - rewrite calls_done, E1, calls_done, E2, calls_eval. destruct (_ <? _)%Z; simpl; lia.
Qed.

Lemma safe_descend ls h0 h np data ep dte :
  fresh dist h np data -> same_table h0 h -> valid h ep -> ep <> np ->
  NoDup ls -> (forall l, l ∈ ls -> (l < max_layer h)%nat /\ own_list h np l = Some []) ->
  safe (ins_ask h0 np data) (descend_d so ls h np data ep dte) /\
  (length (calls dist (descend_d so ls h np data ep dte)) <= length ls * S (table_size h0))%nat.
Proof using LAWS Hnn.
  revert h ep dte. induction ls as [|l ls IH]; intros h ep dte Hf Hst Hep Hne Hnd Hls; cbn [descend_d]; [split; [done|simpl; lia]|].
  destruct (Hls l) as [Hl Hown]; [left|]. inversion Hnd; subst.
  assert (Hl16 : (l < NB_LAYER_MAX)%nat) by (pose proof (c_max _ _ (f_core _ _ _ _ Hf)); lia).
  destruct (search_layer_fresh dist so LAWS Hnn h np data ep 1 l Hf Hl Hep Hne) as (hp & E & Hfound & Hlen).
  destruct (safe_layer_fresh h0 h np data ep 1 l Hf Hst Hl16 Hne) as [S1 S2]. rewrite (same_table_size _ _ Hst) in S2.
  destruct (safe_descend_use h0 h np data l hp ep dte Hf Hst Hl16 Hown Hfound ltac:(lia) Hep Hne) as [S3 S4].
  destruct (descend_use_spec dist so LAWS Hnn h np data l hp ep dte Hf Hl16 Hown Hfound ltac:(lia) Hep Hne)
    as (h1 & ep1 & dte1 & E1 & Hf1 & Hst1 & Hep1 & Hne1 & Hown1).
  destruct (IH h1 ep1 dte1) as [S5 S6]; auto.
  { by eapply same_table_trans. }
  { intros l' Hl'. destruct (Hls l') as [? Ho]; [by right|].
    destruct Hst1 as (Hm & _). destruct Hm as (_ & _ & _ & _ & -> & _). split; [done|]. rewrite Hown1; [done|]. by intros ->. }
  split.
  - apply safe_bind; [done|]. intros hp' Ehp'. rewrite run_layer, E in Ehp'. injection Ehp' as <-. apply safe_bind; [done|].
    intros [[h1' ep1'] dte1'] E1'. rewrite run_descend_use, E1 in E1'. injection E1' as <- <- <-. done.
  - rewrite calls_bind, run_layer, E, app_length, calls_bind, run_descend_use, E1, app_length. cbn [length]. lia.
Qed.

Lemma safe_connect_use h0 h np data l hp ep :
  fresh dist h np data -> same_table h0 h -> (l < NB_LAYER_MAX)%nat -> found_ok dist so h np data hp ->
  safe (ins_ask h0 np data) (connect_use_d so h np data l hp ep) /\
  (length (calls dist (connect_use_d so h np data l hp ep)) <= table_size h + table_size h * nb_conn h l)%nat.
Proof using LAWS Hnn.
  intros Hf Hst Hl (G1 & G2 & G3). unfold connect_use_d.
  destruct (from_pos_spec dist so LAWS Hnn h data hp G1) as (neg & E & Hneg).
  destruct (safe_select h data (fun p => p <> np) (ins_ask h0 np data)) with (cand := neg) (asked := nb_conn h l) (extend := extend_c h l) (layer := l)
     (keep := keep_pruned h) as [S1 S2].
  { intros p pt Hp Hpt. split_and!; auto. by eapply old_vec_same. }
  { intros p pt p' pt' Hp Hpt Hp' Hpt'. split; [done|]. split; [done|]. split; [right; apply (old_vec_same h0 h np p pt)|apply (old_vec_same h0 h np p' pt')]; done. }
  { apply (core_links_ne dist); [apply Hf|apply Hf|done]. }
  { split_and!; rewrite Hneg.
    - apply Forall_fmap. eapply Forall_impl; [exact G1|]. intros n Hn0. by apply negn_elt_cand.
    - by rewrite negn_pid.
    - apply Forall_fmap. eapply Forall_impl; [exact G3|]. done. }
  split.
  - apply safe_done. intros neg' E'. rewrite E in E'. injection E' as <-. destruct (_ =? _)%nat; [done|]. apply safe_bind; [done|]. intros nv _. cbn zeta.
    apply safe_done. done.
  - rewrite calls_done, E. destruct (_ =? _)%nat; [simpl; lia|]. rewrite calls_bind, app_length.
    destruct (run tot _) as [nv| | | | |]; cbn [length]; try lia. cbn zeta. rewrite calls_done. destruct (upd_nbs _ _ _ _); cbn [length calls]; lia.
Qed.

Lemma safe_connect ls h0 h np data ep :
  fresh dist h np data -> same_table h0 h -> valid h ep -> ep <> np -> (forall l, l ∈ ls -> (l < max_layer h)%nat) ->
  safe (ins_ask h0 np data) (connect_d so ls h np data ep) /\
  (length (calls dist (connect_d so ls h np data ep)) <= length ls * ((2 * max_nb_connection h0 + 2) * table_size h0))%nat.
Proof using LAWS Hnn.
  revert h ep. induction ls as [|l ls IH]; intros h ep Hf Hst Hep Hne Hls; cbn [connect_d]; [split; [done|simpl; lia]|].
  assert (Hl : (l < max_layer h)%nat) by (apply Hls; left).
  assert (Hl16 : (l < NB_LAYER_MAX)%nat) by (pose proof (c_max _ _ (f_core _ _ _ _ Hf)); lia).
  destruct (search_layer_fresh dist so LAWS Hnn h np data ep (ef_construction h) l Hf Hl Hep Hne) as (hp & E & Hfound & Hlen).
  destruct (safe_layer_fresh h0 h np data ep (ef_construction h) l Hf Hst Hl16 Hne) as [S1 S2].
  destruct (safe_connect_use h0 h np data l hp ep Hf Hst Hl16 Hfound) as [S3 S4].
  destruct (connect_use_spec dist so LAWS Hnn h np data l hp ep Hf Hl16 Hfound Hep Hne) as (h1 & ep1 & E1 & Hf1 & Hst1 & Hep1 & Hne1 & _).
  destruct (IH h1 ep1) as [S5 S6]; auto.
  { by eapply same_table_trans. }
  { intros l' Hl'. destruct Hst1 as (Hm & _). destruct Hm as (_ & _ & _ & _ & -> & _). apply Hls. by right. }
  rewrite (same_table_size _ _ Hst) in S2, S4.
  assert (Hn : (nb_conn h l <= 2 * max_nb_connection h0)%nat).
  { pose proof Hst as (Hm & _). destruct Hm as (_ & HM & _). unfold nb_conn. rewrite HM. destruct (l =? 0)%nat; lia. }
  split.
  - apply safe_bind; [done|]. intros hp' Ehp'. rewrite run_layer, E in Ehp'. injection Ehp' as <-. apply safe_bind; [done|].
    intros [h1' ep1'] E1'. rewrite run_connect_use, E1 in E1'. injection E1' as <- <-. done.
  - rewrite calls_bind, run_layer, E, app_length, calls_bind, run_connect_use, E1, app_length. cbn [length]. nia.
Qed.

(** the state in which an insertion asks: the new point is in the index, nothing points to it *)
Definition ins_at h data (oid : dataid) : hnsw (T:=T) -> list T -> list T -> Prop := fun h' a b =>
  lwf dist h' /\ grows h h' /\
  (exists np, get_pt h np = None /\ static h' np = Some (data, oid, np) /\ (forall p, p <> np -> static h' p = static h p) /\ unref h' np) /\
  nb_point h' = S (nb_point h) /\ max_layer h' = max_layer h /\ max_nb_connection h' = max_nb_connection h /\
  ef_construction h' = ef_construction h /\ extend_candidates h' = extend_candidates h /\
  keep_pruned h' = keep_pruned h /\ level_scale h' = level_scale h /\ datamap_opt h' = datamap_opt h /\ entry_point h' = entry_point h /\
  (a = data \/ exists p pt, get_pt h p = Some pt /\ a = pt_data pt) /\ (exists p pt, get_pt h p = Some pt /\ b = pt_data pt).

Lemma insert_calls h data oid dr : lwf dist h -> (0 < max_layer h)%nat ->
  safe (ins_at h data oid) (insert_slice_d so h data oid dr) /\
  (length (calls dist (insert_slice_d so h data oid dr)) <= 1 + max_layer h * ((2 * max_nb_connection h + 2) * S (nb_point h) + 1))%nat.
Proof using LAWS Hnn.
  intros [Hc Hcnt Hent] Hml. unfold insert_slice_d, generate_new_point.
  destruct (generate_ok (level_scale h) (max_layer h) dr Hml) as [level Hlev]. rewrite Hlev, bind_Ok.
  apply generate_lt in Hlev.
  destruct (push_point_ok h data oid level) as [[h1 np] Hpush]; [by rewrite (c_len _ _ Hc)|].
  rewrite Hpush, bind_Ok. unfold incr_nb_point. cbn beta iota zeta.
  destruct (core_push dist Hnn _ _ _ _ _ _ Hc Hpush) as (Hc1 & Hu1 & Hgr1).
  destruct (push_point_inv _ _ _ _ _ _ Hpush) as (Hnl & Hlt & Hnone & Hnew & Ho & Hm & Hlen & Hsz).
  pose proof Hm as (M1 & M2 & M3 & M4 & M5 & M6 & M7 & M8 & M9 & M10).
  change (mbind ?k (Done (Ok ?x))) with (k x). cbn beta iota zeta.
  set (h0 := set_nb_point (S (nb_point h1)) h1).
  assert (Hg0 : forall p, get_pt h0 p = get_pt h1 p) by done.
  assert (Hc0 : core dist h0) by (by apply (core_meta dist h1)).
  assert (Hu0 : unref h0 np) by done.
  assert (Hfresh : fresh dist h0 np data).
  { constructor; auto. exists (new_pt data oid np). done. }
  assert (Hst_new : static h0 np = Some (data, oid, np)).
  { unfold static. rewrite Hg0, Hnew. done. }
  assert (Hst_old : forall p, p <> np -> static h0 p = static h p).
  { intros p Hne. unfold static. by rewrite Hg0, Ho. }
  assert (Hvalid0 : forall p, valid h0 p <-> p = np \/ valid h p).
  { intros p. unfold valid. rewrite Hg0. destruct (decide (p = np)) as [->|Hne].
    - rewrite Hnew. split; [by left|]. intros _; by eexists.
    - rewrite Ho by done. split; [by right|]. intros [?|?]; done. }
  change (entry_point h0) with (entry_point h1).
  rewrite M8. destruct (entry_point h) as [ep|] eqn:Eep; [|split; [done|simpl; lia]].
  rename Hent into Hvep.
  destruct (Nat.eqb_spec (S (nb_point h1)) 1) as [E1|E1]; [split; [done|simpl; lia]|].
  assert (Hepne : ep <> np).
  { intros ->. destruct Hvep as [pt Hpt]. congruence. }
  assert (Hvep0 : valid h0 ep) by (apply Hvalid0; by right).
  destruct Hvep0 as [ept Hept].
  assert (Hsize : table_size h0 = S (nb_point h)) by (rewrite Hcnt, <- Hsz; done).
  (* the states of the calls *)
  assert (Hask : forall h' a b, ins_ask h0 np data h' a b -> ins_at h data oid h' a b).
  { intros h' a b (Hf & Hst & Ha & Hb).
    assert (Hold : forall b, old_vec h0 np b -> exists p pt, get_pt h p = Some pt /\ b = pt_data pt).
    { intros b' (p & s & Hne & Hs & <-). rewrite Hst_old in Hs by done. unfold static in Hs.
      destruct (get_pt h p) as [pt|] eqn:Ept; [|done]. injection Hs as <-. eauto. }
    pose proof Hst as ((N1 & N2 & N3 & N4 & N5 & N6 & N7 & N8 & N9 & N10) & Hsz3 & Hs3).
    split_and!.
    - constructor; [apply Hf|rewrite N7, (same_table_size _ _ Hst), Hsize; simpl; congruence|]. rewrite N8. change (entry_point h0) with (entry_point h1).
      rewrite M8. rewrite (same_table_valid _ _ _ Hst). by exists ept.
    - split; [rewrite N2; exact M2|]. intros p s Hp. rewrite Hs3. destruct (decide (p = np)) as [->|Hne].
      + unfold static in Hp. by rewrite Hnone in Hp.
      + by rewrite Hst_old.
    - exists np. split_and!; auto; [by rewrite Hs3|intros p Hne; rewrite Hs3; auto|apply Hf].
    - rewrite N7. simpl. by rewrite M7.
    - by rewrite N5.
    - by rewrite N2.
    - by rewrite N1.
    - by rewrite N3.
    - by rewrite N4.
    - by rewrite N6.
    - by rewrite N10.
    - rewrite N8. change (entry_point h0) with (entry_point h1). by rewrite M8.
    - destruct Ha as [->|Ha]; [by left|right; auto].
    - auto. }
  assert (Hls : forall l, l ∈ rev (seq (S np.1) (ep.1 - np.1)) -> (l < max_layer h0)%nat /\ own_list h0 np l = Some []).
  { intros l Hl. apply elem_of_list_In, in_rev, in_seq in Hl.
    destruct (core_layer dist h ep Hc Hvep) as [Hl1 Hl2].
    split; [simpl; rewrite M5; clear -Hl Hl1; lia|].
    unfold own_list. rewrite Hg0, Hnew. unfold new_pt. cbn [mbind option_bind pt_nbs].
    apply lookup_replicate_2. clear -Hl Hl2. lia. }
  assert (Hnd : NoDup (rev (seq (S np.1) (ep.1 - np.1)))) by (rewrite <- Permutation_rev; apply NoDup_seq).
  destruct (safe_descend (rev (seq (S np.1) (ep.1 - np.1))) h0 h0 np data ep (dist data (pt_data ept)) Hfresh (same_table_refl h0)
    ltac:(by exists ept) Hepne Hnd Hls) as [S1 S2].
  destruct (descend_spec dist so LAWS Hnn (rev (seq (S np.1) (ep.1 - np.1))) h0 np data ep (dist data (pt_data ept)) Hfresh
    ltac:(by exists ept) Hepne Hnd Hls) as (h2 & ep2 & E2 & Hf2 & Hst2 & Hep2 & Hne2).
  assert (Hls2 : forall l, l ∈ rev (seq 0 (S np.1)) -> (l < max_layer h2)%nat).
  { intros l Hl. apply elem_of_list_In, in_rev, in_seq in Hl. destruct Hst2 as (Hm2 & _). destruct Hm2 as (_ & _ & _ & _ & -> & _).
    change (max_layer h0) with (max_layer h1). rewrite M5. clear -Hl Hlev Hnl. lia. }
  destruct (safe_connect (rev (seq 0 (S np.1))) h0 h2 np data ep2 Hf2 Hst2 Hep2 Hne2 Hls2) as [S3 S4].
  destruct (connect_spec dist so LAWS Hnn (rev (seq 0 (S np.1))) h2 np data ep2 Hf2 Hep2 Hne2 Hls2) as (h3 & E3 & Hf3 & Hst3).
  rewrite rev_length, seq_length, Hsize in S2, S4. change (max_nb_connection h0) with (max_nb_connection h1) in S4. rewrite M2 in S4.
  split.
  - apply safe_done. intros ept' Hept'%unwrap_inv. rewrite Hept in Hept'. injection Hept' as <-. cbn zeta. apply safe_eval.
    { apply Hask. split_and!; auto; [apply same_table_refl|]. eapply old_vec_same; [apply same_table_refl| |done]. done. }
    apply safe_bind; [by eapply safe_mono|]. intros [h2' ep2'] E2'. rewrite run_descend, E2 in E2'. injection E2' as <- <-.
    apply safe_bind; [by eapply safe_mono|]. intros h3' E3'. apply safe_done. done.
  - rewrite calls_done, Hept. cbn [unwrap]. cbn zeta. rewrite calls_eval. cbn [length]. rewrite calls_bind, run_descend, E2, app_length, calls_bind, run_connect, E3, app_length, calls_done.
    replace (length (match reverse_update so h3 np with Ok a => calls dist (Done (Ok (check_entry_point a np))) | _ => [] end)) with 0%nat by (by destruct (reverse_update so h3 np)).
    destruct (core_layer dist h ep Hc Hvep) as [Hl1 _].
    assert (H1 : (ep.1 - np.1 + S np.1 <= max_layer h)%nat) by (clear -Hl1 Hnl Hlev; lia).
    set (a := (ep.1 - np.1)%nat) in *. set (b := S np.1) in *. set (n := S (nb_point h)) in *. set (m := max_nb_connection h) in *. set (ml := max_layer h) in *.
    clear -S2 S4 H1. assert (a * S n <= a * ((2 * m + 2) * n + 1))%nat by (apply Nat.mul_le_mono_l; nia).
    assert (b * ((2 * m + 2) * n) <= b * ((2 * m + 2) * n + 1))%nat by (apply Nat.mul_le_mono_l; lia).
    assert ((a + b) * ((2 * m + 2) * n + 1) <= ml * ((2 * m + 2) * n + 1))%nat by (apply Nat.mul_le_mono_r; lia). lia.
Qed.

Lemma insert_left_layer d h data oid dr h' : left_at d (insert_slice_d so h data oid dr) = Some h' -> (0 < max_layer h)%nat.
Proof using Type.
  clear LAWS Hnn dist. intros H. destruct (max_layer h) eqn:E; [|lia]. unfold insert_slice_d, generate_new_point, generate in H. rewrite E in H.
  destruct (_ <=? _)%N eqn:El; [done|]. apply N.leb_gt in El. lia.
Qed.

(** ** Searches stay among the points they can reach *)
Lemma pivot_descend_in ls h q pv d pv' (Sset : pid -> Prop) : (forall l, l ∈ ls -> links_ok h l Sset) -> Sset pv -> valid h pv ->
  d = (match get_pt h pv with Some pt => dist q (pt_data pt) | None => 0%Z end) ->
  pivot_descend dist ls h q pv d = Ok pv' -> Sset pv'.
Proof using Hnn.
  revert pv d. induction ls as [|l ls IH]; intros pv d Hl HS Hv Hd; cbn [pivot_descend]; [by intros [= <-]|].
  intros (pt & Hpt%unwrap_inv & H)%bind_inv. apply bind_inv in H as (nbs & Hn%unwrap_inv & H). apply bind_inv in H as ([pv1 d1] & Hs & H).
  rewrite Hpt in Hd. destruct (Hl l) with (p := pv) (pt := pt) as (nbs' & Hn' & Hin); [left|done|done|]. rewrite Hn in Hn'. injection Hn' as <-.
  destruct (pivot_scan_spec dist Hnn h q nbs pv d) as (pv2 & d2 & E & (pt2 & Hpt2 & Hd2) & _ & Hc).
  { intros n Hn'. by apply Hin. } { by exists pt. }
  rewrite Hs in E. injection E as <- <-. eapply IH; [|..|exact H].
  - intros l' Hl'. apply Hl. by right.
  - destruct Hc as [->|(n & Hn' & <-)]; [done|by apply Hin].
  - by exists pt2.
  - by rewrite Hpt2.
Qed.
Lemma search_in h q k efa filter ep res (Sset : pid -> Prop) : lwf dist h -> entry_point h = Some ep -> (filter = None \/ 1 <= Nat.max efa k)%nat ->
  (forall l, (l < NB_LAYER_MAX)%nat -> links_ok h l Sset) -> Sset ep ->
  search_filter dist so h q k efa filter = Ok res -> forall a, a ∈ res -> Sset (p_id a).
Proof using LAWS Hnn.
  intros Hwf Hep Hef Hl HS Hres a Ha.
  destruct (search_filter_run dist so LAWS Hnn h q k efa filter ep Hwf Hep Hef) as
    (pv & pvt & ept & l & ly & hp & res' & E1 & E2 & _ & E3 & E4 & E5 & E6 & E7 & E8 & E9 & _ & _ & _ & _ & _ & _ & A2 & _).
  rewrite Hres in E9. injection E9 as <-.
  assert (HSpv : Sset pv).
  { unfold find_pivot in E7. rewrite E1 in E7. cbn [unwrap] in E7. rewrite bind_Ok in E7. eapply pivot_descend_in; [| | | |exact E7].
    - intros l' Hl'. apply Hl. apply elem_of_list_In, in_rev, in_seq in Hl'.
      destruct (core_layer dist h ep (l_core _ _ Hwf)) as [_ ?]; [by exists ept|]. lia.
    - done.
    - by exists ept.
    - by rewrite E1. }
  destruct (search_layer_spec dist so LAWS Hnn h q pv pvt (Nat.max efa k) l filter ly Sset E3 E4 E2 HSpv (Hl l E5) Hef) as (hp' & E & _ & _ & F & _).
  rewrite E8 in E. injection E as <-.
  assert (Hin : p_id a ∈ n_pid <$> take k (h_sorted so hp)) by (rewrite <- A2; apply elem_of_list_fmap; eauto).
  apply elem_of_list_fmap in Hin as (n & -> & Hn). apply elem_of_take in Hn as (i & Hi & _). apply elem_of_list_lookup_2 in Hi.
  rewrite Forall_forall in F. apply F. by rewrite (law_sorted_perm _ LAWS) in Hi.
Qed.
End CallsProofs.
