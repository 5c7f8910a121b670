(** The neighbour lists of the points whose insertion is over: whatever the interleaving, they change only by
    receiving points inserted by threads that have not returned and by losing their furthest entries. Used by PropsConcLinks.v (C108). *)
From stdpp Require Import relations.
From Verif Require Import Prelude Model Lib Table Conc.
Local Open Scope list_scope.

Local Instance nbr_eq_dec : EqDecision nbr.
Proof. solve_decision. Defined.

Section Links.
Context {T : Type} (dist : list T -> list T -> Z) (so : StdOps) (LAWS : StdLaws so).
Local Notation hnsw := (hnsw (T:=T)).

(** what a list of a settled point ([D]) has become *)
Definition aged (D : pid -> Prop) (cap : nat) (old new : list nbr) : Prop :=
  (length old <= length new)%nat /\
  (forall n, n ∈ old -> n ∉ new -> (cap <= length new)%nat /\ forall n', n' ∈ new -> (n_dist n' <= n_dist n)%Z) /\
  (forall n', n' ∈ new -> n' ∉ old -> ~ D (n_pid n')).

Lemma aged_refl D cap l : aged D cap l l.
Proof. split_and!; [lia|done|done]. Qed.

Lemma sorted_split (l1 l2 : list nbr) :
  sorted_by n_dist (l1 ++ l2) -> forall x y, x ∈ l1 -> y ∈ l2 -> (n_dist x <= n_dist y)%Z.
Proof.
  induction l1 as [|a l1 IH]; intros Hs x y Hx Hy; [by apply elem_of_nil in Hx|].
  simpl in Hs. inversion Hs as [|? ? Hs' Hf]; subst. apply elem_of_cons in Hx as [->|Hx]; [|by apply IH].
  rewrite Forall_forall in Hf. apply Hf. apply elem_of_app. by right.
Qed.

Lemma aged_rev D cap np d old new :
  ~ D np -> aged D cap old new -> aged D cap old (rev_list so cap np d new).
Proof using LAWS.
  intros Hnp (Hl & Hd & Hn). unfold rev_list. case_bool_decide as Hin; [done|].
  set (e := Nbr np d). set (s := u_sort so nbr n_dist (new ++ [e])).
  assert (Hp : s ≡ₚ new ++ [e]) by apply (law_usort_perm _ LAWS).
  assert (Hs : sorted_by n_dist s) by apply (law_usort _ LAWS).
  assert (Hlen : length s = S (length new)) by (rewrite Hp, app_length; simpl; lia).
  clearbody s.
  assert (Hs_in : forall x, x ∈ s <-> x ∈ new \/ x = e).
  { intros x. rewrite Hp, elem_of_app. by rewrite elem_of_list_singleton. }
  assert (He : e ∉ new). { intros He. apply Hin. apply elem_of_list_fmap. by exists e. }
  destruct (Nat.ltb_spec cap (S (length new))) as [Hlt|Hge].
  - set (t := take (pred (length s)) s).
    assert (Htl : length t = length new) by (unfold t; rewrite take_length; lia).
    destruct (drop (pred (length s)) s) as [|r [|r' rs]] eqn:Edr.
    { apply (f_equal length) in Edr. rewrite drop_length in Edr. simpl in Edr. lia. }
    2:{ apply (f_equal length) in Edr. rewrite drop_length in Edr. simpl in Edr. lia. }
    assert (Es : s = t ++ [r]) by (unfold t; rewrite <- Edr; symmetry; apply take_drop).
    assert (Hle : forall x, x ∈ t -> (n_dist x <= n_dist r)%Z).
    { intros x Hx. apply (sorted_split t [r]); [by rewrite <- Es|done|left]. }
    assert (Ht : forall x, x ∈ t -> x ∈ new \/ x = e).
    { intros x Hx. apply Hs_in. rewrite Es. apply elem_of_app. by left. }
    assert (Hr : e ∈ t -> r ∈ new).
    { intros Het. assert (Hrs : r ∈ s) by (rewrite Es; apply elem_of_app; right; left).
      apply Hs_in in Hrs as [?| ->]; [done|]. exfalso. apply He.
      assert (Hpt : t ≡ₚ new) by (apply (Permutation_app_inv_r [e]); by rewrite <- Es). by rewrite <- Hpt. }
    fold t. clearbody t. split_and!.
    + lia.
    + intros n Hno Hnt. split; [lia|]. intros n' Hn'.
      destruct (decide (n ∈ new)) as [Hnn|Hnn].
      * assert (Hsn : n ∈ s) by (apply Hs_in; by left). rewrite Es in Hsn.
        apply elem_of_app in Hsn as [?|Hsn]; [done|]. apply elem_of_list_singleton in Hsn as ->. by apply Hle.
      * destruct (Hd n Hno Hnn) as (_ & Hd'). destruct (Ht n' Hn') as [?| ->]; [by apply Hd'|].
        pose proof (Hle e Hn'). pose proof (Hd' r (Hr Hn')). lia.
    + intros n' Hn' Hno. destruct (Ht n' Hn') as [?| ->]; [by apply Hn|done].
  - split_and!.
    + lia.
    + intros n Hno Hns. destruct (decide (n ∈ new)) as [Hnn|Hnn]; [exfalso; apply Hns, Hs_in; by left|].
      destruct (Hd n Hno Hnn). lia.
    + intros n' Hn' Hno. apply Hs_in in Hn' as [?| ->]; [by apply Hn|done].
Qed.


Definition same_ids (h h' : hnsw) : Prop :=
  forall p pt, get_pt h p = Some pt -> exists pt', get_pt h' p = Some pt' /\ pt_oid pt' = pt_oid pt /\ pt_data pt' = pt_data pt.
Lemma same_ids_refl h : same_ids h h.
Proof. intros p pt ?. eauto. Qed.
Lemma same_ids_trans h1 h2 h3 : same_ids h1 h2 -> same_ids h2 h3 -> same_ids h1 h3.
Proof.
  intros H1 H2 p pt Hp. destruct (H1 p pt Hp) as (pt1 & Hp1 & E1 & F1). destruct (H2 p pt1 Hp1) as (pt2 & Hp2 & E2 & F2).
  exists pt2. split_and!; congruence.
Qed.
Lemma same_ids_table h h' : same_table h h' -> same_ids h h'.
Proof. intros H p pt Hp. destruct (same_table_get h h' p pt H Hp) as (pt' & ? & ? & ? & _). eauto. Qed.
Lemma same_ids_present h h' p : same_ids h h' -> get_pt h p <> None -> get_pt h' p <> None.
Proof. intros H Hp. destruct (get_pt h p) as [pt|] eqn:E; [|done]. destruct (H p pt E) as (pt' & -> & _). done. Qed.

(** one access: the lists of the points of [D] stay as they are or receive a point that is not in [D] *)
Definition touch (D : pid -> Prop) (h h' : hnsw) : Prop :=
  max_nb_connection h' = max_nb_connection h /\ same_ids h h' /\
  forall p pt, D p -> get_pt h p = Some pt -> exists pt', get_pt h' p = Some pt' /\
    forall l nbs, pt_nbs pt !! l = Some nbs -> exists nbs', pt_nbs pt' !! l = Some nbs' /\
      (nbs' = nbs \/ exists np d, ~ D np /\ nbs' = rev_list so (nb_conn h l) np d nbs).

Lemma touch_same (D : pid -> Prop) h h' : max_nb_connection h' = max_nb_connection h -> same_ids h h' ->
  (forall p, D p -> get_pt h' p = get_pt h p) -> touch D h h'.
Proof.
  intros E Hi Hg. split; [done|]. split; [done|]. intros p pt Hp Hpt. exists pt. rewrite Hg by done. split; [done|]. eauto.
Qed.
Lemma touch_refl D h : touch D h h.
Proof. apply touch_same; [done|apply same_ids_refl|done]. Qed.

(** what any number of accesses do *)
Lemma touches_aged (D : pid -> Prop) hs h : rtc (touch D) hs h ->
  max_nb_connection h = max_nb_connection hs /\ same_ids hs h /\
  forall p pt, D p -> get_pt hs p = Some pt -> exists pt', get_pt h p = Some pt' /\
    forall l nbs, pt_nbs pt !! l = Some nbs -> exists nbs', pt_nbs pt' !! l = Some nbs' /\ aged D (nb_conn hs l) nbs nbs'.
Proof using LAWS.
  revert h. apply (rtc_ind_r (fun h => max_nb_connection h = max_nb_connection hs /\ same_ids hs h /\
    forall p pt, D p -> get_pt hs p = Some pt -> exists pt', get_pt h p = Some pt' /\
    forall l nbs, pt_nbs pt !! l = Some nbs -> exists nbs', pt_nbs pt' !! l = Some nbs' /\ aged D (nb_conn hs l) nbs nbs')).
  - split; [done|]. split; [apply same_ids_refl|]. intros p pt _ Hp. exists pt. split; [done|].
    intros l nbs Hl. exists nbs. split; [done|apply aged_refl].
  - intros h h' _ (Em & Hi & Ht) (Em' & Hi' & IH). split; [congruence|]. split; [by eapply same_ids_trans|].
    intros p pt Hp Hpt. destruct (IH p pt Hp Hpt) as (pt1 & H1 & Hl). destruct (Ht p pt1 Hp H1) as (pt2 & H2 & Hl').
    exists pt2. split; [done|]. intros l nbs Hn. destruct (Hl l nbs Hn) as (nbs1 & Hn1 & Ha).
    destruct (Hl' l nbs1 Hn1) as (nbs2 & Hn2 & [->|(np & d & Hnp & ->)]); [eauto|].
    eexists. split; [exact Hn2|]. replace (nb_conn h l) with (nb_conn hs l) by (unfold nb_conn; by rewrite Em'). by apply aged_rev.
Qed.

(** ** Programs that only read *)
Fixpoint quiet {A} (p : prog (T:=T) A) : Prop :=
  match p with
  | Halt _ => True
  | Lock _ _ k | Pend _ k | Unlock _ _ k => quiet k
  | Do f k => forall h, f h = h /\ quiet (k h)
  end.
Lemma quiet_bind {A B} p (k : A -> prog (T:=T) B) : quiet p -> (forall a, quiet (k a)) -> quiet (p ≫= k).
Proof.
  intros Hp Hk. unfold mbind, prog_bind. induction p as [o|m l p IH|l p IH|m l p IH|f p IH]; cbn [pbind quiet] in *; auto.
  - destruct o as [a| | | | |]; cbn [of_outcome quiet]; [by apply Hk|done..].
  - intros h. destruct (Hp h) as [? ?]. split; [done|]. by apply IH.
Qed.
Lemma quiet_halt {A} (o : outcome A) : quiet (Halt o).
Proof. done. Qed.
Lemma quiet_peek {A} (f : hnsw -> outcome A) : quiet (peek f).
Proof. intros h. done. Qed.
Lemma quiet_read {A} l (f : hnsw -> outcome A) : quiet (with_read l f).
Proof. intros h. done. Qed.
Lemma quiet_loop fuel q ef layer filter s : quiet (search_loop_p dist so fuel q ef layer filter s).
Proof.
  revert s. induction fuel as [|fuel IH]; intros s; cbn [search_loop_p]; [apply quiet_halt|].
  apply quiet_bind; [apply quiet_halt|]. intros [res|c]; [apply quiet_halt|].
  apply quiet_bind; [apply quiet_read|]. intros [res|s']; [apply quiet_halt|apply IH].
Qed.
Lemma quiet_layer fuel q ep ef layer filter : quiet (search_layer_p dist so fuel q ep ef layer filter).
Proof.
  unfold search_layer_p. apply quiet_bind; [apply quiet_read|]. intros [|]; [apply quiet_halt|].
  apply quiet_bind; [apply quiet_peek|]. intros s. apply quiet_loop.
Qed.
Lemma quiet_collect layer cset todo acc : quiet (collect_p layer cset todo acc).
Proof.
  revert acc. induction todo as [|p todo IH]; intros acc; cbn [collect_p]; [apply quiet_halt|].
  apply quiet_bind; [apply quiet_read|]. intros nbs. apply IH.
Qed.
Lemma quiet_select data cand asked ext layer keep : quiet (select_neighbours_p dist so data cand asked ext layer keep).
Proof.
  unfold select_neighbours_p. destruct (_ && _); [apply quiet_halt|]. apply quiet_bind.
  - destruct (_ <=? _)%nat; [|apply quiet_halt]. unfold extend_cands_p.
    apply quiet_bind; [apply quiet_collect|]. intros news. apply quiet_peek.
  - intros cand1. apply quiet_peek.
Qed.
Lemma quiet_pivot ls data pv dte : quiet (pivot_descend_p dist ls data pv dte).
Proof.
  revert pv dte. induction ls as [|l ls IH]; intros pv dte; cbn [pivot_descend_p]; [apply quiet_halt|].
  apply quiet_bind; [apply quiet_read|]. intros r. apply IH.
Qed.
Lemma quiet_lowest n l : quiet (lowest_p n l).
Proof.
  revert l. induction n as [|n IH]; intros l; cbn [lowest_p]; [apply quiet_halt|]. apply quiet_bind.
  - unfold layer_nb_point_p. apply quiet_bind; [apply quiet_read|]. intros m. destruct (l <? m)%nat; [apply quiet_read|apply quiet_halt].
  - intros k. destruct (0 <? k)%nat; [apply quiet_halt|apply IH].
Qed.
Lemma quiet_search fuel data knbn ef filter : quiet (search_filter_p dist so fuel data knbn ef filter).
Proof.
  unfold search_filter_p. apply quiet_bind; [apply quiet_read|]. intros [ep|]; [|apply quiet_halt].
  apply quiet_bind; [apply quiet_peek|]. intros dte. apply quiet_bind; [apply quiet_pivot|]. intros pv.
  apply quiet_bind; [apply quiet_lowest|]. intros l. apply quiet_bind; [apply quiet_layer|]. intros hp. apply quiet_peek.
Qed.
Lemma quiet_iter_next st : quiet (iter_next_p st).
Proof.
  unfold iter_next_p. destruct (match st with None => (0%nat, 0%nat) | Some s => s end) as [layer slot].
  apply quiet_bind; [apply quiet_peek|]. intros [pt|]; [apply quiet_halt|]. cbn [quiet].
  apply quiet_bind; [apply quiet_peek|]. intros r. done.
Qed.
Lemma quiet_iter_collect fuel st : quiet (iter_collect_p fuel st).
Proof.
  revert st. induction fuel as [|fuel IH]; intros st; cbn [iter_collect_p]; [apply quiet_halt|].
  apply quiet_bind; [apply quiet_iter_next|]. intros [[pt|] st']; cbn [fst snd]; [|apply quiet_halt].
  apply quiet_bind; [apply IH|]. intros rest. apply quiet_halt.
Qed.
Lemma quiet_dump_points i j n : quiet (dump_points_p i j n).
Proof.
  revert j. induction n as [|n IH]; intros j; cbn [dump_points_p]; [apply quiet_halt|].
  apply quiet_bind; [apply quiet_peek|]. intros s. apply quiet_bind; [apply quiet_read|]. intros ls.
  apply quiet_bind; [apply IH|]. intros rest. apply quiet_halt.
Qed.
Lemma quiet_dump_layers i n : quiet (dump_layers_p i n).
Proof.
  revert i. induction n as [|n IH]; intros i; cbn [dump_layers_p]; [apply quiet_halt|].
  apply quiet_bind; [apply quiet_peek|]. intros len. apply quiet_bind; [apply quiet_dump_points|]. intros pts.
  apply quiet_bind; [apply IH|]. intros rest. apply quiet_halt.
Qed.
Lemma quiet_iter fuel : quiet (iter_points_p fuel).
Proof. unfold iter_points_p. cbn [quiet]. apply quiet_bind; [apply quiet_iter_collect|]. done. Qed.
Lemma quiet_dump : quiet dump_p.
Proof.
  unfold dump_p. apply quiet_bind; [apply quiet_read|]. intros dim. apply quiet_bind; [apply quiet_read|]. intros nb. cbn [quiet].
  apply quiet_bind; [apply quiet_peek|]. intros n. apply quiet_bind; [apply quiet_dump_layers|]. intros lys.
  apply quiet_bind; [apply quiet_read|]. done.
Qed.

(** ** Insertions *)
(** the insertion of [np], once it is in the table: an access changes the lists of the other points at most by adding [np] to them *)
Local Notation but np := (fun p : pid => p <> np).
Fixpoint works {A} (np : pid) (Q : A -> Prop) (p : prog (T:=T) A) : Prop :=
  match p with
  | Halt o => forall a, o = Ok a -> Q a
  | Lock _ _ k | Pend _ k | Unlock _ _ k => works np Q k
  | Do f k => forall h, touch (but np) h (f h) /\ works np Q (k h)
  end.
Local Notation any := (fun _ => True).
Lemma works_bind {A B} np (Q : A -> Prop) (R : B -> Prop) p (k : A -> prog (T:=T) B) :
  works np Q p -> (forall a, Q a -> works np R (k a)) -> works np R (p ≫= k).
Proof.
  intros Hp Hk. unfold mbind, prog_bind. induction p as [o|m l p IH|l p IH|m l p IH|f p IH]; cbn [pbind works] in *; auto.
  - destruct o as [a| | | | |]; cbn [of_outcome works]; [by apply Hk, Hp|done..].
  - intros h. destruct (Hp h) as [? ?]. split; [done|]. by apply IH.
Qed.
Lemma works_quiet {A} np (p : prog (T:=T) A) : quiet p -> works np any p.
Proof.
  induction p as [o|m l p IH|l p IH|m l p IH|f p IH]; cbn [quiet works]; auto.
  intros Hp h. destruct (Hp h) as [-> ?]. split; [apply touch_refl|auto].
Qed.
Lemma works_any {A B} np (R : B -> Prop) p (k : A -> prog (T:=T) B) :
  works np any p -> (forall a, works np R (k a)) -> works np R (p ≫= k).
Proof. intros Hp Hk. eapply works_bind; [exact Hp|]. auto. Qed.
Lemma works_read {A B} np (R : B -> Prop) p (k : A -> prog (T:=T) B) :
  quiet p -> (forall a, works np R (k a)) -> works np R (p ≫= k).
Proof. intros Hp. apply works_any. by apply works_quiet. Qed.
Lemma works_ret {A} np (Q : A -> Prop) a : Q a -> works np Q (ret (T:=T) a).
Proof. by intros H a' [= <-]. Qed.
Lemma works_write {A} np l (f : hnsw -> outcome (hnsw * A)) :
  (forall h h' a, f h = Ok (h', a) -> touch (but np) h h') -> works np any (with_write l f).
Proof.
  intros H. unfold with_write. cbn [works]. intros h. destruct (f h) as [[h' a]| | | | |] eqn:E; try (split; [apply touch_refl|done]).
  split; [by eapply H|done].
Qed.

Lemma works_upd np l g : works np any (with_write (LPoint np) (fun h => h1 ← upd_nbs h np l g; Ok (h1, tt))).
Proof.
  apply works_write. intros h h' [] E. apply bind_inv in E as (h1 & E & [= <-]).
  apply upd_nbs_inv in E as (pt & nbs & _ & _ & _ & Ho & Hst).
  apply touch_same; [apply Hst|by apply same_ids_table|]. intros p Hp. by apply Ho.
Qed.

Lemma works_rev_one np q : works np any (rev_one_p so np q).
Proof.
  unfold rev_one_p. case_bool_decide as E1; [by apply works_ret|].
  apply works_write. intros h h' [] E. apply bind_inv in E as (h1 & E & [= <-]).
  unfold rev_one in E. rewrite bool_decide_eq_false_2 in E by done.
  apply upd_nbs_inv in E as (pt & nbs & Hpt & Hn & Hpt' & Ho & Hst).
  split; [destruct Hst as ((_ & -> & _) & _); done|]. split; [by apply same_ids_table|].
  intros p pt0 Hp Hp0. destruct (decide (p = n_pid q)) as [->|Hne].
  - rewrite Hpt in Hp0. injection Hp0 as <-.
    eexists. split; [exact Hpt'|]. intros l nbs0 Hl0. unfold set_pt_nbs. cbn [pt_nbs].
    destruct (decide (l = np.1)) as [->|Hne].
    + rewrite Hn in Hl0. injection Hl0 as <-. eexists. split; [apply list_lookup_insert; by eapply lookup_lt_Some|].
      right. exists np, (n_dist q). split; [by intros []|]. f_equal. unfold nb_conn. destruct np.1; simpl; done.
    + exists nbs0. split; [by rewrite list_lookup_insert_ne|by left].
  - rewrite Ho by done. exists pt0. split; [done|]. eauto.
Qed.
Lemma works_rev_many np qs : works np any (rev_many_p so np qs).
Proof.
  induction qs as [|q qs IH]; cbn [rev_many_p]; [by apply works_ret|]. apply works_any; [apply works_rev_one|]. done.
Qed.
Lemma works_rev_layer np l : works np any (rev_layer_p so np l).
Proof.
  unfold rev_layer_p. change (works np any (qs ← peek (read_list np l); _ ← rev_many_p so np qs; Unlock Rd (LPoint np) (ret tt))).
  apply works_read; [apply quiet_peek|]. intros qs. apply works_any; [apply works_rev_many|]. intros _. by apply works_ret.
Qed.
Lemma works_rev_layers np ls : works np any (rev_layers_p so ls np).
Proof.
  induction ls as [|l ls IH]; cbn [rev_layers_p]; [by apply works_ret|]. apply works_any; [apply works_rev_layer|]. done.
Qed.
Lemma works_check np : works np any (check_entry_point_p np).
Proof.
  apply works_write. intros h h' [] [= <-]. unfold check_entry_point.
  destruct (entry_point h) as [ep|]; [destruct (ep.1 <? np.1)%nat|]; [|apply touch_refl|];
    (apply touch_same; [done| |done]; intros p pt ?; eauto).
Qed.
Lemma works_descend_use np data l sorted ep dte : works np any (descend_use_p dist so np data l sorted ep dte).
Proof.
  unfold descend_use_p. destruct (1 <? _)%nat; [done|]. destruct (h_pop so sorted) as [[e rst]|]; [|done].
  apply works_read; [apply quiet_read|]. intros short.
  apply works_any; [destruct short; [apply works_upd|done]|]. intros _.
  apply works_read; [apply quiet_peek|]. done.
Qed.
Lemma works_descend fuel ls np data ep dte : works np any (descend_p dist so fuel ls np data ep dte).
Proof.
  revert ep dte. induction ls as [|l ls IH]; intros ep dte; cbn [descend_p]; [done|].
  apply works_read; [apply quiet_layer|]. intros sorted. apply works_any; [apply works_descend_use|]. intros r. apply IH.
Qed.
Lemma works_connect_use np data l found ep : works np any (connect_use_p dist so np data l found ep).
Proof.
  unfold connect_use_p. apply works_read; [apply quiet_halt|]. intros neg. destruct (_ =? 0)%nat; [done|].
  apply works_read; [apply quiet_peek|]. intros cfg. apply works_read; [apply quiet_select|]. intros nv.
  apply works_any; [apply works_upd|]. done.
Qed.
Lemma works_connect fuel ls np data ep : works np any (connect_p dist so fuel ls np data ep).
Proof.
  revert ep. induction ls as [|l ls IH]; intros ep; cbn [connect_p]; [done|].
  apply works_read; [apply quiet_peek|]. intros ef. apply works_read; [apply quiet_layer|]. intros found.
  apply works_any; [apply works_connect_use|]. intros ep1. apply IH.
Qed.

(** before the point is in the table; a task that inserts nothing stays so *)
Local Notation own_result np := (fun r : tres (T:=T) => r = RInserted np).
Fixpoint starts (p : prog (T:=T) tres) : Prop :=
  match p with
  | Halt o => forall np, o <> Ok (RInserted np)
  | Lock _ _ k | Pend _ k | Unlock _ _ k => starts k
  | Do f k => forall h, (f h = h /\ starts (k h)) \/
      exists np, get_pt h np = None /\ get_pt (f h) np <> None /\ touch (but np) h (f h) /\ works np (own_result np) (k h)
  end.
Lemma starts_quiet {A} p (k : A -> prog (T:=T) tres) : quiet p -> (forall a, starts (k a)) -> starts (p ≫= k).
Proof.
  intros Hp Hk. unfold mbind, prog_bind. induction p as [o|m l p IH|l p IH|m l p IH|f p IH]; cbn [pbind quiet starts] in *; auto.
  - destruct o as [a| | | | |]; cbn [of_outcome starts]; [by apply Hk|done..].
  - intros h. destruct (Hp h) as [? ?]. left. split; [done|]. by apply IH.
Qed.

Lemma works_insert_rest fuel data np :
  works np (fun a => a = np)
    (rank ← with_write LCount (fun h => Ok (incr_nb_point h));
     eo ← with_read LEntry (fun h => Ok (entry_point h));
     match eo with
      | None => _ ← check_entry_point_p np; ret np
      | Some ep =>
        if (rank =? 1)%nat then ret np
        else
          dte ← peek (fun h => ept ← unwrap (get_pt h ep); Ok (dist data (pt_data ept)));
          let level := np.1 in
          ep1 ← descend_p dist so fuel (rev (seq (S level) (ep.1 - level))) np data ep dte;
          _ ← connect_p dist so fuel (rev (seq 0 (S level))) np data ep1;
          _ ← rev_layers_p so (rev (seq 0 (S level))) np;
          _ ← check_entry_point_p np;
          ret np
      end).
Proof.
  apply works_any.
  { apply works_write. intros h h' a [= <- <-]. apply touch_same; [done| |done]. intros p pt ?; eauto. }
  intros rank. apply works_read; [apply quiet_read|]. intros [ep|].
  - destruct (rank =? 1)%nat; [by apply works_ret|].
    apply works_read; [apply quiet_peek|]. intros dte. cbv zeta. apply works_any; [apply works_descend|]. intros ep1.
    apply works_any; [apply works_connect|]. intros _. apply works_any; [apply works_rev_layers|]. intros _.
    apply works_any; [apply works_check|]. intros _. by apply works_ret.
  - apply works_any; [apply works_check|]. intros _. by apply works_ret.
Qed.

Lemma starts_insert fuel data oid d : starts (np ← insert_p dist so fuel data oid d; ret (RInserted np)).
Proof.
  unfold insert_p. unfold mbind at 1, prog_bind at 1. unfold mbind at 1, prog_bind at 1. unfold peek at 1.
  cbn [pbind starts]. intros h1. left. split; [done|].
  destruct (generate _ _ d) as [level| | | | |]; cbn [of_outcome pbind starts]; try done.
  unfold mbind at 1, prog_bind at 1. unfold with_write at 1. cbn [pbind starts]. intros h.
  destruct (push_point h data oid level) as [[h' np]| | | | |] eqn:E; try (left; split; done).
  right. exists np. apply push_point_inv in E as (_ & _ & Hn & Hs & Ho & Hm & _).
  split; [done|]. split; [by rewrite Hs|]. split.
  { apply touch_same; [apply Hm| |by intros p Hp; apply Ho].
    intros p pt Hp. exists pt. rewrite Ho by congruence. done. }
  cbn [works fmap outcome_fmap snd pbind of_outcome].
  apply (works_bind np (fun a => a = np)); [apply works_insert_rest|]. intros a ->. by apply works_ret.
Qed.

Lemma starts_task fuel t : starts (start dist so fuel t).
Proof.
  destruct t as [data oid d|q k ef f| |]; cbn [start].
  - apply starts_insert.
  - apply starts_quiet; [apply quiet_search|]. done.
  - apply starts_quiet; [apply quiet_iter|]. done.
  - apply starts_quiet; [apply quiet_dump|]. done.
Qed.

(** ** All the threads together *)
Context (h0 : hnsw).

(** who inserts what *)
Record owned (own : nat -> option pid) (c : config (T:=T)) : Prop := {
  o_prog : forall i p, c_threads c !! i = Some p ->
    match own i with None => starts p | Some np => works np (own_result np) p end;
  o_there : forall i np, own i = Some np -> get_pt (c_sh c) np <> None /\ get_pt h0 np = None;
  o_dist : forall i j np, own i = Some np -> own j = Some np -> i = j;
  o_ids : same_ids h0 (c_sh c)
}.

Lemma owned_step own c c' : owned own c -> cstep c c' ->
  exists own', owned own' c' /\ (forall i np, own i = Some np -> own' i = Some np) /\
    exists i p, c_threads c !! i = Some p /\ (forall o, p <> Halt o) /\
      (forall j np, own' j = Some np -> own j = Some np \/ (j = i /\ get_pt (c_sh c) np = None)) /\
      ((c_sh c' = c_sh c) \/ exists np, own' i = Some np /\ touch (but np) (c_sh c) (c_sh c')).
Proof.
  intros [HP HT HD HI] (i & Hs). unfold step in Hs. destruct (c_threads c !! i) as [p|] eqn:Ep; [|done]. simpl in Hs.
  pose proof (HP i p Ep) as Hp.
  assert (Hsame : forall k ls, (match own i with None => starts k | Some np => works np (own_result np) k end) ->
    (forall o, p <> Halt o) -> c' = Config (c_sh c) ls (<[i:=k]> (c_threads c)) ->
    exists own', owned own' c' /\ (forall i np, own i = Some np -> own' i = Some np) /\
    exists i p, c_threads c !! i = Some p /\ (forall o, p <> Halt o) /\
      (forall j np, own' j = Some np -> own j = Some np \/ (j = i /\ get_pt (c_sh c) np = None)) /\
      ((c_sh c' = c_sh c) \/ exists np, own' i = Some np /\ touch (but np) (c_sh c) (c_sh c'))).
  { intros k ls Hk Hno ->. exists own. split; [constructor; cbn [c_sh c_threads]; auto|].
    - intros j q Hj. apply list_lookup_insert_Some in Hj as [(<- & <- & _)|(_ & Hj)]; [done|by apply HP].
    - split; [done|]. exists i, p. split_and!; auto. }
  destruct p as [o|[|] l k|l k|[|] l k|f k].
  - done.
  - destruct (lk_writer _); [done|]. injection Hs as <-. eapply (Hsame k); [by destruct (own i)|done|reflexivity].
  - destruct (lk_writer _); [done|]. injection Hs as <-. eapply (Hsame (Pend l k)); [by destruct (own i)|done|reflexivity].
  - destruct (lk_readers _); [|done]. injection Hs as <-. eapply (Hsame k); [by destruct (own i)|done|reflexivity].
  - injection Hs as <-. eapply (Hsame k); [by destruct (own i)|done|reflexivity].
  - injection Hs as <-. eapply (Hsame k); [by destruct (own i)|done|reflexivity].
  - injection Hs as <-. clear Hsame. destruct (own i) as [np|] eqn:Eo.
    + destruct (Hp (c_sh c)) as [H1 H2]. exists own. split.
      * constructor; cbn [c_sh c_threads]; auto.
        -- intros j q Hj. apply list_lookup_insert_Some in Hj as [(<- & <- & _)|(_ & Hj)]; [by rewrite Eo|by apply HP].
        -- intros j np' Hj. destruct (HT j np' Hj) as [H3 H4]. split; [|done]. eapply same_ids_present; [apply H1|done].
        -- eapply same_ids_trans; [exact HI|apply H1].
      * split; [done|]. exists i, (Do f k). split_and!; auto. right. exists np. split; [done|]. done.
    + destruct (Hp (c_sh c)) as [[H1 H2]|(np & N1 & N2 & N3 & N4)].
      * exists own. split.
        -- constructor; cbn [c_sh c_threads]; rewrite ?H1; auto.
           intros j q Hj. apply list_lookup_insert_Some in Hj as [(<- & <- & _)|(_ & Hj)]; [by rewrite Eo|by apply HP].
        -- split; [done|]. exists i, (Do f k). split_and!; auto.
      * exists (fun j => if decide (j = i) then Some np else own j).
        assert (Hown : forall j np', (if decide (j = i) then Some np else own j) = Some np' ->
          (j = i /\ np' = np) \/ (j <> i /\ own j = Some np')).
        { intros j np' Hj. destruct (decide (j = i)); [left|right]; split; congruence. }
        split.
        -- constructor; cbn [c_sh c_threads].
           ++ intros j q Hj. apply list_lookup_insert_Some in Hj as [(<- & <- & _)|(Hne & Hj)].
              ** rewrite decide_True by done. done.
              ** rewrite decide_False by done. by apply HP.
           ++ intros j np' Hj. destruct (Hown j np' Hj) as [[-> ->]|[_ Hj']].
              ** split; [done|]. destruct (get_pt h0 np) as [pt|] eqn:E; [|done]. destruct (HI np pt E) as (? & ? & _). congruence.
              ** destruct (HT j np' Hj') as [H3 H4]. split; [|done]. eapply same_ids_present; [apply N3|done].
           ++ intros j j' np' Hj Hj'. destruct (Hown j np' Hj) as [[-> ->]|[_ H1]]; destruct (Hown j' _ Hj') as [[-> E]|[_ H2]]; auto.
              ** destruct (HT j' np H2). done.
              ** subst np'. destruct (HT j np H1). done.
              ** by eapply HD.
           ++ eapply same_ids_trans; [exact HI|apply N3].
        -- split; [intros j np' Hj; rewrite decide_False by congruence; done|].
           exists i, (Do f k). split; [done|]. split; [done|]. split.
           ++ intros j np' Hj. destruct (Hown j np' Hj) as [[-> ->]|[_ H1]]; auto.
           ++ right. exists np. rewrite decide_True by done. done.
Qed.

Lemma owned_initial ts : owned (fun _ => None) (initial dist so h0 ts).
Proof.
  constructor; try done.
  - intros i p Hp. unfold initial in Hp. cbn [c_threads] in Hp. rewrite list_lookup_fmap in Hp.
    destruct (ts !! i) as [t|]; [|done]. injection Hp as <-. apply starts_task.
  - apply same_ids_refl.
Qed.
Lemma owned_reach ts c : rtc cstep (initial dist so h0 ts) c -> exists own, owned own c.
Proof.
  revert c. apply (rtc_ind_r (fun c => exists own, owned own c)); [eexists; apply owned_initial|].
  intros c c' _ Hs (own & Ho). destruct (owned_step _ _ _ Ho Hs) as (own' & ? & _). eauto.
Qed.

(** the points that are settled at [c] *)
Definition over (c : config (T:=T)) (p : pid) : Prop :=
  get_pt h0 p <> None \/ exists i, c_threads c !! i = Some (Halt (Ok (RInserted p))).

Lemma over_there own c p : owned own c -> over c p -> get_pt (c_sh c) p <> None.
Proof.
  intros [HP HT _ HI] [Hp|(i & Hi)]; [by eapply same_ids_present|]. pose proof (HP i _ Hi) as H.
  destruct (own i) as [np|] eqn:E; [|by destruct (H p)]. specialize (H _ eq_refl). injection H as ->. by apply (HT i).
Qed.

(** after [c], what the steps do *)
Lemma run_touch own c c' : owned own c -> rtc cstep c c' ->
  rtc (touch (over c)) (c_sh c) (c_sh c').
Proof.
  intros Ho Hr.
  assert (HH : rtc (touch (over c)) (c_sh c) (c_sh c') /\ exists own', owned own' c' /\
    (forall i np, own i = Some np -> own' i = Some np) /\
    (forall i np, own' i = Some np -> own i = Some np \/ ~ over c np) /\
    (forall i o, c_threads c !! i = Some (Halt o) -> c_threads c' !! i = Some (Halt o)) /\
    (forall p, over c p -> get_pt (c_sh c') p <> None)); [|apply HH].
  revert c' Hr. apply (rtc_ind_r (fun c' => rtc (touch (over c)) (c_sh c) (c_sh c') /\ exists own', owned own' c' /\
    (forall i np, own i = Some np -> own' i = Some np) /\
    (forall i np, own' i = Some np -> own i = Some np \/ ~ over c np) /\
    (forall i o, c_threads c !! i = Some (Halt o) -> c_threads c' !! i = Some (Halt o)) /\
    (forall p, over c p -> get_pt (c_sh c') p <> None))).
  - split; [done|]. exists own. split_and!; auto. intros p. by eapply over_there.
  - intros c1 c2 _ Hs (HR & own1 & H1 & H2 & H3 & H4 & H5).
    destruct (owned_step _ _ _ H1 Hs) as (own2 & O1 & O2 & i & p & Hp & Hno & O3 & O4).
    assert (Hown : forall j np, own2 j = Some np -> own j = Some np \/ ~ over c np).
    { intros j np Hj. destruct (O3 j np Hj) as [Hj'|[_ Hj']]; [by eapply H3|]. right. intros Hov. by apply (H5 np). }
    assert (Ht : touch (over c) (c_sh c1) (c_sh c2)).
    { destruct O4 as [E|(np & Hi & Hto)]; [rewrite E; apply touch_refl|].
      assert (Hnov : ~ over c np).
      { destruct (Hown i np Hi) as [Hi'|?]; [|done]. intros [Hh|(j & Hj)].
        - apply Hh. by apply (o_there _ _ Ho i).
        - pose proof (o_prog _ _ Ho j _ Hj) as HW. destruct (own j) as [np'|] eqn:Ej; [|by destruct (HW np)].
          specialize (HW _ eq_refl). injection HW as <-.
          assert (j = i) as -> by (by eapply (o_dist _ _ Ho)). pose proof (H4 i _ Hj) as Hh. rewrite Hp in Hh.
          injection Hh as ->. by eapply Hno. }
      destruct Hto as (T1 & T2 & T3). split; [done|]. split; [done|]. intros q pt Hq Hpt.
      destruct (T3 q pt) as (pt' & Hpt' & Hl); [by intros ->|done|]. exists pt'. split; [done|]. intros l nbs Hn.
      destruct (Hl l nbs Hn) as (nbs' & Hn' & [->|(np' & d & Hnp' & ->)]); eexists; (split; [exact Hn'|]); [by left|].
      right. exists np', d. split; [|done]. intros Hov. destruct (decide (np' = np)) as [->|Hne]; [done|]. by apply Hnp'. }
    split; [by eapply rtc_r|]. exists own2. split_and!; auto.
    + intros j o Hj. specialize (H4 j o Hj). destruct Hs as (i' & Hs).
      destruct (decide (j = i')) as [->|Hne].
      * unfold step in Hs. rewrite H4 in Hs. done.
      * clear -Hs H4 Hne. unfold step in Hs. destruct (c_threads c1 !! i') as [q|]; [|done]. simpl in Hs.
        destruct q as [|[|] l k|l k|[|] l k|f k]; try done;
          repeat match type of Hs with context [match ?x with _ => _ end] => destruct x end; try done;
          injection Hs as <-; cbn [c_threads]; by rewrite list_lookup_insert_ne.
    + intros q Hq. eapply same_ids_present; [apply Ht|by apply H5].
Qed.
End Links.
