(** Properties of the C interface: C49, C50, C60-C62. *)
From Coq Require Import Strings.String Strings.Byte SpecFloat.
From stdpp Require Import strings relations.
From Verif Require Import Prelude Model StdInst Lib Spec SpecProofs Io IoBase SpecIo Conc SpecConc SpecBuilt BuiltProofs
  IoProofs Examples ExamplesIo Ffi SpecFfi PropsSearch PropsIndex PropsIo.
Local Open Scope list_scope.

Section Mem.
Context {T : Type}.
Implicit Types (m : list (option (cobj (T:=T)))).

Lemma deref_lt m p o : deref m p = Some o -> (0 < p <= length m)%nat.
Proof.
  destruct p as [|i]; [done|]. simpl. destruct (m !! i) eqn:E; [|done]. apply lookup_lt_Some in E. lia.
Qed.
Lemma kept_refl m : kept m m.
Proof. by intros p o H. Qed.
Lemma kept_trans m1 m2 m3 : kept m1 m2 -> kept m2 m3 -> kept m1 m3.
Proof. intros H1 H2 p o H. auto. Qed.
Lemma kept_alloc m o : kept m (alloc m o).1.
Proof.
  intros p o' H. pose proof (deref_lt _ _ _ H). destruct p as [|i]; [done|]. simpl in *.
  rewrite lookup_app_l; [done|]. lia.
Qed.
Lemma deref_alloc m o : deref (alloc m o).1 (alloc m o).2 = Some o.
Proof. simpl. by rewrite list_lookup_middle. Qed.
Lemma deref_alloc_inv m o p o' : deref (alloc m o).1 p = Some o' -> deref m p = Some o' \/ p = (alloc m o).2 /\ o' = o.
Proof.
  destruct p as [|i]; [done|]. simpl. intros H. destruct (decide (i < length m)%nat).
  - rewrite lookup_app_l in H by done. by left.
  - rewrite lookup_app_r in H by lia. destruct (i - length m)%nat as [|k] eqn:E; simpl in H; [|done].
    right. split; [lia|]. congruence.
Qed.
Lemma deref_store m p o q o' : deref m p = Some o' ->
  deref (store m p o) q = if decide (q = p) then o else deref m q.
Proof.
  intros Hp%deref_lt. destruct p as [|i]; [lia|]. destruct q as [|j]; [done|]; cbn [deref store].
  destruct (decide (S j = S i)) as [E|Hne].
  - injection E as ->. rewrite list_lookup_insert by lia. done.
  - rewrite list_lookup_insert_ne by congruence. done.
Qed.
Lemma slice_of_ok {A} (l rest : list A) : slice_of (N.of_nat (length l)) (Some (l ++ rest)) = Ok l.
Proof.
  unfold slice_of. rewrite app_length. destruct (N.leb_spec (N.of_nat (length l)) (N.of_nat (length l + length rest))); [|lia].
  rewrite Nat2N.id, take_app. done.
Qed.
Lemma raw_vals_ok m p v : vals_at m p v -> raw_vals m p (N.of_nat (length v)) = Ok v.
Proof. intros [rest E]. unfold raw_vals. rewrite E. apply slice_of_ok. Qed.
Lemma raw_bytes_ok m p s : bytes_at m p s -> raw_bytes m p (N.of_nat (length (str_bytes s))) = Ok (str_bytes s).
Proof. intros [rest E]. unfold raw_bytes. rewrite E. apply slice_of_ok. Qed.
Lemma raw_ptrs_ok m p l : ptrs_at m p l -> raw_ptrs m p (N.of_nat (length l)) = Ok l.
Proof. intros [rest E]. unfold raw_ptrs. rewrite E. apply slice_of_ok. Qed.
Lemma raw_ids_ok m p l : ids_at m p l -> raw_ids m p (N.of_nat (length l)) = Ok l.
Proof. intros [rest E]. unfold raw_ids. rewrite E. apply slice_of_ok. Qed.

Lemma as_i64_small n : (N.of_nat n < 2 ^ 63)%N -> as_i64 (N.of_nat n) = Z.of_nat n.
Proof. intros H. unfold as_i64. destruct (N.ltb_spec (N.of_nat n) (2 ^ 63)); lia. Qed.

Lemma mapM_all {A B} (f : A -> outcome B) l k : Forall2 (fun x y => f x = Ok y) l k -> mapM f l = Ok k.
Proof. induction 1 as [|x y l k H _ IH]; [done|]. change (mapM f (x :: l)) with (y ← f x; k ← mapM f l; Ok (y :: k)). rewrite H. simpl. by rewrite IH. Qed.
(** reading the vectors of a request *)
Lemma read_all m (vs : list (list T)) ptrs len : Forall2 (vals_at m) ptrs vs -> Forall (fun v => length v = len) vs ->
  mapM (fun i => p ← unwrap (ptrs !! i); raw_vals m p (N.of_nat len)) (seq 0 (length ptrs)) = Ok vs.
Proof.
  intros H Hlen. apply mapM_all. apply Forall2_same_length_lookup. rewrite seq_length.
  pose proof (Forall2_length _ _ _ H) as E. split; [done|]. intros i j v Hi Hv.
  apply lookup_seq in Hi as [-> Hi]. simpl. rewrite Forall2_lookup in H. specialize (H i). rewrite Hv in H.
  inversion H as [p v' Hva Hp|]; subst. simpl. rewrite Forall_lookup in Hlen. rewrite <- (Hlen _ _ Hv). by apply raw_vals_ok.
Qed.

(** names *)
Lemma ascii_valid b : Forall (fun x => in_range 0 127 x = true) b -> utf8_valid b = true.
Proof. induction 1 as [|x b Hx _ IH]; simpl; [done|]. by rewrite Hx. Qed.
Lemma lossy_valid s : utf8_valid (str_bytes s) = true -> from_utf8_lossy (str_bytes s) = s.
Proof. intros H. unfold from_utf8_lossy. rewrite H. apply str_round. Qed.
Lemma bytes_round b : str_bytes (bytes_str b) = b.
Proof. apply list_byte_of_string_of_list_byte. Qed.
Definition ascii_names (l : list string) : bool := forallb (fun s => forallb (fun x => in_range 0 127 x) (str_bytes s)) l.
Lemma lossy_name t s : from_utf8_lossy (str_bytes s) ∈ init_names t <-> s ∈ init_names t.
Proof.
  assert (A : forall s', s' ∈ init_names t -> Forall (fun x => in_range 0 127 x = true) (str_bytes s')).
  { assert (E : ascii_names (init_names t) = true) by (destruct t; vm_compute; reflexivity).
    intros s' Hs. unfold ascii_names in E. rewrite forallb_forall in E. specialize (E s').
    rewrite <- elem_of_list_In in E. specialize (E Hs). rewrite forallb_forall in E. rewrite Forall_forall.
    intros x Hx. apply E. by apply elem_of_list_In. }
  split; intros H.
  - destruct (utf8_valid (str_bytes s)) eqn:E; [by rewrite lossy_valid in H|]. exfalso.
    pose proof (A _ H) as Ha. unfold from_utf8_lossy in Ha. rewrite E, bytes_round in Ha.
    enough (Forall (fun x => in_range 0 127 x = true) (str_bytes s)) as Hs by (apply ascii_valid in Hs; congruence).
    clear -Ha. revert Ha. generalize (str_bytes s). intros b. induction b as [|x b IH]; csimpl; [done|].
    destruct (N.ltb_spec (Byte.to_N x) 128) as [Hx|Hx].
    + intros Hf. apply Forall_app in Hf as [_ Hf]. constructor; [|by apply IH].
      unfold in_range. apply andb_true_iff. split; apply N.leb_le; lia.
    + intros Hf. apply Forall_app in Hf as [Hf _]. apply Forall_inv in Hf. vm_compute in Hf. done.
  - rewrite lossy_valid; [done|]. by apply ascii_valid, A.
Qed.
Lemma lossy_init t s : from_utf8_lossy (str_bytes s) ∈ init_names t -> from_utf8_lossy (str_bytes s) = s.
Proof.
  intros Hd. apply (proj1 (lossy_name t s)) in Hd. apply lossy_valid.
  assert (A : forallb (fun s => utf8_valid (str_bytes s)) (init_names t) = true) by (destruct t; reflexivity).
  rewrite forallb_forall in A. apply A. by apply elem_of_list_In.
Qed.
End Mem.

(** C50: search_neighbours. Through valid pointers it returns a new Neighbourhood_api with the ids and distances of
    Hnsw::search, in the same order; the index and everything else in memory stay as they are. *)
Theorem C50_search :
  forall {T} (dist_of : string -> list T -> list T -> Z) so m p D h q v knbn ef_search ns,
  index_at m p D h -> vals_at m q v -> search (cdist_fun dist_of D) so h v knbn ef_search = Ok ns ->
  (N.of_nat (length ns) < 2 ^ 63)%N ->
  exists m' r, c_search dist_of so m p (N.of_nat (length v)) q knbn ef_search = Ok (m', r) /\
    deref m r = None /\ neighbourhood_at m' r (answers ns) /\ kept m m'.
Proof.
  intros T dist_of so m p D h q v k e ns Hp Hq Hs Hn. unfold c_search. rewrite (raw_vals_ok _ _ _ Hq). simpl.
  unfold the_index. rewrite Hp. simpl. rewrite Hs. simpl.
  eexists _, _. split; [reflexivity|]. split; [|split].
  - simpl. rewrite app_length. simpl. rewrite lookup_ge_None_2; [done|lia].
  - exists (S (length m)). unfold answers. rewrite fmap_length, as_i64_small by done.
    split.
    + apply (deref_alloc (m ++ [_])).
    + apply (kept_alloc (m ++ [_])). apply (deref_alloc m).
  - eapply kept_trans; [apply (kept_alloc m)|apply (kept_alloc (m ++ [_]))].
Qed.
Print Assumptions C50_search.

Lemma c_lists_spec {T} (m : list (option (cobj (T:=T)))) (ns : list (list neighbour)) :
  Forall (fun n => N.of_nat (length n) < 2 ^ 63)%N ns ->
  forall m' l, c_lists m ns = (m', l) -> kept m m' /\
  Forall2 (fun hood a => hood.1 = Z.of_nat (length a) /\ deref m' hood.2 = Some (ONbrs a)) l (answers <$> ns).
Proof.
  intros H. revert m. induction H as [|n ns Hn _ IH]; intros m m' l; simpl.
  { intros [= <- <-]. split; [apply kept_refl|constructor]. }
  destruct (c_lists _ ns) as [m2 l2] eqn:E. intros [= <- <-].
  destruct (IH _ _ _ E) as [Hk Hf]. split.
  - eapply kept_trans; [|exact Hk]. apply (kept_alloc m).
  - csimpl. constructor; [|exact Hf]. simpl. unfold answers. rewrite fmap_length, as_i64_small by done.
    split; [done|]. exact (Hk (S (length m)) _ (deref_alloc m _)).
Qed.

(** C50, the parallel version: one answer per vector, in the order of the vectors, whatever the order in which the threads answer. *)
Theorem C50_parallel_search :
  forall {T} (dist_of : string -> list T -> list T -> Z) so m p D h q ptrs (vs : list (list T)) len arrival knbn ef_search nss,
  (forall l : list (nat * list neighbour), arrival l ≡ₚ l) ->
  index_at m p D h -> ptrs_at m q ptrs -> Forall2 (vals_at m) ptrs vs -> Forall (fun v => length v = len) vs ->
  (N.of_nat len < 2 ^ 63)%N -> (N.of_nat (length vs) < 2 ^ 63)%N ->
  mapM (fun v => search (cdist_fun dist_of D) so h v knbn ef_search) vs = Ok nss ->
  Forall (fun ns => N.of_nat (length ns) < 2 ^ 63)%N nss ->
  exists m' r, c_parallel_search dist_of so arrival m p (N.of_nat (length vs)) (Z.of_nat len) q knbn ef_search = Ok (m', r) /\
    deref m r = None /\ neighbourhoods_at m' r (answers <$> nss) /\ kept m m'.
Proof.
  intros T dist_of so m p D h q ptrs vs len arrival k e nss Harr Hp Hq Hvs Hlen Hl Hn Hs Hns. unfold c_parallel_search.
  pose proof (Forall2_length _ _ _ Hvs) as E. rewrite <- E. rewrite (raw_ptrs_ok _ _ _ Hq). simpl.
  assert (El : as_usize (Z.of_nat len) = N.of_nat len).
  { unfold as_usize. rewrite Z.mod_small by lia. lia. }
  rewrite El, Nat2N.id, (read_all _ _ _ _ Hvs Hlen). simpl. unfold the_index. rewrite Hp. simpl.
  rewrite (C24_parallel_search _ so h arrival vs k e Harr), Hs. simpl.
  destruct (c_lists m nss) as [m1 l] eqn:Ec. destruct (c_lists_spec m nss Hns m1 l Ec) as [Hk Hf].
  set (m2 := m1 ++ [Some (OHoods l)]). exists (alloc m2 (OVec (as_i64 (N.of_nat (length ptrs))) (S (length m1)))).1, (S (length m2)).
  split; [reflexivity|].
  assert (K1 : kept m1 m2) by apply (kept_alloc m1 (OHoods l)).
  assert (K2 : kept m2 (alloc m2 (OVec (as_i64 (N.of_nat (length ptrs))) (S (length m1)))).1) by apply kept_alloc.
  assert (En : length nss = length vs).
  { symmetry. eapply Forall2_length. by apply mapM_outcome_inv. }
  split; [|split].
  - assert (Hle : (length m <= length m1)%nat).
    { clear -Ec. revert m m1 l Ec. induction nss as [|n nss IH]; intros m m1 l; simpl; [by intros [= <- <-]|].
      destruct (c_lists _ nss) as [m2 l2] eqn:E. intros [= <- <-]. apply IH in E. rewrite app_length in E. simpl in E. lia. }
    simpl. rewrite lookup_ge_None_2; [done|]. unfold m2. rewrite app_length. lia.
  - exists (S (length m1)), l. split; [|split].
    + rewrite fmap_length, En, <- E. rewrite <- as_i64_small by (rewrite E; done). apply (deref_alloc m2).
    + exact (K2 (S (length m1)) _ (deref_alloc m1 _)).
    + eapply Forall2_impl; [exact Hf|]. intros hd a [H1 H2]. split; [done|]. by apply K2, K1.
  - eapply kept_trans; [|exact K2]. by eapply kept_trans.
Qed.
Print Assumptions C50_parallel_search.

(** C60: the constructors. With an accepted name they make a new, empty index with that distance and those parameters; with
    any other sequence of bytes they return null and do nothing. *)
Theorem C60_constructors :
  forall {T} (dist_of : string -> list T -> list T -> Z) so t inv_ln (m : list (option (cobj (T:=T)))) M ef d p ml,
  bytes_at m p d -> (M <= 256)%nat ->
  (d ∈ init_names t -> exists m' r h,
     c_new t inv_ln m M ef (N.of_nat (length (str_bytes d))) p ml = Ok (m', r) /\ r <> 0%nat /\ deref m r = None /\
     kept m m' /\ index_at m' r (Named d) h /\ built (dist_of d) so inv_ln M ml ef [] h) /\
  (d ∉ init_names t -> c_new t inv_ln m M ef (N.of_nat (length (str_bytes d))) p ml = Ok (m, 0%nat)) /\
  c_init t inv_ln m M ef (N.of_nat (length (str_bytes d))) p = c_new t inv_ln m M ef (N.of_nat (length (str_bytes d))) p 16.
Proof.
  intros T dist_of so t inv_ln m M ef d p ml Hp HM. unfold c_new. rewrite (raw_bytes_ok _ _ _ Hp). simpl. split; [|split].
  - intros Hd. destruct (decide _) as [Hd'|Hd']; [|by destruct Hd'; apply lossy_name].
    assert (exists h : hnsw (T:=T), hnsw_new inv_ln M ml ef = Ok h) as [h Hh].
    { unfold hnsw_new. destruct (Nat.ltb_spec 256 M); [lia|]. eauto. }
    assert (E : from_utf8_lossy (str_bytes d) = d).
    { by apply (lossy_init t). }
    rewrite Hh, E. simpl. eexists _, _, h. split; [reflexivity|]. split; [done|]. split; [|split; [|split]].
    + simpl. by rewrite lookup_ge_None_2.
    + apply (kept_alloc m).
    + apply (deref_alloc m).
    + by constructor.
  - intros Hd. destruct (decide _) as [Hd'|Hd']; [|done]. by destruct Hd; apply (lossy_name t).
  - unfold c_init, c_new. by rewrite (raw_bytes_ok _ _ _ Hp).
Qed.
Print Assumptions C60_constructors.

(** ** Runs *)
Section Runs.
Context {T : Type} (dist_of : string -> list T -> list T -> Z) (so : StdOps) (el : elem T) (t : ctype)
  (inv_ln : nat -> f64) (cwd : list string).
Implicit Types (m : list (option (cobj (T:=T)))) (evs : list (event (T:=T))).

Definition ev_ptr (e : event (T:=T)) : nat :=
  match e with EvNew p _ _ _ _ | EvInsert p _ _ | EvParallel p _ => p | EvOther => 0 end.
Definition run_inv evs m : Prop :=
  Forall (fun e => ev_ptr e <= length m)%nat evs /\
  forall p D h D' M ml ef, index_at m p D' h -> EvNew p D M ml ef ∈ evs ->
    D' = D /\ (parallel_later p evs -> built (cdist_fun dist_of D) so inv_ln M ml ef (inserted p evs) h) /\
      ((1 <= ml)%nat -> used (cdist_fun dist_of D) so inv_ln M ml ef (inserted p evs) h).

Lemma inserted_app p (l1 l2 : list (event (T:=T))) : inserted p (l1 ++ l2) = inserted p l1 ++ inserted p l2.
Proof. unfold inserted. by rewrite fmap_app, concat_app. Qed.
Lemma parallel_later_app p (l1 l2 : list (event (T:=T))) : parallel_later p (l1 ++ l2) -> parallel_later p l1.
Proof. intros H k1 k2 vs ->. apply (H k1 (k2 ++ l2) vs). by rewrite <- app_assoc. Qed.
Lemma inserted_fresh p m evs : Forall (fun e => ev_ptr e <= length m)%nat evs -> (length m < p)%nat -> inserted p evs = [].
Proof.
  intros H Hp. unfold inserted. induction H as [|e evs He _ IH]; csimpl; [done|]. rewrite IH, app_nil_r.
  destruct e; simpl in *; try done; destruct (decide _); try done; lia.
Qed.

(** a step that touches no index known to the events *)
Lemma quiet evs m m' : run_inv evs m -> (length m <= length m')%nat ->
  (forall p D h, index_at m' p D h -> index_at m p D h \/ (length m < p)%nat) -> run_inv (evs ++ [EvOther]) m'.
Proof.
  intros [Hf Hi] Hle Hq. split.
  { apply Forall_app. split; [|repeat constructor; simpl; lia]. eapply Forall_impl; [exact Hf|]. simpl. lia. }
  intros p D h D' M ml ef Hp Hev. rewrite elem_of_app, elem_of_list_singleton in Hev.
  destruct Hev as [Hev|Hev]; [|done]. destruct (Hq _ _ _ Hp) as [Hold|Hnew].
  - destruct (Hi p D h D' M ml ef Hold Hev) as (-> & Hb & Hu). split; [done|].
    rewrite inserted_app. unfold inserted at 2 4. simpl. rewrite app_nil_r. split; [|done].
    intros Hl%parallel_later_app. auto.
  - rewrite Forall_forall in Hf. specialize (Hf _ Hev). simpl in Hf. lia.
Qed.
Lemma quiet_alloc evs m o : run_inv evs m -> (forall D h, o <> OIndex D h) -> run_inv (evs ++ [EvOther]) (alloc m o).1.
Proof.
  intros H Ho. eapply quiet; [exact H|simpl; rewrite app_length; lia|]. intros p D h Hp.
  destruct (deref_alloc_inv _ _ _ _ Hp) as [?|[-> <-]]; [by left|]. by destruct (Ho D h).
Qed.
Lemma run_inv_other evs m : run_inv (evs ++ [EvOther]) m -> run_inv evs m.
Proof.
  intros [Hf Hi]. apply Forall_app in Hf as [Hf _]. split; [done|]. intros p D h D' M ml ef Hp Hev.
  destruct (Hi p D h D' M ml ef Hp) as (-> & Hb & Hu); [set_solver|]. split; [done|].
  rewrite inserted_app in Hb, Hu. unfold inserted at 2 in Hb. unfold inserted at 2 in Hu. simpl in Hb, Hu.
  rewrite app_nil_r in Hb, Hu. split; [|done]. intros Hl. apply Hb.
  intros l1 l2 vs E. destruct l2 as [|e l2] using rev_ind.
  - apply app_inj_tail in E as [_ E]. done.
  - rewrite app_comm_cons, app_assoc in E. apply app_inj_tail in E as [E _]. eapply Hl. exact E.
Qed.
Lemma quiet_store evs m p o o' : run_inv evs m -> deref m p = Some o ->
  (forall D h, o' <> Some (OIndex D h)) -> run_inv (evs ++ [EvOther]) (store m p o').
Proof.
  intros H Hp Ho'. eapply quiet; [exact H|destruct p; [done|]; simpl; by rewrite insert_length|].
  intros q D h Hq. unfold index_at in Hq. rewrite (deref_store _ _ _ _ _ Hp) in Hq.
  destruct (decide (q = p)); [by destruct (Ho' D h)|by left].
Qed.
Lemma quiet_lists ns : forall evs m m' l, run_inv evs m -> c_lists m ns = (m', l) -> run_inv evs m'.
Proof.
  induction ns as [|n ns IH]; intros evs m m' l H; simpl; [by intros [= <- <-]|].
  destruct (c_lists _ ns) as [m2 l2] eqn:E. intros [= <- <-]. eapply IH; [|exact E].
  apply run_inv_other, (quiet_alloc evs m); done.
Qed.
Lemma new_step evs m D h M ml ef : run_inv evs m -> hnsw_new inv_ln M ml ef = Ok h ->
  run_inv (evs ++ [EvNew (S (length m)) D M ml ef]) (alloc m (OIndex D h)).1.
Proof.
  intros [Hf Hi] Hh. split.
  { apply Forall_app. split; [|repeat constructor; simpl; rewrite app_length; simpl; lia].
    eapply Forall_impl; [exact Hf|]. simpl. intros e He. rewrite app_length. lia. }
  intros p D1 h1 D2 M1 ml1 ef1 Hp Hev.
  assert (Hin : inserted p (evs ++ [EvNew (S (length m)) D M ml ef]) = inserted p evs).
  { rewrite inserted_app. unfold inserted at 2. simpl. by rewrite app_nil_r. }
  rewrite Hin. rewrite elem_of_app, elem_of_list_singleton in Hev.
  destruct (deref_alloc_inv _ _ _ _ Hp) as [Hold|[Ep Eo]].
  - destruct Hev as [Hev|Hev].
    + destruct (Hi p D1 h1 D2 M1 ml1 ef1 Hold Hev) as (-> & Hb & Hu). split; [done|]. split; [|done]. intros Hl%parallel_later_app. auto.
    + apply deref_lt in Hold. injection Hev as ? ? ? ? ?. lia.
  - simpl in Ep. injection Eo as -> ->. destruct Hev as [Hev|Hev].
    + rewrite Forall_forall in Hf. specialize (Hf _ Hev). simpl in Hf. lia.
    + injection Hev as _ -> -> -> ->. split; [done|]. rewrite (inserted_fresh p m) by (done || lia).
      split; intros _; [by constructor|by apply used_built; constructor].
Qed.
Lemma insert_step evs m p D h h' vs e : run_inv evs m -> index_at m p D h ->
  ev_ptr e = p -> (forall q D M ml ef, e <> EvNew q D M ml ef) ->
  (forall q, inserted q [e] = if decide (q = p) then vs else []) ->
  (forall M ml ef hist, (forall us, e = EvParallel p us -> hist <> []) ->
     built (cdist_fun dist_of D) so inv_ln M ml ef hist h -> built (cdist_fun dist_of D) so inv_ln M ml ef (hist ++ vs) h') ->
  (forall M ml ef hist, (1 <= ml)%nat ->
     used (cdist_fun dist_of D) so inv_ln M ml ef hist h -> used (cdist_fun dist_of D) so inv_ln M ml ef (hist ++ vs) h') ->
  run_inv (evs ++ [e]) (store m p (Some (OIndex D h'))).
Proof.
  intros [Hf Hi] Hp Ee Hne Hins Hb Hu. pose proof (deref_lt _ _ _ Hp) as Hlt.
  assert (El : length (store m p (Some (OIndex D h'))) = length m) by (destruct p; [done|]; simpl; by rewrite insert_length).
  split.
  { rewrite El. apply Forall_app. split; [done|]. repeat constructor. lia. }
  intros q D1 h1 D2 M1 ml1 ef1 Hq Hev. unfold index_at in Hq. rewrite (deref_store _ _ _ _ _ Hp) in Hq.
  rewrite elem_of_app, elem_of_list_singleton in Hev. destruct Hev as [Hev|Hev]; [|by destruct (Hne q D1 M1 ml1 ef1)].
  rewrite inserted_app, Hins. destruct (decide (q = p)) as [->|Hqp].
  - injection Hq as <- <-. destruct (Hi p D1 h D M1 ml1 ef1 Hp Hev) as (-> & Hb0 & Hu0). split; [done|].
    split; [|by auto]. intros Hl. apply Hb.
    + intros us ->. by eapply Hl.
    + apply Hb0. by eapply parallel_later_app.
  - destruct (Hi q D1 h1 D2 M1 ml1 ef1 Hq Hev) as (-> & Hb0 & Hu0). split; [done|].
    rewrite app_nil_r. split; [|done]. intros Hl%parallel_later_app. auto.
Qed.

Lemma c_requests_ok m (vs : list (list T * dataid)) ptrs len pp ip :
  ptrs_at m pp ptrs -> ids_at m ip vs.*2 -> Forall2 (vals_at m) ptrs vs.*1 -> Forall (fun v => length v = len) vs.*1 ->
  c_requests m (N.of_nat (length vs)) (N.of_nat len) pp ip = Ok vs.
Proof.
  intros Hpp Hip Hvs Hlen. unfold c_requests.
  assert (E2 : length (vs.*2) = length vs) by apply fmap_length. rewrite <- E2 at 1. rewrite (raw_ids_ok _ _ _ Hip). simpl.
  pose proof (Forall2_length _ _ _ Hvs) as E1. rewrite fmap_length in E1. rewrite <- E1. rewrite (raw_ptrs_ok _ _ _ Hpp). simpl.
  rewrite Nat2N.id, (read_all _ _ _ _ Hvs Hlen). simpl. apply mapM_all. apply Forall2_same_length_lookup. rewrite seq_length.
  split; [done|]. intros i j [v id] Hi Hv. apply lookup_seq in Hi as [-> Hi]. simpl.
  rewrite !list_lookup_fmap, Hv. done.
Qed.

Lemma the_index_inv m p D h : the_index m p = Ok (D, h) -> index_at m p D h.
Proof. unfold the_index, index_at. destruct (deref m p) as [[]|]; try done. by intros [= -> ->]. Qed.

Lemma run_inv_ok evs m fs : c_run dist_of so el t inv_ln cwd evs m fs -> run_inv evs m.
Proof.
  induction 1 as [fs
    |evs m fs o _ IH Ho
    |evs m fs p o o' _ IH Hp Ho Ho'
    |evs m fs p o _ IH Hp Ho
    |evs m fs fs' _ IH
    |evs m fs M ef d p m' r _ IH Hp Hc
    |evs m fs M ef d p ml m' r _ IH Hp Hc
    |evs m fs M ef f m' r _ IH Hc
    |evs m fs p m' _ IH Hc
    |evs m fs p v q id d m' _ IH Hv Hc
    |evs m fs p vs ptrs len pp ip ds m' _ IH Hpp Hip Hvs Hlen Hc
    |evs m fs p len q k e m' r _ IH Hc
    |evs m fs arrival p n len q k e m' r _ IH Hc
    |evs m fs draws p len f fs' r _ IH Hc
    |evs m fs len f m' r _ IH Hc
    |evs m fs d p m' r _ IH Hd Hc
    |evs m fs fpath len p m' r _ IH Hc].
  - split; [constructor|]. intros p D h D' M ml ef _ H. by apply elem_of_nil in H.
  - apply quiet_alloc; [done|]. intros D h ->. done.
  - eapply quiet_store; [done|done|]. intros D h [= ->]. done.
  - eapply quiet_store; [done|done|]. done.
  - eapply quiet; eauto.
  - unfold c_init, c_new in Hc. rewrite (raw_bytes_ok _ _ _ Hp) in Hc. simpl in Hc. destruct (decide (_ ∈ _)) as [Hin|Hin].
    + rewrite (lossy_init t) in Hc by done. apply bind_inv in Hc as (h & Hh & [= <- <-]). simpl. by apply (new_step evs m).
    + injection Hc as <- <-. simpl. eapply quiet; eauto.
  - unfold c_new in Hc. rewrite (raw_bytes_ok _ _ _ Hp) in Hc. simpl in Hc. destruct (decide (_ ∈ _)) as [Hin|Hin].
    + rewrite (lossy_init t) in Hc by done. apply bind_inv in Hc as (h & Hh & [= <- <-]). simpl. by apply (new_step evs m).
    + injection Hc as <- <-. simpl. eapply quiet; eauto.
  - unfold c_init_ptrdist in Hc. apply bind_inv in Hc as (h & Hh & [= <- <-]). by apply (new_step evs m).
  - unfold c_drop in Hc. apply bind_inv in Hc as ([D h] & Hi & [= <-]). eapply quiet_store; [done|by apply the_index_inv|done].
  - unfold c_insert in Hc. rewrite (raw_vals_ok _ _ _ Hv) in Hc. simpl in Hc.
    apply bind_inv in Hc as ([D h] & Hi & Hc). apply bind_inv in Hc as (h' & Hins & [= <-]).
    eapply (insert_step evs m p D h h' [(v, id)]); [done|by apply the_index_inv|done|done| | |].
    + intros q0. unfold inserted. simpl. destruct (decide (p = q0)), (decide (q0 = p)); simpl; congruence.
    + intros M ml ef hist _ Hb. by eapply built_insert.
    + intros M ml ef hist _ Hu. by eapply used_insert.
  - destruct Hc as [D h us h' rs Hr Hi Hds Ha].
    rewrite (c_requests_ok _ _ _ _ _ _ Hpp Hip Hvs Hlen) in Hr. injection Hr as <-.
    assert (Ei : inserts (parallel_insert vs ds) = vs).
    { clear -Hds. revert ds Hds. unfold inserts, parallel_insert. induction vs as [|[v id] vs IH]; intros [|d ds] Hds; try done.
      csimpl. f_equal. apply IH. by injection Hds. }
    assert (Hm : Forall (may_run h) (parallel_insert vs ds)).
    { clear. unfold parallel_insert. revert ds. induction vs as [|v vs IH]; intros [|d ds]; csimpl; constructor; simpl; auto. }
    eapply (insert_step evs m p D h h' vs); [done|by apply the_index_inv|done|done| | |].
    + intros q0. unfold inserted. simpl. rewrite app_nil_r. destruct (decide (p = q0)), (decide (q0 = p)); simpl; congruence.
    + intros M ml ef hist Hh Hb. specialize (Hh vs eq_refl).
      rewrite <- Ei. eapply built_parallel; eauto.
    + intros M ml ef hist Hml Hu. rewrite <- Ei. eapply used_parallel; eauto.
  - unfold c_search in Hc. apply bind_inv in Hc as (v & _ & Hc). apply bind_inv in Hc as ([D h] & _ & Hc).
    apply bind_inv in Hc as (ns & _ & [= <- <-]).
    apply (quiet_alloc evs (m ++ [_])); [|done]. apply run_inv_other, (quiet_alloc evs m); done.
  - unfold c_parallel_search in Hc. apply bind_inv in Hc as (ps & _ & Hc). apply bind_inv in Hc as (v & _ & Hc).
    apply bind_inv in Hc as ([D h] & _ & Hc). apply bind_inv in Hc as (ns & _ & Hc).
    destruct (c_lists m ns) as [m1 l] eqn:E. injection Hc as <- <-.
    apply (quiet_alloc evs (m1 ++ [_])); [|done]. apply run_inv_other, (quiet_alloc evs m1); [|done]. by eapply quiet_lists.
  - eapply quiet; eauto.
  - unfold c_get_hnswio in Hc. apply bind_inv in Hc as (b & _ & [= <- <-]). by apply (quiet_alloc evs m).
  - unfold c_load in Hc. apply bind_inv in Hc as (io & _ & Hc).
    destruct (load_hnsw so el inv_ln (dist_type_name d) cwd fs io) as [[h mp]| | | | |]; try done; injection Hc as <- <-.
    + eapply quiet; [done|simpl; rewrite app_length; lia|]. intros q D h' Hq.
      destruct (deref_alloc_inv m (OIndex (Named d) h) _ _ Hq) as [?|[-> _]]; [by left|]. right. simpl. lia.
    + eapply quiet; eauto.
  - unfold c_load_description in Hc. apply bind_inv in Hc as (b & _ & Hc). destruct (fs_read _ _ _) as [g|].
    2: { injection Hc as <- <-. eapply quiet; eauto. }
    destruct (run_rd load_description g []) as [de| | | | |]; try done; injection Hc as <- <-.
    + apply (quiet_alloc evs ((m ++ [_]) ++ [_])); [|done]. apply run_inv_other, (quiet_alloc evs (m ++ [_])); [|done].
      apply run_inv_other, (quiet_alloc evs m); done.
    + eapply quiet; eauto.
Qed.
End Runs.

(** C61: whatever a program does through the C functions, an index made by one of them holds what was inserted through its
    pointer: it is an index used by the same calls of the Rust API. All the properties of such indexes apply to it. *)
Theorem C61_runs :
  forall {T} (dist_of : string -> list T -> list T -> Z) so el t inv_ln cwd evs m fs,
  c_run dist_of so el t inv_ln cwd evs m fs ->
  forall p D M ml ef D' h, EvNew p D M ml ef ∈ evs -> index_at m p D' h ->
  D' = D /\
  ((1 <= ml)%nat -> used (cdist_fun dist_of D) so inv_ln M ml ef (inserted p evs) h) /\
  (parallel_later p evs -> built (cdist_fun dist_of D) so inv_ln M ml ef (inserted p evs) h).
Proof.
  intros T dist_of so el t inv_ln cwd evs m fs Hr p D M ml ef D' h Hev Hp.
  apply run_inv_ok in Hr as [_ Hi]. destruct (Hi p D h D' M ml ef Hp Hev) as (-> & Hb & Hu). auto.
Qed.
Print Assumptions C61_runs.

(** ** Dump and reload through the C functions *)
Lemma component_name d : ~ In x3a (str_bytes d) -> d <> "" -> last_component (dist_type_name d) d.
Proof.
  intros H Hne. split; [|by split]. right. by exists "anndists::dist::distances".
Qed.
Lemma load_component t d : d ∈ load_names t -> last_component (dist_type_name d) d.
Proof.
  intros H. assert (A : forallb (fun s => negb (existsb (Byte.eqb x3a) (str_bytes s)) && negb (String.eqb s "")) (load_names t) = true)
    by (destruct t; reflexivity).
  rewrite forallb_forall in A. apply elem_of_list_In in H. apply A in H as [H1 H2]%andb_true_iff.
  apply component_name.
  - intros Hin. apply negb_true_iff in H1. enough (existsb (Byte.eqb x3a) (str_bytes d) = true) by congruence.
    apply existsb_exists. by exists x3a.
  - intros ->. done.
Qed.

Lemma c_dump_inv {T} (el : elem T) cwd m fs draws p D h f base fs' :
  index_at m p D h -> bytes_at m f base -> utf8_valid (str_bytes base) = true -> datamap_opt h = false ->
  c_file_dump el cwd m fs draws p (N.of_nat (length (str_bytes base))) f = Ok (fs', 1%Z) ->
  file_dump el (cdist_name el D) cwd fs here base draws h = (fs', Ok base).
Proof.
  intros Hp Hf Hu Hd. unfold c_file_dump. rewrite (raw_bytes_ok _ _ _ Hf). simpl. unfold the_index. rewrite Hp. simpl.
  rewrite lossy_valid by done. unfold file_dump, dump_basename. rewrite Hd. simpl. destruct (w_res _); intros [= <-]; done.
Qed.

(** C62 does not hold for all distances: an index of u16 with the distance DistJaccard can be made and dumped by the C functions;
    none of the functions that reload an index of u16 reloads it. *)
Definition el_u16 : elem (byte * byte) := Elem (byte * byte) "u16" 2 (fun x => [x.1; x.2])
  (fun l => match l with a :: b :: _ => (a, b) | _ => (x00, x00) end) (fun _ => None) false.
Definition dist16 (d : string) (a b : list (byte * byte)) : Z := dB (fst <$> a) (fst <$> b).
Definition mem16 : list (option (cobj (T:=byte * byte))) :=
  [Some (OBytes (str_bytes "DistJaccard")); Some (OVals [(x01, x00); (x02, x00)]); Some (OBytes (str_bytes "j"))].
Definition mem16_init : list (option (cobj (T:=byte * byte))) := Eval vm_compute in
  match c_init U16 one_scale mem16 2 10 11 1 with Ok (m, _) => m | _ => [] end.
Definition mem16_end : list (option (cobj (T:=byte * byte))) := Eval vm_compute in
  match c_insert dist16 simple_ops mem16_init 4 2 2 7%N (lv 0) with Ok m => m | _ => [] end.
Definition run16 : list (event (T:=byte * byte)) :=
  [EvOther; EvOther; EvOther; EvNew 4 (Named "DistJaccard") 2 16 10; EvInsert 4 [(x01, x00); (x02, x00)] 7%N].
Lemma run16_ok : c_run dist16 simple_ops el_u16 U16 one_scale cwd0 run16 mem16_end fs0.
Proof.
  assert (R0 : c_run dist16 simple_ops el_u16 U16 one_scale cwd0 [EvOther; EvOther; EvOther] mem16 fs0).
  { change [EvOther; EvOther; EvOther] with ((([] ++ [EvOther]) ++ [EvOther]) ++ [@EvOther (byte * byte)]).
    apply (run_malloc _ _ _ _ _ _ _ [_; _] _ (OBytes _)); [|done]. apply (run_malloc _ _ _ _ _ _ _ [_] _ (OVals _)); [|done].
    apply (run_malloc _ _ _ _ _ _ _ [] _ (OBytes _)); [|done]. constructor. }
  assert (R1 := run_init dist16 simple_ops el_u16 U16 one_scale cwd0 _ _ _ 2 10 "DistJaccard" 1 mem16_init 4 R0).
  feed specialize R1; [exists []; reflexivity|vm_compute; reflexivity|].
  assert (R2 := run_insert _ _ _ _ _ _ _ _ _ 4 [(x01, x00); (x02, x00)] 2 7%N (lv 0) mem16_end R1).
  feed specialize R2; [exists []; reflexivity|vm_compute; reflexivity|]. exact R2.
Qed.
Definition h16 : hnsw (T:=byte * byte) := Eval vm_compute in
  match the_index mem16_end 4 with Ok (_, h) => h | _ => Hnsw 0 0 false false 0 [] f64_1 0 None false false end.
Definition fs16 : fsys := (file_dump el_u16 (dist_type_name "DistJaccard") cwd0 fs0 here "j" [] h16).1.
Lemma fs16_dumped : c_file_dump el_u16 cwd0 mem16_end fs0 [] 4 1 3 = Ok (fs16, 1%Z).
Proof.
  unfold c_file_dump. change (raw_bytes mem16_end 3 1) with (@Ok bytes [x6a]).
  change (the_index mem16_end 4) with (Ok (Named (T:=byte * byte) "DistJaccard", h16)). cbn [mbind outcome_bind].
  change (from_utf8_lossy [x6a]) with "j". unfold fs16, cdist_name. unfold file_dump. cbn [datamap_opt h16 negb dump_basename].
  assert (E : w_res (dump el_u16 (dist_type_name "DistJaccard") h16 Full) = Ok tt) by (vm_compute; reflexivity).
  rewrite E. reflexivity.
Qed.
Theorem C62_reload_refuted :
  exists T (dist_of : string -> list T -> list T -> Z) so el t inv_ln cwd evs m fs p d M ef h f base draws fs',
    StdLaws so /\ (forall d a b, (0 <= dist_of d a b)%Z) /\ elem_ok el /\
    c_run dist_of so el t inv_ln cwd evs m fs /\ EvNew p (Named d) M 16 ef ∈ evs /\ index_at m p (Named d) h /\
    inserted p evs <> [] /\ bytes_at m f base /\
    c_file_dump el cwd m fs draws p (N.of_nat (length (str_bytes base))) f = Ok (fs', 1%Z) /\
    exists m' io, c_get_hnswio m (N.of_nat (length (str_bytes base))) f = Ok (m', io) /\
    forall d', d' ∈ load_names t -> c_load so el inv_ln cwd d' m' fs' io = Ok (m', 0%nat).
Proof.
  eexists (byte * byte)%type, dist16, simple_ops, el_u16, U16, one_scale, cwd0, run16, mem16_end, fs0, 4%nat,
    "DistJaccard"%string, 2%nat, 10%nat, h16, 3%nat, "j"%string, [], fs16.
  split; [exact simple_laws|]. split; [intros d a b; apply dB_nonneg|]. split; [by intros []|].
  split; [exact run16_ok|]. split; [do 3 right; left|]. split; [reflexivity|]. split; [done|]. split; [by exists []|].
  split; [exact fs16_dumped|]. eexists _, _. split; [vm_compute; reflexivity|].
  intros d' Hd. apply elem_of_list_In in Hd. simpl in Hd.
  destruct Hd as [<-|[<-|[<-|[<-|[]]]]]; vm_compute; reflexivity.
Qed.
Print Assumptions C62_reload_refuted.

(** C62, the part that holds: when the distance of the index has a load function, the index reloaded by it has the same graph and
    the same vectors, and every search gives the same answers. (An index whose vectors are mapped, which the C functions cannot
    make, may be dumped under another name.) *)
Theorem C62_reload_partial :
  forall {T} (dist_of : string -> list T -> list T -> Z) so el t inv_ln cwd, StdLaws so -> (forall d a b, (0 <= dist_of d a b)%Z) ->
  forall (m : list (option (cobj (T:=T)))) fs p d h M ml ef hist,
  index_at m p (Named d) h -> built (dist_of d) so inv_ln M ml ef hist h -> d ∈ load_names t -> el_nodata el = false ->
  dump_ready el (dist_type_name d) ml hist h -> uniform h -> order_kept so h -> datamap_opt h = false ->
  forall f base, bytes_at m f base -> utf8_valid (str_bytes base) = true ->
  forall draws fs', c_file_dump el cwd m fs draws p (N.of_nat (length (str_bytes base))) f = Ok (fs', 1%Z) ->
  exists m1 io m2 r h',
    c_get_hnswio m (N.of_nat (length (str_bytes base))) f = Ok (m1, io) /\
    c_load so el inv_ln cwd d m1 fs' io = Ok (m2, r) /\ r <> 0%nat /\ deref m1 r = None /\ kept m m2 /\
    index_at m2 r (Named d) h' /\ same_graph h h' /\ same_vectors h h' /\
    forall q k e, search (dist_of d) so h' q k e = search (dist_of d) so h q k e.
Proof.
  intros T dist_of so el t inv_ln cwd LAWS Hnn m fs p d h M ml ef hist Hp Hb Hd Hnd Hr Hu Ho Hdm f base Hf Hub draws fs' Hc.
  pose proof (c_dump_inv el cwd m fs draws p (Named d) h f base fs' Hp Hf Hub Hdm Hc) as Hdump.
  unfold c_get_hnswio. rewrite (raw_bytes_ok _ _ _ Hf). simpl. rewrite lossy_valid by done.
  eexists _, _. pose proof (load_component t d Hd) as Hcomp. cbn [cdist_name] in Hdump.
  destruct (C27_reload (dist_of d) so LAWS (Hnn d) _ _ _ _ _ _ Hb el _ Hr Hnd Hu _ _ _ _ _ _ _ Hdump _ _ Hcomp Hcomp)
    as (h' & _ & Hl & Hg & Hv & _).
  destruct (C28_reload_search (dist_of d) so LAWS (Hnn d) _ _ _ _ _ _ Hb el _ Hr Hnd Hu Ho _ _ _ _ _ _ _ Hdump _ _ Hcomp Hcomp
    ro_default) as (h2 & mp & Hl2 & Hs); [done|].
  assert (E : io_new_with_options here base ro_default = io_new here base) by done. rewrite E, Hl in Hl2.
  injection Hl2 as <- <-.
  set (m1 := m ++ [Some (OIo (io_new here base))]).
  exists (alloc m1 (OIndex (Named d) h')).1, (S (length m1)), h'. split; [reflexivity|].
  split.
  { unfold c_load, the_io. pose proof (deref_alloc m (OIo (io_new here base))) as Hio. simpl in Hio.
    change (mjoin (m1 !! length m) = Some (OIo (io_new here base))) in Hio. cbn [deref]. fold m1. rewrite Hio. simpl. by rewrite Hl. }
  split; [done|]. split; [simpl; by rewrite lookup_ge_None_2|].
  split; [eapply kept_trans; [apply (kept_alloc m)|apply (kept_alloc m1)]|].
  split; [apply (deref_alloc m1)|]. split; [done|]. split; [done|]. intros q k e. apply (Hs q k e None).
Qed.
Print Assumptions C62_reload_partial.

(** C49 does not hold: the description always says that there are 0 points. *)
Definition graph_path (s : string) : path := in_dir here s.
Theorem C49_description_refuted :
  exists T (dist_of : string -> list T -> list T -> Z) so el t inv_ln cwd evs m fs p d M ef h f base draws fs',
    StdLaws so /\ (forall d a b, (0 <= dist_of d a b)%Z) /\ elem_ok el /\
    c_run dist_of so el t inv_ln cwd evs m fs /\ EvNew p (Named d) M 16 ef ∈ evs /\ index_at m p (Named d) h /\
    length (inserted p evs) = 1%nat /\ bytes_at m f base /\
    c_file_dump el cwd m fs draws p (N.of_nat (length (str_bytes base))) f = Ok (fs', 1%Z) /\
    forall (m1 : list (option (cobj (T:=T)))) f', bytes_at m1 f' (base +:+ ".hnsw.graph") -> exists m2 r dim,
      c_load_description cwd graph_path m1 fs' (N.of_nat (length (str_bytes (base +:+ ".hnsw.graph")))) f' = Ok (m2, r) /\
      description_at m2 r 1 (N.of_nat M) 16 (N.of_nat ef) 0 dim (dist_type_name d) (el_name el).
Proof.
  exists (byte * byte)%type, dist16, simple_ops, el_u16, U16, one_scale, cwd0, run16, mem16_end, fs0, 4%nat,
    "DistJaccard"%string, 2%nat, 10%nat, h16, 3%nat, "j"%string, [], fs16.
  split; [exact simple_laws|]. split; [intros d a b; apply dB_nonneg|]. split; [by intros []|].
  split; [exact run16_ok|]. split; [do 3 right; left|]. split; [reflexivity|]. split; [done|]. split; [by exists []|].
  split; [exact fs16_dumped|]. intros m1 f' Hf. unfold c_load_description. rewrite (raw_bytes_ok _ _ _ Hf). cbn [mbind outcome_bind].
  assert (E : exists g, fs_read fs16 cwd0 (graph_path (from_utf8_lossy (str_bytes ("j" +:+ ".hnsw.graph")))) = Some g /\
     run_rd load_description g [] = Ok (Description 4 1 2 f64_1 16 10 1 2 (dist_type_name "DistJaccard") "u16")).
  { eexists. split; vm_compute; reflexivity. }
  destruct E as (g & -> & ->). eexists _, _, _. split; [reflexivity|].
  eexists _, _. split; [apply (deref_alloc ((m1 ++ [_]) ++ [_]))|]. split.
  - apply (kept_alloc ((m1 ++ [_]) ++ [_])), (kept_alloc (m1 ++ [_])), (deref_alloc m1).
  - apply (kept_alloc ((m1 ++ [_]) ++ [_])), (deref_alloc (m1 ++ [_])).
Qed.
Print Assumptions C49_description_refuted.

(** C49, what holds: the other fields are those of the index dumped, and nothing else in memory changes; null is returned for a
    file that does not exist. (The field of the connection number is a byte.) *)
Theorem C49_description_partial :
  forall {T} (dist : list T -> list T -> Z) so, StdLaws so -> (forall a b, (0 <= dist a b)%Z) ->
  forall inv_ln M ml ef hist h, built dist so inv_ln M ml ef hist h ->
  forall el dname, dump_ready el dname ml hist h ->
  forall cwd fs draws base fs' name, file_dump el dname cwd fs here base draws h = (fs', Ok name) ->
  forall {T'} (m : list (option (cobj (T:=T')))) f file, bytes_at m f file -> utf8_valid (str_bytes file) = true ->
  (file = name +:+ ".hnsw.graph" -> exists m' r,
     c_load_description cwd graph_path m fs' (N.of_nat (length (str_bytes file))) f = Ok (m', r) /\ r <> 0%nat /\
     deref m r = None /\ kept m m' /\
     description_at m' r 1 (N.of_nat (M mod 256)) 16 (N.of_nat ef) 0 (N.of_nat (get_data_dimension h)) dname (el_name el)) /\
  (fs_read fs' cwd (graph_path file) = None ->
     c_load_description cwd graph_path m fs' (N.of_nat (length (str_bytes file))) f = Ok (m, 0%nat)).
Proof.
  intros T dist so LAWS Hnn inv_ln M ml ef hist h Hb el dname Hr cwd fs draws base fs' name Hf T' m f file Hfile Hu.
  unfold c_load_description. rewrite (raw_bytes_ok _ _ _ Hfile). cbn [mbind outcome_bind]. rewrite lossy_valid by done. split.
  - intros ->. destruct (C30_description dist so LAWS Hnn _ _ _ _ _ _ Hb el dname Hr _ _ _ _ _ _ _ Hf) as (g & d & rest & [Hg _] & Hd).
    change (graph_path (name +:+ ".hnsw.graph")) with (graph_file here name). rewrite Hg.
    specialize (Hd []). rewrite !app_nil_r in Hd. unfold run_rd. rewrite Hd. cbn [fmap outcome_fmap fst].
    eexists _, _. split; [reflexivity|]. split; [done|]. split; [|split].
    + simpl. rewrite lookup_ge_None_2; [done|]. rewrite !app_length. simpl. lia.
    + eapply kept_trans; [apply (kept_alloc m)|]. eapply kept_trans; [apply (kept_alloc (m ++ [_]))|].
      apply (kept_alloc ((m ++ [_]) ++ [_])).
    + eexists _, _. split; [apply (deref_alloc ((m ++ [_]) ++ [_]))|]. split.
      * apply (kept_alloc ((m ++ [_]) ++ [_])), (kept_alloc (m ++ [_])), (deref_alloc m).
      * apply (kept_alloc ((m ++ [_]) ++ [_])), (deref_alloc (m ++ [_])).
  - intros ->. done.
Qed.
Print Assumptions C49_description_partial.

(** ** Examples: a run of a C program over u16, with an index of the distance DistL1 *)
Definition memx0 : list (option (cobj (T:=byte * byte))) :=
  [Some (OBytes (str_bytes "DistL1")); Some (OVals [(x01, x00); (x02, x00)]); Some (OVals [(x09, x00); (x02, x00)]);
   Some (OPtrs [2; 3]%nat); Some (OIds [20; 30]%N); Some (OBytes (str_bytes "x"))].
Definition memx1 := Eval vm_compute in match c_init U16 one_scale memx0 2 10 6 1 with Ok (m, _) => m | _ => [] end.
Definition memx2 := Eval vm_compute in match c_insert dist16 simple_ops memx1 7 2 2 10%N (lv 0) with Ok m => m | _ => [] end.
Definition memx := Eval vm_compute in match c_insert dist16 simple_ops memx2 7 2 3 11%N (lv 0) with Ok m => m | _ => [] end.
Definition hx : hnsw (T:=byte * byte) := Eval vm_compute in match the_index memx 7 with Ok (_, h) => h | _ => h16 end.
Definition runx : list (event (T:=byte * byte)) :=
  replicate 6 EvOther ++ [EvNew 7 (Named "DistL1") 2 16 10; EvInsert 7 [(x01, x00); (x02, x00)] 10%N;
    EvInsert 7 [(x09, x00); (x02, x00)] 11%N].
Lemma runx_ok : c_run dist16 simple_ops el_u16 U16 one_scale cwd0 runx memx fs0.
Proof.
  assert (R0 : c_run dist16 simple_ops el_u16 U16 one_scale cwd0 (replicate 6 EvOther) memx0 fs0).
  { change (replicate 6 EvOther) with (((((([] ++ [EvOther]) ++ [EvOther]) ++ [EvOther]) ++ [EvOther]) ++ [EvOther]) ++ [@EvOther (byte * byte)]).
    apply (run_malloc _ _ _ _ _ _ _ [_; _; _; _; _] _ (OBytes _)); [|done]. apply (run_malloc _ _ _ _ _ _ _ [_; _; _; _] _ (OIds _)); [|done].
    apply (run_malloc _ _ _ _ _ _ _ [_; _; _] _ (OPtrs _)); [|done]. apply (run_malloc _ _ _ _ _ _ _ [_; _] _ (OVals _)); [|done].
    apply (run_malloc _ _ _ _ _ _ _ [_] _ (OVals _)); [|done]. apply (run_malloc _ _ _ _ _ _ _ [] _ (OBytes _)); [|done]. constructor. }
  assert (R1 := run_init dist16 simple_ops el_u16 U16 one_scale cwd0 _ _ _ 2 10 "DistL1" 1 memx1 7 R0).
  feed specialize R1; [exists []; reflexivity|vm_compute; reflexivity|].
  assert (R2 := run_insert _ _ _ _ _ _ _ _ _ 7 [(x01, x00); (x02, x00)] 2 10%N (lv 0) memx2 R1).
  feed specialize R2; [exists []; reflexivity|vm_compute; reflexivity|].
  assert (R3 := run_insert _ _ _ _ _ _ _ _ _ 7 [(x09, x00); (x02, x00)] 3 11%N (lv 0) memx R2).
  feed specialize R3; [exists []; reflexivity|vm_compute; reflexivity|]. exact R3.
Qed.
Lemma hx_built : built (dist16 "DistL1") simple_ops one_scale 2 16 10 (inserted 7 runx) hx.
Proof.
  apply (C61_runs _ _ _ _ _ _ _ _ _ runx_ok 7 (Named "DistL1") 2 16 10 (Named "DistL1") hx); [|done|].
  - do 6 right. left.
  - intros l1 l2 vs E. exfalso. assert (Hin : EvParallel 7 vs ∈ runx) by (rewrite E; set_solver). clear E.
    unfold runx in Hin. simpl in Hin. repeat (apply elem_of_cons in Hin as [Hin|Hin]; [done|]). by apply elem_of_nil in Hin.
Qed.
Example C61_example : EvNew 7 (Named "DistL1") 2 16 10 ∈ runx /\ index_at memx 7 (Named "DistL1") hx /\ length (inserted 7 runx) = 2%nat.
Proof. split; [do 6 right; left|done]. Qed.
Example C60_example : bytes_at memx0 1 "DistL1" /\ "DistL1" ∈ init_names U16 /\ "DistCosine" ∉ init_names F32.
Proof. split; [by exists []|]. split; [left|]. apply (bool_decide_unpack _). vm_compute. done. Qed.
(** a search through the pointer gives the two points; so does the parallel version for two vectors *)
Example C50_example : exists ns, index_at memx 7 (Named "DistL1") hx /\ vals_at memx 2 [(x01, x00)] /\
  search (dist16 "DistL1") simple_ops hx [(x01, x00)] 2 4 = Ok ns /\ answers ns = [(10%N, 0%Z); (11%N, 8%Z)] /\
  ptrs_at memx 4 [2; 3]%nat /\ Forall2 (vals_at memx) [2; 3]%nat [[(x01, x00)]; [(x09, x00)]].
Proof.
  eexists. split; [done|]. split; [by exists [(x02, x00)]|]. split; [vm_compute; reflexivity|]. split; [reflexivity|].
  split; [by exists []|]. repeat constructor; by exists [(x02, x00)].
Qed.
Definition fsx : fsys := (file_dump el_u16 (dist_type_name "DistL1") cwd0 fs0 here "x" [] hx).1.
Lemma hx_dumped : file_dump el_u16 (dist_type_name "DistL1") cwd0 fs0 here "x" [] hx = (fsx, Ok "x").
Proof.
  unfold fsx, file_dump. cbn [datamap_opt hx negb dump_basename].
  assert (E : w_res (dump el_u16 (dist_type_name "DistL1") hx Full) = Ok tt) by (vm_compute; reflexivity). by rewrite E.
Qed.
Lemma hx_ready : dump_ready el_u16 (dist_type_name "DistL1") 16 (inserted 7 runx) hx.
Proof.
  constructor; [by intros []| | |lia|done|apply sized_check; vm_compute; reflexivity].
  - split; [vm_compute; reflexivity|vm_compute; lia].
  - split; [vm_compute; reflexivity|vm_compute; lia].
Qed.
Example C49_example : dump_ready el_u16 (dist_type_name "DistL1") 16 (inserted 7 runx) hx /\
  file_dump el_u16 (dist_type_name "DistL1") cwd0 fs0 here "x" [] hx = (fsx, Ok "x") /\
  fs_read fsx cwd0 (graph_path "y.hnsw.graph") = None.
Proof. split; [exact hx_ready|]. split; [exact hx_dumped|]. vm_compute. reflexivity. Qed.
Example C62_example : index_at memx 7 (Named "DistL1") hx /\ built (dist16 "DistL1") simple_ops one_scale 2 16 10 (inserted 7 runx) hx /\
  "DistL1" ∈ load_names U16 /\ dump_ready el_u16 (dist_type_name "DistL1") 16 (inserted 7 runx) hx /\ uniform hx /\
  order_kept simple_ops hx /\ datamap_opt hx = false /\ bytes_at memx 6 "x" /\
  c_file_dump el_u16 cwd0 memx fs0 [] 7 1 6 = Ok (fsx, 1%Z).
Proof.
  split; [done|]. split; [exact hx_built|]. split; [left|]. split; [exact hx_ready|].
  split; [apply (uniform_check hx 2); vm_compute; reflexivity|]. split; [left; exact simple_keeps_sorted|]. split; [done|].
  split; [by exists []|]. unfold c_file_dump. change (raw_bytes memx 6 1) with (@Ok bytes [x78]).
  change (the_index memx 7) with (Ok (Named (T:=byte * byte) "DistL1", hx)). cbn [mbind outcome_bind].
  change (from_utf8_lossy [x78]) with "x". cbn [cdist_name]. by rewrite hx_dumped.
Qed.
