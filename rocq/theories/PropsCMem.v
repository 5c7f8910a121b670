(** Property C101: what the library gives to a C program stays. *)
From Coq Require Import Strings.String Strings.Byte.
From stdpp Require Import strings relations.
From Verif Require Import Prelude Model StdInst Lib Io Conc SpecConc Ffi SpecFfi SpecCMem ExamplesIo Examples PropsFfi.
Local Open Scope list_scope.
Notation length := List.length.

Section CMem.
Context {T : Type} (dist_of : string -> list T -> list T -> Z) (so : StdOps) (el : elem T) (t : ctype)
  (inv_ln : nat -> f64) (cwd : list string).
Implicit Types (m : list (option (cobj (T:=T)))) (evs : list (event (T:=T))).
Notation step := (c_step dist_of so el t inv_ln cwd).

(** [c_run] is what [c_step] reaches from an empty memory *)
Lemma run_steps evs m fs : c_run dist_of so el t inv_ln cwd evs m fs <-> exists fs0, rtc step ([], [], fs0) (evs, m, fs).
Proof.
  split.
  - induction 1; [by exists fs|..]; destruct IHc_run as [fs0 IH]; exists fs0; (eapply rtc_r; [exact IH|]).
    + eapply step_malloc; eassumption.
    + eapply step_write; eassumption.
    + eapply step_free; eassumption.
    + apply step_files.
    + eapply step_init; eassumption.
    + eapply step_new; eassumption.
    + eapply step_ptrdist; eassumption.
    + eapply step_drop; eassumption.
    + eapply step_insert; eassumption.
    + eapply step_parallel_insert; eassumption.
    + eapply step_search; eassumption.
    + eapply step_parallel_search; eassumption.
    + eapply step_dump; eassumption.
    + eapply step_hnswio; eassumption.
    + eapply step_load; eassumption.
    + eapply step_description; eassumption.
  - intros [fs0 Hr]. assert (Hg : forall s, rtc step ([], [], fs0) s -> c_run dist_of so el t inv_ln cwd s.1.1 s.1.2 s.2).
    { apply (rtc_ind_r (fun s => c_run dist_of so el t inv_ln cwd s.1.1 s.1.2 s.2)); [constructor|].
      intros s1 s2 _ Hs IH. destruct Hs; cbn [fst snd] in *.
      - eapply run_malloc; eassumption.
      - eapply run_write; eassumption.
      - eapply run_free; eassumption.
      - eapply run_files; eassumption.
      - eapply run_init; eassumption.
      - eapply run_new; eassumption.
      - eapply run_ptrdist; eassumption.
      - eapply run_drop; eassumption.
      - eapply run_insert; eassumption.
      - eapply run_parallel_insert; eassumption.
      - eapply run_search; eassumption.
      - eapply run_parallel_search; eassumption.
      - eapply run_dump; eassumption.
      - eapply run_hnswio; eassumption.
      - eapply run_load; eassumption.
      - eapply run_description; eassumption. }
    apply (Hg (evs, m, fs) Hr).
Qed.

(** what one step does to one cell *)
Definition cell evs m m' (p : nat) : Prop :=
  (length m <= length m')%nat /\
  ((p <= length m)%nat ->
   deref m' p = deref m p \/
   (exists x, deref m p = Some x /\ own x /\ forall D h, deref m' p <> Some (OIndex D h)) \/
   (exists D h, deref m p = Some (OIndex D h) /\ (deref m' p = None /\ c_drop m p = Ok m' \/ exists h', deref m' p = Some (OIndex D h') /\ ~ untouched p evs))).

Definition extends m m' : Prop := (length m <= length m')%nat /\ forall p, (p <= length m)%nat -> deref m' p = deref m p.
Lemma extends_refl m : extends m m.
Proof. by split. Qed.
Lemma extends_trans m1 m2 m3 : extends m1 m2 -> extends m2 m3 -> extends m1 m3.
Proof. intros [A1 B1] [A2 B2]. split; [lia|]. intros p Hp. rewrite B2 by lia. by apply B1. Qed.
Lemma extends_alloc m o : extends m (alloc m o).1.
Proof.
  split; [simpl; rewrite app_length; lia|]. intros [|i] Hp; [done|]. simpl. by rewrite lookup_app_l by lia.
Qed.
Lemma extends_lists (ns : list (list neighbour)) : forall m m' l, c_lists m ns = (m', l) -> extends m m'.
Proof.
  induction ns as [|v ns IH]; intros m m' l; cbn [c_lists].
  - intros [= <- <-]. apply extends_refl.
  - destruct (alloc m (ONbrs (neighbour_api <$> v))) as [m1 q] eqn:E1.
    destruct (c_lists m1 ns) as [m2 l2] eqn:E2. intros [= <- <-]. eapply extends_trans; [|by eapply IH].
    change m1 with (m1, q).1. rewrite <- E1. apply extends_alloc.
Qed.
Lemma extends_cell evs m m' p : extends m m' -> cell evs m m' p.
Proof. intros [H1 H2]. split; [done|]. intros Hp. left. auto. Qed.
Lemma store_length m p o : length (store m p o) = length m.
Proof. destruct p; [done|]. simpl. apply insert_length. Qed.

Lemma new_cell evs m M ef ml len q m' r p : c_new t inv_ln m M ef len q ml = Ok (m', r) -> cell evs m m' p.
Proof.
  unfold c_new. intros (b & _ & H)%bind_inv. destruct (decide _).
  - apply bind_inv in H as (h & _ & [= <- <-]). apply extends_cell, extends_alloc.
  - injection H as <- <-. apply extends_cell, extends_refl.
Qed.

Lemma index_cell new m p q D h h' : deref m q = Some (OIndex D h) -> (p = q -> ~ untouched q new) ->
  cell new m (store m q (Some (OIndex D h'))) p.
Proof.
  intros Hq Hn. split; [by rewrite store_length|]. intros _. rewrite (deref_store _ _ _ _ _ Hq).
  destruct (decide (p = q)) as [->|]; [|by left]. right. right. exists D, h. split; [done|]. right. eauto.
Qed.
Lemma the_index_deref m p D h : the_index m p = Ok (D, h) -> deref m p = Some (OIndex D h).
Proof. unfold the_index. destruct (deref m p) as [[]|]; try done. by intros [= -> ->]. Qed.

Lemma step_cell evs m fs evs' m' fs' p : step (evs, m, fs) (evs', m', fs') ->
  exists new, evs' = evs ++ new /\ cell new m m' p.
Proof.
  intros Hs. inversion Hs as [? ? ? o Ho|? ? ? q o o' Hq Ho Ho'|? ? ? q o Hq Ho|?|? ? ? M ef d q m1 r Hb Hc|? ? ? M ef d q ml m1 r Hb Hc
    |? ? ? M ef f m1 r Hc|? ? ? q m1 Hc|? ? ? q v dp id d m1 Hv Hc|? ? ? q vs ptrs len pp ip ds m1 H1 H2 H3 H4 Hc
    |? ? ? q len dp k e m1 r Hc|? ? ? arr q n len dp k e m1 r Hc|? ? ? draws q len f fs1 r Hc|? ? ? len f m1 r Hc
    |? ? ? d q m1 r Hd Hc|? ? ? fpath len q m1 r Hc]; subst; (eexists; split; [reflexivity|]).
  - apply extends_cell, extends_alloc.
  - split; [by rewrite store_length|]. intros _. rewrite (deref_store _ _ _ _ _ Hq). destruct (decide (p = q)) as [->|]; [|by left].
    right. left. exists o. split_and!; auto. intros D h [= ->]. done.
  - split; [by rewrite store_length|]. intros _. rewrite (deref_store _ _ _ _ _ Hq). destruct (decide (p = q)) as [->|]; [|by left].
    right. left. eauto.
  - apply extends_cell, extends_refl.
  - by eapply new_cell.
  - by eapply new_cell.
  - unfold c_init_ptrdist in Hc. apply bind_inv in Hc as (h & _ & [= <- <-]). apply extends_cell, extends_alloc.
  - pose proof Hc as Hc'. unfold c_drop in Hc. apply bind_inv in Hc as ([D h] & Hq%the_index_deref & [= <-]).
    split; [by rewrite store_length|]. intros _.
    rewrite (deref_store _ _ _ _ _ Hq). destruct (decide (p = q)) as [->|]; [|by left].
    right. right. exists D, h. split; [done|]. left. by split.
  - unfold c_insert in Hc. apply bind_inv in Hc as (v' & _ & Hc). apply bind_inv in Hc as ([D h] & Hq%the_index_deref & Hc).
    apply bind_inv in Hc as (h' & _ & [= <-]). eapply index_cell; [exact Hq|]. intros _ Hu.
    specialize (Hu _ (elem_of_list_here _ _)). done.
  - destruct Hc as [D h vs' h' rs _ Hq%the_index_deref _ _]. eapply index_cell; [exact Hq|]. intros _ Hu.
    specialize (Hu _ (elem_of_list_here _ _)). done.
  - unfold c_search in Hc. apply bind_inv in Hc as (v & _ & Hc). apply bind_inv in Hc as ([D h] & _ & Hc).
    apply bind_inv in Hc as (ns & _ & [= <- <-]). apply extends_cell.
    eapply extends_trans; [apply (extends_alloc m)|apply (extends_alloc (m ++ [_]))].
  - unfold c_parallel_search in Hc. apply bind_inv in Hc as (ps & _ & Hc). apply bind_inv in Hc as (v & _ & Hc).
    apply bind_inv in Hc as ([D h] & _ & Hc). apply bind_inv in Hc as (ns & _ & Hc).
    destruct (c_lists m ns) as [m2 l] eqn:E. injection Hc as <- <-. apply extends_cell.
    eapply extends_trans; [by eapply extends_lists|]. eapply extends_trans; [apply (extends_alloc m2)|apply (extends_alloc (m2 ++ [_]))].
  - apply extends_cell, extends_refl.
  - unfold c_get_hnswio in Hc. apply bind_inv in Hc as (b & _ & [= <- <-]). apply extends_cell, extends_alloc.
  - unfold c_load in Hc. apply bind_inv in Hc as (io & _ & Hc).
    destruct (load_hnsw so el inv_ln (dist_type_name d) cwd _ io) as [[h mp]| | | | |]; try done; injection Hc as <- <-; [apply extends_cell, extends_alloc|apply extends_cell, extends_refl].
  - unfold c_load_description in Hc. apply bind_inv in Hc as (b & _ & Hc). destruct (fs_read _ _ _) as [g|].
    2: { injection Hc as <- <-. apply extends_cell, extends_refl. }
    destruct (run_rd load_description g []) as [de| | | | |]; try done; injection Hc as <- <-; [|apply extends_cell, extends_refl].
    apply extends_cell. eapply extends_trans; [apply (extends_alloc m)|].
    eapply extends_trans; [apply (extends_alloc (m ++ [_]))|apply (extends_alloc ((m ++ [_]) ++ [_]))].
Qed.

Lemma given_facts (x : cobj (T:=T)) : given x -> ~ own x /\ forall D h, x <> OIndex D h.
Proof. destruct x; try done; intros _; split; auto; done. Qed.

Lemma steps_cell s s' p : rtc step s s' ->
  exists new, s'.1.1 = s.1.1 ++ new /\ (length s.1.2 <= length s'.1.2)%nat /\
    (forall x, deref s.1.2 p = Some x -> given x -> deref s'.1.2 p = Some x) /\
    ((p <= length s.1.2)%nat -> deref s.1.2 p = None -> deref s'.1.2 p = None) /\
    (forall D h, deref s.1.2 p = Some (OIndex D h) ->
       deref s'.1.2 p = None /\ (exists s1 s2, rtc step s s1 /\ step s1 s2 /\ rtc step s2 s' /\ c_drop s1.1.2 p = Ok s2.1.2) \/
       exists h', deref s'.1.2 p = Some (OIndex D h') /\ (untouched p new -> h' = h)).
Proof.
  induction 1 as [s|s1 s2 s3 H12 H23 IH].
  - exists []. rewrite app_nil_r. split_and!; auto. intros D h Hp. right. eauto.
  - destruct s1 as [[evs1 m1] fs1], s2 as [[evs2 m2] fs2]. cbn [fst snd] in *.
    destruct (step_cell _ _ _ _ _ _ p H12) as (n1 & E1 & Hlen & Hc).
    destruct IH as (n2 & E2 & Hlen2 & A & B & C). exists (n1 ++ n2). split; [by rewrite E2, E1, app_assoc|].
    split; [lia|]. split; [|split].
    + intros x Hx Hg. pose proof (deref_lt _ _ _ Hx) as Hlt. destruct (given_facts x Hg) as [G1 G2].
      destruct Hc as [E|[(y & Hy & Ho & _)|(D & h & Hy & _)]]; [lia| | |].
      * apply A; [by rewrite E|done].
      * rewrite Hx in Hy. by injection Hy as <-.
      * rewrite Hx in Hy. injection Hy as ->. by destruct (G2 D h).
    + intros Hp Hn. apply B; [lia|]. destruct Hc as [E|[(y & Hy & _)|(D & h & Hy & _)]]; [lia|congruence..].
    + intros D h Hp. pose proof (deref_lt _ _ _ Hp) as Hlt.
      destruct Hc as [E|[(y & Hy & Ho & _)|(D' & h0 & Hy & Hc)]]; [lia| | |].
      * rewrite <- E in Hp. destruct (C D h Hp) as [(Hn & s4 & s5 & R1 & R2 & R3 & R4)|(h' & Hh' & Hu)].
        { left. split; [done|]. exists s4, s5. split_and!; auto. by eapply rtc_l. }
        right. exists h'. split; [done|].
        intros Hun. apply Hu. intros e He. apply Hun, elem_of_app. by right.
      * rewrite Hp in Hy. by injection Hy as <-.
      * rewrite Hp in Hy. injection Hy as <- <-. destruct Hc as [[Hn Hd]|(h1 & Hh1 & Hnu)].
        -- left. split; [by apply B; [lia|]|]. eexists _, _. split_and!; [apply rtc_refl|exact H12|exact H23|exact Hd].
        -- destruct (C D h1 Hh1) as [(Hn & s4 & s5 & R1 & R2 & R3 & R4)|(h' & Hh' & _)].
           { left. split; [done|]. exists s4, s5. split_and!; auto. by eapply rtc_l. } right. exists h'. split; [done|].
           intros Hun. destruct Hnu. intros e He. apply Hun, elem_of_app. by left.
Qed.

(** how many objects the library has given *)
Lemma nb_given_mono : forall m m', (length m <= length m')%nat ->
  (forall i x, m !! i = Some (Some x) -> given x -> m' !! i = Some (Some x)) -> (nb_given m <= nb_given m')%nat.
Proof.
  unfold nb_given. induction m as [|o m IH]; intros m' Hlen Hk; [simpl; lia|].
  destruct m' as [|o' m']; [simpl in Hlen; lia|]. assert (Hm : (length (filter (fun o => givenb o = true) m) <= length (filter (fun o => givenb o = true) m'))%nat).
  { apply IH; [simpl in Hlen; lia|]. intros i x Hi Hg. by apply (Hk (S i) x). }
  rewrite !filter_cons. destruct (decide (givenb o = true)) as [Ho|Ho]; destruct (decide (givenb o' = true)) as [Ho'|Ho']; simpl; try lia.
  destruct Ho'. destruct o as [x|]; [|done]. assert (Hg : given x) by by destruct x.
  specialize (Hk 0 x eq_refl Hg). injection Hk as ->. done.
Qed.
Lemma nb_given_app m o : nb_given (m ++ [o]) = (nb_given m + if givenb o then 1 else 0)%nat.
Proof.
  unfold nb_given. rewrite filter_app, app_length. f_equal. rewrite filter_cons.
  destruct (decide (givenb o = true)) as [E|E]; [by rewrite E|]. by destruct (givenb o).
Qed.
Lemma lists_length (ns : list (list neighbour)) : forall m m' l, c_lists m ns = (m', l) -> length l = length ns.
Proof.
  induction ns as [|v ns IH]; intros m m' l; cbn [c_lists].
  - by intros [= <- <-].
  - destruct (alloc m (ONbrs (neighbour_api <$> v))) as [m1 q] eqn:E1.
    destruct (c_lists m1 ns) as [m2 l2] eqn:E2. intros [= <- <-]. simpl. by rewrite (IH _ _ _ E2).
Qed.
Lemma lists_given (ns : list (list neighbour)) : forall m m' l, c_lists m ns = (m', l) -> nb_given m' = (nb_given m + length ns)%nat.
Proof.
  induction ns as [|v ns IH]; intros m m' l; cbn [c_lists].
  - intros [= <- <-]. simpl. lia.
  - destruct (alloc m (ONbrs (neighbour_api <$> v))) as [m1 q] eqn:E1.
    destruct (c_lists m1 ns) as [m2 l2] eqn:E2. intros [= <- <-]. rewrite (IH _ _ _ E2). injection E1 as <- <-.
    rewrite nb_given_app. simpl. lia.
Qed.
End CMem.

(** C101: whatever a C program does after it has got an answer (more calls, on the same index or others, even dropping the
    index), the answer stays readable and unchanged at the pointers it got, and so do HnswIo and description objects; an
    index stays at its pointer until the program drops it there, with the same distance, and is changed only by insertions
    through this pointer. *)
Theorem C101_given_stays :
  forall {T} (dist_of : string -> list T -> list T -> Z) so el t inv_ln cwd evs m fs evs' m' fs',
  c_run dist_of so el t inv_ln cwd evs m fs ->
  rtc (c_step dist_of so el t inv_ln cwd) (evs, m, fs) (evs', m', fs') ->
  c_run dist_of so el t inv_ln cwd evs' m' fs' /\
  (forall r l, neighbourhood_at m r l -> neighbourhood_at m' r l) /\
  (forall r ls, neighbourhoods_at m r ls -> neighbourhoods_at m' r ls) /\
  (forall p io, deref m p = Some (OIo io) -> deref m' p = Some (OIo io)) /\
  (forall p de, deref m p = Some (ODesc de) -> deref m' p = Some (ODesc de)) /\
  exists new, evs' = evs ++ new /\
    forall p D h, index_at m p D h ->
      (exists h', index_at m' p D h' /\ (untouched p new -> h' = h)) \/
      deref m' p = None /\ exists s1 s2, rtc (c_step dist_of so el t inv_ln cwd) (evs, m, fs) s1 /\
        c_drop s1.1.2 p = Ok s2.1.2 /\ rtc (c_step dist_of so el t inv_ln cwd) s2 (evs', m', fs').
Proof.
  intros T dist_of so el t inv_ln cwd evs m fs evs' m' fs' Hr Hs.
  assert (Hk : forall p x, deref m p = Some x -> given x -> deref m' p = Some x).
  { intros p x. by destruct (steps_cell dist_of so el t inv_ln cwd _ _ p Hs) as (new & _ & _ & Hx & _); apply Hx. }
  split; [|split; [|split; [|split; [|split]]]].
  - apply run_steps in Hr as [fs0 Hr]. apply run_steps. exists fs0. by eapply rtc_transitive.
  - intros r l (p & H1 & H2). exists p. split; by apply Hk.
  - intros r ls (p & hs & H1 & H2 & H3). exists p, hs. split; [by apply Hk|]. split; [by apply Hk|].
    eapply Forall2_impl; [exact H3|]. intros ? ? [? ?]. split; [done|by apply Hk].
  - intros p io Hp. by apply Hk.
  - intros p io Hp. by apply Hk.
  - destruct (steps_cell dist_of so el t inv_ln cwd _ _ 0 Hs) as (new & E & _). exists new. split; [done|]. intros p D h Hp.
    destruct (steps_cell dist_of so el t inv_ln cwd _ _ p Hs) as (new' & E' & _ & _ & _ & Hi). cbn [fst snd] in *.
    rewrite E in E'. apply (inj (app evs)) in E' as <-. destruct (Hi D h Hp) as [(Hn & s1 & s2 & R1 & _ & R3 & R4)|(h' & Hh' & Hu)].
    + right. split; [done|]. by exists s1, s2.
    + left. by exists h'.
Qed.
Print Assumptions C101_given_stays.

(** C101, the price: nothing that the library gives is ever freed. A search adds two objects to memory, a search in parallel
    for n requests n + 2, and no step that a program can make takes one away. *)
Theorem C101_nothing_freed :
  forall {T} (dist_of : string -> list T -> list T -> Z) so el t inv_ln cwd,
  (forall s s', rtc (c_step dist_of so el t inv_ln cwd) s s' -> (nb_given s.1.2 <= nb_given s'.1.2)%nat) /\
  (forall m p len q k e m' r, c_search dist_of so m p len q k e = Ok (m', r) -> nb_given m' = (nb_given m + 2)%nat) /\
  (forall arrival m p n len q k e m' r ls, c_parallel_search dist_of so arrival m p n len q k e = Ok (m', r) ->
     neighbourhoods_at m' r ls -> nb_given m' = (nb_given m + length ls + 2)%nat).
Proof.
  intros T dist_of so el t inv_ln cwd. split; [|split].
  - intros s s' Hs. apply nb_given_mono.
    + by destruct (steps_cell dist_of so el t inv_ln cwd _ _ 0 Hs) as (? & _ & ? & _).
    + intros i x Hi Hg. destruct (steps_cell dist_of so el t inv_ln cwd _ _ (S i) Hs) as (? & _ & _ & Hk & _).
      assert (Hd : deref s.1.2 (S i) = Some x) by (simpl; by rewrite Hi). specialize (Hk x Hd Hg). simpl in Hk.
      destruct (s'.1.2 !! i) as [[y|]|]; simpl in Hk; congruence.
  - intros m p len q k e m' r Hc. unfold c_search in Hc. apply bind_inv in Hc as (v & _ & Hc). apply bind_inv in Hc as ([D h] & _ & Hc).
    apply bind_inv in Hc as (ns & _ & [= <- <-]). rewrite !nb_given_app. simpl. lia.
  - intros arrival m p n len q k e m' r ls Hc Hls. unfold c_parallel_search in Hc. apply bind_inv in Hc as (ps & _ & Hc). apply bind_inv in Hc as (v & _ & Hc).
    apply bind_inv in Hc as ([D h] & _ & Hc). apply bind_inv in Hc as (ns & _ & Hc).
    destruct (c_lists m ns) as [m2 l] eqn:E. injection Hc as <- <-. rewrite !nb_given_app, (lists_given _ _ _ _ E). simpl.
    destruct Hls as (p' & hs & H1 & H2 & H3). simpl in H1.
    rewrite lookup_app_r in H1 by (rewrite app_length; simpl; lia). rewrite app_length in H1. simpl in H1.
    replace (length m2 + 1 - (length m2 + 1))%nat with 0%nat in H1 by lia. simpl in H1. injection H1 as _ <-. simpl in H2.
    rewrite lookup_app_l, lookup_app_r in H2 by (rewrite ?app_length; simpl; lia). rewrite Nat.sub_diag in H2. simpl in H2.
    injection H2 as <-. apply Forall2_length in H3. rewrite (lists_length _ _ _ _ E) in H3. lia.
Qed.
Print Assumptions C101_nothing_freed.

(** The run of PropsFfi.v goes on: a search, then the index is dropped. The answer is still there. *)
Definition memx3 := Eval vm_compute in match c_search dist16 simple_ops memx 7 2 2 2 4 with Ok (m, _) => m | _ => [] end.
Definition memx4 := Eval vm_compute in match c_drop memx3 7 with Ok m => m | _ => [] end.
Example C101_example : exists evs' evs'',
  c_run dist16 simple_ops el_u16 U16 one_scale cwd0 runx memx fs0 /\
  rtc (c_step dist16 simple_ops el_u16 U16 one_scale cwd0) (runx, memx, fs0) (evs', memx3, fs0) /\
  rtc (c_step dist16 simple_ops el_u16 U16 one_scale cwd0) (evs', memx3, fs0) (evs'', memx4, fs0) /\
  index_at memx 7 (Named "DistL1") hx /\ untouched 7 [EvOther (T:=byte * byte)] /\ deref memx4 7 = None /\
  neighbourhood_at memx3 9 [(10%N, 0%Z); (11%N, 8%Z)] /\ neighbourhood_at memx4 9 [(10%N, 0%Z); (11%N, 8%Z)] /\
  nb_given memx = 0%nat /\ nb_given memx3 = 2%nat /\ nb_given memx4 = 2%nat.
Proof.
  exists (runx ++ [EvOther]), ((runx ++ [EvOther]) ++ [EvOther]). split; [exact runx_ok|].
  split. { apply rtc_once. apply (step_search _ _ _ _ _ _ _ _ _ 7%nat 2%N 2%nat 2%nat 4%nat memx3 9%nat). vm_compute. reflexivity. }
  split. { apply rtc_once. apply (step_drop _ _ _ _ _ _ _ _ _ 7%nat). vm_compute. reflexivity. }
  split; [done|]. split. { intros e ->%elem_of_list_singleton. done. }
  split; [done|]. split; [by exists 8%nat|]. split; [by exists 8%nat|]. done.
Qed.
