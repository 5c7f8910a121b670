(** The older formats of a dump: two readers on two pairs of files that agree on the graph file and are related on the
    data file. *)
From Coq Require Import SpecFloat Strings.Byte Strings.String.
From Verif Require Import Prelude Model Lib Spec Io IoBase SpecIo IoProofs IoProofs3.
Local Open Scope list_scope.

Definition same_fail {A B} (o : outcome A) (o' : outcome B) : Prop :=
  match o, o' with
  | Err, Err => True | Panic, Panic => True | Exit, Exit => True | Fuel, Fuel => True | UB, UB => True
  | _, _ => False
  end.

Section Sim.
Context (rel : bytes -> bytes -> Prop).

Definition res_rel {A B} (R : A -> B -> Prop) (o : outcome (A * str2)) (o' : outcome (B * str2)) : Prop :=
  match o, o' with
  | Ok (a, (g, d)), Ok (b, (g', d')) => R a b /\ g = g' /\ rel d d'
  | _, _ => same_fail o o'
  end.
Definition sim {A B} (R : A -> B -> Prop) (p : rd A) (q : rd B) : Prop :=
  forall g d d', rel d d' -> res_rel R (p (g, d)) (q (g, d')).

Lemma sim_ret {A B} (R : A -> B -> Prop) a b : R a b -> sim R (rret a) (rret b).
Proof. intros ? g d d' ?. done. Qed.
Lemma sim_bind {A B C D} (R : A -> B -> Prop) (S : C -> D -> Prop) p q k l :
  sim R p q -> (forall a b, R a b -> sim S (k a) (l b)) -> sim S (rbind p k) (rbind q l).
Proof.
  intros Hp Hk g d d' Hr. specialize (Hp g d d' Hr). unfold rbind.
  destruct (p (g, d)) as [[a [g1 d1]]| | | | |], (q (g, d')) as [[b [g2 d2]]| | | | |]; simpl in *; try done.
  destruct Hp as (HR & -> & Hd). by apply Hk.
Qed.
Lemma sim_lift {A} (o : outcome A) : sim eq (rlift o) (rlift o).
Proof. intros g d d' ?. unfold rlift. by destruct o. Qed.
Lemma sim_panic {A B} (R : A -> B -> Prop) p q : sim R p q -> sim R (or_panic p) (or_panic q).
Proof.
  intros Hp g d d' Hr. specialize (Hp g d d' Hr). unfold or_panic.
  by destruct (p (g, d)) as [[a [g1 d1]]| | | | |], (q (g, d')) as [[b [g2 d2]]| | | | |].
Qed.
Lemma sim_exit {A B} (R : A -> B -> Prop) p q : sim R p q -> sim R (or_exit p) (or_exit q).
Proof.
  intros Hp g d d' Hr. specialize (Hp g d d' Hr). unfold or_exit.
  by destruct (p (g, d)) as [[a [g1 d1]]| | | | |], (q (g, d')) as [[b [g2 d2]]| | | | |].
Qed.
Lemma sim_gread k : sim eq (gread k) (gread k).
Proof. intros g d d' Hr. unfold gread. simpl. by destruct (_ <? _)%nat. Qed.
Lemma sim_gnum k : sim eq (gnum k) (gnum k).
Proof. unfold gnum. eapply sim_bind; [apply sim_gread|]. intros a b <-. by apply sim_ret. Qed.
Lemma sim_rrep {A} n (p q : rd A) : sim eq p q -> sim eq (rrep n p) (rrep n q).
Proof.
  intros Hp. induction n as [|n IH]; [by apply sim_ret|]. simpl. eapply sim_bind; [exact Hp|]. intros a b <-.
  eapply sim_bind; [exact IH|]. intros l l' <-. by apply sim_ret.
Qed.
Lemma sim_run {A} (p q : rd A) g d d' : sim eq p q -> rel d d' -> run_rd p g d = run_rd q g d'.
Proof.
  intros Hp Hr. specialize (Hp g d d' Hr). unfold run_rd.
  destruct (p (g, d)) as [[a [g1 d1]]| | | | |], (q (g, d')) as [[b [g2 d2]]| | | | |]; simpl in *; try done. by destruct Hp as [-> _].
Qed.

(** descriptions that differ by the format only *)
Definition de_rel (v : N) (de de' : description) : Prop :=
  format_version de = v /\ format_version de' = 4%N /\ dumpmode de = dumpmode de' /\
  de_max_nb_connection de = de_max_nb_connection de' /\ de_level_scale de = de_level_scale de' /\
  de_nb_layer de = de_nb_layer de' /\ de_ef de = de_ef de' /\ de_nb_point de = de_nb_point de' /\
  de_dimension de = de_dimension de' /\ de_distname de = de_distname de' /\ de_t_name de = de_t_name de'.

Context {T : Type} (so : StdOps) (el : elem T) (v dim : N).
Definition at_dim (de de' : description) : Prop := de_rel v de de' /\ de_dimension de = dim.
(** the records of the data file *)
Context (Hdata : forall oid de de', at_dim de de' -> sim eq (load_point_data el oid de) (load_point_data el oid de')).

Lemma sim_load_name : sim eq load_name load_name.
Proof.
  unfold load_name. eapply sim_bind; [apply sim_gnum|]. intros n n' <-. destruct (_ <? n)%N; [apply sim_lift|].
  eapply sim_bind; [apply sim_gread|]. intros b b' <-. destruct (utf8_valid b); [by apply sim_ret|apply sim_lift].
Qed.

Lemma sim_nbr de de' : dumpmode de = dumpmode de' -> sim eq (load_nbr de) (load_nbr de').
Proof.
  intros Hm. unfold load_nbr. rewrite Hm. eapply sim_bind; [apply sim_panic, sim_gnum|]. intros a b <-.
  eapply (sim_bind eq).
  - destruct (_ =? 1)%N; [|by apply sim_ret]. eapply sim_bind; [apply sim_panic, sim_gnum|]. intros a1 b1 <-.
    eapply sim_bind; [apply sim_panic, sim_gnum|]. intros a2 b2 <-. by apply sim_ret.
  - intros [l r] b2 <-. eapply sim_bind; [apply sim_panic, sim_gnum|]. intros a3 b3 <-.
    eapply sim_bind; [apply sim_lift|]. intros a4 b4 <-. by apply sim_ret.
Qed.

Lemma sim_point_graph de de' : de_rel v de de' -> sim eq (load_point_graph de) (load_point_graph de').
Proof.
  intros (_ & _ & Hm & _ & _ & Hl & _). unfold load_point_graph. rewrite Hl.
  eapply sim_bind; [apply sim_panic, sim_gnum|]. intros a b <-. destruct (negb _); [apply sim_lift|].
  eapply sim_bind; [apply sim_panic, sim_gnum|]. intros a1 b1 <-.
  eapply sim_bind; [apply sim_panic, sim_gnum|]. intros a2 b2 <-.
  eapply sim_bind; [apply sim_panic, sim_gnum|]. intros a3 b3 <-.
  eapply (sim_bind eq); [|intros l1 l2 <-; by apply sim_ret]. apply sim_rrep. unfold load_nbr_list.
  eapply sim_bind; [apply sim_panic, sim_gnum|]. intros a4 b4 <-. apply sim_rrep. by apply sim_nbr.
Qed.

(** either nothing is mapped, or the data files are the same *)
Context (opts : reload_options) (Hmap : ro_datamap opts = false \/ forall oid, sim eq (load_record oid) (load_record oid)).

Lemma sim_point dm de de' still : at_dim de de' ->
  sim eq (load_point el dm de (point_use_mmap opts still)) (load_point el dm de' (point_use_mmap opts still)).
Proof.
  intros Hde. unfold load_point. eapply sim_bind; [by apply sim_point_graph, Hde|].
  intros [[[oid layer] rank] lists] b <-. destruct (point_use_mmap opts still) eqn:E.
  - destruct Hmap as [Hm|Hm]; [unfold point_use_mmap in E; by rewrite Hm in E|].
    eapply sim_bind; [apply Hm|]. intros a1 b1 <-. eapply sim_bind; [apply sim_lift|]. intros a2 b2 <-.
    eapply sim_bind; [apply sim_lift|]. intros a3 b3 <-. eapply sim_bind; [apply sim_lift|]. intros a4 b4 <-. by apply sim_ret.
  - eapply sim_bind; [by apply sim_exit, Hdata|]. intros a1 b1 <-. by apply sim_ret.
Qed.

Lemma sim_points dm de de' l n : at_dim de de' -> forall r still,
  sim eq (load_points el dm opts de l n r still) (load_points el dm opts de' l n r still).
Proof.
  intros Hde. induction n as [|n IH]; intros r still; [by apply sim_ret|]. cbn [load_points].
  eapply sim_bind; [by apply sim_point|]. intros p p' <-.
  eapply sim_bind; [apply sim_lift|]. intros a1 b1 <-. eapply sim_bind; [apply sim_lift|]. intros a2 b2 <-.
  eapply sim_bind; [apply sim_lift|]. intros a3 b3 <-. eapply sim_bind; [apply IH|]. intros [ps st] b4 <-. by apply sim_ret.
Qed.

Lemma sim_layers dm de de' n : at_dim de de' -> forall l still,
  sim eq (load_layers el dm opts de n l still) (load_layers el dm opts de' n l still).
Proof.
  intros Hde. induction n as [|n IH]; intros l still; [by apply sim_ret|]. cbn [load_layers].
  eapply sim_bind; [apply sim_gnum|]. intros m m' <-. destruct (negb _); [apply sim_lift|].
  eapply sim_bind; [apply sim_gnum|]. intros np np' <-. eapply sim_bind; [by apply sim_points|]. intros [ps st] b4 <-.
  eapply sim_bind; [apply IH|]. intros ls ls' <-. by apply sim_ret.
Qed.

Lemma sim_indexation dm de de' : at_dim de de' ->
  sim eq (load_point_indexation so el dm opts de) (load_point_indexation so el dm opts de').
Proof.
  intros Hde. pose proof Hde as [(_ & _ & _ & _ & _ & _ & _ & En & _ & _ & Et) _]. unfold load_point_indexation. rewrite En, Et.
  destruct (negb _ && negb _); [apply sim_lift|]. eapply sim_bind; [apply sim_gnum|]. intros nl nl' <-.
  destruct (_ <? nl)%N; [apply sim_lift|]. eapply sim_bind; [by apply sim_layers|]. intros raw raw' <-.
  eapply sim_bind; [apply sim_lift|]. intros ls ls' <-. eapply sim_bind; [apply sim_gnum|]. intros a1 b1 <-.
  eapply sim_bind; [apply sim_gnum|]. intros a2 b2 <-. eapply sim_bind; [apply sim_gnum|]. intros a3 b3 <-.
  eapply sim_bind; [apply sim_lift|]. intros a4 b4 <-. by apply sim_ret.
Qed.

Lemma make_hnsw_rel inv_ln de de' (ld : loaded (T:=T)) b : de_rel v de de' -> make_hnsw inv_ln de ld b = make_hnsw inv_ln de' ld b.
Proof. intros (_ & _ & _ & Em & Es & _ & Ee & _). unfold make_hnsw. by rewrite Em, Es, Ee. Qed.

(** the part of load_hnsw that follows the description *)
Definition after_header inv_ln dname (prev : option datamap) (mk : outcome datamap) (de : description) : rd (hnsw (T:=T) * list pid) :=
  same <~ (if el_nodata el then rret true
           else
             a <~ rlift (unwrap (rsplit_terminator dname !! 0));
             b <~ rlift (unwrap (rsplit_terminator (de_distname de) !! 0));
             rret (bool_decide (a = b)));
  if negb (same : bool) then rlift Err
  else
    dm <~ rlift (choose_datamap prev opts mk);
    ld <~ load_point_indexation so el dm opts de;
    rret (make_hnsw inv_ln de ld true, ld_mapped ld).
Definition after_header_with inv_ln dname (prev : option datamap) (de : description) : rd (hnsw (T:=T) * list pid) :=
  if negb (el_nodata el) && negb (String.eqb dname (de_distname de)) then rlift Err
  else
    ld <~ load_point_indexation so el prev opts de;
    rret (make_hnsw inv_ln de ld false, ld_mapped ld).

Lemma sim_after inv_ln dname prev mk de de' : at_dim de de' ->
  sim eq (after_header inv_ln dname prev mk de) (after_header inv_ln dname prev mk de').
Proof.
  intros Hde. pose proof Hde as [Hdr _]. pose proof Hdr as (_ & _ & _ & _ & _ & _ & _ & _ & _ & Edn & _).
  unfold after_header. rewrite Edn. eapply (sim_bind eq).
  - destruct (el_nodata el); [by apply sim_ret|]. eapply sim_bind; [apply sim_lift|]. intros a1 b1 <-.
    eapply sim_bind; [apply sim_lift|]. intros a2 b2 <-. by apply sim_ret.
  - intros s s' <-. destruct (negb s); [apply sim_lift|]. eapply sim_bind; [apply sim_lift|]. intros dm dm' <-.
    eapply sim_bind; [by apply sim_indexation|]. intros ld ld' <-. apply sim_ret. by rewrite (make_hnsw_rel _ de de').
Qed.
Lemma sim_after_with inv_ln dname prev de de' : at_dim de de' ->
  sim eq (after_header_with inv_ln dname prev de) (after_header_with inv_ln dname prev de').
Proof.
  intros Hde. pose proof Hde as [Hdr _]. pose proof Hdr as (_ & _ & _ & _ & _ & _ & _ & _ & _ & Edn & _).
  unfold after_header_with. rewrite Edn. destruct (negb _ && negb _); [apply sim_lift|].
  eapply sim_bind; [by apply sim_indexation|]. intros ld ld' <-. apply sim_ret. by rewrite (make_hnsw_rel _ de de').
Qed.

End Sim.

(** ** The description *)
Definition old_magic (v : N) : N := if (v =? 2)%N then MAGICDESCR_2 else MAGICDESCR_3.
Definition g_old v (mode m : byte) (rest : bytes) : bytes := u32_bytes (old_magic v) ++ [mode; m] ++ rest.
Definition g_new (mode m : byte) (rest : bytes) : bytes := u32_bytes MAGICDESCR_4 ++ [mode; m] ++ u64_bytes (f64_bits f64_1) ++ rest.

Definition desc_tail (version mode m : N) (scale : f64) : rd description :=
  nb_layer <~ gnum 1;
  ef <~ gnum 8;
  np <~ gnum 8;
  dim <~ gnum 8;
  dname <~ load_name;
  tname <~ load_name;
  rret (Description version mode m scale nb_layer ef np dim dname tname).

Lemma gnum_at k b g d : length b = k -> gnum k (b ++ g, d) = Ok (le_val b, (g, d)).
Proof. intros Hk. exact (pars_gnum_val k b Hk g d). Qed.
Lemma gnum_byte b g d : gnum 1 (b :: g, d) = Ok (Byte.to_N b, (g, d)).
Proof. change (b :: g) with ([b] ++ g). rewrite gnum_at by done. simpl. do 2 f_equal. lia. Qed.

Lemma rbind_ok {A B} (p : rd A) (k : A -> rd B) s a s1 : p s = Ok (a, s1) -> rbind p k s = k a s1.
Proof. unfold rbind. by intros ->. Qed.

Lemma desc_old v mode m rest d : v = 2%N \/ v = 3%N ->
  load_description (g_old v mode m rest, d) = desc_tail v (Byte.to_N mode) (Byte.to_N m) f64_1 (rest, d).
Proof.
  intros Hv. unfold load_description, g_old. erewrite rbind_ok by (by apply gnum_at).
  assert (E : le_val (u32_bytes (old_magic v)) = old_magic v) by (by destruct Hv as [-> | ->]). rewrite E. clear E.
  assert (E : (if (old_magic v =? MAGICDESCR_2)%N then rret 2%N else if (old_magic v =? MAGICDESCR_3)%N then rret 3%N else
    if (old_magic v =? MAGICDESCR_4)%N then rret 4%N else rlift Err) = rret v) by (by destruct Hv as [-> | ->]).
  rewrite E. clear E. erewrite rbind_ok by done. cbn [app].
  erewrite rbind_ok by apply gnum_byte. erewrite rbind_ok by apply gnum_byte.
  replace (v =? 4)%N with false by (by destruct Hv as [-> | ->]). by erewrite rbind_ok by done.
Qed.

Lemma desc_new mode m rest d :
  load_description (g_new mode m rest, d) = desc_tail 4 (Byte.to_N mode) (Byte.to_N m) f64_1 (rest, d).
Proof.
  unfold load_description, g_new. erewrite rbind_ok by (by apply gnum_at).
  change (le_val (u32_bytes MAGICDESCR_4)) with MAGICDESCR_4.
  assert (E : (if (MAGICDESCR_4 =? MAGICDESCR_2)%N then rret 2%N else if (MAGICDESCR_4 =? MAGICDESCR_3)%N then rret 3%N else
    if (MAGICDESCR_4 =? MAGICDESCR_4)%N then rret 4%N else rlift Err) = rret 4%N) by done.
  rewrite E. clear E. erewrite rbind_ok by done. cbn [app].
  erewrite rbind_ok by apply gnum_byte. erewrite rbind_ok by apply gnum_byte.
  change (4 =? 4)%N with true. cbv iota. erewrite rbind_ok; [|erewrite rbind_ok by (by apply gnum_at); done].
  by replace (f64_of_bits (le_val (u64_bytes (f64_bits f64_1)))) with f64_1 by reflexivity.
Qed.

Lemma sim_tail rel v mode m scale : sim rel (de_rel v) (desc_tail v mode m scale) (desc_tail 4 mode m scale).
Proof.
  unfold desc_tail. eapply sim_bind; [apply sim_gnum|]. intros a1 b1 <-. eapply sim_bind; [apply sim_gnum|]. intros a2 b2 <-.
  eapply sim_bind; [apply sim_gnum|]. intros a3 b3 <-. eapply sim_bind; [apply sim_gnum|]. intros a4 b4 <-.
  eapply sim_bind; [apply sim_load_name|]. intros a5 b5 <-. eapply sim_bind; [apply sim_load_name|]. intros a6 b6 <-.
  apply sim_ret. by split_and!.
Qed.
