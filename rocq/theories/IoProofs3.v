(** Truncated files; files and directories. *)
From Coq Require Import SpecFloat Strings.Byte.
From stdpp Require Import strings.
From Verif Require Import Prelude Model Lib Table SearchProofs SelectProofs InsertProofs IterProofs.
From Verif Require Import Spec SpecProofs Io IoBase SpecIo IoProofs IoProofs2.

(* ------------------------------------------------------------------ *)
(** * What a loader reads does not depend on what follows *)
Section Ext.
Context {T : Type} (so : StdOps) (el : elem T).

Ltac ex := repeat first
  [ apply ext_ret | apply ext_lift | apply ext_gnum | apply ext_dnum | apply ext_gread | apply ext_dread
  | apply ext_panic | apply ext_exit | apply ext_rrep
  | apply ext_bind; [|intros] | progress cbv beta
  | match goal with |- ext (match ?x with _ => _ end) => destruct x end ].

Lemma ext_description : ext load_description.
Proof. unfold load_description, load_name. ex. Qed.
Lemma ext_header : ext load_header.
Proof. unfold load_header. ex. Qed.
Lemma ext_nbr de : ext (load_nbr de).
Proof. unfold load_nbr. ex. Qed.
Lemma ext_point_graph de : ext (load_point_graph de).
Proof. unfold load_point_graph, load_nbr_list. ex; try apply ext_nbr. Qed.
Lemma ext_record oid : ext (load_record oid).
Proof. unfold load_record. ex. Qed.
Lemma ext_point dm de b : ext (load_point el dm de b).
Proof.
  unfold load_point, load_point_data. apply ext_bind; [apply ext_point_graph|]. intros [[[oid layer] rank] lists].
  destruct b; ex; try apply ext_record.
Qed.
Lemma ext_points dm opts de l n r still : ext (load_points el dm opts de l n r still).
Proof.
  revert r still. induction n; intros; cbn [load_points]; [ex|]. apply ext_bind; [apply ext_point|].
  intros. ex. apply IHn.
Qed.
Lemma ext_layers dm opts de n l still : ext (load_layers el dm opts de n l still).
Proof.
  revert l still. induction n; intros; cbn [load_layers]; [ex|]. apply ext_bind; [ex|]. intros.
  match goal with |- ext (if ?b then _ else _) => destruct b end; [ex|].
  apply ext_bind; [ex|]. intros. apply ext_bind; [apply ext_points|]. intros [? ?].
  apply ext_bind; [apply IHn|]. intros. ex.
Qed.
Lemma ext_indexation dm opts de : ext (load_point_indexation so el dm opts de).
Proof.
  unfold load_point_indexation. match goal with |- ext (if ?b then _ else _) => destruct b end; [ex|].
  apply ext_bind; [ex|]. intros. match goal with |- ext (if ?b then _ else _) => destruct b end; [ex|].
  apply ext_bind; [apply ext_layers|]. intros. ex.
Qed.
Lemma ext_load inv_ln dname prev opts mk : ext (load_rd so el inv_ln dname prev opts mk).
Proof.
  unfold load_rd. apply ext_bind; [apply ext_header|]. intros de. apply ext_bind; [ex|]. intros same.
  destruct (negb same); [ex|]. apply ext_bind; [ex|]. intros dm. apply ext_bind; [apply ext_indexation|]. intros. ex.
Qed.
Lemma ext_load_with_dist inv_ln dname prev opts : ext (load_with_dist_rd so el inv_ln dname prev opts).
Proof.
  unfold load_with_dist_rd. apply ext_bind; [apply ext_header|]. intros de.
  match goal with |- ext (if ?b then _ else _) => destruct b end; [ex|].
  apply ext_bind; [apply ext_indexation|]. intros. ex.
Qed.
End Ext.

(* ------------------------------------------------------------------ *)
(** * Any two loaders read the same bytes *)
Section Same.
Context {T1 T2 : Type} (so1 so2 : StdOps) (el1 : elem T1) (el2 : elem T2).

Lemma same_rest_weaken {A B} (R S : A -> B -> Prop) p q : (forall a b, R a b -> S a b) ->
  same_rest R p q -> same_rest S p q.
Proof. intros HRS H s a b s1 s2 H1 H2. destruct (H _ _ _ _ _ H1 H2). auto. Qed.
Lemma same_rest_panic_l {A B} (R : A -> B -> Prop) o (q : rd B) : (forall a : A, o <> Ok a) -> same_rest R (rlift o : rd A) q.
Proof. intros Ho s x y s1 s2. unfold rlift. by destruct o; [edestruct Ho|..]. Qed.
Lemma same_rest_panic_r {A B} (R : A -> B -> Prop) o (p : rd A) : (forall a : B, o <> Ok a) -> same_rest R p (rlift o : rd B).
Proof. intros Ho s x y s1 s2 _. unfold rlift. by destruct o; [edestruct Ho|..]. Qed.
Lemma same_rest_ret_lift_r {A B C} (R : A -> B -> Prop) (p : rd C) (k : C -> rd A) (k' : C -> rd B) :
  (forall c, same_rest R (k c) (k' c)) -> same_rest R (rbind p k) (rbind p k').
Proof. intros H. eapply same_rest_bind; [apply same_rest_refl|]. intros a ? <-. apply H. Qed.

(** reading the vector does not read more than its record *)
Lemma rest_lift {A B} (o : outcome A) (o' : outcome B) : same_rest (fun _ _ => True) (rlift o) (rlift o').
Proof. by apply same_rest_lift. Qed.

Lemma same_data {T} (el : elem T) oid de : exists k, load_point_data el oid de = rbind (load_record oid) k /\
  forall b, (exists v, k b = rret v) \/ (exists o, k b = rlift o).
Proof.
  eexists. split; [reflexivity|]. intros b. cbv beta. destruct (el_nodata el); [eauto|].
  destruct (_ =? 2)%N; [eauto|]. destruct (_ || _); eauto.
Qed.

Lemma point_factor {T} (el : elem T) dm de b : exists f,
  (forall s r s', load_point el dm de b s = Ok (r, s') ->
     exists x s1 v, load_point_graph de s = Ok (x, s1) /\ load_record (x.1.1.1) s1 = Ok (v, s') /\
       r = f x v (rp_data r)) /\
  forall x v d, rp_layer (f x v d) = x.1.1.2 /\ rp_rank (f x v d) = x.1.2.
Proof.
  exists (fun x v d => RawPoint x.1.1.1 x.1.1.2 x.1.2 x.2 d b). split; [|done].
  intros s r s'. unfold load_point, rbind at 1. intros H. apply bind_inv in H as ([x s1] & H1 & H).
  destruct x as [[[oid layer] rank] lists]. exists (oid, layer, rank, lists), s1. cbn [fst snd].
  destruct b.
  - unfold rbind, rlift in H. apply bind_inv in H as ([v s2] & H2 & H). exists v.
    apply bind_inv in H as ([m s3] & H3 & H). apply bind_inv in H3 as (m' & _ & [= <- <-]).
    apply bind_inv in H as ([o s4] & H3 & H). apply bind_inv in H3 as (o' & _ & [= <- <-]).
    apply bind_inv in H as ([o1 s4'] & H3 & H). apply bind_inv in H3 as (o1' & _ & [= <- <-]).
    injection H as <- <-. done.
  - unfold rbind in H. apply bind_inv in H as ([v s2] & H2 & H). injection H as <- <-.
    unfold or_exit in H2. destruct (load_point_data el oid de s1) as [[v' s3]| | | | |] eqn:E; try done.
    injection H2 as -> ->. destruct (same_data el oid de) as (k & Ek & Hk). rewrite Ek in E.
    unfold rbind in E. apply bind_inv in E as ([w s3] & E1 & E2).
    destruct (Hk w) as [[u Eu]|[o Eu]]; rewrite Eu in E2.
    + injection E2 as <- <-. exists w. done.
    + unfold rlift in E2. apply bind_inv in E2 as (u & _ & [= <- <-]). exists w. done.
Qed.

Lemma same_point dm1 dm2 de b1 b2 :
  same_rest (fun r1 r2 => rp_layer r1 = rp_layer r2 /\ rp_rank r1 = rp_rank r2)
    (load_point el1 dm1 de b1) (load_point el2 dm2 de b2).
Proof.
  intros s r1 r2 s1 s2 H1 H2.
  destruct (point_factor el1 dm1 de b1) as (f1 & F1 & G1). destruct (point_factor el2 dm2 de b2) as (f2 & F2 & G2).
  destruct (F1 _ _ _ H1) as (x & t & v & A1 & A2 & A3). destruct (F2 _ _ _ H2) as (x' & t' & v' & B1 & B2 & B3).
  rewrite A1 in B1. injection B1 as <- <-. rewrite A2 in B2. injection B2 as <- <-.
  split; [done|]. rewrite A3, B3. destruct (G1 x v (rp_data r1)), (G2 x v (rp_data r2)). split; congruence.
Qed.

Lemma same_points dm1 dm2 o1 o2 de l n r still :
  same_rest (fun a b => a.2 = b.2) (load_points el1 dm1 o1 de l n r still) (load_points el2 dm2 o2 de l n r still).
Proof.
  revert r still. induction n; intros r still; cbn [load_points]; [by apply same_rest_ret|].
  eapply same_rest_bind; [apply same_point|]. intros a b [E1 E2]. rewrite E1, E2.
  apply same_rest_ret_lift_r; intros _. apply same_rest_ret_lift_r; intros _. apply same_rest_ret_lift_r; intros _.
  eapply same_rest_bind; [apply IHn|]. intros [x1 y1] [x2 y2] E. cbn in E. subst. by apply same_rest_ret.
Qed.

Lemma same_layers dm1 dm2 o1 o2 de n l still :
  same_rest (fun _ _ => True) (load_layers el1 dm1 o1 de n l still) (load_layers el2 dm2 o2 de n l still).
Proof.
  revert l still. induction n; intros l still; cbn [load_layers]; [by apply same_rest_ret|].
  apply same_rest_ret_lift_r; intros magic. destruct (negb _); [apply same_rest_err_l|].
  apply same_rest_ret_lift_r; intros np.
  eapply same_rest_bind; [apply same_points|]. intros [x1 y1] [x2 y2] E. cbn in E. subst.
  eapply same_rest_bind; [apply IHn|]. intros. by apply same_rest_ret.
Qed.

Lemma same_indexation dm1 dm2 o1 o2 de :
  same_rest (fun _ _ => True) (load_point_indexation so1 el1 dm1 o1 de) (load_point_indexation so2 el2 dm2 o2 de).
Proof.
  unfold load_point_indexation. destruct (_ && _); [by apply same_rest_panic_l|].
  destruct (_ && _); [by apply same_rest_panic_r|].
  apply same_rest_ret_lift_r; intros nl. destruct (_ <? _)%N; [apply same_rest_err_l|].
  eapply same_rest_bind; [apply same_layers|]. intros r1 r2 _.
  eapply same_rest_bind; [apply rest_lift|]. intros l1 l2 _.
  apply same_rest_ret_lift_r; intros _. apply same_rest_ret_lift_r; intros layer. apply same_rest_ret_lift_r; intros rank.
  eapply same_rest_bind; [apply rest_lift|]. intros. by apply same_rest_ret.
Qed.

(** load_hnsw and load_hnsw_with_dist *)
Definition loader {T} (so : StdOps) (el : elem T) (p : rd (hnsw (T:=T) * list pid)) : Prop :=
  exists inv_ln dname prev opts,
    (exists mk, p = load_rd so el inv_ln dname prev opts mk) \/
    p = load_with_dist_rd so el inv_ln dname prev opts.

Lemma loader_factor {T} so (el : elem T) p : loader so el p ->
  exists dm opts, forall s r s', p s = Ok (r, s') ->
    exists de s1 x, load_header s = Ok (de, s1) /\ load_point_indexation so el dm opts de s1 = Ok (x, s').
Proof.
  intros (inv_ln & dname & prev & opts & [[mk ->]| ->]).
  - destruct (choose_datamap prev opts mk) as [dm| | | | |] eqn:Edm.
    1: exists dm, opts. 2-6: exists None, opts.
    all: intros s r s' H; unfold load_rd, rbind at 1 in H; apply bind_inv in H as ([de s1] & H1 & H);
      apply bind_inv in H as ([same s2] & H2 & H); destruct (negb same); [done|];
      apply bind_inv in H as ([dm' s3] & H3 & H); unfold rlift in H3; rewrite Edm in H3; try done.
    injection H3 as <- <-. apply bind_inv in H as ([ld s4] & H4 & H). injection H as <- <-.
    assert (s2 = s1) as ->.
    { destruct (el_nodata el); [by injection H2|]. unfold rbind, rlift in H2.
      apply bind_inv in H2 as ([a t1] & E1 & H2). apply bind_inv in E1 as (? & _ & [= _ <-]).
      apply bind_inv in H2 as ([b t2] & E1 & H2). apply bind_inv in E1 as (? & _ & [= _ <-]).
      by injection H2. }
    eauto.
  - exists prev, opts. intros s r s' H. unfold load_with_dist_rd, rbind at 1 in H. apply bind_inv in H as ([de s1] & H1 & H).
    destruct (_ && _); [done|]. apply bind_inv in H as ([ld s4] & H4 & H). injection H as <- <-. eauto.
Qed.

Lemma same_load p q : loader so1 el1 p -> loader so2 el2 q -> same_rest (fun _ _ => True) p q.
Proof.
  intros Hp Hq s a b s1 s2 H1 H2.
  destruct (loader_factor _ _ _ Hp) as (dm1 & o1 & F1). destruct (loader_factor _ _ _ Hq) as (dm2 & o2 & F2).
  destruct (F1 _ _ _ H1) as (de & t & x & A1 & A2). destruct (F2 _ _ _ H2) as (de' & t' & x' & B1 & B2).
  rewrite A1 in B1. injection B1 as <- <-. by destruct (same_indexation dm1 dm2 o1 o2 de _ _ _ _ _ A2 B2) as [-> _].
Qed.
End Same.

Lemma ext_loader {T} so (el : elem T) p : loader so el p -> ext p.
Proof. intros (inv_ln & dname & prev & opts & [[mk ->]| ->]); [apply ext_load|apply ext_load_with_dist]. Qed.

(** the type NoData (hnsw.rs l.38) has no values used here: its vectors are empty *)
Definition nodata_elem : elem unit := Elem unit "NoData" 0 (fun _ => []) (fun _ => tt) (fun _ => None) true.

Lemma truncated {T T'} dist so (el : elem T) (el' : elem T') (h : hnsw (T:=T)) dname ep p g d tg td x :
  elem_ok el -> dumpable dist el h -> name_ok dname -> name_ok (el_name el) -> entry_point h = Some ep ->
  loader so el' p -> w_graph (dump el dname h Full) = g ++ tg -> w_data (dump el dname h Full) = d ++ td ->
  run_rd p g d = Ok x -> tg = [] /\ td = [].
Proof.
  intros Hel Hd Hdn Htn Hep Hp Hg Hdd Hrun. unfold run_rd in Hrun.
  destruct (p (g, d)) as [[y [g' d']]| | | | |] eqn:E; try done.
  pose proof (ext_loader _ _ _ Hp _ _ _ _ _ tg td E) as E'. rewrite <- Hg, <- Hdd in E'.
  assert (Href : pars (load_rd so nodata_elem (fun _ => f64_1) "" None ro_default Err)
     (w_graph (dump el dname h Full)) (w_data (dump el dname h Full))
     (reloaded h so (fun _ => f64_1) ep (fun _ => []) true, mapped_of h ro_default (fun _ => [] : list unit))).
  { eapply pars_load with (dm := None) (dist := dist); eauto. apply reads_nodata with (dist := dist); auto. }
  specialize (Href [] []). rewrite !app_nil_r in Href.
  assert (Hl : loader so nodata_elem (load_rd so nodata_elem (fun _ => f64_1) "" None ro_default Err)).
  { exists (fun _ => f64_1), "", None, ro_default. left. by exists Err. }
  destruct (same_load _ _ _ _ _ _ Hp Hl _ _ _ _ _ E' Href) as [Hs _].
  injection Hs as H1 H2. apply app_eq_nil in H1 as [_ ->]. by apply app_eq_nil in H2 as [_ ->].
Qed.

(* ------------------------------------------------------------------ *)
(** * Files *)
Section Files.
Implicit Types (fs : fsys) (cwd : list String.string).

Lemma resolve_in_dir cwd dir f : resolve cwd (in_dir dir f) =
  (if pa_abs dir then pa_comps dir else cwd ++ pa_comps dir) ++ [f].
Proof. unfold resolve, in_dir, join. cbn [pa_abs pa_comps]. destruct (pa_abs dir); [done|]. by rewrite app_assoc. Qed.

Lemma resolve_in_dir_inj cwd dir f f' : resolve cwd (in_dir dir f) = resolve cwd (in_dir dir f') -> f = f'.
Proof. rewrite !resolve_in_dir. intros H. apply app_inj_tail in H. by destruct H. Qed.

Lemma str_app_inj (a b b' : String.string) : String.append a b = String.append a b' -> b = b'.
Proof. induction a as [|c a IH]; [done|]. cbn. intros [= H]. auto. Qed.

Lemma graph_data_ne cwd dir base : resolve cwd (graph_file dir base) <> resolve cwd (data_file dir base).
Proof. unfold graph_file, data_file. intros H. apply resolve_in_dir_inj, str_app_inj in H. done. Qed.

Lemma fs_write_same fs cwd p b : fs_read (fs_write fs cwd p b) cwd p = Some b.
Proof. unfold fs_read, fs_write. by rewrite bool_decide_true. Qed.
Lemma fs_write_other fs cwd p p' b : resolve cwd p' <> resolve cwd p -> fs_read (fs_write fs cwd p b) cwd p' = fs_read fs cwd p'.
Proof. intros H. unfold fs_read, fs_write. by rewrite bool_decide_false. Qed.

Lemma file_dump_at {T} (el : elem T) dname cwd fs dir base draws h fs' name :
  file_dump el dname cwd fs dir base draws h = (fs', Ok name) ->
  dump_at fs' cwd dir name (w_graph (dump el dname h Full)) (w_data (dump el dname h Full)) /\
  w_res (dump el dname h Full) = Ok tt.
Proof.
  unfold file_dump. destruct (dump_basename _ _ _ _ _ _) as [nm| | | | |]; try done.
  destruct (w_res _) as [[]| | | | |]; try done. intros [= <- <-]. split; [|done]. split.
  - rewrite fs_write_other by (apply graph_data_ne). apply fs_write_same.
  - apply fs_write_same.
Qed.

Lemma plain_graph fs cwd dir base : plain_dir dir -> fs_read fs cwd (graph_file (join dir dir) base) = fs_read fs cwd (graph_file dir base).
Proof.
  intros [H|H]; unfold graph_file, in_dir, join.
  - destruct dir as [a c]. cbn in *. by subst.
  - destruct dir as [a c]. cbn in *. subst. by destruct a.
Qed.
End Files.

