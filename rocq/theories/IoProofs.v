(** Reading back a dump. *)
From Coq Require Import SpecFloat Strings.Byte.
From stdpp Require Import strings.
From Verif Require Import Prelude Model Lib Table SearchProofs SelectProofs InsertProofs IterProofs.
From Verif Require Import Spec SpecProofs Io IoBase SpecIo.

Ltac num := first [ done | rewrite ?Nat2N.inj_succ; simpl; lia | lia ].

(* ------------------------------------------------------------------ *)
(** * Description *)
Lemma str_round s : bytes_str (str_bytes s) = s.
Proof. apply String.string_of_list_byte_of_string. Qed.

Lemma pars_name s : name_ok s ->
  pars load_name (u64_bytes (N.of_nat (length (str_bytes s))) ++ str_bytes s) [] s.
Proof.
  intros [Hu Hl]. unfold load_name. eapply pars_bind_g.
  { apply pars_gnum. change (256 ^ N.of_nat 8)%N with (2 ^ 64)%N. lia. }
  replace (256 <? N.of_nat (length (str_bytes s)))%N with false by lia.
  eapply pars_bind_last; [apply pars_gread; lia|]. rewrite Hu, str_round. apply pars_ret.
Qed.

Definition desc_sized (de : description) : Prop :=
  (de_max_nb_connection de < 256)%N /\ f64_ok (de_level_scale de) = true /\
  de_nb_layer de = N.of_nat NB_LAYER_MAX /\ (de_ef de < 2 ^ 64)%N /\ (de_nb_point de < 2 ^ 64)%N /\
  (de_dimension de < 2 ^ 64)%N /\ name_ok (de_distname de) /\ name_ok (de_t_name de).

Definition mode_byte (mode : dump_mode) : N := match mode with Full => 1 | Light => 0 end.

Lemma description_dump_ok de mode : desc_sized de ->
  w_res (description_dump de mode) = Ok tt /\ w_data (description_dump de mode) = [] /\
  pars load_description (w_graph (description_dump de mode)) []
    (Description 4 (mode_byte mode) (de_max_nb_connection de) (de_level_scale de) (de_nb_layer de)
       (de_ef de) (de_nb_point de) (de_dimension de) (de_distname de) (de_t_name de)).
Proof.
  intros (HM & Hs & Hl & He & Hn & Hd & Hdn & Htn).
  unfold description_dump. rewrite Hl, N.eqb_refl. cbn [wseq wout w_res w_graph w_data app].
  split; [done|]. split; [done|].
  unfold load_description.
  rewrite <- ?app_assoc.
  eapply pars_bind_g; [apply pars_gnum; by vm_compute|].
  change (MAGICDESCR_4 =? MAGICDESCR_2)%N with false. change (MAGICDESCR_4 =? MAGICDESCR_3)%N with false.
  change (MAGICDESCR_4 =? MAGICDESCR_4)%N with true. cbv iota.
  eapply pars_bind_0; [apply pars_ret|].
  eapply pars_bind_g; [apply pars_gnum; by destruct mode|].
  eapply pars_bind_g; [apply pars_gnum; change (256 ^ N.of_nat 1)%N with 256%N; lia|].
  change (4 =? 4)%N with true. cbv iota.
  eapply pars_bind_g.
  { eapply pars_bind_last; [apply pars_gnum; by apply f64_bits_lt|]. rewrite f64_round by done. apply pars_ret. }
  eapply pars_bind_g; [apply pars_gnum; by vm_compute|].
  eapply pars_bind_g; [by apply pars_gnum|].
  eapply pars_bind_g; [by apply pars_gnum|].
  eapply pars_bind_g; [by apply pars_gnum|].
  rewrite app_assoc. eapply pars_bind_g; [by apply pars_name|].
  eapply pars_bind_last; [by apply pars_name|]. apply pars_ret.
Qed.

(* ------------------------------------------------------------------ *)
(** * Vectors *)
Section Vec.
Context {T : Type} (el : elem T) (Hel : elem_ok el).
Lemma enc_vec_length v : length (enc_vec el v) = (length v * el_size el)%nat.
Proof.
  unfold enc_vec. induction v as [|x v IH]; [done|]. cbn [fmap list_fmap concat length].
  rewrite app_length, IH. destruct (Hel x) as [-> _]. lia.
Qed.
Lemma dec_enc_vec v rest : dec_vec el (length v) (enc_vec el v ++ rest) = v.
Proof.
  unfold enc_vec. induction v as [|x v IH]; [done|]. cbn [fmap list_fmap concat length dec_vec].
  destruct (Hel x) as [E D]. rewrite <- app_assoc, <- E, take_app, drop_app, D. f_equal. apply IH.
Qed.
Lemma from_raw_enc v rest : from_raw_parts el (enc_vec el v ++ rest) (N.of_nat (length v)) = Ok v.
Proof.
  unfold from_raw_parts. rewrite app_length, enc_vec_length, Nat2N.id, dec_enc_vec.
  replace (_ <? _)%N with false by lia. done.
Qed.
End Vec.

(* ------------------------------------------------------------------ *)
(** * Points *)
Section Points.
Context {T : Type} (dist : list T -> list T -> Z) (el : elem T) (Hel : elem_ok el).
Implicit Types (h : hnsw (T:=T)).

Definition oid_at h p : dataid := match get_pt h p with Some q => pt_oid q | None => 0%N end.
Definition to_nb h (n : nbr) : neighbour := Neighbour (oid_at h (n_pid n)) (n_dist n) (n_pid n).
Definition raw_nb h (n : nbr) : raw_nbr :=
  RawNbr (oid_at h (n_pid n)) (N.of_nat (n_pid n).1) (Z.of_nat (n_pid n).2) (n_dist n).
Definition to_nbs h (l : list nbr) : list neighbour := to_nb h <$> l.
Definition raw_nbs h (l : list nbr) : list raw_nbr := raw_nb h <$> l.

(** what the files need of the table *)
Record dumpable h : Prop := {
  du_wf : lwf dist h;
  du_layers : max_layer h = NB_LAYER_MAX;
  du_ef : (N.of_nat (ef_construction h) < 2 ^ 64)%N;
  du_nb : (N.of_nat (nb_point h) < 2 ^ 63)%N;
  du_scale : f64_ok (level_scale h) = true;
  du_pt : forall p pt, get_pt h p = Some pt ->
     (Z.of_nat p.2 < 2 ^ 31)%Z /\ (pt_oid pt < 2 ^ 64)%N /\
     (N.of_nat (length (pt_data pt)) < 2 ^ 64)%N /\
     (N.of_nat (length (pt_data pt) * el_size el) < 2 ^ 64)%N;
  du_dist : forall p pt l nbs n, get_pt h p = Some pt -> pt_nbs pt !! l = Some nbs -> n ∈ nbs ->
     (0 <= n_dist n <= 2139095040)%Z
}.

Lemma nbhd_eq h pt p : lwf dist h -> get_pt h p = Some pt ->
  get_neighborhood_id h pt = Ok (to_nbs h <$> pt_nbs pt).
Proof.
  intros Hwf Hp. unfold get_neighborhood_id.
  assert (H : forall l nbs, pt_nbs pt !! l = Some nbs ->
    mapM (fun n : nbr => q0 ← unwrap (get_pt h (n_pid n)); Ok (Neighbour (pt_oid (T:=T) q0) (n_dist n) (n_pid n))) nbs
      = Ok (to_nbs h nbs)).
  { intros l nbs Hl. pose proof (lo_ref _ _ _ _ _ _ (c_lists _ _ (l_core _ _ Hwf) _ _ _ _ Hp Hl)) as HF.
    clear Hl. unfold to_nbs. induction HF as [|n nbs (q0 & Hq & _) HF IH]; [done|].
    cbn [mapM fmap list_fmap]. rewrite Hq. simpl. rewrite IH. simpl.
    replace (to_nb h n) with (Neighbour (pt_oid q0) (n_dist n) (n_pid n)); [done|].
    unfold to_nb, oid_at. by rewrite Hq. }
  revert H. generalize (pt_nbs pt) as ls. induction ls as [|nbs ls IH]; intros H; [done|].
  cbn [mapM fmap list_fmap]. rewrite (H 0%nat nbs eq_refl). simpl. rewrite IH; [done|].
  intros l nbs' Hl. by apply (H (S l)).
Qed.

Lemma pars_nbr h de n : dumpmode de = 1%N ->
  ((n_pid n).1 < 256)%nat -> (Z.of_nat (n_pid n).2 < 2 ^ 31)%Z -> (oid_at h (n_pid n) < 2 ^ 64)%N ->
  (0 <= n_dist n <= 2139095040)%Z ->
  pars (load_nbr de) (nbr_bytes Full (to_nb h n)) [] (raw_nb h n).
Proof.
  intros Hm H1 H2 H3 H4. unfold load_nbr, nbr_bytes, to_nb, raw_nb. cbn [d_id p_id distance].
  rewrite Hm, N.eqb_refl.
  eapply pars_bind_g; [by apply pars_panic, pars_gnum|].
  eapply pars_bind_g.
  { eapply pars_bind_g; [apply pars_panic, pars_gnum; change (256 ^ N.of_nat 1)%N with 256%N; lia|].
    eapply pars_bind_last; [apply pars_panic, pars_gnum_val, le_bytes_length|].
    rewrite i32_round by lia. apply pars_ret. }
  cbv beta iota. eapply pars_bind_last; [apply pars_panic, pars_gnum_val, le_bytes_length|].
  eapply pars_bind_0; [|apply pars_ret]. apply pars_lift. by rewrite f32_round.
Qed.

Definition ptg h (pt : point (T:=T)) : bytes :=
  u32_bytes MAGICPOINT ++ u64_bytes (pt_oid pt) ++
  (u8_bytes (N.of_nat (pt_pid pt).1) ++ i32_bytes (Z.of_nat (pt_pid pt).2)) ++
  concat (nbr_list_bytes Full <$> (to_nbs h <$> pt_nbs pt)).
Definition ptd (pt : point (T:=T)) : bytes :=
  u32_bytes MAGICDATAP ++ u64_bytes (pt_oid pt) ++
  u64_bytes (N.of_nat (length (enc_vec el (pt_data pt)))) ++ enc_vec el (pt_data pt).

Lemma dump_point_eq h pt p : lwf dist h -> get_pt h p = Some pt ->
  dump_point el h Full pt = wout (ptg h pt) (ptd pt).
Proof. intros Hwf Hp. unfold dump_point. by rewrite (nbhd_eq h pt p). Qed.

Lemma concat_fmap2 {A B C} (f : B -> C) (g : A -> B) (l : list A) : f <$> (g <$> l) = (fun x => f (g x)) <$> l.
Proof. by rewrite <- list_fmap_compose. Qed.

Lemma valid_bounds h p pt : dumpable h -> get_pt h p = Some pt -> (p.1 < 16)%nat.
Proof.
  intros Hd Hp. destruct (core_layer dist h p (l_core _ _ (du_wf _ Hd))) as [_ ?]; [by exists pt|].
  done.
Qed.

Lemma pars_point_graph h de p pt : dumpable h -> get_pt h p = Some pt -> dumpmode de = 1%N ->
  de_nb_layer de = N.of_nat NB_LAYER_MAX ->
  pars (load_point_graph de) (ptg h pt) []
    (pt_oid pt, N.of_nat (pt_pid pt).1, Z.of_nat (pt_pid pt).2, raw_nbs h <$> pt_nbs pt).
Proof.
  intros Hd Hp Hm Hl. destruct (du_pt _ Hd _ _ Hp) as (H1 & H2 & H3 & H4).
  destruct (c_pt _ _ (l_core _ _ (du_wf _ Hd)) _ _ Hp) as [Ep En].
  pose proof (valid_bounds _ _ _ Hd Hp) as Hb.
  unfold load_point_graph, ptg. rewrite Hl, Nat2N.id, Nat.sub_diag, Ep.
  eapply pars_bind_g; [apply pars_panic, pars_gnum; by vm_compute|]. rewrite N.eqb_refl. cbn [negb].
  eapply pars_bind_g; [by apply pars_panic, pars_gnum|]. rewrite <- app_assoc.
  eapply pars_bind_g; [apply pars_panic, pars_gnum; change (256 ^ N.of_nat 1)%N with 256%N; lia|].
  eapply pars_bind_g; [apply pars_panic, pars_gnum_val, le_bytes_length|].
  rewrite i32_round by lia.
  eapply pars_bind_last.
  - rewrite <- En, concat_fmap2. apply pars_rrep with (v := raw_nbs h).
    intros nbs Hin. apply elem_of_list_lookup in Hin as [l Hlk].
    pose proof (c_lists _ _ (l_core _ _ (du_wf _ Hd)) _ _ _ _ Hp Hlk) as [_ _ _ Lref Lcap].
    unfold load_nbr_list, nbr_list_bytes, to_nbs. eapply pars_bind_g.
    + apply pars_panic, pars_gnum. rewrite fmap_length. change (256 ^ N.of_nat 8)%N with (2 ^ 64)%N.
      pose proof (c_M _ _ (l_core _ _ (du_wf _ Hd))). unfold nb_conn in Lcap. destruct (l =? 0)%nat; lia.
    + rewrite fmap_length, Nat2N.id, concat_fmap2. apply pars_rrep.
      intros n Hn. rewrite Forall_forall in Lref. destruct (Lref n Hn) as (q & Hq & _).
      destruct (du_pt _ Hd _ _ Hq) as (B1 & B2 & _). pose proof (valid_bounds _ _ _ Hd Hq).
      apply pars_nbr; [done|lia|done| |exact (du_dist _ Hd _ _ _ _ _ Hp Hlk Hn)]. unfold oid_at. by rewrite Hq.
  - cbn [replicate]. rewrite app_nil_r. apply pars_ret.
Qed.

Lemma pars_record h p pt : dumpable h -> get_pt h p = Some pt ->
  pars (load_record (pt_oid pt)) [] (ptd pt) (enc_vec el (pt_data pt)).
Proof.
  intros Hd Hp. destruct (du_pt _ Hd _ _ Hp) as (H1 & H2 & H3 & H4).
  unfold load_record, ptd.
  eapply pars_bind_d; [apply pars_dnum; by vm_compute|].
  eapply pars_bind_0; [apply pars_lift, assert_true; lia|].
  eapply pars_bind_d; [by apply pars_dnum|].
  eapply pars_bind_0; [apply pars_lift, assert_true; lia|].
  eapply pars_bind_d; [apply pars_dnum; by rewrite enc_vec_length|].
  apply pars_dread. lia.
Qed.
End Points.

(* ------------------------------------------------------------------ *)
(** * The whole index, read back as points with vectors in T' *)
Section Reload.
Context {T T' : Type} (dist : list T -> list T -> Z) (so : StdOps).
Context (el : elem T) (el' : elem T') (Hel : elem_ok el).
Context (h : hnsw (T:=T)) (Hd : dumpable dist el h).

(** ** writing *)
Definition lyg (ly : list (point (T:=T))) : bytes :=
  (u32_bytes MAGICLAYER ++ u64_bytes (N.of_nat (length ly))) ++ concat (ptg h <$> ly).
Definition lyd (ly : list (point (T:=T))) : bytes := concat (ptd el <$> ly).

Lemma dump_points_eq l r pts : (forall i pt, pts !! i = Some pt -> get_pt h (l, r + i)%nat = Some pt) ->
  dump_points el h Full l r pts = wout (concat (ptg h <$> pts)) (concat (ptd el <$> pts)).
Proof using Hd Hel dist.
  clear el' T' so. revert r. induction pts as [|pt pts IH]; intros r H; [done|]. cbn [dump_points fmap list_fmap concat].
  pose proof (H 0%nat pt eq_refl) as Hp. rewrite Nat.add_0_r in Hp.
  destruct (c_pt _ _ (l_core _ _ (du_wf _ _ _ Hd)) _ _ Hp) as [Ep _].
  rewrite bool_decide_true by done. rewrite (dump_point_eq dist el h pt _ (du_wf _ _ _ Hd) Hp).
  rewrite IH; [done|]. intros i pt' Hi. replace (S r + i)%nat with (r + S i)%nat by lia. by apply H.
Qed.

Lemma dump_layers_eq l ls : (forall i r ly pt, ls !! i = Some ly -> ly !! r = Some pt -> get_pt h (l + i, r)%nat = Some pt) ->
  dump_layers el h Full l ls = wout (concat (lyg <$> ls)) (concat (lyd <$> ls)).
Proof using Hd Hel dist.
  clear el' T' so. revert l. induction ls as [|ly ls IH]; intros l H; [done|]. cbn [dump_layers fmap list_fmap concat].
  rewrite dump_points_eq.
  2:{ intros i pt Hi. specialize (H 0%nat i ly pt eq_refl Hi). by rewrite Nat.add_0_r in H. }
  rewrite IH.
  2:{ intros i r ly' pt Hi Hr. replace (S l + i)%nat with (l + S i)%nat by lia. by eapply H. }
  done.
Qed.

Lemma table_get i r ly pt : points_by_layer h !! i = Some ly -> ly !! r = Some pt -> get_pt h (i, r) = Some pt.
Proof. intros H1 H2. apply get_pt_lookup. eauto. Qed.

Definition entry_bytes : bytes :=
  match entry_point h with
  | None => []
  | Some ep => u64_bytes (oid_at h ep) ++ u8_bytes (N.of_nat ep.1) ++ i32_bytes (Z.of_nat ep.2)
  end.

Lemma dump_indexation_eq :
  dump_indexation el h Full =
  W (u8_bytes 16 ++ concat (lyg <$> points_by_layer h) ++ entry_bytes)
    (concat (lyd <$> points_by_layer h))
    (if entry_point h then Ok tt else Err).
Proof using Hd Hel dist.
  clear el' T' so. unfold dump_indexation. rewrite dump_layers_eq by (intros; by eapply table_get).
  rewrite (c_len _ _ (l_core _ _ (du_wf _ _ _ Hd))), (du_layers _ _ _ Hd).
  unfold dump_entry, entry_bytes, oid_at.
  pose proof (l_entry _ _ (du_wf _ _ _ Hd)) as He. destruct (entry_point h) as [ep|].
  - destruct He as [pt Hp]. rewrite Hp. unfold wseq. cbn. rewrite app_nil_r.
    destruct (c_pt _ _ (l_core _ _ (du_wf _ _ _ Hd)) _ _ Hp) as [-> _]. done.
  - unfold wseq. cbn. by rewrite !app_nil_r.
Qed.

(** ** reading *)
Context (dm : option datamap) (opts : reload_options) (de : description).
Context (Hmode : dumpmode de = 1%N) (Hnl : de_nb_layer de = N.of_nat NB_LAYER_MAX).
Context (Hnp : de_nb_point de = N.of_nat (nb_point h)).
Context (vd : point (T:=T) -> list T').

Definition raw_pt (pt : point (T:=T)) (b : bool) : raw_point (T:=T') :=
  RawPoint (pt_oid pt) (N.of_nat (pt_pid pt).1) (Z.of_nat (pt_pid pt).2) (raw_nbs h <$> pt_nbs pt) (vd pt) b.

Context (Hpt : forall p pt b, get_pt h p = Some pt -> (b = true -> ro_datamap opts = true) ->
  pars (load_point el' dm de b) (ptg h pt) (ptd el pt) (raw_pt pt b)).

Fixpoint raw_pts (still : Z) (pts : list (point (T:=T))) : list raw_point :=
  match pts with
  | [] => []
  | pt :: pts => raw_pt pt (point_use_mmap opts still) :: raw_pts (still - 1) pts
  end.
Fixpoint raw_lys (still : Z) (ls : list (list (point (T:=T)))) : list (list raw_point) :=
  match ls with
  | [] => []
  | ly :: ls => raw_pts still ly :: raw_lys (still - Z.of_nat (length ly)) ls
  end.

Lemma pars_points l r still pts :
  (forall i pt, pts !! i = Some pt -> get_pt h (l, r + i)%nat = Some pt) ->
  (Z.of_nat (length pts) <= still)%Z ->
  pars (load_points el' dm opts de l (length pts) r still)
    (concat (ptg h <$> pts)) (concat (ptd el <$> pts))
    (raw_pts still pts, still - Z.of_nat (length pts))%Z.
Proof using All.
  revert r still. induction pts as [|pt pts IH]; intros r still H Hs.
  { cbn [length load_points raw_pts fmap list_fmap concat]. rewrite Z.sub_0_r. apply pars_ret. }
  cbn [length load_points raw_pts fmap list_fmap concat] in *.
  pose proof (H 0%nat pt eq_refl) as Hp. rewrite Nat.add_0_r in Hp.
  destruct (c_pt _ _ (l_core _ _ (du_wf _ _ _ Hd)) _ _ Hp) as [Ep _].
  eapply pars_bind.
  { eapply Hpt; [exact Hp|]. unfold point_use_mmap. by destruct (ro_datamap opts). }
  eapply pars_bind_0; [apply pars_lift, assert_true; unfold raw_pt; cbn [rp_layer]; rewrite Ep; cbn; lia|].
  eapply pars_bind_0; [apply pars_lift, assert_true; unfold raw_pt; cbn [rp_rank]; rewrite Ep; cbn; lia|].
  eapply pars_bind_0; [apply pars_lift, assert_true; lia|].
  eapply pars_bind_last.
  { apply (IH (S r) (still - 1)%Z); [|lia]. intros i pt' Hi. replace (S r + i)%nat with (r + S i)%nat by lia. by apply H. }
  replace (still - 1 - Z.of_nat (length pts))%Z with (still - Z.of_nat (S (length pts)))%Z by lia. apply pars_ret.
Qed.

Lemma pars_layers l still ls :
  (forall i r ly pt, ls !! i = Some ly -> ly !! r = Some pt -> get_pt h (l + i, r)%nat = Some pt) ->
  (forall ly, ly ∈ ls -> (N.of_nat (length ly) < 2 ^ 64)%N) ->
  (Z.of_nat (sum_list (length <$> ls)) <= still)%Z ->
  pars (load_layers el' dm opts de (length ls) l still)
    (concat (lyg <$> ls)) (concat (lyd <$> ls)) (raw_lys still ls).
Proof using All.
  revert l still. induction ls as [|ly ls IH]; intros l still H Hlen Hs.
  { cbn [length load_layers raw_lys fmap list_fmap concat]. apply pars_ret. }
  cbn [length load_layers raw_lys fmap list_fmap concat sum_list_with] in *. unfold id in Hs at 1.
  unfold lyg at 1. rewrite <- !app_assoc.
  eapply pars_bind_g; [apply pars_gnum; by vm_compute|]. rewrite N.eqb_refl. cbn [negb].
  eapply pars_bind_g; [apply pars_gnum, Hlen; by left|]. rewrite Nat2N.id.
  unfold lyd at 1. eapply pars_bind.
  { apply pars_points; [|lia]. intros i pt Hi. specialize (H 0%nat i ly pt eq_refl Hi). by rewrite Nat.add_0_r in H. }
  cbv beta iota. eapply pars_bind_last; [|apply pars_ret]. apply IH.
  - intros i r ly' pt Hi Hr. replace (S l + i)%nat with (l + S i)%nat by lia. by eapply H.
  - intros ly' Hin. apply Hlen. by right.
  - lia.
Qed.

(** ** linking *)
Lemma raw_pts_lookup still pts r pt : pts !! r = Some pt -> exists b, raw_pts still pts !! r = Some (raw_pt pt b).
Proof.
  revert still r. induction pts as [|x pts IH]; intros still [|r] H; simpl in *; try done.
  - injection H as ->. eauto.
  - by apply IH.
Qed.
Lemma raw_lys_lookup still ls l ly : ls !! l = Some ly -> exists st, raw_lys still ls !! l = Some (raw_pts st ly).
Proof.
  revert still l. induction ls as [|x ls IH]; intros still [|l] H; simpl in *; try done.
  - injection H as ->. eauto.
  - by apply IH.
Qed.

Lemma raw_index_ok still p pt : get_pt h p = Some pt ->
  raw_index (raw_lys still (points_by_layer h)) (N.of_nat p.1) (Z.of_nat p.2) = Ok p.
Proof.
  intros Hp. apply get_pt_lookup in Hp as (ly & Hl & Hr).
  destruct (raw_lys_lookup still _ _ _ Hl) as [st E1]. destruct (raw_pts_lookup st _ _ _ Hr) as [b E2].
  unfold raw_index. replace (Z.of_nat p.2 <? 0)%Z with false by lia. rewrite Nat2N.id, Nat2Z.id, E1. simpl.
  rewrite E2. simpl. by destruct p.
Qed.

Definition relink (pt : point (T:=T)) : point (T:=T') :=
  Point (vd pt) (pt_oid pt) (pt_pid pt) (u_sort so nbr n_dist <$> pt_nbs pt).
Definition relink_ly (ly : list (point (T:=T))) : list (point (T:=T')) := relink <$> ly.

Lemma mapM_ok_map {A B} (f : A -> outcome B) (g : A -> B) l :
  (forall x, x ∈ l -> f x = Ok (g x)) -> mapM f l = Ok (g <$> l).
Proof.
  induction l as [|x l IH]; intros H; [done|]. cbn [mapM fmap list_fmap].
  rewrite H by (by left). simpl. rewrite IH; [done|]. intros y Hy. apply H. by right.
Qed.
Lemma mapM_map {A B C} (f : B -> outcome C) (g : A -> B) (l : list A) : mapM f (g <$> l) = mapM (fun x => f (g x)) l.
Proof. induction l as [|x l IH]; [done|]. cbn [mapM fmap list_fmap]. by rewrite IH. Qed.

Lemma link_point_ok still p pt b : get_pt h p = Some pt ->
  link_point so (raw_lys still (points_by_layer h)) (raw_pt pt b) = Ok (relink pt).
Proof using All.
  intros Hp. unfold link_point, raw_pt. cbn [rp_lists rp_data rp_oid rp_layer rp_rank].
  destruct (c_pt _ _ (l_core _ _ (du_wf _ _ _ Hd)) _ _ Hp) as [Ep En].
  rewrite fmap_length, En, Nat.leb_refl. cbn [assert_ mbind outcome_bind].
  rewrite mapM_map. rewrite (mapM_ok_map _ (u_sort so nbr n_dist)).
  - simpl. unfold relink. rewrite Nat2N.id, Nat2Z.id. by rewrite <- surjective_pairing.
  - intros nbs Hin. apply elem_of_list_lookup in Hin as [l Hl].
    pose proof (lo_ref _ _ _ _ _ _ (c_lists _ _ (l_core _ _ (du_wf _ _ _ Hd)) _ _ _ _ Hp Hl)) as HF.
    rewrite Forall_forall in HF. unfold link_list, raw_nbs. rewrite mapM_map.
    rewrite (mapM_ok_map _ id).
    + by rewrite list_fmap_id.
    + intros n Hn. destruct (HF n Hn) as (q & Hq & _). unfold link_nbr, raw_nb. cbn [rn_layer rn_rank rn_dist].
      rewrite (raw_index_ok still _ _ Hq). simpl. by destruct n.
Qed.

Lemma link_all_ok : forall still,
  link_all so (raw_lys still (points_by_layer h)) = Ok (relink_ly <$> points_by_layer h).
Proof using All.
  intros still. unfold link_all.
  assert (Hg : forall ls still', (forall ly, ly ∈ ls -> ly ∈ points_by_layer h) ->
    mapM (mapM (link_point so (raw_lys still (points_by_layer h)))) (raw_lys still' ls)
      = Ok (relink_ly <$> ls)).
  { induction ls as [|ly ls IH]; intros still' H; [done|]. cbn [raw_lys mapM fmap list_fmap].
    assert (Hl : forall st pts, (forall pt, pt ∈ pts -> exists p, get_pt h p = Some pt) ->
       mapM (link_point so (raw_lys still (points_by_layer h))) (raw_pts st pts) = Ok (relink <$> pts)).
    { clear IH H ly ls. intros st pts. revert st. induction pts as [|pt pts IH]; intros st H; [done|].
      cbn [raw_pts mapM fmap list_fmap]. destruct (H pt) as [p Hp]; [by left|].
      rewrite (link_point_ok still p pt _ Hp). simpl. rewrite IH; [done|]. intros. apply H. by right. }
    rewrite Hl.
    - simpl. rewrite IH; [done|]. intros. apply H. by right.
    - intros pt Hin. assert (Hy : ly ∈ points_by_layer h) by (apply H; by left).
      apply elem_of_list_lookup in Hy as [i Hi]. apply elem_of_list_lookup in Hin as [r Hr].
      exists (i, r). apply get_pt_lookup. eauto. }
  by apply Hg.
Qed.

Definition mapped_of : list pid :=
  raw_pid <$> List.filter rp_mapped (concat (raw_lys (Z.of_nat (nb_point h)) (points_by_layer h))).

Lemma pars_indexation ep : entry_point h = Some ep ->
  (el_nodata el' = true \/ el_name el' = de_t_name de) ->
  pars (load_point_indexation so el' dm opts de)
    (u8_bytes 16 ++ concat (lyg <$> points_by_layer h) ++ entry_bytes)
    (concat (lyd <$> points_by_layer h))
    (Loaded (relink_ly <$> points_by_layer h) ep mapped_of).
Proof using All.
  intros Hep Hname. unfold load_point_indexation.
  replace (negb (el_nodata el') && negb (String.eqb (el_name el') (de_t_name de))) with false.
  2:{ destruct Hname as [-> | ->]; [done|]. rewrite String.eqb_refl. by rewrite andb_false_r. }
  eapply pars_bind_g; [apply pars_gnum; by vm_compute|].
  change (N.of_nat NB_LAYER_MAX <? 16)%N with false. cbv iota.
  assert (Hcnt : as_i64 (de_nb_point de) = Z.of_nat (nb_point h)).
  { rewrite Hnp. unfold as_i64. pose proof (du_nb _ _ _ Hd).
    replace (N.of_nat (nb_point h) <? 2 ^ 63)%N with true by lia. lia. }
  pose proof (l_count _ _ (du_wf _ _ _ Hd)) as Hcount.
  rewrite <- (app_nil_r (concat (lyd <$> points_by_layer h))).
  eapply pars_bind.
  { rewrite Hcnt. 
    replace (N.to_nat 16) with (length (points_by_layer h))
      by (rewrite (c_len _ _ (l_core _ _ (du_wf _ _ _ Hd))), (du_layers _ _ _ Hd); done).
    apply pars_layers.
    - intros; by eapply table_get.
    - intros ly Hin. apply elem_of_list_lookup in Hin as [i Hi].
      pose proof (layer_length_le h i ly Hi). pose proof (du_nb _ _ _ Hd). lia.
    - rewrite Hcount. unfold table_size. lia. }
  eapply pars_bind_0; [apply pars_lift, link_all_ok|].
  unfold entry_bytes. rewrite Hep.
  pose proof (l_entry _ _ (du_wf _ _ _ Hd)) as He. rewrite Hep in He. destruct He as [pt Hp].
  destruct (du_pt _ _ _ Hd _ _ Hp) as (B1 & B2 & _). pose proof (valid_bounds dist el h ep pt Hd Hp) as B3.
  eapply pars_bind_g; [apply pars_gnum; unfold oid_at; by rewrite Hp|].
  eapply pars_bind_g; [apply pars_gnum; change (256 ^ N.of_nat 1)%N with 256%N; lia|].
  eapply pars_bind_last; [apply pars_gnum_val, le_bytes_length|].
  rewrite i32_round by lia.
  eapply pars_bind_0; [apply pars_lift; by eapply raw_index_ok|]. apply pars_ret.
Qed.
End Reload.

(* ------------------------------------------------------------------ *)
(** * The dump of an index *)
Section Dump.
Context {T : Type} (dist : list T -> list T -> Z).
Context (el : elem T) (Hel : elem_ok el).
Context (h : hnsw (T:=T)) (Hd : dumpable dist el h).
Context (dname : String.string) (Hdn : name_ok dname) (Htn : name_ok (el_name el)).

(** the description read back *)
Definition de_read : description :=
  Description 4 1 (N.of_nat (get_max_nb_connection h)) (level_scale h) (N.of_nat NB_LAYER_MAX)
    (N.of_nat (ef_construction h)) (N.of_nat (nb_point h)) (N.of_nat (get_data_dimension h))
    dname (el_name el).

Lemma dim_lt : (N.of_nat (get_data_dimension h) < 2 ^ 64)%N.
Proof.
  unfold get_data_dimension. destruct (entry_point h) as [p|]; [|done].
  destruct (get_pt h p) as [pt|] eqn:E; [|done]. by destruct (du_pt _ _ _ Hd _ _ E) as (_ & _ & ? & _).
Qed.

Lemma describe_sized : desc_sized (describe el dname Full h).
Proof using All.
  unfold describe, desc_sized. cbn. split_and!; auto.
  - unfold get_max_nb_connection. pose proof (Nat.mod_upper_bound (max_nb_connection h) 256). lia.
  - apply (du_scale _ _ _ Hd).
  - rewrite (du_layers _ _ _ Hd). done.
  - apply (du_ef _ _ _ Hd).
  - pose proof (du_nb _ _ _ Hd). lia.
  - apply dim_lt.
Qed.

Definition descg : bytes := w_graph (description_dump (describe el dname Full h) Full).
Definition headd : bytes := u32_bytes MAGICDATAP ++ u64_bytes (N.of_nat (get_data_dimension h)).

Lemma pars_descg : pars load_description descg [] de_read.
Proof using All.
  destruct (description_dump_ok _ Full describe_sized) as (_ & _ & H). 
  unfold descg. match type of H with pars _ _ _ ?x => replace de_read with x; [exact H|] end.
  unfold de_read, describe.
  cbn [de_max_nb_connection de_level_scale de_nb_layer de_ef de_nb_point de_dimension de_distname de_t_name].
  rewrite (du_layers _ _ _ Hd). reflexivity.
Qed.

Lemma dump_eq :
  dump el dname h Full =
  W (descg ++ u8_bytes 16 ++ concat (lyg h <$> points_by_layer h) ++ entry_bytes h)
    (headd ++ concat (lyd el <$> points_by_layer h))
    (if entry_point h then Ok tt else Err).
Proof using All.
  unfold dump, descg, headd. destruct (description_dump_ok _ Full describe_sized) as (H1 & H2 & _).
  destruct (description_dump (describe el dname Full h) Full) as [g d o]. cbn [w_res w_data w_graph] in *.
  subst. unfold wseq at 1. cbn [w_res w_data w_graph].
  rewrite (dump_indexation_eq dist el Hel h Hd). unfold wseq. cbn [w_res w_data w_graph wout app]. done.
Qed.

Lemma pars_header {A} (k : description -> rd A) g d a : pars (k de_read) g d a ->
  pars (rbind load_header k) (descg ++ g) (headd ++ d) a.
Proof using All.
  intros Hk. unfold load_header, headd.
  assert (H : pars (rbind (or_panic load_description) (fun de => magic <~ dnum 4; _ <~ rlift (assert_ (magic =? MAGICDATAP)%N);
       dim <~ dnum 8; _ <~ rlift (assert_ (dim =? de_dimension de)%N); rret de)) (descg ++ []) ((u32_bytes MAGICDATAP ++ u64_bytes (N.of_nat (get_data_dimension h))) ++ []) de_read).
  { eapply pars_bind_g; [apply pars_panic, pars_descg|]. rewrite <- app_assoc.
    eapply pars_bind_d; [apply pars_dnum; by vm_compute|].
    eapply pars_bind_0; [apply pars_lift, assert_true; lia|].
    eapply pars_bind_d; [apply pars_dnum, dim_lt|].
    eapply pars_bind_0; [apply pars_lift, assert_true; cbn; lia|]. apply pars_ret. }
  rewrite !app_nil_r in H. by eapply pars_bind.
Qed.

Section Load.
Context {T' : Type} (so : StdOps) (el' : elem T') (inv_ln : nat -> f64).
Context (ep : pid) (Hep : entry_point h = Some ep).
Context (vd : point (T:=T) -> list T').

(** the index obtained by reloading *)
Definition reloaded (dmo : bool) : hnsw (T:=T') :=
  Hnsw (ef_construction h) (get_max_nb_connection h) true false NB_LAYER_MAX
    (relink_ly so vd <$> points_by_layer h)
    (f64_mul (inv_ln (get_max_nb_connection h)) (level_scale h))
    (nb_point h) (Some ep) false dmo.

Lemma relink_count : length (concat (relink_ly so vd <$> points_by_layer h)) = nb_point h.
Proof using All.
  rewrite (l_count _ _ (du_wf _ _ _ Hd)). unfold table_size.
  induction (points_by_layer h) as [|ly ls IH]; [done|]. cbn [fmap list_fmap concat sum_list_with].
  rewrite app_length. unfold relink_ly at 1. by rewrite fmap_length, IH.
Qed.

Lemma make_reloaded opts dmo :
  make_hnsw inv_ln de_read (Loaded (relink_ly so vd <$> points_by_layer h) ep (mapped_of h opts vd)) dmo
  = reloaded dmo.
Proof using All.
  unfold make_hnsw, de_read, reloaded. cbn [de_ef de_max_nb_connection de_level_scale ld_layers ld_entry].
  by rewrite relink_count, !Nat2N.id.
Qed.

Definition reads_points (dm : option datamap) (opts : reload_options) : Prop :=
  forall p pt b, get_pt h p = Some pt -> (b = true -> ro_datamap opts = true) ->
  pars (load_point el' dm de_read b) (ptg h pt) (ptd el pt) (raw_pt h vd pt b).

Lemma pars_load dname' prev opts mk dm :
  choose_datamap prev opts mk = Ok dm -> reads_points dm opts ->
  (el_nodata el' = true \/ (el_name el' = el_name el /\
     exists c, rsplit_terminator dname' !! 0 = Some c /\ rsplit_terminator dname !! 0 = Some c)) ->
  pars (load_rd so el' inv_ln dname' prev opts mk)
    (w_graph (dump el dname h Full)) (w_data (dump el dname h Full))
    (reloaded true, mapped_of h opts vd).
Proof using All.
  intros Hdm Hrp Hty. rewrite dump_eq. cbn [w_graph w_data]. unfold load_rd. apply pars_header.
  eapply pars_bind_0 with (a := true).
  { destruct (el_nodata el') eqn:En; [apply pars_ret|]. destruct Hty as [?|(_ & c & E1 & E2)]; [done|].
    cbn [de_distname de_read]. rewrite E1, E2. 
    eapply pars_bind_0; [by apply pars_lift|]. eapply pars_bind_0; [by apply pars_lift|].
    rewrite bool_decide_true by done. apply pars_ret. }
  cbn [negb]. eapply pars_bind_0; [by apply pars_lift|].
  eapply pars_bind_last.
  - apply (pars_indexation dist so el el' Hel h Hd dm opts de_read eq_refl eq_refl eq_refl vd Hrp ep Hep).
    destruct Hty as [?|[? _]]; auto.
  - rewrite make_reloaded. apply pars_ret.
Qed.

Lemma pars_load_with_dist dname' prev opts :
  reads_points prev opts ->
  (el_nodata el' = true \/ (el_name el' = el_name el /\ dname' = dname)) ->
  pars (load_with_dist_rd so el' inv_ln dname' prev opts)
    (w_graph (dump el dname h Full)) (w_data (dump el dname h Full))
    (reloaded false, mapped_of h opts vd).
Proof using All.
  intros Hrp Hty. rewrite dump_eq. cbn [w_graph w_data]. unfold load_with_dist_rd. apply pars_header.
  replace (negb (el_nodata el') && negb (String.eqb dname' (de_distname de_read))) with false.
  2:{ destruct Hty as [->|[_ ->]]; [done|]. cbn [de_distname de_read]. by rewrite String.eqb_refl, andb_false_r. }
  eapply pars_bind_last.
  - apply (pars_indexation dist so el el' Hel h Hd prev opts de_read eq_refl eq_refl eq_refl vd Hrp ep Hep).
    destruct Hty as [?|[? _]]; auto.
  - rewrite make_reloaded. apply pars_ret.
Qed.
End Load.

(** ** the three ways of reading the vectors *)
Lemma reads_nodata {T'} (el' : elem T') dm opts : el_nodata el' = true -> ro_datamap opts = false ->
  reads_points el' (fun _ => []) dm opts.
Proof using All.
  intros Hn Ho p pt b Hp Hb. destruct b; [by rewrite Ho in Hb; specialize (Hb eq_refl)|].
  unfold load_point. rewrite <- (app_nil_r (ptg h pt)). 
  eapply pars_bind_g; [by eapply (pars_point_graph dist el)|]. cbv beta iota.
  eapply pars_bind_last; [|apply pars_ret]. apply pars_exit. unfold load_point_data.
  eapply pars_bind_last; [by eapply (pars_record dist el Hel h)|]. rewrite Hn. apply pars_ret.
Qed.

Lemma load_data_same pt p : el_nodata el = false -> get_pt h p = Some pt -> length (pt_data pt) = get_data_dimension h ->
  pars (load_point_data el (pt_oid pt) de_read) [] (ptd el pt) (pt_data pt).
Proof using All.
  intros Hn Hp Hl. unfold load_point_data. eapply pars_bind_last; [by eapply (pars_record dist el Hel h)|].
  rewrite Hn. cbn [format_version de_read de_dimension]. change (4 =? 2)%N with false. change (4 =? 3)%N with false.
  change (4 =? 4)%N with true. cbn [orb]. apply pars_lift. rewrite <- Hl.
  rewrite <- (app_nil_r (enc_vec el (pt_data pt))). by apply from_raw_enc.
Qed.

Definition uniform_table : Prop := forall p pt, get_pt h p = Some pt -> length (pt_data pt) = get_data_dimension h.

Lemma reads_same dm opts : el_nodata el = false -> uniform_table ->
  (ro_datamap opts = true -> exists m, dm = Some m /\
     forall p pt, get_pt h p = Some pt -> dm_get_data el m (pt_oid pt) = Ok (Some (pt_data pt))) ->
  reads_points el pt_data dm opts.
Proof using All.
  intros Hn Hu Hm p pt b Hp Hb.
  unfold load_point. rewrite <- (app_nil_r (ptg h pt)). 
  eapply pars_bind_g; [by eapply (pars_point_graph dist el)|]. cbv beta iota.
  destruct b.
  - destruct (Hm (Hb eq_refl)) as (m & -> & Hg). 
    eapply pars_bind_last; [by eapply (pars_record dist el Hel h)|].
    eapply pars_bind_0; [by apply pars_lift|]. 
    eapply pars_bind_0; [apply pars_lift; by eapply Hg|]. 
    eapply pars_bind_0; [by apply pars_lift|]. apply pars_ret.
  - eapply pars_bind_last; [|apply pars_ret]. apply pars_exit. eapply load_data_same; eauto.
Qed.
End Dump.
