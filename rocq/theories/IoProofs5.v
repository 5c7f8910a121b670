(** Dump and reload through the file system. *)
From Coq Require Import SpecFloat Strings.Byte.
From stdpp Require Import strings.
From Verif Require Import Prelude Model Lib Table SearchProofs SelectProofs InsertProofs IterProofs.
From Verif Require Import Spec SpecProofs Io IoBase SpecIo IoProofs IoProofs2 IoProofs3 IoProofs4.

(* ------------------------------------------------------------------ *)
(** * datamap_opt never changes *)
Section Dmo.
Context {T : Type} (dist : list T -> list T -> Z) (so : StdOps).
Implicit Types (h : hnsw (T:=T)).

Ltac binv H := repeat (let x := fresh "x" in let E := fresh "E" in apply bind_inv in H as (x & E & H)).

Lemma upd_dmo h p l f h' : upd_nbs h p l f = Ok h' -> datamap_opt h' = datamap_opt h.
Proof. unfold upd_nbs. intros H. binv H. by injection H as <-. Qed.

Lemma generate_dmo h v i d h' p r : generate_new_point h v i d = Ok (h', p, r) -> datamap_opt h' = datamap_opt h.
Proof.
  unfold generate_new_point. intros H. apply bind_inv in H as (lev & _ & H).
  apply bind_inv in H as ([h1 q] & Hp & H). unfold push_point in Hp. binv Hp. injection Hp as <- <-.
  injection H as <- <- <-. done.
Qed.

Lemma descend_use_dmo h np data l s ep dte h1 e1 t1 : descend_use dist so h np data l s ep dte = Ok (h1, e1, t1) ->
  datamap_opt h1 = datamap_opt h.
Proof.
  unfold descend_use. destruct (_ <? _)%nat; [done|]. destruct (h_pop so s) as [[e s']|]; [|by intros [= <- _ _]].
  intros H. apply bind_inv in H as (h2 & Hu & H). apply upd_dmo in Hu. rewrite <- Hu.
  apply bind_inv in H as (pt & _ & H). destruct (_ <? _)%Z; by injection H as <- _ _.
Qed.

Lemma descend_dmo ls h np data ep dte h1 e1 : descend dist so ls h np data ep dte = Ok (h1, e1) ->
  datamap_opt h1 = datamap_opt h.
Proof.
  revert h ep dte. induction ls as [|l ls IH]; intros h ep dte H; cbn [descend] in H; [by injection H as <- _|].
  apply bind_inv in H as (s & _ & H). apply bind_inv in H as ([[h2 e2] t2] & Hu & H).
  apply descend_use_dmo in Hu. apply IH in H. congruence.
Qed.

Lemma connect_dmo ls h np data ep h1 : connect dist so ls h np data ep = Ok h1 -> datamap_opt h1 = datamap_opt h.
Proof.
  revert h ep. induction ls as [|l ls IH]; intros h ep H; cbn [connect] in H; [by injection H as <-|].
  apply bind_inv in H as (s & _ & H). apply bind_inv in H as ([h2 e2] & Hu & H). apply IH in H.
  unfold connect_use in Hu. apply bind_inv in Hu as (neg & _ & Hu). destruct (_ =? _)%nat.
  - injection Hu as <- _. done.
  - apply bind_inv in Hu as (nv & _ & Hu). cbv zeta in Hu. apply bind_inv in Hu as (h3 & Hu & E).
    apply upd_dmo in Hu. injection E as <- _. congruence.
Qed.

Lemma rev_many_dmo qs h np h1 : rev_many so h np qs = Ok h1 -> datamap_opt h1 = datamap_opt h.
Proof.
  revert h. induction qs as [|q qs IH]; intros h H; cbn [rev_many] in H; [by injection H as <-|].
  apply bind_inv in H as (h2 & Hu & H). apply IH in H. rewrite H. unfold rev_one in Hu.
  case_bool_decide; [by injection Hu as <-|]. by apply upd_dmo in Hu.
Qed.
Lemma rev_layers_dmo ls h np h1 : rev_layers so ls h np = Ok h1 -> datamap_opt h1 = datamap_opt h.
Proof.
  revert h. induction ls as [|l ls IH]; intros h H; cbn [rev_layers] in H; [by injection H as <-|].
  apply bind_inv in H as (pt & _ & H). apply bind_inv in H as (qs & _ & H). apply bind_inv in H as (h2 & Hu & H).
  apply IH in H. apply rev_many_dmo in Hu. congruence.
Qed.

Lemma check_dmo h np : datamap_opt (check_entry_point h np) = datamap_opt h.
Proof. unfold check_entry_point. destruct (entry_point h); [|done]. by destruct (_ <? _)%nat. Qed.

Lemma insert_dmo h v id d h' : insert_slice dist so h v id d = Ok h' -> datamap_opt h' = datamap_opt h.
Proof.
  unfold insert_slice. intros H. apply bind_inv in H as ([[h0 np] r] & Hg & H). apply generate_dmo in Hg. rewrite <- Hg.
  destruct (entry_point h0) as [ep|].
  - destruct (_ =? _)%nat; [by injection H as <-|]. apply bind_inv in H as (pt & _ & H). cbv zeta in H.
    apply bind_inv in H as ([h1 e1] & H1 & H). apply descend_dmo in H1.
    apply bind_inv in H as (h2 & H2 & H). apply connect_dmo in H2.
    apply bind_inv in H as (h3 & H3 & H). apply rev_layers_dmo in H3. injection H as <-. rewrite check_dmo. congruence.
  - injection H as <-. by rewrite check_dmo.
Qed.

Lemma evolves_dmo h h' : evolves dist so h h' -> datamap_opt h' = datamap_opt h.
Proof. induction 1; auto. apply insert_dmo in H0. congruence. Qed.

End Dmo.

(* ------------------------------------------------------------------ *)
(** * rsplit_terminator *)
Lemma split_rev_no_colon s acc : ~ In x3a s -> split_rev s acc = [rev s ++ acc].
Proof.
  revert acc. induction s as [|c s IH]; intros acc Hn; [done|]. cbn [split_rev].
  destruct s as [|c' s].
  - done.
  - destruct (Byte.eqb c x3a) eqn:E.
    { exfalso. apply Hn. left. by apply Byte.byte_dec_bl in E. }
    cbn [andb]. rewrite IH.
    + cbn [rev]. by rewrite <- !app_assoc.
    + intros H. apply Hn. by right.
Qed.
Lemma split_rev_cut s rest acc : ~ In x3a s -> split_rev (s ++ x3a :: x3a :: rest) acc = (rev s ++ acc) :: split_rev rest [].
Proof.
  revert acc. induction s as [|c s IH]; intros acc Hn; [done|].
  cbn [app split_rev]. destruct (s ++ x3a :: x3a :: rest) as [|c' s'] eqn:E; [by destruct s|].
  destruct (Byte.eqb c x3a) eqn:Ec.
  { exfalso. apply Hn. left. by apply Byte.byte_dec_bl in Ec. }
  cbn [andb]. rewrite IH.
  - cbn [rev]. by rewrite <- !app_assoc.
  - intros H. apply Hn. by right.
Qed.
Lemma str_bytes_app a b : str_bytes (String.append a b) = str_bytes a ++ str_bytes b.
Proof.
  unfold str_bytes, String.list_byte_of_string. rewrite <- map_app. f_equal.
  induction a as [|c a IH]; [done|]. cbn [String.append String.list_ascii_of_string app]. by rewrite <- IH.
Qed.
Lemma str_bytes_nil s : str_bytes s = [] -> s = "".
Proof. by destruct s. Qed.
Lemma str_bytes_inj a b : str_bytes a = str_bytes b -> a = b.
Proof. intros H. rewrite <- (str_round a), <- (str_round b). by rewrite H. Qed.

Lemma rsplit_last s c : last_component s c -> rsplit_terminator s !! 0%nat = Some (str_bytes c).
Proof.
  intros (Hs & Hne & Hc). unfold rsplit_terminator.
  assert (Hc' : ~ In x3a (rev (str_bytes c))) by (by rewrite <- in_rev).
  destruct Hs as [->|[pre ->]].
  - rewrite (split_rev_no_colon _ _ Hc'), rev_involutive, app_nil_r.
    destruct (str_bytes c) eqn:E; [by apply str_bytes_nil in E|done].
  - rewrite !str_bytes_app, !rev_app_distr, <- app_assoc. change (rev (str_bytes "::")) with [x3a; x3a].
    cbn [app]. rewrite (split_rev_cut _ _ _ Hc'), rev_involutive, app_nil_r.
    destruct (str_bytes c) eqn:E; [by apply str_bytes_nil in E|done].
Qed.

(** a name that is not empty has a short name *)
Lemma split_rev_ne s acc : split_rev s acc <> [].
Proof.
  revert acc. induction s as [|c s IH]; intros acc; [done|]. cbn [split_rev].
  destruct s; [done|]. destruct (_ && _); [done|]. apply IH.
Qed.
Lemma split_rev_single s acc : split_rev s acc = [[]] -> s = [] /\ acc = [].
Proof.
  revert acc. induction s as [|c s IH]; intros acc; cbn [split_rev].
  - by intros [= ->].
  - destruct s as [|c' s]; [done|]. destruct (_ && _).
    + intros [= -> H]. by apply split_rev_ne in H.
    + intros H. apply IH in H as [? ?]. done.
Qed.
Lemma rsplit_some s : s <> "" -> is_Some (rsplit_terminator s !! 0%nat).
Proof.
  intros Hs. unfold rsplit_terminator. destruct (split_rev (rev (str_bytes s)) []) as [|[|c p] l] eqn:E.
  - by apply split_rev_ne in E.
  - destruct l; [|by eexists]. apply split_rev_single in E as [E _].
    destruct (str_bytes s) as [|b bs] eqn:Es; [by apply str_bytes_nil in Es|]. cbn in E. by destruct (rev bs).
  - by eexists.
Qed.

(* ------------------------------------------------------------------ *)
(** * Dump then reload *)
Section DumpReload.
Context {T : Type} (dist : list T -> list T -> Z).
Context (Hnn : forall a b : list T, (0 <= dist a b)%Z).
Context (h : hnsw (T:=T)) (el : elem T) (dname : String.string).
Context (Hel : elem_ok el) (Hd : dumpable dist el h) (Hdn : name_ok dname) (Htn : name_ok (el_name el)).
Context (ep : pid) (Hep : entry_point h = Some ep).

Lemma ready_res : w_res (dump el dname h Full) = Ok tt.
Proof using All.
  rewrite (dump_eq dist el Hel h Hd dname Hdn Htn). by rewrite Hep.
Qed.

Context (cwd : list String.string) (fs : fsys) (dir : path) (base : String.string).
Context (Hat : dump_at fs cwd dir base (w_graph (dump el dname h Full)) (w_data (dump el dname h Full))).

Lemma ready_open io : io_dir io = dir -> io_basename io = base ->
  io_open cwd fs io = Ok (w_graph (dump el dname h Full), w_data (dump el dname h Full)).
Proof using All. unfold io_open. intros -> ->. destruct Hat as [-> ->]. done. Qed.

Lemma run_pars {A} (p : rd A) g d a : pars p g d a -> run_rd p g d = Ok a.
Proof using. intros H. specialize (H [] []). rewrite !app_nil_r in H. unfold run_rd. by rewrite H. Qed.

(** graph only *)
Lemma reload_nodata {T'} so' (el' : elem T') inv_ln' dname' io :
  el_nodata el' = true -> io_dir io = dir -> io_basename io = base ->
  ro_datamap (io_options io) = false ->
  load_hnsw so' el' inv_ln' dname' cwd fs io = Ok (reloaded h so' inv_ln' ep (fun _ => []) true, []) /\
  load_hnsw_with_dist so' el' inv_ln' dname' cwd fs io = Ok (reloaded h so' inv_ln' ep (fun _ => []) false, []).
Proof using All.
  intros Hn E1 E2 Ho. unfold load_hnsw, load_hnsw_with_dist. rewrite (ready_open io E1 E2). cbn [mbind outcome_bind].
  rewrite <- (mapped_off h (io_options io) (fun _ => [] : list T')) by done.
  split; apply run_pars.
  - eapply pars_load with (dist := dist) (dm := io_datamap io); eauto.
    + unfold choose_datamap. by rewrite Ho.
    + apply reads_nodata with (dist := dist); auto.
  - eapply pars_load_with_dist with (dist := dist); eauto.
    apply reads_nodata with (dist := dist); auto.
Qed.

(** with the vectors, in memory *)
Lemma reload_plain so' inv_ln' dname' io :
  el_nodata el = false -> uniform_table h ->
  io_dir io = dir -> io_basename io = base -> ro_datamap (io_options io) = false ->
  (exists c, rsplit_terminator dname' !! 0%nat = Some c /\ rsplit_terminator dname !! 0%nat = Some c) ->
  load_hnsw so' el inv_ln' dname' cwd fs io = Ok (reloaded h so' inv_ln' ep pt_data true, []).
Proof using All.
  intros Hn Hut E1 E2 Ho Hc. unfold load_hnsw. rewrite (ready_open io E1 E2). cbn [mbind outcome_bind].
  rewrite <- (mapped_off h (io_options io) pt_data) by done.
  apply run_pars. eapply pars_load with (dist := dist) (dm := io_datamap io); eauto.
  - unfold choose_datamap. by rewrite Ho.
  - apply reads_same with (dist := dist); auto. by rewrite Ho.
Qed.

Lemma reload_plain_with_dist so' inv_ln' io :
  el_nodata el = false -> uniform_table h ->
  io_dir io = dir -> io_basename io = base -> ro_datamap (io_options io) = false ->
  load_hnsw_with_dist so' el inv_ln' dname cwd fs io = Ok (reloaded h so' inv_ln' ep pt_data false, []).
Proof using All.
  intros Hn Hut E1 E2 Ho. unfold load_hnsw_with_dist. rewrite (ready_open io E1 E2). cbn [mbind outcome_bind].
  rewrite <- (mapped_off h (io_options io) pt_data) by done.
  apply run_pars. eapply pars_load_with_dist with (dist := dist); eauto.
  apply reads_same with (dist := dist); auto. by rewrite Ho.
Qed.

(** the data map of the dump *)
Lemma ready_datamap : uniform_table h ->
  exists m, datamap_of el (w_graph (dump el dname h Full)) (w_data (dump el dname h Full)) =
      Ok (DataMap (w_data (dump el dname h Full)) m (el_name el) (N.of_nat (get_data_dimension h)) dname) /\
    map_ok el (w_data (dump el dname h Full)) (all_points h) m /\
    (NoDup (pt_oid <$> all_points h) -> fst <$> m = pt_oid <$> all_points h).
Proof using All.
  intros Hut. edestruct (datamap_ok dist el) with (dname := dname) as (m & H1 & H2 & H3); eauto.
Qed.

Lemma ready_from_dump : plain_dir dir ->
  from_hnswdump el cwd fs dir base = datamap_of el (w_graph (dump el dname h Full)) (w_data (dump el dname h Full)).
Proof using All.
  intros Hpd. unfold from_hnswdump. rewrite plain_graph by done. destruct Hat as [-> ->]. done.
Qed.

(** with the vectors, mapped *)
Lemma reload_mmap so' inv_ln' dname' io :
  el_nodata el = false -> uniform_table h -> NoDup (pt_oid <$> all_points h) -> plain_dir dir ->
  io_dir io = dir -> io_basename io = base -> ro_datamap (io_options io) = true ->
  (exists c, rsplit_terminator dname' !! 0%nat = Some c /\ rsplit_terminator dname !! 0%nat = Some c) ->
  load_hnsw so' el inv_ln' dname' cwd fs io =
    Ok (reloaded h so' inv_ln' ep pt_data true, mapped_of h (io_options io) pt_data).
Proof using All.
  intros Hn Hut HD Hpd E1 E2 Ho Hc. unfold load_hnsw. rewrite (ready_open io E1 E2). cbn [mbind outcome_bind].
  destruct (ready_datamap Hut) as (m & Hm & Hmok & _).
  rewrite E1, E2, (ready_from_dump Hpd), Hm.
  apply run_pars.
  set (dm := DataMap _ _ _ _ _).
  eapply pars_load with (dist := dist) (dm := Some dm); eauto.
  - unfold choose_datamap. by rewrite Ho.
  - apply reads_same with (dist := dist); auto. intros _. exists dm. split; [done|].
    intros p pt Hp. eapply dm_get_unique with (dist := dist); eauto.
Qed.

(** the header read back *)
Lemma ready_header : exists s, load_header (w_graph (dump el dname h Full), w_data (dump el dname h Full)) = Ok (de_read el h dname, s).
Proof using All.
  rewrite (dump_eq dist el Hel h Hd dname Hdn Htn). cbn [w_graph w_data].
  pose proof (pars_header dist el Hel h Hd dname Hdn Htn (A := description) rret [] [] (de_read el h dname) (pars_ret _)) as H.
  rewrite !app_nil_r in H. match goal with |- context [load_header (?g, ?d)] => idtac end.
  specialize (H (u8_bytes 16 ++ concat (lyg h <$> points_by_layer h) ++ entry_bytes h) (concat (lyd el <$> points_by_layer h))).
  unfold rbind in H. destruct (load_header _) as [[de s]| | | | |]; try done. exists s. simpl in H. by injection H as -> _.
Qed.
End DumpReload.

(** ** the names checked *)
Lemma rbind_inv {A B} (p : rd A) (k : A -> rd B) s b s' : rbind p k s = Ok (b, s') -> exists a s1, p s = Ok (a, s1) /\ k a s1 = Ok (b, s').
Proof. unfold rbind. destruct (p s) as [[a s1]| | | | |]; try done. simpl. eauto. Qed.
Lemma rlift_inv {A} (o : outcome A) s a s' : rlift o s = Ok (a, s') -> o = Ok a /\ s' = s.
Proof. unfold rlift. destruct o; try done. simpl. by intros [= -> ->]. Qed.

Lemma indexation_name {T} so (el : elem T) dm opts de s r : load_point_indexation so el dm opts de s = Ok r ->
  el_nodata el = true \/ el_name el = de_t_name de.
Proof.
  unfold load_point_indexation. destruct (el_nodata el); [by left|]. destruct (String.eqb_spec (el_name el) (de_t_name de)); [by right|].
  done.
Qed.

Lemma load_names {T} so (el : elem T) inv_ln dname prev opts mk s r s' :
  load_rd so el inv_ln dname prev opts mk s = Ok (r, s') ->
  exists de s1, load_header s = Ok (de, s1) /\
    (el_nodata el = true \/ (el_name el = de_t_name de /\
       exists c, rsplit_terminator dname !! 0%nat = Some c /\ rsplit_terminator (de_distname de) !! 0%nat = Some c)).
Proof.
  unfold load_rd. intros H. apply rbind_inv in H as (de & s1 & Hh & H). exists de, s1. split; [done|].
  apply rbind_inv in H as (same & s2 & Hs & H). destruct (el_nodata el) eqn:En; [by left|]. right.
  apply rbind_inv in Hs as (a & s3 & Ha & Hs). apply rlift_inv in Ha as [Ha ->]. apply unwrap_inv in Ha.
  apply rbind_inv in Hs as (b & s4 & Hb & Hs). apply rlift_inv in Hb as [Hb ->]. apply unwrap_inv in Hb.
  injection Hs as <- <-. destruct (bool_decide_reflect (a = b)) as [->|]; [|done]. cbn [negb] in H.
  apply rbind_inv in H as (dm & s5 & _ & H). apply rbind_inv in H as (ld & s6 & Hl & _).
  apply indexation_name in Hl as [?|?]; [congruence|]. eauto.
Qed.

Lemma load_with_dist_names {T} so (el : elem T) inv_ln dname prev opts s r s' :
  load_with_dist_rd so el inv_ln dname prev opts s = Ok (r, s') ->
  exists de s1, load_header s = Ok (de, s1) /\
    (el_nodata el = true \/ (el_name el = de_t_name de /\ dname = de_distname de)).
Proof.
  unfold load_with_dist_rd. intros H. apply rbind_inv in H as (de & s1 & Hh & H). exists de, s1. split; [done|].
  destruct (el_nodata el) eqn:En; [by left|]. right. cbn [negb andb] in H.
  destruct (String.eqb_spec dname (de_distname de)); [|done]. cbn [negb] in H.
  apply rbind_inv in H as (ld & s6 & Hl & _). apply indexation_name in Hl as [?|?]; [congruence|]. eauto.
Qed.

(** ** a reloaded index is well formed *)
Lemma reloaded_wf {T} (dist : list T -> list T -> Z) so (LAWS : StdLaws so) (Hnn : forall a b : list T, (0 <= dist a b)%Z)
  (h : hnsw (T:=T)) inv_ln ep dmo :
  lwf dist h -> max_layer h = NB_LAYER_MAX -> (max_nb_connection h <= 255)%nat -> entry_point h = Some ep ->
  (lwf dist (reloaded h so inv_ln ep pt_data dmo) /\ (wf dist h -> wf dist (reloaded h so inv_ln ep pt_data dmo))) /\
  grows h (reloaded h so inv_ln ep pt_data dmo) /\
  stored (reloaded h so inv_ln ep pt_data dmo) = stored h /\
  max_nb_connection (reloaded h so inv_ln ep pt_data dmo) = max_nb_connection h.
Proof.
  intros Hwf Hml HM Hep. set (h' := reloaded _ _ _ _ _ _).
  assert (EM : get_max_nb_connection h = max_nb_connection h).
  { unfold get_max_nb_connection. apply Nat.mod_small. lia. }
  assert (Hg : forall p, get_pt h' p = relink so pt_data <$> get_pt h p) 
    by (intros p; unfold get_pt, h', reloaded; cbn [points_by_layer]; rewrite list_lookup_fmap;
        destruct (points_by_layer h !! p.1); [|done]; simpl; unfold relink_ly; by rewrite list_lookup_fmap).
  assert (Hgi : forall p pt', get_pt h' p = Some pt' -> exists pt, get_pt h p = Some pt /\ pt' = relink so pt_data pt).
  { intros p pt'. rewrite Hg. destruct (get_pt h p) as [pt|]; [|done]. intros [= <-]. eauto. }
  pose proof (l_core _ _ Hwf) as Hc.
  assert (Hconn : forall l, nb_conn h' l = nb_conn h l) by (intros l; unfold nb_conn, h', reloaded; cbn [max_nb_connection]; by rewrite EM).
  assert (Hv : forall p, valid h' p <-> valid h p).
  { intros p. unfold valid. rewrite Hg. destruct (get_pt h p); simpl; split; intros [x Hx]; try done; eauto. }
  assert (HL : lwf dist h').
  { constructor.
    + constructor.
      * unfold h', reloaded. cbn [points_by_layer max_layer]. rewrite fmap_length, <- Hml. apply (c_len _ _ Hc).
      * unfold h', reloaded. cbn [max_layer]. lia.
      * unfold h', reloaded. cbn [max_nb_connection]. lia.
      * intros p pt' Hp. apply Hgi in Hp as (pt & Hp & ->). cbn [pt_pid pt_nbs relink]. rewrite fmap_length. by apply (c_pt _ _ Hc).
      * intros p pt' l nbs' Hp Hl. apply Hgi in Hp as (pt & Hp & ->). cbn [pt_data pt_nbs relink] in *.
        rewrite list_lookup_fmap in Hl. destruct (pt_nbs pt !! l) as [nbs|] eqn:E; [|done]. injection Hl as <-.
        destruct (c_lists _ _ Hc _ _ _ _ Hp E) as [L1 L2 L3 L4 L5].
        pose proof (law_usort_perm _ LAWS nbr n_dist nbs) as HP.
        constructor.
        -- by rewrite HP.
        -- apply (law_usort _ LAWS).
        -- by rewrite HP.
        -- rewrite HP. eapply Forall_impl; [exact L4|]. intros n (q & Hq & Hdd). exists (relink so pt_data q).
           rewrite Hg, Hq. done.
        -- rewrite HP, Hconn. done.
    + unfold h', reloaded at 1. cbn [nb_point]. rewrite (l_count _ _ Hwf). unfold table_size, h', reloaded. cbn [points_by_layer].
      induction (points_by_layer h) as [|ly ls IH]; [done|]. cbn [fmap list_fmap sum_list_with]. 
      unfold relink_ly at 1. rewrite fmap_length. f_equal. exact IH.
    + unfold h' at 1, reloaded at 1. cbn [entry_point]. pose proof (l_entry _ _ Hwf) as He. rewrite Hep in He. by apply Hv. }
  split; [split; [done|]|split_and!].
  - intros Hwf'. destruct HL as [L1 L2 L3]. split; auto.
    unfold h' at 1, reloaded at 1. cbn [entry_point]. pose proof (w_entry _ _ Hwf') as He. rewrite Hep in He.
    destruct He as [He1 He2]. split; [by apply Hv|]. intros p Hp. apply He2. by apply Hv.
  - split; [exact EM|]. intros p s. unfold static. rewrite Hg. by destruct (get_pt h p).
  - unfold stored, all_points, h', reloaded. cbn [points_by_layer].
    induction (points_by_layer h) as [|ly ls IH]; [done|]. cbn [fmap list_fmap concat]. rewrite !fmap_app. f_equal; [|exact IH].
    unfold relink_ly. rewrite <- list_fmap_compose. done.
  - exact EM.
Qed.

(* ------------------------------------------------------------------ *)
(** * Vectors longer than the dimension announced *)
Section Longer.
Context {T : Type} (dist : list T -> list T -> Z).
Context (el : elem T) (Hel : elem_ok el) (h : hnsw (T:=T)) (Hd : dumpable dist el h).
Context (dname : String.string) (Hdn : name_ok dname) (Htn : name_ok (el_name el)).

Lemma enc_vec_app (u v : list T) : enc_vec el (u ++ v) = enc_vec el u ++ enc_vec el v.
Proof using. unfold enc_vec. by rewrite fmap_app, concat_app. Qed.

Definition cut_data (pt : point (T:=T)) : list T := take (get_data_dimension h) (pt_data pt).

Lemma reads_cut dm opts : el_nodata el = false -> ro_datamap opts = false ->
  (forall p pt, get_pt h p = Some pt -> (get_data_dimension h <= length (pt_data pt))%nat) ->
  reads_points el h dname el cut_data dm opts.
Proof using All.
  intros Hn Ho Hlen p pt b Hp Hb. destruct b; [by rewrite Ho in Hb; specialize (Hb eq_refl)|].
  unfold load_point. rewrite <- (app_nil_r (ptg h pt)).
  eapply pars_bind_g; [by eapply (pars_point_graph dist el)|]. cbv beta iota.
  eapply pars_bind_last; [|apply pars_ret]. apply pars_exit. unfold load_point_data.
  eapply pars_bind_last; [by eapply (pars_record dist el Hel h)|]. rewrite Hn.
  cbn [format_version de_read de_dimension]. change (4 =? 2)%N with false. change (4 =? 3)%N with false.
  change (4 =? 4)%N with true. cbn [orb]. apply pars_lift.
  assert (E : length (cut_data pt) = get_data_dimension h).
  { unfold cut_data. rewrite take_length. specialize (Hlen _ _ Hp). lia. }
  rewrite <- E. rewrite <- (take_drop (get_data_dimension h) (pt_data pt)) at 1. rewrite enc_vec_app. by apply from_raw_enc.
Qed.

Lemma reload_cut so' inv_ln' ep cwd fs io :
  entry_point h = Some ep ->
  dump_at fs cwd (io_dir io) (io_basename io) (w_graph (dump el dname h Full)) (w_data (dump el dname h Full)) ->
  el_nodata el = false -> ro_datamap (io_options io) = false ->
  (exists c, rsplit_terminator dname !! 0%nat = Some c) ->
  (forall p pt, get_pt h p = Some pt -> (get_data_dimension h <= length (pt_data pt))%nat) ->
  load_hnsw so' el inv_ln' dname cwd fs io = Ok (reloaded h so' inv_ln' ep cut_data true, []).
Proof using All.
  intros Hep Hat Hn Ho [c Hc] Hlen. unfold load_hnsw, io_open. destruct Hat as [-> ->]. cbn [mbind outcome_bind].
  rewrite <- (mapped_off h (io_options io) cut_data) by done.
  apply run_pars. eapply pars_load with (dist := dist) (dm := io_datamap io); eauto.
  - unfold choose_datamap. by rewrite Ho.
  - by apply reads_cut.
Qed.
End Longer.

(* ------------------------------------------------------------------ *)
(** * Names of files *)
Lemma graph_never_data cwd dir base cwd' dir' base' :
  resolve cwd (graph_file dir base) <> resolve cwd' (data_file dir' base').
Proof.
  unfold graph_file, data_file. rewrite !resolve_in_dir. intros H. apply app_inj_tail in H as [_ H].
  assert (E : str_bytes (base +:+ ".hnsw.graph") = str_bytes (base' +:+ ".hnsw.data")) by congruence.
  rewrite !str_bytes_app in E. apply (f_equal last) in E.
  change (str_bytes ".hnsw.graph") with ([x2e; x68; x6e; x73; x77; x2e; x67; x72; x61; x70] ++ [x68]) in E.
  change (str_bytes ".hnsw.data") with ([x2e; x68; x6e; x73; x77; x2e; x64; x61; x74] ++ [x61]) in E.
  rewrite !app_assoc, !last_snoc in E. done.
Qed.

Lemma pick_name_absent cwd fs dir base draws name : pick_name cwd fs dir base draws = Ok name ->
  fs_read fs cwd (data_file dir name) = None /\ exists id, id ∈ draws /\ name = suffixed base id.
Proof.
  induction draws as [|id draws IH]; [done|]. cbn [pick_name].
  destruct (fs_read fs cwd (data_file dir (suffixed base id))) eqn:E.
  - intros H. destruct (IH H) as (H1 & i & Hi & ->). split; [done|]. exists i. split; [by right|done].
  - intros [= <-]. split; [done|]. exists id. split; [left|done].
Qed.
Lemma pick_name_free cwd fs dir base draws id : id ∈ draws -> fs_read fs cwd (data_file dir (suffixed base id)) = None ->
  exists name, pick_name cwd fs dir base draws = Ok name.
Proof.
  induction 1 as [id draws|id i draws _ IH]; intros H; cbn [pick_name].
  - rewrite H. by eexists.
  - destruct (fs_read fs cwd (data_file dir (suffixed base i))); [by apply IH|by eexists].
Qed.
Lemma pick_name_cases cwd fs dir base draws : (exists name, pick_name cwd fs dir base draws = Ok name) \/ pick_name cwd fs dir base draws = Fuel.
Proof. induction draws as [|id draws IH]; cbn [pick_name]; [by right|]. destruct (fs_read _ _ _); [done|]. left. eauto. Qed.

Lemma dump_basename_absent cwd fs dir base draws name : dump_basename cwd fs dir base false draws = Ok name ->
  fs_read fs cwd (data_file dir name) = None /\ (name = base \/ exists id, id ∈ draws /\ name = suffixed base id).
Proof.
  unfold dump_basename. destruct (fs_read fs cwd (data_file dir base)) eqn:E.
  - intros H. apply pick_name_absent in H as [? ?]. auto.
  - intros [= <-]. auto.
Qed.

Lemma file_dump_files {T} (el : elem T) dname cwd fs dir base draws h fs' r :
  file_dump el dname cwd fs dir base draws h = (fs', r) ->
  (fs' = fs /\ forall name, r <> Ok name) \/
  exists name, dump_basename cwd fs dir base (negb (datamap_opt h)) draws = Ok name /\
    (forall n, r = Ok n -> n = name) /\
    (forall loc, loc <> resolve cwd (graph_file dir name) -> loc <> resolve cwd (data_file dir name) -> fs' loc = fs loc).
Proof.
  unfold file_dump. destruct (dump_basename _ _ _ _ _ _) as [nm| | | | |] eqn:E; intros [= <- <-]; try (left; split; [done|congruence]).
  right. exists nm. split; [done|]. split.
  - intros n Hn. destruct (w_res _); congruence.
  - intros loc H1 H2. unfold fs_write. by rewrite !bool_decide_false.
Qed.

(** ** first component of a name *)
Lemma last_cons_ne {A} (x : A) l : l <> [] -> last (x :: l) = last l.
Proof. by destruct l. Qed.
Lemma split_rev_last_aux n : forall x y acc, (length x <= n)%nat -> ~ In x3a y -> (x = [] \/ last x <> Some x3a) ->
  last (split_rev (x ++ x3a :: x3a :: y) acc) = Some (rev y).
Proof.
  induction n as [|n IH]; intros x y acc Hn Hy Hx.
  { destruct x; [|simpl in Hn; lia]. cbn [app split_rev]. change (Byte.eqb x3a x3a) with true. cbn [andb].
    rewrite (split_rev_no_colon _ _ Hy), app_nil_r. done. }
  destruct x as [|c [|c' x]].
  - apply IH; auto; simpl; lia.
  - destruct Hx as [?|Hx]; [done|]. cbn [app split_rev]. destruct (Byte.eqb c x3a) eqn:E.
    { exfalso. apply Hx. apply Byte.byte_dec_bl in E. by subst. }
    cbn [andb]. apply (IH []); auto; simpl; lia.
  - destruct Hx as [?|Hx]; [done|]. cbn [app split_rev]. destruct (Byte.eqb c x3a && Byte.eqb c' x3a) eqn:E.
    + apply andb_true_iff in E as [_ E2]. apply Byte.byte_dec_bl in E2. subst c'.
      rewrite last_cons_ne by apply split_rev_ne. apply IH; [simpl in Hn; lia|done|].
      destruct x; [by left|right]. done.
    + apply (IH (c' :: x)); [simpl in *; lia|done|]. right. done.
Qed.
Lemma rsplit_first s c : first_component s c -> last (rsplit_terminator s) = Some (str_bytes c).
Proof.
  intros (Hs & Hne & Hc). unfold rsplit_terminator.
  assert (Hc' : ~ In x3a (rev (str_bytes c))) by (by rewrite <- in_rev).
  assert (Hnb : str_bytes c <> []) by (intros E; by apply str_bytes_nil in E).
  assert (Hl : last (split_rev (rev (str_bytes s)) []) = Some (str_bytes c) /\ (length (split_rev (rev (str_bytes s)) []) >= 1)%nat).
  { split; [|pose proof (split_rev_ne (rev (str_bytes s)) []); destruct (split_rev _ _); [done|simpl; lia]].
    destruct Hs as [->|(post & -> & Hp)].
    - rewrite (split_rev_no_colon _ _ Hc'), rev_involutive, app_nil_r. done.
    - rewrite !str_bytes_app, !rev_app_distr, <- app_assoc. change (rev (str_bytes "::")) with [x3a; x3a].
      rewrite app_assoc. rewrite <- (app_assoc _ [x3a; x3a]). cbn [app]. rewrite (split_rev_last_aux (length (rev (str_bytes post)))); [by rewrite rev_involutive|done..|].
      destruct (str_bytes post) as [|b bs]; [by left|]. right. cbn [rev]. rewrite last_snoc. intros [= ->]. by eapply Hp. }
  destruct (split_rev _ _) as [|[|b p] l] eqn:E; [by destruct Hl| |apply Hl].
  destruct l as [|q l]; [|apply Hl]. destruct Hl as [[= Hl] _]. done.
Qed.

(** ** an index obtained by load_hnsw is marked as such *)
Lemma load_dmo {T} so (el : elem T) inv_ln dname cwd fs io h mapped :
  load_hnsw so el inv_ln dname cwd fs io = Ok (h, mapped) -> datamap_opt h = true.
Proof.
  unfold load_hnsw. intros Hl. apply bind_inv in Hl as ([g d] & _ & Hl).
  unfold run_rd in Hl. destruct (load_rd _ _ _ _ _ _ _ _) as [[[hh mm] s]| | | | |] eqn:E; try done. injection Hl as -> ->.
  unfold load_rd in E. apply rbind_inv in E as (de & s1 & _ & E). apply rbind_inv in E as (same & s2 & _ & E).
  destruct (negb same); [done|]. apply rbind_inv in E as (dm & s3 & _ & E). apply rbind_inv in E as (ld & s4 & _ & E).
  injection E as <- _ _. done.
Qed.
(** ** the graph file of a base name determines its data file *)
Lemma graph_data_loc cwd dir base cwd' dir' base' :
  resolve cwd (graph_file dir base) = resolve cwd' (graph_file dir' base') ->
  resolve cwd (data_file dir base) = resolve cwd' (data_file dir' base').
Proof.
  unfold graph_file, data_file. rewrite !resolve_in_dir. intros H. apply app_inj_tail in H as [-> H].
  assert (E : str_bytes (base +:+ ".hnsw.graph") = str_bytes (base' +:+ ".hnsw.graph")) by congruence.
  rewrite !str_bytes_app in E. apply app_inv_tail, str_bytes_inj in E. by subst.
Qed.
(** ** the description precedes everything *)
Lemma header_description s de s1 : load_header s = Ok (de, s1) -> exists s2, load_description s = Ok (de, s2).
Proof.
  unfold load_header. intros H. apply rbind_inv in H as (de' & s2 & Hd & H).
  apply rbind_inv in H as (m & s3 & _ & H). apply rbind_inv in H as ([] & s4 & _ & H). apply rbind_inv in H as (dm & s5 & _ & H).
  apply rbind_inv in H as ([] & s6 & _ & H). injection H as <- _. exists s2. unfold or_panic in Hd. by destruct (load_description s).
Qed.

(** ** Reads that panic *)
(** [p] panics after reading part of [g] and [d] *)
Definition dies {A} (p : rd A) (g d : bytes) : Prop := forall g' d', p (g ++ g', d ++ d') = Panic.
Lemma dies_first {A B} (p : rd A) (k : A -> rd B) g d : dies p g d -> dies (rbind p k) g d.
Proof. intros H g' d'. unfold rbind. by rewrite H. Qed.
Lemma dies_bind {A B} (p : rd A) (k : A -> rd B) g1 g2 d1 d2 a :
  pars p g1 d1 a -> dies (k a) g2 d2 -> dies (rbind p k) (g1 ++ g2) (d1 ++ d2).
Proof. intros H1 H2 g' d'. rewrite <- !app_assoc. unfold rbind. rewrite H1. apply H2. Qed.
Lemma dies_more {A} (p : rd A) g d g2 d2 : dies p g d -> dies p (g ++ g2) (d ++ d2).
Proof. intros H g' d'. rewrite <- !app_assoc. apply H. Qed.
Lemma dies_bind_g {A B} (p : rd A) (k : A -> rd B) g1 g2 d a : pars p g1 [] a -> dies (k a) g2 d -> dies (rbind p k) (g1 ++ g2) d.
Proof. intros H1 H2. exact (dies_bind p k g1 g2 [] d a H1 H2). Qed.
Lemma dies_bind_0 {A B} (p : rd A) (k : A -> rd B) g d a : pars p [] [] a -> dies (k a) g d -> dies (rbind p k) g d.
Proof. intros H1 H2. exact (dies_bind p k [] g [] d a H1 H2). Qed.
Lemma dies_lift {A} : dies (rlift (@Panic A)) [] [].
Proof. done. Qed.
Lemma run_dies {A} (p : rd A) g d : dies p g d -> run_rd p g d = Panic.
Proof. intros H. specialize (H [] []). rewrite !app_nil_r in H. unfold run_rd. by rewrite H. Qed.
