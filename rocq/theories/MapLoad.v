(** The readers of Io.v when vectors are mapped: which texts of SpecFile.v they accept. *)
From Coq Require Import Strings.String.
From Verif Require Import Prelude Model Lib Table SearchProofs InsertProofs Spec Io IoBase IoProofs IoProofs5 LoadProofs SpecIo SpecFile FileProofs FileProofs2.
Local Open Scope list_scope.

Lemma irel_app {A B} (R : nat -> A -> B -> Prop) xs : forall r ys xs' ys', length xs = length ys ->
  irel R r (xs ++ xs') (ys ++ ys') <-> irel R r xs ys /\ irel R (r + length xs) xs' ys'.
Proof.
  induction xs as [|x xs IH]; intros r [|y ys] xs' ys' E; try done.
  - simpl. rewrite Nat.add_0_r. split; [intros H; split; [apply irel_nil|done]|by intros [_ ?]].
  - injection E as E. cbn [app length]. rewrite !irel_cons, IH by done. rewrite Nat.add_succ_r. cbn [Nat.add]. tauto.
Qed.
Lemma irel_shift {A B} (R : nat -> A -> B -> Prop) k r xs ys : irel (fun i => R (k + i)%nat) r xs ys <-> irel R (k + r) xs ys.
Proof. unfold irel. split; intros [E H]; (split; [done|]); intros i t p H1 H2; [rewrite <- Nat.add_assoc|rewrite Nat.add_assoc]; by apply H. Qed.
Lemma irel_length {A B} (R : nat -> A -> B -> Prop) r xs ys : irel R r xs ys -> length xs = length ys.
Proof. by intros [? _]. Qed.

Section Load.
Context {T : Type} (so : StdOps) (LAWS : StdLaws so) (el : elem T) (dm : option datamap) (opts : reload_options).
Context (de : description) (Hv : format_version de = 2%N \/ format_version de = 3%N \/ format_version de = 4%N).
Notation mode := (dumpmode de).
Notation version := (format_version de).
Notation dim := (de_dimension de).
(** elements that are not stored *)
Definition el_none : elem T := Elem T (el_name el) (el_size el) (el_enc el) (el_dec el) (el_bincode el) true.
Definition bare (p : raw_point (T:=T)) : raw_point (T:=T) := RawPoint (rp_oid p) (rp_layer p) (rp_rank p) (rp_lists p) [] false.

(** where the vector of a point comes from, [still] points being to load *)
Definition got (still : Z) (t : text_point) (v : list T) (m : bool) : Prop :=
  if point_use_mmap opts still then m = true /\ exists M, dm = Some M /\ dm_get_data el M (tp_id t) = Ok (Some v)
  else m = false /\ spelled el version dim (tp_bytes t) v.

Lemma exact_mapped_point still : exact (load_point el dm de (point_use_mmap opts still)) (fun p g d => exists t l0, (tp_id t < 2 ^ 64)%N /\ (rp_layer p < 256)%N /\
  (- 2 ^ 31 <= rp_rank p < 2 ^ 31)%Z /\ (N.of_nat (length (tp_bytes t)) < 2 ^ 64)%N /\ rp_oid p = tp_id t /\
  got still t (rp_data p) (rp_mapped p) /\ length (tp_lists t) = N.to_nat (de_nb_layer de) /\
  Forall2 (list_read mode) (tp_lists t) l0 /\ rp_lists p = l0 ++ replicate (NB_LAYER_MAX - N.to_nat (de_nb_layer de)) [] /\
  g = u32_bytes MAGICPOINT ++ u64_bytes (tp_id t) ++ u8_bytes (rp_layer p) ++ i32_bytes (rp_rank p) ++ concat (list_text mode <$> tp_lists t) /\
  d = record_text t).
Proof using Hv.
  unfold got. destruct (point_use_mmap opts still).
  2: { eapply exact_iff; [by apply exact_point|]. intros p g d. split.
       - intros (t & l0 & H). exists t, l0. tauto.
       - intros (t & l0 & H). exists t, l0. tauto. }
  assert (H : exact (load_point el dm de true) (fun p g d => exists a g1 g2 d1 d2, g = g1 ++ g2 /\ d = d1 ++ d2 /\
    (d1 = [] /\ exists oid layer rank lists ts l0,
      a = (oid, layer, rank, lists) /\ (oid < 2 ^ 64)%N /\ (layer < 256)%N /\ (- 2 ^ 31 <= rank < 2 ^ 31)%Z /\
      g1 = u32_bytes MAGICPOINT ++ u64_bytes oid ++ u8_bytes layer ++ i32_bytes rank ++ concat (list_text (dumpmode de) <$> ts) /\
      length ts = N.to_nat (de_nb_layer de) /\ Forall2 (list_read (dumpmode de)) ts l0 /\
      lists = l0 ++ replicate (NB_LAYER_MAX - N.to_nat (de_nb_layer de)) []) /\
    (g2 = [] /\ exists b M v, (a.1.1.1 < 2 ^ 64)%N /\ (N.of_nat (length b) < 2 ^ 64)%N /\
       d2 = u32_bytes MAGICDATAP ++ u64_bytes a.1.1.1 ++ u64_bytes (N.of_nat (length b)) ++ b /\
       dm = Some M /\ dm_get_data el M a.1.1.1 = Ok (Some v) /\ p = RawPoint a.1.1.1 a.1.1.2 a.1.2 a.2 v true))).
  { unfold load_point. eapply (exact_bind _ _ _ (fun a p g2 d2 => g2 = [] /\ exists b M v, (a.1.1.1 < 2 ^ 64)%N /\ (N.of_nat (length b) < 2 ^ 64)%N /\
       d2 = u32_bytes MAGICDATAP ++ u64_bytes a.1.1.1 ++ u64_bytes (N.of_nat (length b)) ++ b /\
       dm = Some M /\ dm_get_data el M a.1.1.1 = Ok (Some v) /\ p = RawPoint a.1.1.1 a.1.1.2 a.1.2 a.2 v true)); [apply exact_point_graph|].
    intros [[[oid layer] rank] lists]. cbn [fst snd]. eapply exact_iff.
    { eapply exact_bind; [apply exact_record|intros b]. eapply exact_bind; [apply exact_lift|intros M].
      eapply exact_bind; [apply exact_lift|intros o]. eapply exact_bind; [apply exact_lift|intros v]. apply exact_ret. }
    intros p g d. split.
    - intros (b & ? & ? & ? & ? & -> & -> & (-> & Ho & Hb & ->) & M & ? & ? & ? & ? & -> & -> & (E1%unwrap_inv & -> & ->) &
        o & ? & ? & ? & ? & -> & -> & (E2 & -> & ->) & v & ? & ? & ? & ? & -> & -> & (E3%unwrap_inv & -> & ->) & -> & -> & ->).
      split; [done|]. exists b, M, v. rewrite !app_nil_r. subst o. done.
    - intros (-> & b & M & v & Ho & Hb & -> & E1 & E2 & ->).
      eexists b, [], [], _, []. split; [done|]. split; [symmetry; apply app_nil_r|]. split; [done|].
      exists M, [], [], [], []. split; [done|]. split; [done|]. split; [by rewrite E1|].
      exists (Some v), [], [], [], []. split; [done|]. split; [done|]. split; [done|].
      exists v, [], [], [], []. done. }
  eapply exact_iff; [exact H|]. intros p g d. split.
  - intros (a & ? & ? & ? & ? & -> & -> & (-> & oid & layer & rank & lists & ts & l0 & -> & Ho & Hl & Hr & -> & Hts & HF & ->) &
      -> & b & M & v & _ & Hbl & -> & E1 & E2 & ->). cbn [fst snd] in *.
    exists (TextPoint oid ts b), l0. cbn [tp_id tp_lists tp_bytes rp_layer rp_rank rp_oid rp_data rp_mapped rp_lists]. unfold record_text. cbn [tp_id tp_bytes].
    rewrite !app_nil_r. split_and!; try done; try apply Hr. by exists M.
  - destruct p as [oid layer rank lists v mapped]. cbn [rp_layer rp_rank rp_oid rp_data rp_mapped rp_lists].
    intros ([id ts b] & l0 & Ho & Hl & Hr & Hbl & E1 & (E2 & M & E4 & E5) & Hn & HF & E3 & -> & ->). cbn [tp_id tp_lists tp_bytes] in *. subst oid mapped lists.
    eexists (id, layer, rank, _), _, [], [], _. split; [symmetry; apply app_nil_r|]. split; [done|]. split.
    { split; [done|]. exists id, layer, rank. eexists. exists ts, l0. split_and!; try done; apply Hr. }
    cbn [fst snd]. split; [done|]. exists b, M, v. done.
Qed.

Notation raws l := (irel (raw_rel el_none de l)).
Notation gots still := (irel (fun i t p => got (still - Z.of_nat i) t (rp_data p) (rp_mapped p))).

Lemma gots_shift still k ts (ps : list (raw_point (T:=T))) : gots (still - Z.of_nat k)%Z 0%nat ts ps <-> gots still k ts ps.
Proof using Type.
  clear Hv. transitivity (gots still (k + 0)%nat ts ps); [|by rewrite Nat.add_0_r]. rewrite <- irel_shift. apply irel_iff. intros i t p _.
  replace (still - Z.of_nat k - Z.of_nat (0 + i))%Z with (still - Z.of_nat (k + (0 + i)))%Z by lia. done.
Qed.

Lemma exact_mapped_points l n : forall r still, exact (load_points el dm opts de l n r still) (fun x g d => exists ts ps,
  x = (ps, (still - Z.of_nat n)%Z) /\ length ts = n /\ (n = 0%nat \/ (Z.of_nat n <= still)%Z) /\ raws l r ts (bare <$> ps) /\ gots still 0%nat ts ps /\
  g = points_text mode l r ts /\ d = concat (record_text <$> ts)).
Proof using Hv.
  induction n as [|n IH]; intros r still; cbn [load_points].
  - eapply exact_iff; [apply exact_ret|]. intros x g d. rewrite Z.sub_0_r. split.
    + intros (-> & -> & ->). exists [], []. split_and!; try done. by left.
    + intros (ts & ps & -> & E%nil_length_inv & _ & E2 & E3 & -> & ->). subst ts. apply irel_inv_nil in E3 as ->. done.
  - eapply exact_iff.
    { eapply exact_bind; [apply exact_mapped_point|intros p]. eapply exact_bind; [apply exact_assert|intros u1].
      eapply exact_bind; [apply exact_assert|intros u2]. eapply exact_bind; [apply exact_assert|intros u3].
      eapply exact_bind2; [apply IH|intros ps st]. apply exact_ret. }
    intros x g d. split.
    + intros (p & ? & ? & ? & ? & -> & -> & (t & l0 & Ho & Hl & Hr & Hbl & E1 & Hs & Hn & HF & E3 & -> & ->) &
        [] & ? & ? & ? & ? & -> & -> & (A1%N.eqb_eq & -> & ->) & [] & ? & ? & ? & ? & -> & -> & (A2%Z.eqb_eq & -> & ->) &
        [] & ? & ? & ? & ? & -> & -> & (A3%Z.leb_le & -> & ->) & ps & st & ? & ? & ? & ? & -> & -> &
        (ts & ps' & [= -> ->] & Lt & Hc & HR & HG & -> & ->) & -> & -> & ->).
      exists (t :: ts), (p :: ps'). rewrite !app_nil_r, <- A1, <- A2. cbn [points_text fmap list_fmap concat]. unfold point_text. rewrite <- !app_assoc.
      split_and!; try done.
      * f_equal. lia. * simpl. by rewrite Lt. * right. lia.
      * apply irel_cons. split; [|done]. rewrite <- A1 in Hl. rewrite <- A2 in Hr. split; try done; try lia. by exists l0.
      * apply irel_cons. split; [by rewrite Z.sub_0_r|]. by apply (gots_shift still 1).
    + intros (ts & ps & -> & Lt & Hc & HR & HG & -> & ->). destruct ts as [|t ts]; [done|]. apply irel_inv_l in HG as (p & ps0 & -> & HG0 & HG). rename ps0 into ps.
      cbn [fmap list_fmap] in HR. apply irel_cons in HR as [HR0 HR]. destruct HR0 as [Rl Rr Ri Rb Eo El Er Rd Rm Rn (l0 & HF & E3)].
      cbn [bare rp_oid rp_layer rp_rank rp_lists] in *. cbn [Z.of_nat] in HG0. rewrite Z.sub_0_r in HG0.
      eexists p, _, _, _, _. split; [done|]. split; [done|]. split.
      { exists t, l0. rewrite El, Er. split_and!; try done; try lia. }
      exists tt, [], (points_text mode l (S r) ts), [], (concat (record_text <$> ts)). split; [done|]. split; [done|].
      split; [split; [rewrite El; apply N.eqb_refl|done]|].
      exists tt, [], (points_text mode l (S r) ts), [], (concat (record_text <$> ts)). split; [done|]. split; [done|].
      split; [split; [rewrite Er; apply Z.eqb_refl|done]|].
      exists tt, [], (points_text mode l (S r) ts), [], (concat (record_text <$> ts)). split; [done|]. split; [done|].
      split; [split; [apply Z.leb_le; lia|done]|].
      exists ps, (still - 1 - Z.of_nat n)%Z, (points_text mode l (S r) ts), [], (concat (record_text <$> ts)), []. rewrite !app_nil_r.
      split; [done|]. split; [done|]. split; [|split_and!; try done; f_equal; lia].
      exists ts, ps. split_and!; try done. * by injection Lt. * destruct n; [by left|right; lia]. * by apply (gots_shift still 1).
Qed.

Notation lraws := (irel (fun l => raws l 0)).
Lemma exact_mapped_layers n : forall l still, exact (load_layers el dm opts de n l still) (fun ls g d => exists tls, length tls = n /\
  lraws l tls (fmap (M:=list) bare <$> ls) /\ gots still 0%nat (concat tls) (concat ls) /\ (forall ts, ts ∈ tls -> (N.of_nat (length ts) < 2 ^ 64)%N) /\
  (length (concat tls) = 0%nat \/ (Z.of_nat (length (concat tls)) <= still)%Z) /\
  g = layers_text mode l tls /\ d = concat (record_text <$> concat tls)).
Proof using Hv.
  induction n as [|n IH]; intros l still; cbn [load_layers].
  - eapply exact_iff; [apply exact_ret|]. intros ls g d. split.
    + intros (-> & -> & ->). exists []. split_and!; try done. { intros ts Hts. by apply elem_of_nil in Hts. } by left.
    + intros (tls & E%nil_length_inv & HR & _ & _ & _ & -> & ->). subst tls. apply irel_inv_nil in HR. by apply fmap_nil_inv in HR as ->.
  - eapply exact_iff.
    { eapply exact_bind; [apply exact_gnum|intros magic]. apply exact_unless; [done|]. eapply exact_bind; [apply exact_gnum|intros np].
      eapply exact_bind2; [apply exact_mapped_points|intros ps st]. eapply exact_bind; [apply IH|intros ls]. apply exact_ret. }
    intros x g d. split.
    + intros (magic & ? & ? & ? & ? & -> & -> & (-> & -> & Hm) & Em%negb_false_iff%N.eqb_eq & np & ? & ? & ? & ? & -> & -> & (-> & -> & Hnp) &
        ps & st & ? & ? & ? & ? & -> & -> & (ts & ps' & [= -> ->] & Lt & Hc & HR & HG & -> & ->) & ls & ? & ? & ? & ? & -> & -> &
        (tls & Ll & HL & HG2 & Hs & Hc2 & -> & ->) & -> & -> & ->). subst magic.
      exists (ts :: tls). rewrite !app_nil_r. assert (E : N.of_nat (length ts) = np) by lia.
      cbn [layers_text concat length]. rewrite fmap_app, concat_app, app_length, E. split_and!; try done.
      * by rewrite Ll.
      * by apply irel_cons.
      * apply irel_app; [by eapply irel_length|]. split; [done|]. apply gots_shift. cbn [Nat.add]. by rewrite Lt.
      * intros ts' [->|H]%elem_of_cons; [lia|by apply Hs].
      * lia.
    + intros (tls & Ll & HR & HG & Hs & Hc & -> & ->). destruct tls as [|ts tls]; [done|]. destruct x as [|ps ls']; [by destruct HR|].
      cbn [fmap list_fmap] in HR. apply irel_cons in HR as [HR0 HR].
      assert (Hlen : length ts = length ps) by (apply irel_length in HR0; by rewrite fmap_length in HR0).
      cbn [concat] in HG. apply irel_app in HG as [HG0 HG]; [|done]. apply gots_shift in HG. cbn [Nat.add] in HG.
      assert (Hts : (N.of_nat (length ts) < 2 ^ 64)%N) by (apply Hs; by left).
      cbn [layers_text concat length] in *. rewrite fmap_app, concat_app. rewrite app_length in Hc.
      eexists MAGICLAYER, _, _, [], (concat (record_text <$> ts) ++ concat (record_text <$> concat tls)). split; [done|]. split; [done|]. split; [done|]. split; [done|].
      eexists (N.of_nat (length ts)), _, _, [], (concat (record_text <$> ts) ++ concat (record_text <$> concat tls)). split; [done|]. split; [done|]. split; [done|].
      exists ps, (still - Z.of_nat (N.to_nat (N.of_nat (length ts))))%Z. eexists _, _, _, _. split; [done|]. split; [done|]. split.
      { exists ts, ps. split_and!; try done; lia. }
      eexists ls', _, [], _, []. rewrite !app_nil_r. split; [done|]. split; [done|]. split; [|done].
      exists tls. split_and!; try done.
      * by injection Ll. * by rewrite Nat2N.id. * intros ts' H. apply Hs. by right. * lia.
Qed.

(** ** Links *)
Definition bare_pt (p : point (T:=T)) : point (T:=T) := Point [] (pt_oid p) (pt_pid p) (pt_nbs p).
Lemma bare_linked p : bare_pt (linked so p) = linked so (bare p).
Proof using Type. done. Qed.
Lemma bare_linkable ref p : linkable ref (bare p) <-> linkable ref p.
Proof using Type. done. Qed.
Lemma bare_valid (raw : list (list (raw_point (T:=T)))) a b : valid_ref (fmap (M:=list) bare <$> raw) a b <-> valid_ref raw a b.
Proof using Type.
  clear Hv. unfold valid_ref. rewrite list_lookup_fmap. split; intros [H0 (ly & H1 & H2)]; (split; [done|]).
  - apply fmap_Some in H1 as (ly' & H1 & ->). rewrite fmap_length in H2. eauto.
  - rewrite H1. eexists. split; [done|]. by rewrite fmap_length.
Qed.
Lemma bare_linked_all (raw : list (list (raw_point (T:=T)))) : fmap (M:=list) bare_pt <$> (fmap (M:=list) (linked so) <$> raw) = fmap (M:=list) (linked so) <$> (fmap (M:=list) bare <$> raw).
Proof using Type.
  rewrite <- !list_fmap_compose. apply list_fmap_ext. intros i ly _. unfold compose. rewrite <- !list_fmap_compose. by apply list_fmap_ext.
Qed.
Lemma bare_linkable_all ref (raw : list (list (raw_point (T:=T)))) : Forall (Forall (linkable ref)) (fmap (M:=list) bare <$> raw) <-> Forall (Forall (linkable ref)) raw.
Proof using Type.
  clear Hv. rewrite Forall_fmap. split; intros H; (eapply Forall_impl; [exact H|]); intros ly; unfold compose; rewrite Forall_fmap; intros H2;
    (eapply Forall_impl; [exact H2|]); intros p; apply bare_linkable.
Qed.

(** the points whose vector is mapped are the first ones *)
Definition nb_mapped : nat := if ro_datamap opts then Z.to_nat (as_i64 (de_nb_point de) - as_i64 (ro_threshold opts)) else 0%nat.
Lemma filter_first (k : nat) (ps : list (raw_point (T:=T))) :
  (forall i p, ps !! i = Some p -> rp_mapped p = bool_decide (i < k)%nat) -> List.filter rp_mapped ps = take k ps.
Proof using Type.
  clear Hv. revert k. induction ps as [|p ps IH]; intros k H; [by rewrite take_nil|]. cbn [List.filter]. rewrite (H 0%nat p eq_refl). destruct k as [|k].
  - rewrite bool_decide_false by lia. rewrite (IH 0%nat); [done|]. intros i q Hq. rewrite (H (S i) q Hq). apply bool_decide_ext. lia.
  - rewrite bool_decide_true by lia. cbn [take]. f_equal. apply IH. intros i q Hq. rewrite (H (S i) q Hq). apply bool_decide_ext. lia.
Qed.
Lemma use_first i : point_use_mmap opts (as_i64 (de_nb_point de) - Z.of_nat i) = bool_decide (i < nb_mapped)%nat.
Proof using Type.
  clear Hv. unfold point_use_mmap, nb_mapped. destruct (ro_datamap opts); [|by rewrite bool_decide_false by lia].
  destruct (Z.leb_spec (as_i64 (de_nb_point de) - Z.of_nat i) (as_i64 (ro_threshold opts))); cbn [negb].
  - rewrite bool_decide_false; [done|lia]. - rewrite bool_decide_true; [done|lia].
Qed.

(** the vector of the point of position i *)
Definition source (i : nat) (t : text_point) (pt : point (T:=T)) : Prop :=
  if decide (i < nb_mapped)%nat then exists M, dm = Some M /\ dm_get_data el M (tp_id t) = Ok (Some (pt_data pt))
  else spelled el version dim (tp_bytes t) (pt_data pt).
Lemma got_source i t (p : raw_point (T:=T)) : got (as_i64 (de_nb_point de) - Z.of_nat i) t (rp_data p) (rp_mapped p) <->
  rp_mapped p = bool_decide (i < nb_mapped)%nat /\ source i t (linked so p).
Proof using Type.
  clear Hv. unfold got, source. rewrite use_first. cbn [linked pt_data]. destruct (decide (i < nb_mapped)%nat).
  - by rewrite bool_decide_true. - by rewrite bool_decide_false.
Qed.

Lemma concat_linked (raw : list (list (raw_point (T:=T)))) : concat (fmap (M:=list) (linked so) <$> raw) = linked so <$> concat raw.
Proof using Type. clear Hv. induction raw as [|ly raw IH]; csimpl; [done|]. by rewrite fmap_app, IH. Qed.
Lemma irel_fmap_r {A B C} (R : nat -> A -> C -> Prop) (f : B -> C) r xs ys : irel R r xs (f <$> ys) <-> irel (fun i x y => R i x (f y)) r xs ys.
Proof using Type.
  unfold irel. rewrite fmap_length. split; intros [E H]; (split; [done|]); intros i x y Hx Hy.
  - apply (H i x (f y)); [done|]. by rewrite list_lookup_fmap, Hy.
  - rewrite list_lookup_fmap in Hy. apply fmap_Some in Hy as (z & Hz & ->). by apply H.
Qed.
Lemma irel_and {A B} (R S : nat -> A -> B -> Prop) r xs ys : irel (fun i x y => R i x y /\ S i x y) r xs ys <-> irel R r xs ys /\ irel S r xs ys.
Proof using Type.
  unfold irel. split.
  - intros [E H]. split; (split; [done|]); intros i x y Hx Hy; by apply (H i x y).
  - intros [[E H1] [_ H2]]. split; [done|]. intros i x y Hx Hy. split; [by apply H1|by apply H2].
Qed.
Lemma mapped_pids (raw : list (list (raw_point (T:=T)))) tls :
  irel (fun i t p => got (as_i64 (de_nb_point de) - Z.of_nat i) t (rp_data p) (rp_mapped p)) 0 (concat tls) (concat raw) ->
  raw_pid <$> List.filter rp_mapped (concat raw) = pt_pid <$> take nb_mapped (concat (fmap (M:=list) (linked so) <$> raw)).
Proof using Type.
  clear Hv. intros H. rewrite (filter_first nb_mapped).
  - rewrite concat_linked, !fmap_take. f_equal. rewrite <- list_fmap_compose. by apply list_fmap_ext.
  - intros i p Hp. destruct (irel_lookup_r _ _ _ _ _ _ H Hp) as (t & _ & HG). apply got_source in HG as [HG _]. exact HG.
Qed.

Lemma gots_sources ts (ps : list (raw_point (T:=T))) :
  irel (fun i t p => got (as_i64 (de_nb_point de) - Z.of_nat i) t (rp_data p) (rp_mapped p)) 0 ts ps -> irel (fun i t p => source i t (linked so p)) 0 ts ps.
Proof using Type. clear Hv. intros [E H]. split; [done|]. intros i t p Ht Hp. apply (got_source i). by apply (H i t p). Qed.

(** the raw points behind points *)
Definition nude (p : raw_point (T:=T)) : Prop := rp_data p = [] /\ rp_mapped p = false.
Lemma raws_nude tls raw l : lraws l tls raw -> Forall (Forall nude) raw.
Proof using Type.
  clear Hv. intros H. apply Forall_lookup. intros i ly Hi. apply (irel_lookup_r _ _ _ _ _ _ H) in Hi as (ts & _ & HR).
  apply Forall_lookup. intros j p Hj. apply (irel_lookup_r _ _ _ _ _ _ HR) in Hj as (t & _ & Ht). split; apply Ht.
Qed.
Lemma dressed_layer k pB : forall pts, bare_pt <$> pts = linked so <$> pB -> Forall nude pB ->
  exists ps, bare <$> ps = pB /\ linked so <$> ps = pts /\ forall i p, ps !! i = Some p -> rp_mapped p = bool_decide (k + i < nb_mapped)%nat.
Proof using Type.
  clear Hv. revert k. induction pB as [|p pB IH]; intros k pts E HN.
  - apply fmap_nil_inv in E as ->. by exists [].
  - destruct pts as [|pt pts]; [done|]. cbn [fmap list_fmap] in E. injection E as E0 E1 E2 E3 E. inversion_clear HN as [|? ? [N1 N2] HN'].
    destruct (IH (S k) pts E HN') as (ps & <- & <- & HM).
    exists (RawPoint (rp_oid p) (rp_layer p) (rp_rank p) (rp_lists p) (pt_data pt) (bool_decide (k < nb_mapped)%nat) :: ps). split_and!.
    + cbn [fmap list_fmap]. f_equal. destruct p as [a b c d e f]. cbn [rp_data rp_mapped] in *. by subst.
    + cbn [fmap list_fmap]. f_equal. unfold linked. cbn [rp_data rp_oid rp_layer rp_rank rp_lists]. destruct pt as [a b c d].
      cbn [pt_data pt_oid pt_pid pt_nbs] in *. by subst.
    + intros [|i] q; cbn [lookup list_lookup]; [intros [= <-]; by rewrite Nat.add_0_r|]. intros Hq. rewrite (HM i q Hq). by rewrite Nat.add_succ_r.
Qed.
Lemma dressed k rawB : forall lp, fmap (M:=list) bare_pt <$> lp = fmap (M:=list) (linked so) <$> rawB -> Forall (Forall nude) rawB ->
  exists raw, fmap (M:=list) bare <$> raw = rawB /\ fmap (M:=list) (linked so) <$> raw = lp /\
    forall i p, concat raw !! i = Some p -> rp_mapped p = bool_decide (k + i < nb_mapped)%nat.
Proof using Type.
  clear Hv. revert k. induction rawB as [|pB rawB IH]; intros k lp E HN.
  - apply fmap_nil_inv in E as ->. by exists [].
  - destruct lp as [|pts lp]; [done|]. rewrite !fmap_cons in E. apply (inj2 cons) in E as [E0 E]. inversion_clear HN as [|? ? HN0 HN'].
    destruct (dressed_layer k pB pts E0 HN0) as (ps & <- & <- & HM0). destruct (IH (k + length ps)%nat lp E HN') as (raw & <- & <- & HM).
    exists (ps :: raw). split_and!; [done|done|]. intros i p. cbn [concat]. rewrite lookup_app_Some. intros [H|[Hi H]]; [by apply HM0|].
    rewrite (HM _ _ H). apply bool_decide_ext. lia.
Qed.

Lemma exact_mapped_indexation : exact (load_point_indexation so el dm opts de) (fun ld g d =>
  (el_nodata el = true \/ el_name el = de_t_name de) /\ exists tls eid layer rank,
    (length tls <= 16)%nat /\ (forall ts, ts ∈ tls -> (N.of_nat (length ts) < 2 ^ 64)%N) /\
    (length (concat tls) = 0%nat \/ (Z.of_nat (length (concat tls)) <= as_i64 (de_nb_point de))%Z) /\
    irel (layer_is so el_none de (trefers tls)) 0 tls (fmap (M:=list) bare_pt <$> ld_layers ld) /\ irel source 0 (concat tls) (concat (ld_layers ld)) /\
    trefers tls layer rank /\ (eid < 2 ^ 64)%N /\ (layer < 256)%N /\ (- 2 ^ 31 <= rank < 2 ^ 31)%Z /\
    ld_entry ld = (N.to_nat layer, Z.to_nat rank) /\ ld_mapped ld = pt_pid <$> take nb_mapped (concat (ld_layers ld)) /\
    g = u8_bytes (N.of_nat (length tls)) ++ layers_text mode 0 tls ++ u64_bytes eid ++ u8_bytes layer ++ i32_bytes rank /\
    d = concat (record_text <$> concat tls)).
Proof using Hv LAWS.
  eapply exact_iff.
  { unfold load_point_indexation. apply exact_unless; [done|]. eapply exact_bind; [apply exact_gnum|intros n]. apply exact_unless; [done|].
    eapply exact_bind; [by apply exact_mapped_layers|intros raw]. eapply exact_bind; [apply exact_lift|intros ls].
    eapply exact_bind; [apply exact_gnum|intros eid]. eapply exact_bind; [apply exact_gnum|intros layer]. eapply exact_bind; [apply exact_gnum|intros rank].
    eapply exact_bind; [apply exact_lift|intros ep]. apply exact_ret. }
  intros ld g d. split.
  - intros (Et & n & ? & ? & ? & ? & -> & -> & (-> & -> & Hn) & En%N.ltb_ge & raw & ? & ? & ? & ? & -> & -> & (tls & Ll & HR & HG & Hs & Hc & -> & ->) &
      ls & ? & ? & ? & ? & -> & -> & ([HL ->]%link_all_iff & -> & ->) & eid & ? & ? & ? & ? & -> & -> & (-> & -> & He) &
      layer & ? & ? & ? & ? & -> & -> & (-> & -> & Hl) & rank & ? & ? & ? & ? & -> & -> & (-> & -> & Hr) & ep & ? & ? & ? & ? & -> & -> &
      ([Hrf ->]%raw_index_iff & -> & ->) & -> & -> & ->).
    assert (Et' : el_nodata el = true \/ el_name el = de_t_name de).
    { destruct (el_nodata el); [by left|right]. simpl in Et. by apply negb_false_iff, String.eqb_eq in Et. }
    split; [exact Et'|]. destruct (i32_inv rank Hr) as [Er1 Er2]. exists tls, eid, layer, (i32_of rank). cbn [ld_layers ld_entry ld_mapped].
    assert (E : N.of_nat (length tls) = n) by lia. rewrite E, !app_nil_r, Er1. unfold NB_LAYER_MAX in *.
    assert (Hsame : forall a b, trefers tls a b <-> valid_ref raw a b).
    { intros a b. rewrite <- bare_valid. symmetry. by eapply refs_same. }
    split_and!; try done; try lia.
    + apply layerwise; [done|]. exists (fmap (M:=list) bare <$> raw). split_and!; try done; [|apply bare_linked_all].
      apply bare_linkable_all. eapply Forall_impl; [exact HL|]. intros ly Hly. eapply Forall_impl; [exact Hly|].
      intros p Hp. eapply linkable_ext; [|exact Hp]. done.
    + rewrite concat_linked. apply irel_fmap_r. eapply gots_sources. exact HG.
    + by apply Hsame.
    + by apply (mapped_pids raw tls).
  - intros (Et & tls & eid & layer & rank & Hlen & Hs & Hc & HL & HG & Hrf & He & Hl & Hr & E1 & E2 & -> & ->).
    apply layerwise in HL as (rawB & HR & HK & EL); [|done]. destruct (i32_bytes_le rank Hr) as (r' & Hr' & Er1 & Er2). rewrite Er1. subst rank.
    destruct (dressed 0 rawB (ld_layers ld)) as (raw & <- & E3 & HM); [done|by eapply raws_nude|].
    assert (Hsame : forall a b, trefers tls a b <-> valid_ref raw a b).
    { intros a b. rewrite <- bare_valid. symmetry. by eapply refs_same. }
    assert (HG' : irel (fun i t p => got (as_i64 (de_nb_point de) - Z.of_nat i) t (rp_data p) (rp_mapped p)) 0 (concat tls) (concat raw)).
    { rewrite <- E3, concat_linked in HG. rewrite irel_fmap_r in HG. destruct HG as [E4 HG]. split; [exact E4|]. intros i t p Ht Hp. apply got_source.
      split; [by apply (HM i p)|by apply HG]. }
    split. { destruct Et as [->| ->]; [done|]. rewrite String.eqb_refl. apply andb_false_r. }
    eexists (N.of_nat (length tls)), _, _, [], _. split; [done|]. split; [done|]. split. { split_and!; try done. simpl. lia. }
    split. { apply N.ltb_ge. unfold NB_LAYER_MAX. lia. }
    eexists raw, _, _, _, []. split; [done|]. split; [symmetry; apply app_nil_r|]. split. { exists tls. split_and!; try done. lia. }
    exists (ld_layers ld), [], (u64_bytes eid ++ u8_bytes layer ++ le_bytes 4 r'), [], []. split; [done|]. split; [done|]. split.
    { split_and!; try done. apply link_all_iff. split; [|done]. apply (proj1 (bare_linkable_all _ raw)) in HK. eapply Forall_impl; [exact HK|]. intros ly Hly. eapply Forall_impl; [exact Hly|].
      intros p Hp. eapply linkable_ext; [|exact Hp]. intros a b. symmetry. apply Hsame. }
    eexists eid, _, _, [], []. split; [done|]. split; [done|]. split; [done|].
    eexists layer, _, _, [], []. split; [done|]. split; [done|]. split; [done|].
    eexists r', _, [], [], []. split; [symmetry; apply app_nil_r|]. split; [done|]. split; [done|].
    exists (ld_entry ld), [], [], [], []. split; [done|]. split; [done|]. split.
    { split_and!; try done. apply raw_index_iff. split; [|done]. by apply Hsame. }
    split_and!; try done. rewrite (mapped_pids raw tls) by done. rewrite E3. destruct ld as [a b c]. cbn [ld_layers ld_entry ld_mapped] in *. by subst.
Qed.
End Load.
