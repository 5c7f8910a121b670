(** load_hnsw accepts exactly the texts of SpecFile.v that make sense, and returns the index that they stand for. *)
From Coq Require Import Strings.String.
From Verif Require Import Prelude Model Lib Table SearchProofs InsertProofs Spec Io IoBase IoProofs IoProofs5 LoadProofs SpecIo SpecFile FileProofs.
Local Open Scope list_scope.

Definition raw_of (n : text_nbr) : raw_nbr :=
  RawNbr (tn_id n) (tn_layer n) (tn_rank n) (match f32_of (tn_bits n) with Some d => d | None => 0%Z end).
Lemma raw_of_read mode n n' : nbr_read mode n n' <-> fits_nbr mode n /\ is_Some (f32_of (tn_bits n)) /\ n' = raw_of n.
Proof.
  unfold nbr_read, raw_of. split.
  - intros (H & E1 & E2 & E3 & E4). rewrite E4. split_and!; [done|by eexists|]. destruct n' as [a b c d]. cbn [rn_id rn_layer rn_rank rn_dist] in *. by subst.
  - intros (H & [d E] & ->). rewrite E. cbn [rn_id rn_layer rn_rank rn_dist]. done.
Qed.
Lemma raws_read mode l l' : Forall2 (nbr_read mode) l l' <-> Forall (fun n => fits_nbr mode n /\ is_Some (f32_of (tn_bits n))) l /\ l' = raw_of <$> l.
Proof.
  split.
  - induction 1 as [|n n' l l' (H1 & H2 & ->)%raw_of_read _ [IH ->]]; [done|]. split; [by constructor|done].
  - intros [H ->]. induction H as [|n l [H1 H2] _ IH]; csimpl; [constructor|]. constructor; [|done]. by apply raw_of_read.
Qed.
Definition list_ok (mode : N) (l : list text_nbr) : Prop :=
  (N.of_nat (length l) < 2 ^ 64)%N /\ Forall (fun n => fits_nbr mode n /\ is_Some (f32_of (tn_bits n))) l.
Lemma lists_read mode ls ls' : Forall2 (list_read mode) ls ls' <-> Forall (list_ok mode) ls /\ ls' = fmap (M:=list) raw_of <$> ls.
Proof.
  split.
  - induction 1 as [|n n' l l' [H1 [H2 ->]%raws_read] _ [IH ->]]; [done|]. split; [by constructor|done].
  - intros [H ->]. induction H as [|n l [H1 H2] _ IH]; csimpl; [constructor|]. constructor; [|done]. split; [done|]. by apply raws_read.
Qed.

Section Index.
Context {T : Type} (so : StdOps) (LAWS : StdLaws so) (el : elem T).
Context (de : description) (Hv : format_version de = 2%N \/ format_version de = 3%N \/ format_version de = 4%N).
Notation mode := (dumpmode de).
Notation version := (format_version de).
Notation dim := (de_dimension de).
Notation nl := (N.to_nat (de_nb_layer de)).

(** what makes a point of the text acceptable, and the point it gives *)
Definition point_ok (ref : N -> Z -> Prop) (t : text_point) : Prop :=
  fits_point mode t /\ length (tp_lists t) = nl /\ (nl <= 16)%nat /\
  (forall ns n, ns ∈ tp_lists t -> n ∈ ns -> ref (tn_layer n) (tn_rank n) /\ is_Some (f32_of (tn_bits n))).
Definition point_is (l r : nat) (t : text_point) (pt : point (T:=T)) : Prop :=
  spelled el version dim (tp_bytes t) (pt_data pt) /\ pt_oid pt = tp_id t /\ pt_pid pt = (l, r) /\
  pt_nbs pt = ((fun ns => u_sort so nbr n_dist (nbr_of <$> ns)) <$> tp_lists t) ++ replicate (16 - nl) [].

Lemma usort_nil : u_sort so nbr n_dist [] = [].
Proof using LAWS. apply Permutation_nil. symmetry. apply (law_usort_perm _ LAWS). Qed.
Lemma linked_lists (tls : list (list text_nbr)) k :
  (fun l => u_sort so nbr n_dist (raw_nb <$> l)) <$> ((fmap (M:=list) raw_of <$> tls) ++ replicate k []) =
  ((fun ns => u_sort so nbr n_dist (nbr_of <$> ns)) <$> tls) ++ replicate k [].
Proof using LAWS.
  rewrite fmap_app, fmap_replicate. cbn [fmap list_fmap]. rewrite usort_nil. f_equal. rewrite <- list_fmap_compose. apply list_fmap_ext.
  intros i ns _. unfold compose. by rewrite <- list_fmap_compose.
Qed.

Lemma pointwise ref l r t pt :
  (exists p, raw_rel el de l r t p /\ linkable ref p /\ pt = linked so p) <->
  (l < 256)%nat /\ (Z.of_nat r < 2 ^ 31)%Z /\ point_ok ref t /\ point_is l r t pt.
Proof using LAWS.
  clear Hv. unfold point_ok, point_is, fits_point. split.
  - intros (p & [Rl Rr Ri Rb Eo El Er Rd Rm Rn (l0 & [HF ->]%lists_read & E3)] & [K1 K2] & ->). unfold linked. cbn [pt_data pt_oid pt_pid pt_nbs].
    rewrite E3 in *. rewrite app_length, replicate_length, fmap_length, Rn in K1. unfold NB_LAYER_MAX in *.
    split_and!; try done.
    + eapply Forall_impl; [exact HF|]. intros x [H1 H2]. split; [done|]. eapply Forall_impl; [exact H2|]. by intros ? [? _].
    + lia.
    + intros ns n Hns Hin. apply elem_of_list_lookup in Hns as [i Hi]. apply elem_of_list_lookup in Hin as [j Hj]. pose proof Hi as Hi2. pose proof Hj as Hj2.
      apply (Forall_lookup_1 _ _ _ _ HF) in Hi2 as [_ Hi2]. apply (Forall_lookup_1 _ _ _ _ Hi2) in Hj2 as [_ Hj2]. split; [|done].
      rewrite Forall_app in K2. destruct K2 as [K2 _]. rewrite Forall_fmap in K2. apply (Forall_lookup_1 _ _ _ _ K2) in Hi.
      unfold compose in Hi. rewrite Forall_fmap in Hi. by apply (Forall_lookup_1 _ _ _ _ Hi) in Hj.
    + by rewrite El, Er, Nat2N.id, Nat2Z.id.
    + apply linked_lists.
  - intros (Hl & Hr & ((Hi & Hb & HF) & Hn & Hn16 & Href) & Hs & Eo & Ep & En).
    exists (RawPoint (tp_id t) (N.of_nat l) (Z.of_nat r) ((fmap (M:=list) raw_of <$> tp_lists t) ++ replicate (NB_LAYER_MAX - nl) []) (pt_data pt) false).
    split_and!.
    + split; try done. exists (fmap (M:=list) raw_of <$> tp_lists t). split; [|done]. apply lists_read. split; [|done].
      apply Forall_forall. intros ns Hns. rewrite Forall_forall in HF. destruct (HF ns Hns) as [H1 H2]. split; [done|].
      apply Forall_forall. intros n Hin. rewrite Forall_forall in H2. split; [by apply H2|]. by apply (Href ns).
    + split; cbn [rp_lists].
      * rewrite app_length, replicate_length, fmap_length, Hn. unfold NB_LAYER_MAX. lia.
      * apply Forall_app. split; [|apply Forall_replicate; constructor]. apply Forall_fmap, Forall_forall. intros ns Hns. unfold compose.
        apply Forall_fmap, Forall_forall. intros n Hin. unfold compose. cbn [raw_of rn_layer rn_rank]. by apply (Href ns).
    + destruct pt as [a b c d]. unfold linked. cbn [rp_data rp_oid rp_layer rp_rank rp_lists pt_data pt_oid pt_pid pt_nbs] in *.
      rewrite linked_lists, Nat2N.id, Nat2Z.id. subst. done.
Qed.

Definition layer_is (ref : N -> Z -> Prop) (l : nat) (ts : list text_point) (pts : list (point (T:=T))) : Prop :=
  irel (fun r t pt => (l < 256)%nat /\ (Z.of_nat r < 2 ^ 31)%Z /\ point_ok ref t /\ point_is l r t pt) 0 ts pts.
Lemma layerwise ref l tls lp :
  irel (layer_is ref) l tls lp <-> exists raw, irel (fun l => irel (raw_rel el de l) 0) l tls raw /\ Forall (Forall (linkable ref)) raw /\ lp = fmap (M:=list) (linked so) <$> raw.
Proof using LAWS.
  rewrite <- irel_comp. apply irel_iff. intros i ts pts _. unfold layer_is. rewrite <- irel_comp. apply irel_iff. intros r t pt _. symmetry. apply pointwise.
Qed.

(** references in the raw points are those in the text *)
Definition trefers (tls : list (list text_point)) (layer : N) (rank : Z) : Prop :=
  (0 <= rank)%Z /\ exists ps, tls !! N.to_nat layer = Some ps /\ (Z.to_nat rank < length ps)%nat.
Lemma refs_same (R : nat -> nat -> text_point -> raw_point -> Prop) tls (raw : list (list (raw_point (T:=T)))) layer rank :
  irel (fun l => irel (R l) 0) 0 tls raw -> valid_ref raw layer rank <-> trefers tls layer rank.
Proof using Type.
  clear Hv. intros H. unfold valid_ref, trefers. split; intros [H0 (ly & Hl & Hr)]; (split; [done|]).
  - apply (irel_lookup_r _ _ _ _ _ _ H) in Hl as (ts & Hts & [E _]). exists ts. split; [done|]. lia.
  - apply (irel_lookup _ _ _ _ _ _ H) in Hl as (ts & Hts & [E _]). exists ts. split; [done|]. lia.
Qed.
Lemma linkable_ext ref ref' (p : raw_point (T:=T)) : (forall a b, ref a b <-> ref' a b) -> linkable ref p <-> linkable ref' p.
Proof using Type.
  clear Hv. intros H. unfold linkable. split; intros [H1 H2]; (split; [done|]); (eapply Forall_impl; [exact H2|]; intros x Hx;
    eapply Forall_impl; [exact Hx|]; intros y Hy; by apply H).
Qed.
Lemma no_mapped tls raw l : irel (fun l => irel (raw_rel el de l) 0) l tls raw -> List.filter rp_mapped (concat raw) = [].
Proof using Type.
  intros H. assert (Hall : forall p, p ∈ concat raw -> rp_mapped p = false).
  { intros p Hp. apply elem_of_list_In, in_concat in Hp as (ly & Hly%elem_of_list_In & Hin%elem_of_list_In).
    apply elem_of_list_lookup in Hly as [i Hi]. apply elem_of_list_lookup in Hin as [j Hj].
    apply (irel_lookup_r _ _ _ _ _ _ H) in Hi as (ts & _ & HR). apply (irel_lookup_r _ _ _ _ _ _ HR) in Hj as (t & _ & Ht). apply Ht. }
  revert Hall. generalize (concat raw). intros c. induction c as [|p c IH]; intros Hall; [done|]. simpl. rewrite Hall by (by left). apply IH. intros q Hq.
  apply Hall. by right.
Qed.

Context (dm : option datamap) (opts : reload_options) (Hmm : ro_datamap opts = false).
Lemma exact_indexation : exact (load_point_indexation so el dm opts de) (fun ld g d =>
  (el_nodata el = true \/ el_name el = de_t_name de) /\ exists tls eid layer rank,
    (length tls <= 16)%nat /\ (forall ts, ts ∈ tls -> (N.of_nat (length ts) < 2 ^ 64)%N) /\
    (length (concat tls) = 0%nat \/ (Z.of_nat (length (concat tls)) <= as_i64 (de_nb_point de))%Z) /\
    irel (layer_is (trefers tls)) 0 tls (ld_layers ld) /\ trefers tls layer rank /\
    (eid < 2 ^ 64)%N /\ (layer < 256)%N /\ (- 2 ^ 31 <= rank < 2 ^ 31)%Z /\
    ld_entry ld = (N.to_nat layer, Z.to_nat rank) /\ ld_mapped ld = [] /\
    g = u8_bytes (N.of_nat (length tls)) ++ layers_text mode 0 tls ++ u64_bytes eid ++ u8_bytes layer ++ i32_bytes rank /\
    d = concat (record_text <$> concat tls)).
Proof using Hmm Hv LAWS.
  eapply exact_iff.
  { unfold load_point_indexation. apply exact_unless; [done|]. eapply exact_bind; [apply exact_gnum|intros n]. apply exact_unless; [done|].
    eapply exact_bind; [by apply exact_layers|intros raw]. eapply exact_bind; [apply exact_lift|intros ls].
    eapply exact_bind; [apply exact_gnum|intros eid]. eapply exact_bind; [apply exact_gnum|intros layer]. eapply exact_bind; [apply exact_gnum|intros rank].
    eapply exact_bind; [apply exact_lift|intros ep]. apply exact_ret. }
  intros ld g d. split.
  - intros (Et & n & ? & ? & ? & ? & -> & -> & (-> & -> & Hn) & En%N.ltb_ge & raw & ? & ? & ? & ? & -> & -> & (tls & Ll & HR & Hs & Hc & -> & ->) &
      ls & ? & ? & ? & ? & -> & -> & ([HL ->]%link_all_iff & -> & ->) & eid & ? & ? & ? & ? & -> & -> & (-> & -> & He) &
      layer & ? & ? & ? & ? & -> & -> & (-> & -> & Hl) & rank & ? & ? & ? & ? & -> & -> & (-> & -> & Hr) & ep & ? & ? & ? & ? & -> & -> &
      ([Hrf ->]%raw_index_iff & -> & ->) & -> & -> & ->).
    assert (Et' : el_nodata el = true \/ el_name el = de_t_name de).
    { destruct (el_nodata el); [by left|right]. simpl in Et. by apply negb_false_iff, String.eqb_eq in Et. }
    split; [exact Et'|]. destruct (i32_inv rank Hr) as [Er1 Er2]. exists tls, eid, layer, (i32_of rank). cbn [ld_layers ld_entry ld_mapped].
    assert (E : N.of_nat (length tls) = n) by lia. rewrite E, !app_nil_r, Er1. unfold NB_LAYER_MAX in *. split_and!; try done; try lia.
    + apply layerwise. exists raw. split_and!; try done. eapply Forall_impl; [exact HL|]. intros ly Hly. eapply Forall_impl; [exact Hly|].
      intros p Hp. eapply linkable_ext; [|exact Hp]. intros a b. symmetry. by eapply refs_same.
    + by eapply refs_same.
    + erewrite no_mapped by done. done.
  - intros (Et & tls & eid & layer & rank & Hlen & Hs & Hc & HL & Hrf & He & Hl & Hr & E1 & E2 & -> & ->).
    apply layerwise in HL as (raw & HR & HK & EL). destruct (i32_bytes_le rank Hr) as (r' & Hr' & Er1 & Er2). rewrite Er1. subst rank.
    split. { destruct Et as [->| ->]; [done|]. rewrite String.eqb_refl. apply andb_false_r. }
    eexists (N.of_nat (length tls)), _, _, [], _. split; [done|]. split; [done|]. split. { split_and!; try done. simpl. lia. }
    split. { apply N.ltb_ge. unfold NB_LAYER_MAX. lia. }
    eexists raw, _, _, _, []. split; [done|]. split; [symmetry; apply app_nil_r|]. split. { exists tls. split_and!; try done. lia. }
    exists (ld_layers ld), [], (u64_bytes eid ++ u8_bytes layer ++ le_bytes 4 r'), [], []. split; [done|]. split; [done|]. split.
    { split_and!; try done. apply link_all_iff. split; [|done]. eapply Forall_impl; [exact HK|]. intros ly Hly. eapply Forall_impl; [exact Hly|].
      intros p Hp. eapply linkable_ext; [|exact Hp]. intros a b. by eapply refs_same. }
    eexists eid, _, _, [], []. split; [done|]. split; [done|]. split; [done|].
    eexists layer, _, _, [], []. split; [done|]. split; [done|]. split; [done|].
    eexists r', _, [], [], []. split; [symmetry; apply app_nil_r|]. split; [done|]. split; [done|].
    exists (ld_entry ld), [], [], [], []. split; [done|]. split; [done|]. split.
    { split_and!; try done. apply raw_index_iff. split; [|done]. by eapply refs_same. }
    split_and!; try done. erewrite no_mapped by done. destruct ld as [a b c]. cbn [ld_layers ld_entry ld_mapped] in *. by subst.
Qed.
End Index.

(** ** Description and header *)
Lemma bytes_round b : str_bytes (bytes_str b) = b.
Proof. unfold str_bytes, bytes_str. apply list_byte_of_string_of_list_byte. Qed.
Lemma exact_name : exact load_name (fun s g d => d = [] /\ g = name_text s /\ utf8_valid (str_bytes s) = true /\ (length (str_bytes s) <= 256)%nat).
Proof.
  unfold load_name. eapply exact_iff.
  { eapply exact_bind; [apply exact_gnum|intros len]. apply exact_unless; [done|]. eapply exact_bind; [apply exact_gread|intros b].
    eapply (exact_if (utf8_valid b) _ _ (fun s g d => s = bytes_str b /\ g = [] /\ d = []) never); intros _; [apply exact_ret|by apply exact_fail]. }
  intros s g d. unfold name_text. split.
  - intros (len & ? & ? & ? & ? & -> & -> & (-> & -> & Hl) & E%N.ltb_ge & b & ? & ? & ? & ? & -> & -> & (-> & -> & Hb) & H).
    destruct (utf8_valid b) eqn:Eu; [|done]. destruct H as (-> & -> & ->). rewrite bytes_round, app_nil_r. split; [done|].
    assert (EL : N.of_nat (length b) = len) by lia. rewrite EL. split_and!; try done; [by rewrite app_nil_r|lia].
  - intros (-> & -> & Hu & Hl). eexists (N.of_nat (length (str_bytes s))), _, _, [], []. split; [done|]. split; [done|].
    split. { split_and!; try done. simpl. lia. } split. { apply N.ltb_ge. lia. }
    exists (str_bytes s), (str_bytes s), [], [], []. rewrite app_nil_r. split; [done|]. split; [done|]. split. { split_and!; try done. lia. }
    rewrite Hu, str_round. done.
Qed.

Definition de_of (t : text) : description :=
  Description (tx_version t) (tx_mode t) (tx_m t) (if (tx_version t =? 4)%N then f64_of_bits (tx_scale t) else f64_1) (tx_lists t)
    (tx_ef t) (tx_count t) (tx_dim t) (tx_dist t) (tx_type t).
Record head_fits (t : text) : Prop := {
  hf_version : tx_version t = 2%N \/ tx_version t = 3%N \/ tx_version t = 4%N;
  hf_bytes : (tx_mode t < 256)%N /\ (tx_m t < 256)%N /\ (tx_lists t < 256)%N;
  hf_scale : (tx_scale t < 2 ^ 64)%N;
  hf_words : (tx_ef t < 2 ^ 64)%N /\ (tx_count t < 2 ^ 64)%N /\ (tx_dim t < 2 ^ 64)%N;
  hf_names : forall s, s = tx_dist t \/ s = tx_type t -> utf8_valid (str_bytes s) = true /\ (length (str_bytes s) <= 256)%nat
}.
Lemma exact_scale v : exact (if (v =? 4)%N then b <~ gnum 8; rret (f64_of_bits b) else rret f64_1) (fun sc g d => d = [] /\ exists bits,
  (bits < 2 ^ 64)%N /\ g = (if (v =? 4)%N then u64_bytes bits else []) /\ sc = (if (v =? 4)%N then f64_of_bits bits else f64_1)).
Proof.
  destruct (v =? 4)%N.
  - eapply exact_iff; [eapply exact_bind; [apply exact_gnum|intros b; apply exact_ret]|]. intros sc g d. split.
    + intros (b & ? & ? & ? & ? & -> & -> & (-> & -> & Hb) & -> & -> & ->). split; [done|]. exists b. by rewrite app_nil_r.
    + intros (-> & b & Hb & -> & ->). exists b, (u64_bytes b), [], [], []. by rewrite app_nil_r.
  - eapply exact_iff; [apply exact_ret|]. intros sc g d. split.
    + intros (-> & -> & ->). split; [done|]. exists 0%N. done.
    + intros (-> & b & Hb & -> & ->). done.
Qed.
Definition magic_of (v : N) : N := (if (v =? 2)%N then MAGICDESCR_2 else if (v =? 3)%N then MAGICDESCR_3 else MAGICDESCR_4)%N.
Lemma exact_version magic : exact (if (magic =? MAGICDESCR_2)%N then rret 2%N else if (magic =? MAGICDESCR_3)%N then rret 3%N
    else if (magic =? MAGICDESCR_4)%N then rret 4%N else rlift Err)
  (fun v g d => (v = 2%N \/ v = 3%N \/ v = 4%N) /\ magic = magic_of v /\ g = [] /\ d = []).
Proof.
  destruct (magic =? MAGICDESCR_2)%N eqn:E2; [apply N.eqb_eq in E2 as ->; eapply exact_iff; [apply exact_ret|];
    intros v g d; split; [intros (-> & -> & ->); auto|intros ([->|[->| ->]] & E & -> & ->); done]|].
  destruct (magic =? MAGICDESCR_3)%N eqn:E3; [apply N.eqb_eq in E3 as ->; eapply exact_iff; [apply exact_ret|];
    intros v g d; split; [intros (-> & -> & ->); auto|intros ([->|[->| ->]] & E & -> & ->); done]|].
  destruct (magic =? MAGICDESCR_4)%N eqn:E4; [apply N.eqb_eq in E4 as ->; eapply exact_iff; [apply exact_ret|];
    intros v g d; split; [intros (-> & -> & ->); auto|intros ([->|[->| ->]] & E & -> & ->); done]|].
  eapply exact_iff; [by apply exact_fail|]. intros v g d. unfold never. split; [done|]. intros ([->|[->| ->]] & -> & _); done.
Qed.
Lemma exact_description : exact load_description (fun de g d => d = [] /\ exists t, de = de_of t /\ head_fits t /\ g = head_text t).
Proof.
  unfold load_description. eapply exact_iff.
  { eapply exact_bind; [apply exact_gnum|intros magic]. eapply exact_bind; [apply exact_version|intros v].
    eapply exact_bind; [apply exact_gnum|intros mode]. eapply exact_bind; [apply exact_gnum|intros m].
    eapply exact_bind; [apply exact_scale|intros sc]. eapply exact_bind; [apply exact_gnum|intros nl].
    eapply exact_bind; [apply exact_gnum|intros ef]. eapply exact_bind; [apply exact_gnum|intros np]. eapply exact_bind; [apply exact_gnum|intros dim].
    eapply exact_bind; [apply exact_name|intros dn]. eapply exact_bind; [apply exact_name|intros tn]. apply exact_ret. }
  intros de g d. split.
  - intros (magic & ? & ? & ? & ? & -> & -> & (-> & -> & Hm) & v & ? & ? & ? & ? & -> & -> & (Hv & -> & -> & ->) &
      mode & ? & ? & ? & ? & -> & -> & (-> & -> & H1) & m & ? & ? & ? & ? & -> & -> & (-> & -> & H2) &
      sc & ? & ? & ? & ? & -> & -> & (-> & bits & H3 & -> & ->) & nl & ? & ? & ? & ? & -> & -> & (-> & -> & H4) &
      ef & ? & ? & ? & ? & -> & -> & (-> & -> & H5) & np & ? & ? & ? & ? & -> & -> & (-> & -> & H6) &
      dim & ? & ? & ? & ? & -> & -> & (-> & -> & H7) & dn & ? & ? & ? & ? & -> & -> & (-> & -> & H8) &
      tn & ? & ? & ? & ? & -> & -> & (-> & -> & H9) & -> & -> & ->).
    split; [done|]. exists (Text v mode m bits nl ef np dim dn tn [] (0%N, 0%N, 0%Z)). split; [done|]. split.
    + split; cbn [tx_version tx_mode tx_m tx_lists tx_scale tx_ef tx_count tx_dim tx_dist tx_type]; try done.
      intros s [->| ->]; done.
    + unfold head_text. cbn [tx_version tx_mode tx_m tx_lists tx_scale tx_ef tx_count tx_dim tx_dist tx_type]. rewrite !app_nil_r. done.
  - intros (-> & t & -> & [V [B1 [B2 B3]] S [W1 [W2 W3]] Hn] & ->). unfold head_text.
    change (if (tx_version t =? 2)%N then 0x002a677f else if (tx_version t =? 3)%N then 0x002a6771 else 0x002a6779)%N with (magic_of (tx_version t)).
    eexists (magic_of (tx_version t)), _, _, [], []. split; [done|]. split; [done|]. split.
    { split_and!; try done. destruct V as [->|[->| ->]]; done. }
    eexists (tx_version t), [], (u8_bytes (tx_mode t) ++ _), [], []. split; [done|]. split; [done|]. split; [done|].
    eexists (tx_mode t), _, _, [], []. split; [done|]. split; [done|]. split; [done|].
    eexists (tx_m t), _, _, [], []. split; [done|]. split; [done|]. split; [done|].
    eexists _, _, _, [], []. split; [done|]. split; [done|]. split. { split; [done|]. exists (tx_scale t). done. }
    eexists (tx_lists t), _, _, [], []. split; [done|]. split; [done|]. split; [done|].
    eexists (tx_ef t), _, _, [], []. split; [done|]. split; [done|]. split; [done|].
    eexists (tx_count t), _, _, [], []. split; [done|]. split; [done|]. split; [done|].
    eexists (tx_dim t), _, _, [], []. split; [done|]. split; [done|]. split; [done|].
    eexists (tx_dist t), _, _, [], []. split; [done|]. split; [done|]. split. { split_and!; try done; apply Hn; by left. }
    eexists (tx_type t), _, [], [], []. split; [symmetry; apply app_nil_r|]. split; [done|]. split. { split_and!; try done; apply Hn; by right. }
    done.
Qed.
Lemma exact_header : exact load_header (fun de g d => exists t, de = de_of t /\ head_fits t /\ g = head_text t /\ d = u32_bytes MAGICDATAP ++ u64_bytes (tx_dim t)).
Proof.
  unfold load_header. eapply exact_iff.
  { eapply exact_bind; [apply exact_panic, exact_description|intros de]. eapply exact_bind; [apply exact_dnum|intros magic].
    eapply exact_bind; [apply exact_assert|intros u1]. eapply exact_bind; [apply exact_dnum|intros dim]. eapply exact_bind; [apply exact_assert|intros u2]. apply exact_ret. }
  intros de g d. split.
  - intros (de' & ? & ? & ? & ? & -> & -> & (-> & t & -> & Ht & ->) & magic & ? & ? & ? & ? & -> & -> & (-> & -> & Hm) &
      [] & ? & ? & ? & ? & -> & -> & (A1%N.eqb_eq & -> & ->) & dim & ? & ? & ? & ? & -> & -> & (-> & -> & Hd) &
      [] & ? & ? & ? & ? & -> & -> & (A2%N.eqb_eq & -> & ->) & -> & -> & ->). subst magic dim. exists t. rewrite !app_nil_r. done.
  - intros (t & -> & Ht & -> & ->). pose proof (hf_words _ Ht) as (_ & _ & Hd).
    exists (de_of t), (head_text t), [], [], (u32_bytes MAGICDATAP ++ u64_bytes (tx_dim t)). split; [symmetry; apply app_nil_r|]. split; [done|]. split; [split; [done|by exists t]|].
    eexists MAGICDATAP, [], [], _, _. split; [done|]. split; [done|]. split; [done|].
    exists tt, [], [], [], (u64_bytes (tx_dim t)). split; [done|]. split; [done|]. split; [done|].
    eexists (tx_dim t), [], [], _, []. split; [done|]. split; [symmetry; apply app_nil_r|]. split; [done|].
    exists tt, [], [], [], []. split; [done|]. split; [done|]. split; [|done]. split; [by apply N.eqb_eq|done].
Qed.
