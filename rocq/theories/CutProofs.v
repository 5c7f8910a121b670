(** What the readers of Io.v do with files that end too early. *)
From Coq Require Import Strings.String.
From Verif Require Import Prelude Model Lib Table SearchProofs InsertProofs Spec Io IoBase IoProofs LoadProofs SpecIo SpecFile FileProofs FileProofs2 SpecCut.
Local Open Scope list_scope.

Fixpoint gpart (ps : list piece) : list Byte.byte :=
  match ps with [] => [] | Piece GraphFile b _ :: ps => b ++ gpart ps | Piece DataFile _ _ :: ps => gpart ps end.
Fixpoint dpart (ps : list piece) : list Byte.byte :=
  match ps with [] => [] | Piece GraphFile _ _ :: ps => dpart ps | Piece DataFile b _ :: ps => b ++ dpart ps end.
Lemma gpart_app ps qs : gpart (ps ++ qs) = gpart ps ++ gpart qs.
Proof. induction ps as [|[[] b f] ps IH]; simpl; rewrite ?IH, ?app_assoc; done. Qed.
Lemma dpart_app ps qs : dpart (ps ++ qs) = dpart ps ++ dpart qs.
Proof. induction ps as [|[[] b f] ps IH]; simpl; rewrite ?IH, ?app_assoc; done. Qed.

Lemma short_app ps qs : forall ng nd, first_short (ps ++ qs) ng nd =
  match first_short ps ng nd with Some f => Some f | None => first_short qs (ng - length (gpart ps)) (nd - length (dpart ps)) end.
Proof.
  induction ps as [|[[] b f] ps IH]; intros ng nd; simpl; [by rewrite !Nat.sub_0_r| |].
  - destruct (_ <? _)%nat; [done|]. rewrite IH, app_length, Nat.sub_add_distr. done.
  - destruct (_ <? _)%nat; [done|]. rewrite IH, app_length, Nat.sub_add_distr. done.
Qed.
Lemma short_none ps : forall ng nd, first_short ps ng nd = None <-> (length (gpart ps) <= ng /\ length (dpart ps) <= nd)%nat.
Proof.
  induction ps as [|[[] b f] ps IH]; intros ng nd; simpl; [split; [lia|done]| |].
  - destruct (ng <? length b)%nat eqn:E; [apply Nat.ltb_lt in E|apply Nat.ltb_ge in E]; rewrite app_length.
    + split; [done|]. lia.
    + rewrite IH. lia.
  - destruct (nd <? length b)%nat eqn:E; [apply Nat.ltb_lt in E|apply Nat.ltb_ge in E]; rewrite app_length.
    + split; [done|]. lia.
    + rewrite IH. lia.
Qed.

(** [g] is a beginning of some file that begins with [full] *)
Definition agrees (g full : list Byte.byte) : Prop := exists rest x, full ++ rest = g ++ x.
Lemma agrees_l g f1 f2 : agrees g (f1 ++ f2) -> agrees g f1.
Proof. intros (r & x & E). exists (f2 ++ r), x. by rewrite app_assoc. Qed.
Lemma agrees_long g f : agrees g f -> (length f <= length g)%nat -> g = f ++ drop (length f) g.
Proof.
  intros (r & x & E) Hl. assert (E2 : take (length f) (f ++ r) = take (length f) (g ++ x)) by (by rewrite E).
  rewrite take_app, take_app_le in E2 by done. rewrite E2 at 1. by rewrite take_drop.
Qed.
Lemma agrees_r g f1 f2 : agrees g (f1 ++ f2) -> (length f1 <= length g)%nat -> agrees (drop (length f1) g) f2.
Proof.
  intros H Hl. pose proof (agrees_long _ _ (agrees_l _ _ _ H) Hl) as E. destruct H as (r & x & Ex). rewrite E, <- !app_assoc in Ex.
  apply app_inv_head in Ex. by exists r, x.
Qed.
Lemma agrees_short g f : agrees g f -> (length g < length f)%nat -> exists x, f = g ++ x /\ x <> [].
Proof.
  intros (r & x & E) Hl. assert (E2 : take (length g) (f ++ r) = take (length g) (g ++ x)) by (by rewrite E).
  rewrite take_app, take_app_le in E2 by lia. exists (drop (length g) f). rewrite <- E2 at 1. rewrite take_drop. split; [done|].
  intros Hn. apply (f_equal length) in Hn. rewrite drop_length in Hn. simpl in Hn. lia.
Qed.
Lemma agrees_nil g : agrees g [].
Proof. exists g, []. by rewrite app_nil_r. Qed.
Lemma agrees_prefix g x full : full = g ++ x -> agrees g full.
Proof. intros ->. exists [], x. by rewrite app_nil_r. Qed.

(** [p] needs the pieces [ps], in this order, to return [a] *)
Definition obeys {A} (p : rd A) (ps : list piece) (a : A) : Prop :=
  forall g d, agrees g (gpart ps) -> agrees d (dpart ps) ->
  p (g, d) = match first_short ps (length g) (length d) with
             | None => Ok (a, (drop (length (gpart ps)) g, drop (length (dpart ps)) d))
             | Some f => fails f
             end.

Lemma obeys_bind {A B} (p : rd A) (k : A -> rd B) ps qs a b : obeys p ps a -> obeys (k a) qs b -> obeys (rbind p k) (ps ++ qs) b.
Proof.
  intros Hp Hk g d Hg Hd. rewrite gpart_app in Hg. rewrite dpart_app in Hd. unfold rbind. rewrite (Hp g d) by (by eapply agrees_l).
  rewrite short_app. destruct (first_short ps _ _) as [f|] eqn:E; [by destruct f|].
  apply short_none in E as [E1 E2]. cbn [mbind outcome_bind]. rewrite Hk by (by apply agrees_r).
  rewrite !drop_length. destruct (first_short qs _ _); [done|]. rewrite !drop_drop, gpart_app, dpart_app, !app_length. done.
Qed.
Lemma obeys_ret {A} (a : A) : obeys (rret a) [] a.
Proof. intros g d _ _. done. Qed.
Lemma obeys_lift {A} (o : outcome A) a : o = Ok a -> obeys (rlift o) [] a.
Proof. intros -> g d _ _. done. Qed.

(** pieces of one file that fail in the same way are one piece *)
Definition same_cut (ps qs : list piece) : Prop :=
  gpart ps = gpart qs /\ dpart ps = dpart qs /\ forall ng nd, first_short ps ng nd = first_short qs ng nd.
Lemma obeys_same {A} (p : rd A) ps qs a : same_cut ps qs -> obeys p ps a -> obeys p qs a.
Proof. intros (E1 & E2 & E3) H g d Hg Hd. rewrite <- E1 in Hg. rewrite <- E2 in Hd. rewrite (H g d Hg Hd), E1, E2, E3. done. Qed.
Lemma merge fl f b1 b2 : same_cut [Piece fl b1 f; Piece fl b2 f] [Piece fl (b1 ++ b2) f].
Proof.
  split; [destruct fl; simpl; by rewrite ?app_nil_r|split; [destruct fl; simpl; by rewrite ?app_nil_r|]].
  intros ng nd. destruct fl; simpl; rewrite app_length; repeat (destruct (_ <? _)%nat eqn:?; rewrite ?Nat.ltb_lt, ?Nat.ltb_ge in *); try done; lia.
Qed.
Lemma merge0 fl f : same_cut [] [Piece fl [] f].
Proof. by destruct fl. Qed.

(** readers of one file *)
Notation one p fl b f a := (obeys p [Piece fl b f] a).
Lemma one_bind {A B} (p : rd A) (k : A -> rd B) fl f b1 b2 a b : one p fl b1 f a -> one (k a) fl b2 f b -> one (rbind p k) fl (b1 ++ b2) f b.
Proof. intros Hp Hk. eapply obeys_same; [apply merge|]. exact (obeys_bind p k [_] [_] a b Hp Hk). Qed.
Lemma one_bind0 {A B} (p : rd A) (k : A -> rd B) ps a b : obeys p [] a -> obeys (k a) ps b -> obeys (rbind p k) ps b.
Proof. intros Hp Hk. exact (obeys_bind p k [] _ a b Hp Hk). Qed.
Lemma one_ret {A} (a : A) fl f : one (rret a) fl [] f a.
Proof. eapply obeys_same; [apply merge0|apply obeys_ret]. Qed.
Lemma one_end {A B} (p : rd A) (k : A -> rd B) fl f b1 a b : one p fl b1 f a -> obeys (k a) [] b -> one (rbind p k) fl b1 f b.
Proof. intros Hp Hk. exact (obeys_bind p k [_] [] a b Hp Hk). Qed.
Lemma obeys_panic {A} (p : rd A) fl b f a : f <> EndsProcess -> one p fl b f a -> one (or_panic p) fl b Panics a.
Proof.
  intros Hf H g d Hg Hd. specialize (H g d). unfold or_panic. destruct fl; simpl in *; rewrite H by done; destruct (_ <? _)%nat; try done; by destruct f.
Qed.
Lemma obeys_exit {A} (p : rd A) fl b a : one p fl b ReturnsErr a -> one (or_exit p) fl b EndsProcess a.
Proof.
  intros H g d Hg Hd. specialize (H g d). unfold or_exit. destruct fl; simpl in *; rewrite H by done; destruct (_ <? _)%nat; done.
Qed.
Lemma one_gread b : one (gread (length b)) GraphFile b ReturnsErr b.
Proof.
  intros g d Hg _. simpl in Hg. unfold gread. simpl. rewrite app_nil_r in *. destruct (length g <? length b)%nat eqn:E; [done|]. apply Nat.ltb_ge in E.
  rewrite drop_0. do 2 f_equal. rewrite (agrees_long _ _ Hg E). apply take_app.
Qed.
Lemma one_dread b : one (dread (length b)) DataFile b ReturnsErr b.
Proof.
  intros g d _ Hg. simpl in Hg. unfold dread. simpl. rewrite app_nil_r in *. destruct (length d <? length b)%nat eqn:E; [done|]. apply Nat.ltb_ge in E.
  rewrite drop_0. do 2 f_equal. rewrite (agrees_long _ _ Hg E). apply take_app.
Qed.
Lemma one_gnum k n : (n < 256 ^ N.of_nat k)%N -> one (gnum k) GraphFile (le_bytes k n) ReturnsErr n.
Proof.
  intros Hn. unfold gnum. pose proof (one_gread (le_bytes k n)) as H. rewrite le_bytes_length in H. eapply one_end; [exact H|].
  rewrite le_val_bytes by done. apply obeys_ret.
Qed.
Lemma one_dnum k n : (n < 256 ^ N.of_nat k)%N -> one (dnum k) DataFile (le_bytes k n) ReturnsErr n.
Proof.
  intros Hn. unfold dnum. pose proof (one_dread (le_bytes k n)) as H. rewrite le_bytes_length in H. eapply one_end; [exact H|].
  rewrite le_val_bytes by done. apply obeys_ret.
Qed.
Lemma one_pnum k n : (n < 256 ^ N.of_nat k)%N -> one (or_panic (gnum k)) GraphFile (le_bytes k n) Panics n.
Proof. intros Hn. eapply obeys_panic; [|by apply one_gnum]. done. Qed.
Lemma one_rrep {A X} (p : rd A) (tx : X -> list Byte.byte) f fl xs l : Forall2 (fun x a => one p fl (tx x) f a) xs l ->
  one (rrep (length xs) p) fl (concat (tx <$> xs)) f l.
Proof.
  induction 1 as [|x a xs l Hx _ IH]; cbn [length rrep fmap list_fmap concat]; [apply one_ret|].
  eapply one_bind; [exact Hx|]. eapply one_end; [exact IH|apply obeys_ret].
Qed.

(** ** Graph file *)
Lemma one_nbr de n n' : nbr_read (dumpmode de) n n' -> one (load_nbr de) GraphFile (nbr_text (dumpmode de) n) Panics n'.
Proof.
  destruct n as [id l r b], n' as [id' l' r' z]. intros ((H1 & H2 & H3) & E1 & E2 & E3 & E4). cbn [tn_id tn_layer tn_rank tn_bits rn_id rn_layer rn_rank rn_dist] in *.
  subst id' l' r'. unfold load_nbr, nbr_text. cbn [tn_id tn_layer tn_rank tn_bits].
  eapply one_bind; [by apply one_pnum|]. destruct (dumpmode de =? 1)%N.
  - destruct H3 as [H3 H5]. destruct (i32_bytes_le r H5) as (rn & Hrn & Er & <-). eapply one_bind.
    { eapply one_bind; [by apply one_pnum|]. rewrite Er. eapply one_end; [by apply one_pnum|apply obeys_ret]. }
    cbv beta iota. eapply one_end; [by apply one_pnum|]. eapply one_bind0; [apply obeys_lift; rewrite E4; done|]. apply obeys_ret.
  - destruct H3 as [-> ->]. eapply one_bind0; [apply obeys_ret|]. cbv beta iota. eapply one_end; [by apply one_pnum|].
    eapply one_bind0; [apply obeys_lift; rewrite E4; done|]. apply obeys_ret.
Qed.
Lemma one_list de l l' : list_read (dumpmode de) l l' -> one (load_nbr_list de) GraphFile (list_text (dumpmode de) l) Panics l'.
Proof.
  intros [H1 H2]. unfold load_nbr_list, list_text. eapply one_bind; [by apply one_pnum|]. rewrite Nat2N.id. apply one_rrep.
  eapply Forall2_impl; [exact H2|]. intros x y. apply one_nbr.
Qed.
Lemma one_point_graph de oid l r ts l0 : (oid < 2 ^ 64)%N -> (l < 256)%nat -> (Z.of_nat r < 2 ^ 31)%Z ->
  length ts = N.to_nat (de_nb_layer de) -> Forall2 (list_read (dumpmode de)) ts l0 ->
  one (load_point_graph de) GraphFile (u32_bytes MAGICPOINT ++ u64_bytes oid ++ u8_bytes (N.of_nat l) ++ i32_bytes (Z.of_nat r) ++ concat (list_text (dumpmode de) <$> ts)) Panics
    (oid, N.of_nat l, Z.of_nat r, l0 ++ replicate (NB_LAYER_MAX - N.to_nat (de_nb_layer de)) []).
Proof.
  intros Ho Hl Hr Hts HF. unfold load_point_graph. eapply one_bind; [by apply one_pnum|]. rewrite N.eqb_refl. cbn [negb].
  eapply one_bind; [by apply one_pnum|]. eapply one_bind; [apply one_pnum; change (256 ^ N.of_nat 1)%N with 256%N; lia|].
  destruct (i32_bytes_le (Z.of_nat r)) as (rn & Hrn & Er & Ern); [lia|]. rewrite Er. eapply one_bind; [by apply one_pnum|].
  rewrite <- Ern, <- Hts. eapply one_end; [apply one_rrep|apply obeys_ret]. eapply Forall2_impl; [exact HF|]. intros x y. apply one_list.
Qed.

(** ** Data file *)
Lemma one_record oid b : (oid < 2 ^ 64)%N -> (N.of_nat (length b) < 2 ^ 64)%N ->
  one (load_record oid) DataFile (u32_bytes MAGICDATAP ++ u64_bytes oid ++ u64_bytes (N.of_nat (length b)) ++ b) ReturnsErr b.
Proof.
  intros Ho Hb. unfold load_record. eapply one_bind; [by apply one_dnum|]. eapply one_bind0; [by apply obeys_lift|].
  eapply one_bind; [by apply one_dnum|]. eapply one_bind0; [apply obeys_lift; rewrite N.eqb_refl; done|].
  eapply one_bind; [by apply one_dnum|]. rewrite Nat2N.id. apply one_dread.
Qed.

Section Points.
Context {T : Type} (so : StdOps) (LAWS : StdLaws so) (el : elem T) (dm : option datamap) (opts : reload_options) (Hmm : ro_datamap opts = false).
Context (de : description) (Hv : format_version de = 2%N \/ format_version de = 3%N \/ format_version de = 4%N).
Notation mode := (dumpmode de).

Lemma obeys_exact {A} (p : rd A) a : p ([], []) = Ok (a, ([], [])) -> (forall s s' a', p s = Ok (a', s') -> forall s2, p s2 = Ok (a', s2)) -> obeys p [] a.
Proof using Type. clear Hmm Hv. intros H H2 g d _ _. simpl. rewrite !drop_0. by eapply H2. Qed.

Lemma one_data oid b v : spelled el (format_version de) (de_dimension de) b v -> (oid < 2 ^ 64)%N -> (N.of_nat (length b) < 2 ^ 64)%N ->
  one (load_point_data el oid de) DataFile (u32_bytes MAGICDATAP ++ u64_bytes oid ++ u64_bytes (N.of_nat (length b)) ++ b) ReturnsErr v.
Proof using Hv.
  clear Hmm. intros Hs Ho Hb. unfold load_point_data. eapply one_end; [by apply one_record|]. unfold spelled in Hs.
  destruct (el_nodata el); [subst v; apply obeys_ret|]. destruct (format_version de =? 2)%N eqn:E2.
  - apply obeys_lift. by rewrite Hs.
  - apply N.eqb_neq in E2. assert (E34 : (format_version de =? 3)%N || (format_version de =? 4)%N = true) by (destruct Hv as [E|[E|E]]; rewrite E; done).
    rewrite E34. apply obeys_lift. unfold from_raw_parts. destruct Hs as [Hle ->]. destruct (_ <? _)%N eqn:E; [apply N.ltb_lt in E; lia|done].
Qed.

Lemma obeys_point l r t p : raw_rel el de l r t p ->
  obeys (load_point el dm de false) [Piece GraphFile (point_text mode l r t) Panics; Piece DataFile (record_text t) EndsProcess] p.
Proof using Hv.
  clear Hmm. destruct p as [oid layer rank lists v mapped]. intros [Rl Rr Ri Rb Eo El Er Rd Rm Rn (l0 & HF & E3)].
  cbn [rp_oid rp_layer rp_rank rp_data rp_mapped rp_lists] in *. subst. unfold load_point.
  eapply (obeys_bind _ _ [_] [_]); [by apply one_point_graph|]. cbv beta iota. cbn [negb].
  eapply one_end; [by apply obeys_exit, one_data|]. apply obeys_ret.
Qed.

Lemma obeys_points l ts : forall r still ps, irel (raw_rel el de l) r ts ps -> (length ts = 0%nat \/ (Z.of_nat (length ts) <= still)%Z) ->
  obeys (load_points el dm opts de l (length ts) r still) (points_pieces mode l r ts) (ps, (still - Z.of_nat (length ts))%Z).
Proof using Hmm Hv.
  induction ts as [|t ts IH]; intros r still ps HR Hc; cbn [load_points length points_pieces].
  - apply irel_inv_nil in HR as ->. rewrite Z.sub_0_r. apply obeys_ret.
  - apply irel_inv_l in HR as (p & ps' & -> & HR0 & HR). assert (Em : point_use_mmap opts still = false) by (unfold point_use_mmap; by rewrite Hmm). rewrite Em.
    eapply (obeys_bind _ _ [_; _]); [by apply obeys_point|]. rewrite (rr_layer _ _ _ _ _ _ HR0), (rr_rank _ _ _ _ _ _ HR0), N.eqb_refl, Z.eqb_refl.
    eapply one_bind0; [by apply obeys_lift|]. eapply one_bind0; [by apply obeys_lift|].
    eapply one_bind0; [apply obeys_lift, assert_true; simpl in Hc; apply Z.leb_le; lia|].
    rewrite <- (app_nil_r (points_pieces mode l (S r) ts)). eapply obeys_bind.
    { apply IH; [exact HR|]. simpl in Hc. lia. }
    cbv beta iota. replace (still - 1 - Z.of_nat (length ts))%Z with (still - Z.of_nat (S (length ts)))%Z by lia. apply obeys_ret.
Qed.

Lemma obeys_layers tls : forall l still raw, irel (fun l => irel (raw_rel el de l) 0) l tls raw -> (forall ts, ts ∈ tls -> (N.of_nat (length ts) < 2 ^ 64)%N) ->
  (length (concat tls) = 0%nat \/ (Z.of_nat (length (concat tls)) <= still)%Z) ->
  obeys (load_layers el dm opts de (length tls) l still) (layers_pieces mode l tls) raw.
Proof using Hmm Hv.
  induction tls as [|ts tls IH]; intros l still raw HR Hs Hc; cbn [load_layers length layers_pieces].
  - apply irel_inv_nil in HR as ->. apply obeys_ret.
  - apply irel_inv_l in HR as (ps & raw' & -> & HR0 & HR). assert (Hts : (N.of_nat (length ts) < 2 ^ 64)%N) by (apply Hs; by left).
    cbn [concat] in Hc. rewrite app_length in Hc.
    eapply obeys_same with (ps := [Piece GraphFile (u32_bytes MAGICLAYER) ReturnsErr] ++ [Piece GraphFile (u64_bytes (N.of_nat (length ts))) ReturnsErr] ++
      points_pieces mode l 0 ts ++ layers_pieces mode (S l) tls).
    { destruct (merge GraphFile ReturnsErr (u32_bytes MAGICLAYER) (u64_bytes (N.of_nat (length ts)))) as (_ & _ & M).
      split; [cbn [gpart app]; by rewrite <- app_assoc|]. split; [done|]. intros ng nd.
      rewrite app_assoc, short_app, M. change (gpart ([Piece GraphFile (u32_bytes MAGICLAYER) ReturnsErr] ++ [Piece GraphFile (u64_bytes (N.of_nat (length ts))) ReturnsErr])) with (u32_bytes MAGICLAYER ++ u64_bytes (N.of_nat (length ts)) ++ []).
      rewrite app_assoc. rewrite <- (short_app [Piece GraphFile (u32_bytes MAGICLAYER ++ u64_bytes (N.of_nat (length ts))) ReturnsErr]). done. }
    eapply obeys_bind; [by apply one_gnum|]. rewrite N.eqb_refl. cbn [negb]. eapply obeys_bind; [by apply one_gnum|]. rewrite Nat2N.id.
    eapply obeys_bind; [apply obeys_points; [exact HR0|lia]|]. cbv beta iota. rewrite <- (app_nil_r (layers_pieces mode (S l) tls)).
    eapply obeys_bind; [apply IH; [exact HR| |]|apply obeys_ret]. + intros ts' H. apply Hs. by right. + lia.
Qed.

Lemma obeys_indexation tls eid layer rank ld : (el_nodata el = true \/ el_name el = de_t_name de) ->
  (length tls <= 16)%nat -> (forall ts, ts ∈ tls -> (N.of_nat (length ts) < 2 ^ 64)%N) ->
  (length (concat tls) = 0%nat \/ (Z.of_nat (length (concat tls)) <= as_i64 (de_nb_point de))%Z) ->
  irel (layer_is so el de (trefers tls)) 0 tls (ld_layers ld) -> trefers tls layer rank ->
  (eid < 2 ^ 64)%N -> (layer < 256)%N -> (- 2 ^ 31 <= rank < 2 ^ 31)%Z ->
  ld_entry ld = (N.to_nat layer, Z.to_nat rank) -> ld_mapped ld = [] ->
  obeys (load_point_indexation so el dm opts de)
    (Piece GraphFile (u8_bytes (N.of_nat (length tls))) ReturnsErr :: layers_pieces mode 0 tls ++
     [Piece GraphFile (u64_bytes eid ++ u8_bytes layer ++ i32_bytes rank) ReturnsErr]) ld.
Proof using Hmm Hv LAWS.
  intros Et Hlen Hs Hc HL Hrf He Hl Hr E1 E2. apply (layerwise so LAWS el de) in HL as (raw & HR & HK & EL).
  destruct (i32_bytes_le rank Hr) as (r' & Hr' & Er1 & Er2). rewrite Er1. subst rank. unfold load_point_indexation.
  assert (Et' : negb (el_nodata el) && negb (String.eqb (el_name el) (de_t_name de)) = false).
  { destruct Et as [->| ->]; [done|]. rewrite String.eqb_refl. apply andb_false_r. }
  rewrite Et'. eapply (obeys_bind _ _ [_]); [apply one_gnum; change (256 ^ N.of_nat 1)%N with 256%N; lia|].
  destruct (N.of_nat NB_LAYER_MAX <? N.of_nat (length tls))%N eqn:E; [apply N.ltb_lt in E; unfold NB_LAYER_MAX in E; lia|]. rewrite Nat2N.id.
  eapply obeys_bind; [by apply obeys_layers|]. eapply one_bind0.
  { apply obeys_lift. apply link_all_iff. split; [|exact EL]. eapply Forall_impl; [exact HK|]. intros ly Hly. eapply Forall_impl; [exact Hly|].
    intros p Hp. eapply linkable_ext; [|exact Hp]. intros a b. by eapply refs_same. }
  eapply one_bind; [by apply one_gnum|]. eapply one_bind; [by apply one_gnum|]. eapply one_end; [by apply one_gnum|].
  eapply one_bind0; [apply obeys_lift, raw_index_iff; split; [by eapply refs_same|exact E1]|].
  rewrite (no_mapped el de _ _ _ HR). cbn [fmap list_fmap]. destruct ld as [a b c]. cbn [ld_layers ld_entry ld_mapped] in *. subst. apply obeys_ret.
Qed.
End Points.

(** ** Description and header *)
Lemma one_name s : utf8_valid (str_bytes s) = true -> (length (str_bytes s) <= 256)%nat -> one load_name GraphFile (name_text s) ReturnsErr s.
Proof.
  intros Hu Hl. unfold load_name, name_text. eapply one_bind; [apply one_gnum; change (256 ^ N.of_nat 8)%N with (2 ^ 64)%N; lia|].
  destruct (256 <? _)%N eqn:E; [apply N.ltb_lt in E; lia|]. rewrite Nat2N.id. eapply one_end; [apply one_gread|]. rewrite Hu, str_round. apply obeys_ret.
Qed.
Lemma one_description t : head_fits t -> one load_description GraphFile (head_text t) ReturnsErr (de_of t).
Proof.
  intros [V [B1 [B2 B3]] S [W1 [W2 W3]] Hn]. unfold load_description, head_text.
  eapply one_bind; [apply (one_gnum 4 (magic_of (tx_version t))); destruct V as [->|[->| ->]]; done|].
  eapply (one_bind0 _ _ _ (tx_version t)); [destruct V as [->|[->| ->]]; apply obeys_ret|].
  eapply one_bind; [by apply one_gnum|]. eapply one_bind; [by apply one_gnum|].
  eapply (one_bind _ _ _ _ _ _ (if (tx_version t =? 4)%N then f64_of_bits (tx_scale t) else f64_1)).
  { destruct (tx_version t =? 4)%N; [|apply one_ret]. eapply one_end; [by apply one_gnum|apply obeys_ret]. }
  eapply one_bind; [by apply one_gnum|]. eapply one_bind; [by apply one_gnum|]. eapply one_bind; [by apply one_gnum|]. eapply one_bind; [by apply one_gnum|].
  eapply one_bind; [apply one_name; apply Hn; by left|]. eapply one_end; [apply one_name; apply Hn; by right|]. apply obeys_ret.
Qed.
Lemma obeys_header t : head_fits t ->
  obeys load_header [Piece GraphFile (head_text t) Panics; Piece DataFile (u32_bytes MAGICDATAP ++ u64_bytes (tx_dim t)) ReturnsErr] (de_of t).
Proof.
  intros Ht. pose proof (hf_words _ Ht) as (_ & _ & Hd). unfold load_header. eapply (obeys_bind _ _ [_] [_]); [eapply obeys_panic; [|by apply one_description]; done|].
  eapply one_bind; [by apply one_dnum|]. eapply one_bind0; [by apply obeys_lift|]. eapply one_end; [by apply one_dnum|].
  eapply one_bind0; [apply obeys_lift, assert_true, N.eqb_refl|]. apply obeys_ret.
Qed.

(** the pieces make up the two files *)
Lemma points_pieces_text mode l ts : forall r, gpart (points_pieces mode l r ts) = points_text mode l r ts /\ dpart (points_pieces mode l r ts) = concat (record_text <$> ts).
Proof. induction ts as [|t ts IH]; intros r; [done|]. cbn [points_pieces gpart dpart points_text fmap list_fmap concat]. destruct (IH (S r)) as [-> ->]. done. Qed.
Lemma layers_pieces_text mode tls : forall l, gpart (layers_pieces mode l tls) = layers_text mode l tls /\ dpart (layers_pieces mode l tls) = concat (record_text <$> concat tls).
Proof.
  induction tls as [|ts tls IH]; intros l; [done|]. cbn [layers_pieces gpart dpart layers_text concat]. rewrite gpart_app, dpart_app, fmap_app, concat_app.
  destruct (IH (S l)) as [-> ->]. destruct (points_pieces_text mode l ts 0) as [-> ->]. by rewrite <- app_assoc.
Qed.
Lemma pieces_text t : gpart (pieces t) = graph_text t /\ dpart (pieces t) = data_text t.
Proof.
  unfold pieces, graph_text, data_text. cbn [gpart dpart]. rewrite gpart_app, dpart_app. destruct (layers_pieces_text (tx_mode t) (tx_layers t) 0) as [-> ->].
  cbn [gpart dpart]. rewrite !app_nil_r, <- app_assoc. done.
Qed.
