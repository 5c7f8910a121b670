(** Replacing the vectors of a dump. *)
From Coq Require Import Strings.String.
From Verif Require Import Prelude Model Lib Table SearchProofs InsertProofs Spec Io IoBase IoProofs LoadProofs SpecIo SpecFile FileProofs
  IterProofs IoProofs5 SpecDamage DamageProofs.
Local Open Scope list_scope.
Notation length := List.length.

(** give new values, one after the other, to the elements of a list of lists *)
Fixpoint redo {A B} (f : A -> B -> A) (ls : list (list A)) (bs : list B) : list (list A) :=
  match ls with
  | [] => []
  | ps :: ls => zip_with f ps (take (length ps) bs) :: redo f ls (drop (length ps) bs)
  end.
Lemma redo_concat {A B} (f : A -> B -> A) ls : forall bs, length bs = length (concat ls) -> concat (redo f ls bs) = zip_with f (concat ls) bs.
Proof.
  induction ls as [|ps ls IH]; intros bs L; [done|]. cbn [redo concat] in *. rewrite app_length in L. rewrite IH by (rewrite drop_length; lia).
  rewrite <- (take_drop (length ps) bs) at 3. rewrite zip_with_app; [done|]. rewrite take_length. lia.
Qed.
Lemma redo_length {A B} (f : A -> B -> A) ls : forall bs, length (redo f ls bs) = length ls.
Proof. induction ls as [|ps ls IH]; intros bs; [done|]. simpl. by rewrite IH. Qed.
Lemma redo_lookup {A A' B} (f : A -> B -> A) (g : A' -> B -> A') ls : forall ls' bs l ps, length bs = length (concat ls) ->
  Forall2 (fun a a' => length a = length a') ls ls' -> ls !! l = Some ps ->
  exists ps' bs', ls' !! l = Some ps' /\ length bs' = length ps /\ length ps' = length ps /\ (forall b, b ∈ bs' -> b ∈ bs) /\
    redo f ls bs !! l = Some (zip_with f ps bs') /\ redo g ls' bs !! l = Some (zip_with g ps' bs').
Proof.
  induction ls as [|q ls IH]; intros ls' bs l ps L H Hl; [done|]. apply Forall2_cons_inv_l in H as (q' & ls1 & E & H & ->).
  cbn [redo concat] in *. rewrite app_length in L. destruct l as [|l].
  - injection Hl as <-. exists q', (take (length q) bs). split; [done|]. split; [rewrite take_length; lia|]. split; [done|].
    split; [intros b (? & ? & _)%elem_of_take; by eapply elem_of_list_lookup_2|]. split; [done|]. by rewrite E.
  - cbn in Hl. destruct (IH ls1 (drop (length q) bs) l ps) as (ps' & bs' & ? & ? & ? & Hb & ? & ?); [rewrite drop_length; lia|done|done|].
    exists ps', bs'. split; [done|]. split; [done|]. split; [done|]. split; [|split; [done|by rewrite <- E]].
    intros b Hin. apply Hb in Hin. apply elem_of_list_lookup in Hin as [i Hi]. rewrite lookup_drop in Hi. by eapply elem_of_list_lookup_2.
Qed.

(** same graph text *)
Lemma points_text_same mode l ts ts' : Forall2 same_tp ts ts' -> forall r, points_text mode l r ts' = points_text mode l r ts.
Proof. induction 1 as [|p p' ts ts' [E1 E2] _ IH]; intros r; [done|]. cbn [points_text]. rewrite IH. unfold point_text. by rewrite E1, E2. Qed.
Lemma layers_text_same mode ls ls' : Forall2 (Forall2 same_tp) ls ls' -> forall l, layers_text mode l ls' = layers_text mode l ls.
Proof.
  induction 1 as [|ps ps' ls ls' H _ IH]; intros l; [done|]. cbn [layers_text]. rewrite IH, (points_text_same _ _ _ _ H).
  by rewrite (Forall2_length _ _ _ H).
Qed.
Lemma same_tp_concat ls ls' : Forall2 (Forall2 same_tp) ls ls' -> Forall2 same_tp (concat ls) (concat ls').
Proof. induction 1; [constructor|]. cbn [concat]. by apply Forall2_app. Qed.
Lemma same_tp_ids ps ps' : Forall2 same_tp ps ps' -> tp_id <$> ps' = tp_id <$> ps.
Proof. induction 1 as [|p p' ps ps' [E _] _ IH]; [done|]. cbn. by rewrite E, IH. Qed.
Lemma same_refers t t' l r : Forall2 (Forall2 same_tp) (tx_layers t) (tx_layers t') -> refers t l r -> refers t' l r.
Proof.
  intros H (H0 & ps & H1 & H2). split; [done|]. destruct (Forall2_lookup_l _ _ _ _ _ H H1) as (ps' & E & HF). exists ps'. split; [done|].
  by rewrite <- (Forall2_length _ _ _ HF).
Qed.

Definition put_bytes (p : text_point) (b : bytes) : text_point := TextPoint (tp_id p) (tp_lists p) b.
Definition with_bytes (t : text) (bs : list bytes) : text :=
  Text (tx_version t) (tx_mode t) (tx_m t) (tx_scale t) (tx_lists t) (tx_ef t) (tx_count t) (tx_dim t) (tx_dist t) (tx_type t)
    (redo put_bytes (tx_layers t) bs) (tx_entry t).
Lemma put_same ps : forall bs, length bs = length ps -> Forall2 same_tp ps (zip_with put_bytes ps bs).
Proof. induction ps as [|p ps IH]; intros [|b bs] E; try done; [constructor|]. cbn. constructor; [by split|]. apply IH. simpl in E. lia. Qed.
Lemma with_same t bs : length bs = length (concat (tx_layers t)) -> Forall2 (Forall2 same_tp) (tx_layers t) (tx_layers (with_bytes t bs)).
Proof.
  intros E. cbn [tx_layers with_bytes]. revert bs E. induction (tx_layers t) as [|ps ls IH]; intros bs E; [constructor|]. cbn [redo concat] in *.
  rewrite app_length in E. constructor; [apply put_same; rewrite take_length; lia|]. apply IH. rewrite drop_length. lia.
Qed.
Lemma with_graph t bs : length bs = length (concat (tx_layers t)) -> graph_text (with_bytes t bs) = graph_text t.
Proof.
  intros E. pose proof (with_same t bs E) as H. unfold graph_text. change (head_text (with_bytes t bs)) with (head_text t).
  change (tx_mode (with_bytes t bs)) with (tx_mode t). change (tx_entry (with_bytes t bs)) with (tx_entry t).
  by rewrite (layers_text_same _ _ _ H), <- (Forall2_length _ _ _ H).
Qed.
Lemma with_data t rs : rs.*1 = tp_id <$> concat (tx_layers t) ->
  data_text (with_bytes t rs.*2) = u32_bytes 0xa67f0000 ++ u64_bytes (tx_dim t) ++ concat (rec_text <$> rs).
Proof.
  intros E. rewrite data_text_recs. cbn [tx_layers tx_dim with_bytes]. do 4 f_equal.
  pose proof (f_equal length E) as L. rewrite !fmap_length in L.
  rewrite redo_concat by (by rewrite fmap_length). clear L. revert rs E. induction (concat (tx_layers t)) as [|p ps IH]; intros [|[id b] rs] E; try done.
  cbn in *. injection E as -> E. unfold rec_of at 1. cbn. f_equal. by apply IH.
Qed.
Lemma with_fits t bs : length bs = length (concat (tx_layers t)) -> Forall (fun b : bytes => (N.of_nat (length b) < 2 ^ 64)%N) bs -> fits t -> fits (with_bytes t bs).
Proof.
  intros E Hb F. destruct F as [F1 F2 F3 F4 F5 F6 F7]. split; try done. intros ps' Hin. apply elem_of_list_lookup in Hin as [l Hl].
  cbn [tx_layers with_bytes] in Hl. assert (Hlt : (l < length (tx_layers t))%nat) by (rewrite <- (redo_length put_bytes (tx_layers t) bs); by eapply lookup_lt_Some).
  apply lookup_lt_is_Some_2 in Hlt as [ps Hps].
  destruct (redo_lookup put_bytes put_bytes (tx_layers t) (tx_layers t) bs l ps E) as (ps0 & bs' & _ & L1 & _ & Hsub & R1 & _); [|done|].
  { apply Forall_Forall2_diag. apply Forall_forall. done. }
  rewrite R1 in Hl. injection Hl as <-. destruct (F6 ps) as [G1 G2]; [by eapply elem_of_list_lookup_2|].
  rewrite zip_with_length_l by lia. split; [done|]. change (tx_mode (with_bytes t bs)) with (tx_mode t).
  apply Forall_lookup. intros r p' Hr. apply lookup_zip_with_Some in Hr as (p & b & -> & Hp & Hbb).
  apply (proj1 (Forall_lookup _ _)) with (i := r) (x := p) in G2 as (K1 & K2 & K3); [|done]. split; [done|]. split; [|done].
  apply (proj1 (Forall_forall _ _) Hb), Hsub. by eapply elem_of_list_lookup_2.
Qed.
Lemma with_sensible {T} (el : elem T) t bs : length bs = length (concat (tx_layers t)) -> sensible el t -> sensible el (with_bytes t bs).
Proof.
  intros E [S1 S2 S3 S4 S5 S6]. pose proof (with_same t bs E) as HS. pose proof (same_tp_concat _ _ HS) as HC.
  assert (Hback : forall p', p' ∈ concat (tx_layers (with_bytes t bs)) -> exists p, p ∈ concat (tx_layers t) /\ same_tp p p').
  { intros p' Hp'. apply elem_of_list_lookup in Hp' as [i Hi]. destruct (Forall2_lookup_r _ _ _ _ _ HC Hi) as (p & Hp & Hs). exists p. split; [by eapply elem_of_list_lookup_2|done]. }
  split; try done.
  - by rewrite <- (Forall2_length _ _ _ HS).
  - destruct S3 as [S3 S3']. split; [done|]. intros p' (p & Hp & _ & ->)%Hback. by apply S3'.
  - rewrite <- (Forall2_length _ _ _ HC). done.
  - intros p' l n (p & Hp & _ & El)%Hback Hl Hn. rewrite El in Hl. destruct (S5 p l n Hp Hl Hn) as [R1 R2]. split; [|done]. by eapply same_refers.
  - eapply same_refers; done.
Qed.
Definition put_vector {T} (el : elem T) (dim : nat) (pt : point (T:=T)) (b : bytes) : point := Point (dec_vec el dim b) (pt_oid pt) (pt_pid pt) (pt_nbs pt).
Lemma with_stands {T} so (el : elem T) inv_ln t h bs : length bs = length (concat (tx_layers t)) -> el_nodata el = false -> tx_version t <> 2%N ->
  Forall (fun b : bytes => (tx_dim t * N.of_nat (el_size el) <= N.of_nat (length b))%N) bs ->
  stands_for so el inv_ln t h -> stands_for so el inv_ln (with_bytes t bs) (set_layers (redo (put_vector el (N.to_nat (tx_dim t))) (points_by_layer h) bs) h).
Proof.
  intros E Hnd Hv Hb [G1 G2 G3 G4 G5 G6 G7 G8 G9 [GL G10]].
  pose proof (with_same t bs E) as HS.
  split; try done.
  - cbn [nb_point set_layers]. by rewrite G7, (Forall2_length _ _ _ (same_tp_concat _ _ HS)).
  - cbn [points_by_layer set_layers tx_layers with_bytes]. rewrite !redo_length. split; [done|]. intros l ps' Hl.
    assert (Hlt : (l < length (tx_layers t))%nat) by (rewrite <- (redo_length put_bytes (tx_layers t) bs); by eapply lookup_lt_Some).
    apply lookup_lt_is_Some_2 in Hlt as [ps Hps].
    destruct (redo_lookup put_bytes (put_vector el (N.to_nat (tx_dim t))) (tx_layers t) (points_by_layer h) bs l ps E) as (pts & bs' & Hpts & L1 & L2 & Hsub & R1 & R2); [|done|].
    { apply Forall2_same_length_lookup_2; [done|]. intros i x y Hx Hy. destruct (G10 i x Hx) as (y' & Hy' & Ey & _). congruence. }
    rewrite R1 in Hl. injection Hl as <-. exists (zip_with (put_vector el (N.to_nat (tx_dim t))) pts bs'). split; [done|].
    split; [rewrite !zip_with_length_l; lia|]. intros r p' Hr. apply lookup_zip_with_Some in Hr as (p & b & -> & Hp & Hbb).
    destruct (G10 l ps Hps) as (pts0 & Hpts0 & _ & HP). assert (pts0 = pts) as -> by congruence. destruct (HP r p Hp) as (pt & Hpt & _ & O1 & O2 & O3).
    exists (put_vector el (N.to_nat (tx_dim t)) pt b). split; [apply lookup_zip_with_Some; by exists pt, b|].
    split; [|by split]. unfold spelled. rewrite Hnd. cbn [tx_version with_bytes tx_dim put_bytes tp_bytes put_vector pt_data].
    rewrite (proj2 (N.eqb_neq _ _) Hv). split; [|done]. apply (proj1 (Forall_forall _ _) Hb), Hsub. by eapply elem_of_list_lookup_2.
Qed.

(** two indexes that stand for the same contents up to vectors *)
Lemma stands_same {T} so (el : elem T) inv_ln t t' h h' : same_text t t' -> stands_for so el inv_ln t h -> stands_for so el inv_ln t' h' ->
  datamap_opt h' = datamap_opt h -> same_but_vectors h h'.
Proof.
  intros [Sv Smode Sm Ssc Sli Sef Sc Sdim Sdi Sty Sly Sen] G G' Ed. split.
  - destruct G as [A1 A2 A3 A4 A5 A6 A7 A8 A9 _], G' as [B1 B2 B3 B4 B5 B6 B7 B8 B9 _].
    pose proof (Forall2_length _ _ _ (same_tp_concat _ _ Sly)) as EL.
    assert (sc : level_scale h' = level_scale h).
    { rewrite A6, B6, Sm, Sv. destruct (tx_version t =? 4)%N eqn:E; [|done]. apply N.eqb_eq in E. by rewrite Ssc. }
    destruct h, h'. cbn in *. unfold set_layers. cbn. f_equal; congruence.
  - destruct (sf_layers _ _ _ _ _ G) as [L1 P1], (sf_layers _ _ _ _ _ G') as [L2 P2]. apply Forall2_same_length_lookup_2.
    { rewrite L1, L2. by apply Forall2_length in Sly. }
    intros l pts pts' Hl Hl'. destruct (lookup_lt_is_Some_2 (tx_layers t) l) as [ps Hps]; [rewrite <- L1; by eapply lookup_lt_Some|].
    destruct (Forall2_lookup_l _ _ _ _ _ Sly Hps) as (ps' & Hps' & HF).
    destruct (P1 l ps Hps) as (q & Hq & E1 & R1). destruct (P2 l ps' Hps') as (q' & Hq' & E2 & R2).
    assert (q = pts) as -> by congruence. assert (q' = pts') as -> by congruence. pose proof (Forall2_length _ _ _ HF) as E3.
    apply Forall2_same_length_lookup_2; [lia|]. intros r pt pt' Hr Hr'.
    destruct (lookup_lt_is_Some_2 ps r) as [p Hp]; [rewrite <- E1; by eapply lookup_lt_Some|].
    destruct (Forall2_lookup_l _ _ _ _ _ HF Hp) as (p' & Hp' & Ei & El).
    destruct (R1 r p Hp) as (x & Hx & _ & A1 & A2 & A3). destruct (R2 r p' Hp') as (x' & Hx' & _ & B1 & B2 & B3).
    assert (x = pt) as -> by congruence. assert (x' = pt') as -> by congruence. split; [congruence|]. split; [congruence|].
    by rewrite A3, B3, El, Sli.
Qed.
(** the k-th point of the index stands for the k-th of the contents *)
Lemma stands_concat {T} so (el : elem T) inv_ln t h : stands_for so el inv_ln t h ->
  Forall2 (fun p pt => spelled el (tx_version t) (tx_dim t) (tp_bytes p) (pt_data pt) /\ pt_oid pt = tp_id p) (concat (tx_layers t)) (concat (points_by_layer h)).
Proof.
  intros G. destruct (sf_layers _ _ _ _ _ G) as [L P].
  assert (H : Forall2 (Forall2 (fun p pt => spelled el (tx_version t) (tx_dim t) (tp_bytes p) (pt_data pt) /\ pt_oid pt = tp_id p)) (tx_layers t) (points_by_layer h)).
  { apply Forall2_same_length_lookup_2; [done|]. intros l ps pts Hl Hl'. destruct (P l ps Hl) as (q & Hq & E & R). assert (q = pts) as -> by congruence.
    apply Forall2_same_length_lookup_2; [done|]. intros r p pt Hr Hr'. destruct (R r p Hr) as (x & Hx & A & B & _). assert (x = pt) as -> by congruence. done. }
  clear -H. induction H; [constructor|]. cbn [concat]. by apply Forall2_app.
Qed.
