(** The index once every thread has returned. *)
From Verif Require Import Prelude Model Lib Table SearchProofs SelectProofs InsertProofs QueryProofs IterProofs Spec SpecProofs
  Conc SpecConc ConcSafe ConcSafe2 ConcSafe3 ConcSafe4 ConcGlobal.

Section End.
Context {T : Type} (dist : list T -> list T -> Z) (so : StdOps).
Context (LAWS : StdLaws so) (Hnn : forall a b, (0 <= dist a b)%Z).
Context (h0 : hnsw (T:=T)) (ts : list (task (T:=T))).
Implicit Types (h : hnsw (T:=T)) (p np ep : pid) (ph : phase) (phs : list phase)
  (t : task (T:=T)) (c : config (T:=T)).

(** a task and the phase in which its thread ends *)
Definition ended h t ph : Prop :=
  match t with
  | TInsert v id _ => exists p, own ph = Some p /\ static h p = Some (v, id, p) /\ started ph = true /\ counted ph = true
  | _ => ph = P0
  end.

Lemma finished_length c phs rs : Glob dist h0 ts c phs -> finished c rs -> length rs = length ts.
Proof. intros G Hf. rewrite <- (g_len2 _ _ _ _ _ G), Hf. by rewrite fmap_length. Qed.

Lemma glob_ended c phs rs :
  Glob dist h0 ts c phs -> finished c rs -> Forall2 (ended (c_sh c)) ts phs.
Proof.
  intros G Hf. apply Forall2_same_length_lookup_2; [symmetry; by eapply g_len1|].
  intros i t ph Ht Hph.
  destruct (lookup_lt_is_Some_2 rs i) as [r Hr].
  { rewrite (finished_length c phs rs G Hf). by eapply lookup_lt_Some. }
  destruct (glob_end dist h0 ts c phs G rs i t r Hf Ht Hr) as (ph' & Hph' & HP).
  rewrite Hph in Hph'. injection Hph' as <-.
  pose proof (g_ph _ _ _ _ _ G i t ph Ht Hph) as Hok.
  destruct t as [v id d|q k efa flt| |]; simpl in *.
  - destruct HP as (np & -> & [(-> & _)|(-> & _)]); exists np; simpl in *; split_and!; auto; apply Hok.
  - by destruct HP as (ns & _ & -> & _).
  - by destruct HP as (pts & _ & -> & _).
  - by destruct HP as (x & _ & -> & _).
Qed.

Lemma ended_count (f : phase -> bool) h tl phs :
  (f = started \/ f = counted) -> Forall2 (ended h) tl phs -> count f phs = length (inserts tl).
Proof.
  intros Hf. induction 1 as [|t ph tl phs He _ IH]; [done|]. unfold count in *. rewrite filter_cons.
  destruct t as [v id d|q k efa flt| |]; csimpl.
  - destruct He as (p & _ & _ & Es & Ec). destruct (decide _) as [_|Hn].
    + csimpl. by rewrite IH.
    + exfalso. apply Hn. destruct Hf as [-> | ->]; [by rewrite Es|by rewrite Ec].
  - simpl in He. subst ph. destruct (decide _) as [Hy|_]; [|done]. by destruct Hf as [-> | ->].
  - simpl in He. subst ph. destruct (decide _) as [Hy|_]; [|done]. by destruct Hf as [-> | ->].
  - simpl in He. subst ph. destruct (decide _) as [Hy|_]; [|done]. by destruct Hf as [-> | ->].
Qed.

Lemma ended_stored h tl phs :
  Forall2 (ended h) tl phs -> omap (fun p => fst <$> static h p) (omap own phs) = inserts tl.
Proof.
  induction 1 as [|t ph tl phs He _ IH]; [done|]. destruct t as [v id d|q k efa flt| |]; csimpl.
  - destruct He as (p & -> & Hs & _). csimpl. rewrite Hs. csimpl. by rewrite IH.
  - simpl in He. subst ph. done.
  - simpl in He. subst ph. done.
  - simpl in He. subst ph. done.
Qed.

Lemma own_NoDup phs :
  (forall i j a b p, phs !! i = Some a -> phs !! j = Some b -> own a = Some p -> own b = Some p -> i = j) ->
  NoDup (omap own phs).
Proof.
  induction phs as [|a phs IH]; intros H; csimpl; [constructor|].
  assert (IH' : NoDup (omap own phs)).
  { apply IH. intros i j x y p Hx Hy E1 E2. by specialize (H (S i) (S j) x y p Hx Hy E1 E2) as [= ->]. }
  destruct (own a) as [p|] eqn:E; [|done]. constructor; [|done].
  intros (b & Hb & Eb)%elem_of_list_omap. apply elem_of_list_lookup in Hb as [j Hj].
  by specialize (H 0 (S j) a b p eq_refl Hj E Eb).
Qed.

Lemma glob_pids c phs :
  Glob dist h0 ts c phs ->
  pids_from 0 (points_by_layer (c_sh c)) ≡ₚ pids_from 0 (points_by_layer h0) ++ omap own phs.
Proof.
  intros G. apply NoDup_Permutation.
  - apply NoDup_pids_from.
  - apply NoDup_app. split; [apply NoDup_pids_from|]. split; [|apply own_NoDup; by eapply g_dist].
    intros p Hp (a & Ha & E)%elem_of_list_omap. apply elem_of_pids in Hp.
    apply elem_of_list_lookup in Ha as [i Hi]. by apply (g_new _ _ _ _ _ G i a p Hi E).
  - intros p. rewrite elem_of_app, !elem_of_pids, elem_of_list_omap. split.
    + intros Hv. destruct (g_cover _ _ _ _ _ G p Hv) as [?|(i & a & Hi & E)]; [by left|].
      right. exists a. split; [by eapply elem_of_list_lookup_2|done].
    + intros [Hv|(a & Ha & E)]; [eapply grows_valid; [by eapply g_grows|done]|].
      apply elem_of_list_lookup in Ha as [i Hi].
      destruct (lookup_lt_is_Some_2 ts i) as [t Ht]; [rewrite <- (g_len1 _ _ _ _ _ G); by eapply lookup_lt_Some|].
      eapply ph_ok_valid; [eapply (g_ph _ _ _ _ _ G); eauto|done].
Qed.

Lemma glob_stored c phs rs :
  Glob dist h0 ts c phs -> finished c rs -> stored (c_sh c) ≡ₚ stored h0 ++ inserts ts.
Proof.
  intros G Hf. pose proof (glob_ended _ _ _ G Hf) as He. rewrite !stored_static.
  rewrite (glob_pids c phs G), omap_app. rewrite <- (ended_stored _ _ _ He). f_equiv.
  match goal with |- ?a ≡ₚ ?b => replace a with b; [done|] end. apply list_omap_ext.
  apply Forall2_same_length_lookup_2; [done|]. intros i a b Ha Hb. rewrite Ha in Hb. injection Hb as <-.
  apply elem_of_list_lookup_2, elem_of_pids in Ha as [pt Hpt].
  assert (Hs : static h0 a = Some (pt_data pt, pt_oid pt, pt_pid pt)) by (unfold static; by rewrite Hpt).
  rewrite Hs. by rewrite (static_grows _ _ _ _ (g_grows _ _ _ _ _ G) Hs).
Qed.

Lemma glob_counts c phs rs :
  Glob dist h0 ts c phs -> finished c rs ->
  nb_point (c_sh c) = (nb_point h0 + length (inserts ts))%nat /\
  table_size (c_sh c) = (table_size h0 + length (inserts ts))%nat.
Proof.
  intros G Hf. pose proof (glob_ended _ _ _ G Hf) as He.
  rewrite (g_nb _ _ _ _ _ G), (g_size _ _ _ _ _ G).
  rewrite !(ended_count _ (c_sh c) ts phs) by auto. done.
Qed.

Lemma glob_results c phs rs i v id d :
  Glob dist h0 ts c phs -> finished c rs -> ts !! i = Some (TInsert v id d) ->
  exists np, rs !! i = Some (RInserted np) /\ static (c_sh c) np = Some (v, id, np) /\ ~ valid h0 np /\
    exists ph, phs !! i = Some ph /\ own ph = Some np.
Proof.
  intros G Hf Ht.
  destruct (lookup_lt_is_Some_2 rs i) as [r Hr].
  { rewrite (finished_length c phs rs G Hf). by eapply lookup_lt_Some. }
  destruct (glob_end dist h0 ts c phs G rs i _ r Hf Ht Hr) as (ph & Hph & np & -> & HP).
  pose proof (g_ph _ _ _ _ _ G i _ ph Ht Hph) as Hok.
  exists np. split; [done|].
  assert (Ho : own ph = Some np) by (destruct HP as [(-> & _)|(-> & _)]; done).
  split_and!; eauto.
  - destruct HP as [(-> & _)|(-> & _)]; apply Hok.
  - by eapply (g_new _ _ _ _ _ G).
Qed.

Lemma glob_lwf c phs rs :
  lwf dist h0 -> Glob dist h0 ts c phs -> finished c rs -> lwf dist (c_sh c).
Proof.
  intros Hwf G Hf. pose proof (g_inv _ _ _ _ _ G) as Hi.
  destruct (glob_counts c phs rs G Hf) as [Hn Hs].
  constructor.
  - apply Hi.
  - rewrite Hn, Hs. by rewrite (l_count _ _ Hwf).
  - destruct (entry_point (c_sh c)) as [ep|] eqn:Eep.
    { apply (v_pub _ _ _ _ _ Hi). by apply (v_entry _ _ _ _ _ Hi). }
    assert (E0 : nb_point h0 = 0%nat).
    { destruct (nb_point h0) eqn:E; [done|]. destruct (v_ent _ _ _ _ _ Hi); [unfold nb0; lia|done]. }
    destruct (inserts ts) as [|x xs] eqn:Ei.
    { rewrite Hs, <- (l_count _ _ Hwf), E0. done. }
    exfalso. assert (Hx : x ∈ inserts ts) by (rewrite Ei; by left).
    apply elem_of_list_omap in Hx as ([v id d|q k efa flt| |] & Ht & Hx); try done.
    apply elem_of_list_lookup in Ht as [i Ht].
    destruct (lookup_lt_is_Some_2 rs i) as [r Hr].
    { rewrite (finished_length c phs rs G Hf). by eapply lookup_lt_Some. }
    destruct (glob_end dist h0 ts c phs G rs i _ r Hf Ht Hr) as (ph & Hph & np & -> & HP).
    destruct HP as [(_ & (ep & ? & _) & _)|(_ & _ & ep & ?)]; congruence.
Qed.

Lemma glob_wf_first c phs rs :
  lwf dist h0 -> Glob dist h0 ts c phs -> finished c rs ->
  (exists ep, entry_point (c_sh c) = Some ep /\ forall p, valid (c_sh c) p -> (p.1 <= ep.1)%nat) -> wf dist (c_sh c).
Proof.
  intros Hwf G Hf (ep & Eep & Hmax). destruct (glob_lwf c phs rs Hwf G Hf) as [L1 L2 L3].
  constructor; auto. rewrite Eep in L3 |- *. done.
Qed.

Lemma glob_wf c phs rs :
  wf dist h0 -> (0 < nb_point h0)%nat -> Glob dist h0 ts c phs -> finished c rs -> wf dist (c_sh c).
Proof.
  intros Hwf H0 G Hf. pose proof (g_inv _ _ _ _ _ G) as Hi.
  destruct (glob_counts c phs rs G Hf) as [Hn Hs].
  constructor.
  - apply Hi.
  - rewrite Hn, Hs. by rewrite (w_count _ _ Hwf).
  - pose proof (v_ent _ _ _ _ _ Hi H0) as Hent. destruct (entry_point (c_sh c)) as [ep|] eqn:Eep; [|done].
    split; [apply (v_pub _ _ _ _ _ Hi); by apply (v_entry _ _ _ _ _ Hi)|].
    intros p Hp. destruct (g_cover _ _ _ _ _ G p Hp) as [Hv|(i & a & Hia & Ho)].
    + pose proof (w_entry _ _ Hwf) as He0. pose proof (w_count _ _ Hwf) as Hc0.
      destruct (entry_point h0) as [ep0|] eqn:E0; [|lia].
      destruct He0 as [_ Hmax]. destruct (g_entry _ _ _ _ _ G ep0 E0) as (ep' & He' & ?).
      rewrite Eep in He'. injection He' as <-. specialize (Hmax p Hv). lia.
    + destruct (lookup_lt_is_Some_2 ts i) as [t Ht]; [rewrite <- (g_len1 _ _ _ _ _ G); by eapply lookup_lt_Some|].
      destruct (lookup_lt_is_Some_2 rs i) as [r Hr].
      { rewrite (finished_length c phs rs G Hf). by eapply lookup_lt_Some. }
      destruct (glob_end dist h0 ts c phs G rs i t r Hf Ht Hr) as (ph & Hph & HP).
      rewrite Hia in Hph. injection Hph as <-.
      destruct t as [v id d|q k efa flt| |]; simpl in HP.
      * destruct HP as (np & -> & [(-> & (ep' & He' & Hle) & _)|(_ & Hz)]); [|destruct Hz as [Hz _]; unfold nb0 in Hz; lia].
        simpl in Ho. injection Ho as <-. rewrite Eep in He'. injection He' as <-. done.
      * by destruct HP as (ns & _ & -> & _).
      * by destruct HP as (pts & _ & -> & _).
      * by destruct HP as (x & _ & -> & _).
Qed.

(** a thread that has returned, the others still running *)
Lemma glob_returned c phs i t r :
  Glob dist h0 ts c phs -> ts !! i = Some t -> returned c i r ->
  exists ph, phs !! i = Some ph /\ Post dist h0 t ph r (c_sh c).
Proof.
  intros G Ht Hr. destruct (lookup_lt_is_Some_2 phs i) as [ph Hph].
  { rewrite (g_len1 _ _ _ _ _ G). by eapply lookup_lt_Some. }
  exists ph. split; [done|]. by destruct (glob_halt dist h0 ts c phs G i _ t ph Ht Hph Hr) as (r' & [= <-] & ?).
Qed.

(** ** What can be observed *)
Lemma layer_point_pt h p pt : core dist h -> layer_point h p pt <-> get_pt h p = Some pt.
Proof.
  intros Hc. unfold layer_point. rewrite iter_layer_spec. split.
  - intros (pts & Hi & Hin & Hp). destruct (points_by_layer h !! p.1) as [ly|] eqn:E; [|done]. injection Hi as <-.
    apply elem_of_list_lookup in Hin as [s Hs].
    assert (Hg : get_pt h (p.1, s) = Some pt) by (apply get_pt_lookup; eauto).
    destruct (c_pt _ _ Hc _ _ Hg) as [Hpid _]. rewrite Hp in Hpid. by rewrite Hpid.
  - intros Hp. pose proof Hp as Hp'. apply get_pt_lookup in Hp' as (ly & E & Hs). rewrite E. exists ly.
    split; [done|]. split; [by eapply elem_of_list_lookup_2|]. by destruct (c_pt _ _ Hc _ _ Hp).
Qed.

Lemma layer_neighbours_pt h p l ns : core dist h ->
  layer_neighbours h p l ns <-> exists pt nbs, get_pt h p = Some pt /\ pt_nbs pt !! l = Some nbs /\
      Forall2 (fun n (a : neighbour) => p_id a = n_pid n /\ distance a = n_dist n /\
                 exists q0 : point, get_pt h (n_pid n) = Some q0 /\ d_id a = pt_oid q0) nbs ns.
Proof.
  intros Hc. unfold layer_neighbours. split.
  - intros (pt & lists & Hpt & Hg & Hl). apply layer_point_pt in Hpt; [|done].
    destruct (nbhd_ok_core dist h p pt Hc Hpt) as (lists' & Hg' & _ & Hspec). rewrite Hg in Hg'. injection Hg' as <-.
    apply Hspec in Hl as (nbs & ? & ?). eauto.
  - intros (pt & nbs & Hpt & Hn & HF). destruct (nbhd_ok_core dist h p pt Hc Hpt) as (lists & Hg & _ & Hspec).
    exists pt, lists. split; [by apply layer_point_pt|]. split; [done|]. apply Hspec. eauto.
Qed.

Lemma layers_all h : core dist h ->
  Forall2 (fun l pts => iter_layer h l = Ok pts) (seq 0 (max_layer h)) (points_by_layer h).
Proof.
  intros Hc. apply Forall2_same_length_lookup_2; [by rewrite seq_length, (c_len _ _ Hc)|].
  intros i l pts Hl Hp. apply lookup_seq in Hl as [-> _]. by rewrite iter_layer_spec, Nat.add_0_l, Hp.
Qed.

Lemma contents_stored h xs : core dist h -> contents h xs <-> xs = stored h.
Proof.
  intros Hc. unfold contents, stored, all_points. pose proof (layers_all h Hc) as Hl. split.
  - intros (ls & HF & ->). do 2 f_equal. clear -Hl HF. revert HF Hl. generalize (points_by_layer h).
    intros l2 HF. revert l2. induction HF as [|n x ns xs E HF IH]; intros l2 Hl; inversion Hl; subst; [done|].
    f_equal; [congruence|]. by apply IH.
  - intros ->. eauto.
Qed.

(** ** Summary *)
Context (Hwf : lwf dist h0) (Hml : (0 < max_layer h0)%nat) (Hok : Forall (may_run h0) ts).

Lemma during_glob c : during dist so h0 ts c -> exists phs, Glob dist h0 ts c phs.
Proof. intros Hd. by eapply glob_reach. Qed.

Lemma after_glob h rs : after dist so h0 ts h rs -> exists c phs, Glob dist h0 ts c phs /\ finished c rs /\ c_sh c = h.
Proof. intros (c & Hd & Hf & E). destruct (during_glob c Hd) as [phs G]. eauto. Qed.

Lemma after_lwf h rs :
  after dist so h0 ts h rs ->
  lwf dist h /\ max_layer h = max_layer h0 /\ max_nb_connection h = max_nb_connection h0 /\
  ef_construction h = ef_construction h0 /\ stored h ≡ₚ stored h0 ++ inserts ts /\
  nb_point h = (nb_point h0 + length (inserts ts))%nat.
Proof.
  intros Ha. destruct (after_glob h rs Ha) as (c & phs & G & Hf & <-).
  destruct (g_params _ _ _ _ _ G) as (P1' & P2' & _ & _ & P5 & _).
  split_and!; auto.
  - by eapply glob_lwf.
  - by eapply glob_stored.
  - by eapply glob_counts.
Qed.

Lemma after_wf h rs :
  (wf dist h0 /\ 0 < nb_point h0)%nat \/
  (exists ep, entry_point h = Some ep /\ forall p, valid h p -> (p.1 <= ep.1)%nat) -> after dist so h0 ts h rs ->
  wf dist h /\ max_layer h = max_layer h0 /\ max_nb_connection h = max_nb_connection h0 /\
  ef_construction h = ef_construction h0 /\ stored h ≡ₚ stored h0 ++ inserts ts /\
  nb_point h = (nb_point h0 + length (inserts ts))%nat.
Proof.
  intros H0 Ha. split; [|by apply after_lwf in Ha as [_ ?]].
  destruct (after_glob h rs Ha) as (c & phs & G & Hf & <-).
  destruct H0 as [[? ?]|?]; [by eapply glob_wf|by eapply glob_wf_first].
Qed.

End End.
