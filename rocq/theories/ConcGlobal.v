(** From the safety of each thread to the safety of every interleaving. *)
From stdpp Require Import relations.
From Verif Require Import Prelude Model Lib Table SearchProofs SelectProofs InsertProofs QueryProofs IterProofs
  Conc SpecConc ConcSafe ConcSafe2 ConcSafe3 ConcSafe4.

Global Instance lmode_eq_dec : EqDecision lmode.
Proof. solve_decision. Defined.

(** number of occurrences *)
Fixpoint occ {A} `{EqDecision A} (x : A) (l : list A) : nat :=
  match l with [] => 0 | y :: l => (if decide (x = y) then 1 else 0) + occ x l end.

Lemma occ_elem {A} `{EqDecision A} (x : A) l : x ∈ l <-> (0 < occ x l)%nat.
Proof.
  induction l as [|y l IH]; simpl; [rewrite elem_of_nil; lia|]. rewrite elem_of_cons. destruct (decide (x = y)) as [->|Hn].
  - split; [lia|by left].
  - rewrite IH. split; [intros [?|?]; [done|lia]|]. intros. right. lia.
Qed.
Lemma occ_remove_one i j l : occ j (remove_one i l) = (occ j l - (if decide (j = i) then 1 else 0))%nat.
Proof.
  induction l as [|k l IH]; simpl; [lia|].
  destruct (decide (k = i)) as [->|Hk]; simpl.
  - destruct (decide (j = i)); lia.
  - rewrite IH. destruct (decide (j = i)) as [->|]; [|lia]. destruct (decide (i = k)); [congruence|lia].
Qed.
Lemma remove_one_nil i l : l = [] -> remove_one i l = [].
Proof. by intros ->. Qed.

Section Global.
Context {T : Type} (dist : list T -> list T -> Z) (so : StdOps).
Context (LAWS : StdLaws so) (Hnn : forall a b, (0 <= dist a b)%Z).
(** the index at the start and what the threads do *)
Context (h0 : hnsw (T:=T)) (ts : list (task (T:=T))).
Implicit Types (h : hnsw (T:=T)) (p np ep : pid) (pub : pid -> Prop) (ph : phase) (phs : list phase)
  (t : task (T:=T)) (c : config (T:=T)).

Definition nb0 : nat := nb_point h0.
(** the levels of the points being inserted *)
Definition new_level (l : nat) : Prop :=
  exists v id d, TInsert v id d ∈ ts /\ generate (level_scale h0) (max_layer h0) d = Ok l.
Definition N : bnd := Bnd (table_size h0 + length ts)%nat new_level.

Definition tdata t : list T := match t with TInsert d _ _ => d | _ => [] end.
Definition toid t : dataid := match t with TInsert _ o _ => o | _ => 0%N end.

Definition Post t ph (r : tres (T:=T)) h : Prop :=
  match t with
  | TInsert _ _ _ => exists np, r = RInserted np /\ Inserted nb0 np ph h
  | TSearch q k efa filter => exists ns, r = RFound ns /\ ph = P0 /\ Sound dist nb0 q k filter h ns
  | TIterate => exists pts, r = RPoints pts /\ ph = P0 /\ Listed h0 h pts
  | TDump => exists d, r = RDumped d /\ ph = P0 /\ Snap dist nb0 h0 h d
  end.

(** the points known to all *)
Definition Pub phs p : Prop := valid h0 p \/ exists i, phs !! i = Some (P3 p).

Definition started ph : bool := match ph with P0 => false | _ => true end.
Definition counted ph : bool := match ph with P0 | P1 _ => false | _ => true end.
Definition count (f : phase -> bool) phs : nat := length (filter (fun ph => Is_true (f ph)) phs).

(** how each task takes its locks *)
Context (md : task (T:=T) -> dmode).

(** [phs]: the phase of each thread; [hds]: the locks it holds; [Bs]: what it knows of the order in which the points became
    known; [ord]: the new points that are known, in that order *)
Record GlobX c phs (hds : list held) (Bs : list (pid -> pid -> Prop)) (ord : list pid) : Prop := {
  x_len1 : length phs = length ts;
  x_len2 : length (c_threads c) = length ts;
  x_inv : Inv dist N nb0 (c_sh c) (Pub phs);
  x_len3 : length hds = length ts;
  x_len4 : length Bs = length ts;
  x_wp : forall i t ph pr hd B, ts !! i = Some t -> phs !! i = Some ph -> c_threads c !! i = Some pr ->
    hds !! i = Some hd -> Bs !! i = Some B ->
    wpg dist N nb0 (tdata t) (toid t) (md t) [] hd B ph pr (fun ph' r h' _ => Post t ph' r h') (c_sh c) (Pub phs);
  x_rd : forall l i, occ i (lk_readers (c_locks c l)) = occ (Rd, l) (default [] (hds !! i));
  x_wr : forall l i, occ (Wr, l) (default [] (hds !! i)) = if decide (lk_writer (c_locks c l) = Some i) then 1 else 0;
  x_ex : forall l i, lk_writer (c_locks c l) = Some i ->
    (exists k, c_threads c !! i = Some (Pend l k)) \/ lk_readers (c_locks c l) = [];
  x_ord : forall p, p ∈ ord <-> exists i, phs !! i = Some (P3 p);
  x_ordnd : NoDup ord;
  x_B : forall i (B : pid -> pid -> Prop) p q, Bs !! i = Some B -> B p q -> exists a b, ord = a ++ p :: b /\ (valid h0 q \/ q ∈ a);
  x_ph : forall i t ph, ts !! i = Some t -> phs !! i = Some ph -> ph_ok (tdata t) (toid t) ph (c_sh c) (Pub phs);
  x_dist : forall i j a b p, phs !! i = Some a -> phs !! j = Some b -> own a = Some p -> own b = Some p -> i = j;
  x_new : forall i a p, phs !! i = Some a -> own a = Some p -> ~ valid h0 p;
  x_cover : forall p, valid (c_sh c) p -> valid h0 p \/ exists i a, phs !! i = Some a /\ own a = Some p;
  x_grows : grows h0 (c_sh c);
  x_params : params h0 (c_sh c);
  x_entry : entry_mono h0 (c_sh c);
  x_ne : ne_mono h0 (c_sh c);
  x_size : table_size (c_sh c) = (table_size h0 + count started phs)%nat;
  x_nb : nb_point (c_sh c) = (nb0 + count counted phs)%nat;
  x_start : (nb0 <= table_size h0)%nat;
  x_quiet : forall i t ph, ts !! i = Some t -> phs !! i = Some ph -> ph = P0 \/ writes (md t)
}.

Lemma count_le f phs : (count f phs <= length phs)%nat.
Proof. apply filter_length. Qed.

Lemma count_insert f phs i a b : phs !! i = Some a ->
  (count f (<[i := b]> phs) + (if f a then 1 else 0) = count f phs + (if f b then 1 else 0))%nat.
Proof.
  intros H. rewrite <- (take_drop_middle phs i a H) at 2. rewrite insert_take_drop by (by eapply lookup_lt_Some).
  unfold count. rewrite !filter_app, !app_length, !filter_cons.
  destruct (f a), (f b); repeat case_decide; simpl in *; try done; lia.
Qed.

Lemma counted_started phs : (count counted phs <= count started phs)%nat.
Proof.
  unfold count. induction phs as [|ph phs IH]; [done|]. rewrite !filter_cons.
  destruct ph; simpl; repeat case_decide; simpl in *; try done; lia.
Qed.

Lemma kind_P3 data oid ph h ph' h' p : kind data oid ph h ph' h' -> ph = P3 p -> ph' = P3 p.
Proof. intros [[->|(q & -> & _)]| |] E; congruence. Qed.

(** the phases after a step of thread [i] *)
Lemma Pub_insert data oid phs i ph h ph' h' :
  phs !! i = Some ph -> kind data oid ph h ph' h' ->
  forall p, Pub (<[i := ph']> phs) p <-> pubadd (Pub phs) ph' p.
Proof.
  intros Hi Hk p. unfold Pub, pubadd. pose proof (lookup_lt_Some _ _ _ Hi) as Hlt. split.
  - intros [Hv|(j & Hj)]; [by left; left|]. destruct (decide (i = j)) as [<-|Hne].
    + rewrite list_lookup_insert in Hj by done. injection Hj as ->. by right.
    + rewrite list_lookup_insert_ne in Hj by done. left. right. eauto.
  - intros [[Hv|(j & Hj)]| ->].
    + by left.
    + right. exists j. destruct (decide (i = j)) as [<-|Hne].
      * rewrite list_lookup_insert by done. f_equal. eapply kind_P3; [done|]. congruence.
      * by rewrite list_lookup_insert_ne.
    + right. exists i. by rewrite list_lookup_insert.
Qed.

Lemma ph_ok_ext data oid ph h pub pub' :
  (forall p, pub p <-> pub' p) -> ph_ok data oid ph h pub -> ph_ok data oid ph h pub'.
Proof. intros E. destruct ph; simpl; rewrite ?E; auto. Qed.

Lemma rely_ext data oid ph h pub pub' :
  (forall p, pub p <-> pub' p) -> ok dist N nb0 data oid ph h pub -> rely dist N nb0 data oid ph h pub h pub'.
Proof.
  intros E Ho. constructor; auto using grows_refl, params_refl, entry_mono_refl, ne_mono_refl.
  - eapply Inv_ext; [exact E|]. apply Ho.
  - eapply ph_ok_ext; [exact E|]. apply Ho.
  - intros p. by rewrite E.
Qed.

Lemma kind_own data oid ph h ph' h' p : kind data oid ph h ph' h' -> own ph' = Some p ->
  own ph = Some p \/ (get_pt h p = None /\ ph = P0).
Proof.
  intros [[->|(q & -> & ->)] | |]; intros Ho.
  - by left.
  - by left.
  - subst. simpl in Ho. right. split; congruence.
  - subst. by left.
Qed.

Lemma static_valid h p s : static h p = Some s -> valid h p.
Proof. unfold static, valid. destruct (get_pt h p); [by eexists|done]. Qed.

Lemma ph_ok_valid data oid ph h pub p : ph_ok data oid ph h pub -> own ph = Some p -> valid h p.
Proof. destruct ph; simpl; intros H [= <-]; destruct H as [H _]; by eapply static_valid. Qed.

Lemma ord_step data oid phs ord i ph ph' h h' (B : pid -> pid -> Prop) :
  phs !! i = Some ph -> kind data oid ph h ph' h' ->
  (forall p, ph = P2 p -> ~ Pub phs p) ->
  (forall p, p ∈ ord <-> exists i, phs !! i = Some (P3 p)) -> NoDup ord ->
  (forall p q, B p q -> exists a b, ord = a ++ p :: b /\ (valid h0 q \/ q ∈ a)) ->
  exists ext, (forall p, p ∈ ord ++ ext <-> exists j, <[i := ph']> phs !! j = Some (P3 p)) /\ NoDup (ord ++ ext) /\
    forall p q, before ph ph' B (Pub phs) p q -> exists a b, ord ++ ext = a ++ p :: b /\ (valid h0 q \/ q ∈ a).
Proof.
  intros Hph Hk Hnp Hord Hnd HB. pose proof (lookup_lt_Some _ _ _ Hph) as Hlt.
  assert (Hcase : (exists p, ph = P2 p /\ ph' = P3 p) \/
    (forall p, ph' = P3 p <-> ph = P3 p) /\ forall p, ~ (ph = P2 p /\ ph' = P3 p)).
  { destruct Hk as [[->|(p & -> & ->)] _ _ _|p -> -> _|p -> -> _]; [right|left; eauto|right..]; split; try naive_solver. }
  destruct Hcase as [(p & -> & ->)|[E Hno]].
  - exists [p]. split; [|split].
    + intros p'. rewrite elem_of_app, elem_of_list_singleton, Hord. split.
      * intros [(j & Hj)| ->].
        -- exists j. rewrite list_lookup_insert_ne; [done|]. intros ->. congruence.
        -- exists i. by rewrite list_lookup_insert.
      * intros (j & Hj). destruct (decide (i = j)) as [<-|Hne].
        -- rewrite list_lookup_insert in Hj by done. injection Hj as <-. by right.
        -- rewrite list_lookup_insert_ne in Hj by done. left. eauto.
    + apply NoDup_app. split; [done|]. split; [|by apply NoDup_singleton].
      intros p' Hp' ->%elem_of_list_singleton. apply Hord in Hp' as (j & Hj). apply (Hnp p eq_refl). right. eauto.
    + intros p' q [Hb|([= ->] & _ & Hq)].
      * destruct (HB p' q Hb) as (a & b & -> & Hq). exists a, (b ++ [p]). by rewrite <- app_assoc.
      * exists ord, []. split; [done|]. destruct Hq as [?|(j & Hj)]; [by left|]. right. apply Hord. eauto.
  - exists []. rewrite app_nil_r. split; [|split; [done|]].
    + intros p. rewrite Hord. split; intros (j & Hj); exists j; destruct (decide (i = j)) as [<-|Hne].
      * rewrite list_lookup_insert by done. f_equal. apply E. congruence.
      * by rewrite list_lookup_insert_ne.
      * rewrite list_lookup_insert in Hj by done. injection Hj as Hj. rewrite Hph. f_equal. by apply E.
      * by rewrite list_lookup_insert_ne in Hj.
    + intros p q [Hb|(E1 & E2 & _)]; [eauto|]. exfalso. by eapply Hno.
Qed.

Lemma glob_do c phs hds Bs ord i t ph f k :
  GlobX c phs hds Bs ord -> ts !! i = Some t -> phs !! i = Some ph -> c_threads c !! i = Some (Do f k) ->
  exists phs' Bs' ord', GlobX (Config (f (c_sh c)) (c_locks c) (<[i := k (c_sh c)]> (c_threads c))) phs' hds Bs' ord'.
Proof.
  intros G Ht Hph Hpr. destruct G as [L1 L2 Gi L3 L4 Gwp Grd Gwr Gex Gord Gnd GB Gph Gd Gn Gc Gg Gp Ge Gne Gs Gnb Gst Gq].
  set (h := c_sh c) in *. set (pub := Pub phs) in *.
  pose proof (Gph i t ph Ht Hph) as Hphi.
  destruct (lookup_lt_is_Some_2 hds i) as [hd Hhd]; [rewrite L3; by eapply lookup_lt_Some|].
  destruct (lookup_lt_is_Some_2 Bs i) as [B HBi]; [rewrite L4; by eapply lookup_lt_Some|].
  pose proof (Gwp i t ph _ _ _ Ht Hph Hpr Hhd HBi) as Hwp. simpl in Hwp.
  destruct (Hwp h pub (rely_refl _ _ _ _ _ _ _ _ Gi Hphi) (stable_refl _ _)) as (ph' & Ha & [Hgu Hqu] & Hw). clear Hwp.
  set (h' := f h) in *. pose proof (a_kind _ _ _ _ _ _ _ _ _ _ Ha) as Hk.
  pose proof (Pub_insert _ _ _ _ _ _ _ _ Hph Hk) as Epub.
  pose proof (lookup_lt_Some _ _ _ Hph) as Hlt.
  pose proof (count_insert started phs i ph ph' Hph) as Cs.
  pose proof (count_insert counted phs i ph ph' Hph) as Cc.
  assert (Hsz' : table_size h' = (table_size h0 + count started (<[i := ph']> phs))%nat).
  { destruct Hk as [[->|(q & -> & ->)] ? E _|q -> -> ? E|q -> -> ? E]; simpl in *; try lia.
    - unfold table_size in *. rewrite E. simpl in *. lia. }
  assert (Hnb' : nb_point h' = (nb0 + count counted (<[i := ph']> phs))%nat).
  { destruct Hk as [[->|(q & -> & ->)] E _ _|q -> -> E|q -> -> E]; simpl in *; lia. }
  assert (HszN : bounded N h').
  { split.
    - rewrite Hsz'. unfold N. simpl. pose proof (count_le started (<[i := ph']> phs)). rewrite insert_length in *. lia.
    - rewrite Hsz', Hnb'. pose proof (counted_started (<[i := ph']> phs)). lia. }
  specialize (Hw HszN).
  pose proof (a_inv _ _ _ _ _ _ _ _ _ _ Ha HszN) as Hinv'.
  pose proof (a_ph _ _ _ _ _ _ _ _ _ _ Ha) as Hph'.
  assert (Hrelyi : rely dist N nb0 (tdata t) (toid t) ph' h' (pubadd pub ph') h' (Pub (<[i := ph']> phs))).
  { apply rely_ext; [intros p; by rewrite Epub|]. by apply rely_refl. }
  (* the other threads *)
  assert (Hother : forall j tj phj, ts !! j = Some tj -> phs !! j = Some phj -> j <> i ->
    rely dist N nb0 (tdata tj) (toid tj) phj h pub h' (Pub (<[i := ph']> phs))).
  { intros j tj phj Htj Hphj Hji. pose proof (Gph j tj phj Htj Hphj) as Hokj.
    constructor.
    - apply Hrelyi.
    - assert (Hnp : forall p, own phj = Some p -> ~ pub p -> ~ Pub (<[i := ph']> phs) p).
      { intros p Hop Hnp [Hp|E]%Epub; [done|]. destruct (kind_own _ _ _ _ _ _ p Hk) as [Ho|[Ho _]].
        - by rewrite E.
        - apply Hji. eapply Gd; eauto.
        - destruct (ph_ok_valid _ _ _ _ _ _ Hokj Hop) as [pt Hpt]. congruence. }
      assert (Hpp : forall p, pub p -> Pub (<[i := ph']> phs) p) by (intros p Hp; apply Epub; by left).
      assert (Hst : forall p s, static h p = Some s -> static h' p = Some s)
        by (intros p s; apply static_grows, Ha).
      destruct phj as [|p|p|p]; simpl in *; [done|..]; destruct Hokj as [? ?]; split; auto.
    - apply Ha.
    - apply Ha.
    - intros p Hp. apply Epub. by left.
    - apply Ha.
    - destruct Hk as [? -> ? ?|? ? ? -> ? ? ? ?|? ? ? -> ?]; lia.
    - apply Ha.
    - intros p Hop Hne. apply (a_other _ _ _ _ _ _ _ _ _ _ Ha).
      + by eapply ph_ok_valid.
      + destruct phj as [|p'|p'|p']; simpl in *; try congruence; destruct Hokj; congruence.
      + intros Ho. apply Hji. eapply Gd; eauto.
    - intros p l Hop Hnl. apply (a_low _ _ _ _ _ _ _ _ _ _ Ha); [by eapply ph_ok_valid| |done].
      intros Ho. apply Hji. eapply Gd; eauto. }
  assert (Hstab : forall j hdj, hds !! j = Some hdj -> stable hdj h h').
  { intros j hdj Hhdj Hin p Hp. destruct Hgu as (_ & Hgt & _). destruct (Hgt p Hp) as [?|Hwr]; [done|]. exfalso.
    apply occ_elem in Hin, Hwr. pose proof (Gwr LTable i) as E. rewrite Hhd in E. simpl in E.
    destruct (decide (lk_writer (c_locks c LTable) = Some i)) as [Hwi|_]; [|lia].
    destruct (Gex LTable i Hwi) as [(k' & Hk')|Hnil]; [congruence|].
    pose proof (Grd LTable j) as E2. rewrite Hnil, Hhdj in E2. simpl in E2. lia. }
  destruct (ord_step _ _ phs ord i ph ph' h h' B Hph Hk) as (ext & Eord & Hndo & HBo).
  { intros p ->. apply Hphi. } { done. } { done. } { intros p q. by eapply GB. }
  exists (<[i := ph']> phs), (<[i := before ph ph' B pub]> Bs), (ord ++ ext). constructor; simpl.
  - by rewrite insert_length.
  - by rewrite insert_length.
  - apply Hrelyi.
  - done.
  - by rewrite insert_length.
  - intros j tj phj pr hdj Bj Htj Hphj Hprj Hhdj HBj. destruct (decide (j = i)) as [->|Hji].
    + rewrite list_lookup_insert in Hphj by done. injection Hphj as <-.
      rewrite list_lookup_insert in Hprj by (rewrite L2, <- L1; done). injection Hprj as <-.
      rewrite list_lookup_insert in HBj by (rewrite L4, <- L1; done). injection HBj as <-.
      rewrite Hhd in Hhdj. injection Hhdj as <-.
      rewrite Ht in Htj. injection Htj as <-. eapply wp_rely; [exact Hrelyi|apply stable_refl|]. exact Hw.
    + rewrite list_lookup_insert_ne in Hphj by done. rewrite list_lookup_insert_ne in Hprj by done.
      rewrite list_lookup_insert_ne in HBj by done.
      eapply wp_rely; [eapply Hother; eauto|by eapply Hstab|]. eapply Gwp; eauto.
  - done.
  - done.
  - intros l j Hl. destruct (Gex l j Hl) as [(k' & Hk')|?]; [|by right]. left. exists k'.
    rewrite list_lookup_insert_ne; [done|]. intros ->. congruence.
  - done.
  - done.
  - intros j Bj p q HBj. destruct (decide (j = i)) as [->|Hji].
    + rewrite list_lookup_insert in HBj by (rewrite L4, <- L1; done). injection HBj as <-. apply HBo.
    + rewrite list_lookup_insert_ne in HBj by done. intros Hb. destruct (GB j Bj p q HBj Hb) as (a & b & -> & Hq).
      exists a, (b ++ ext). by rewrite <- app_assoc.
  - intros j tj phj Htj Hphj. destruct (decide (j = i)) as [->|Hji].
    + rewrite list_lookup_insert in Hphj by done. injection Hphj as <-.
      rewrite Ht in Htj. injection Htj as <-. apply Hrelyi.
    + rewrite list_lookup_insert_ne in Hphj by done. eapply Hother; eauto.
  - (* distinct points *)
    assert (Hcross : forall j b p, j <> i -> phs !! j = Some b -> own b = Some p -> own ph' = Some p -> False).
    { intros j b p Hji Hb Hob Ho. destruct (kind_own _ _ _ _ _ _ p Hk Ho) as [Ho'|[Ho' _]].
      - apply Hji. eapply Gd; eauto.
      - destruct (lookup_lt_is_Some_2 ts j) as [tj Htj]; [rewrite <- L1; by eapply lookup_lt_Some|].
        destruct (ph_ok_valid _ _ _ _ _ _ (Gph j tj b Htj Hb) Hob) as [pt Hpt]. congruence. }
    intros j1 j2 a b p Hj1 Hj2 Hoa Hob.
    destruct (decide (j1 = i)) as [->|H1], (decide (j2 = i)) as [->|H2]; [done|..].
    + rewrite list_lookup_insert in Hj1 by done. injection Hj1 as <-.
      rewrite list_lookup_insert_ne in Hj2 by done. exfalso. eauto.
    + rewrite list_lookup_insert in Hj2 by done. injection Hj2 as <-.
      rewrite list_lookup_insert_ne in Hj1 by done. exfalso. eauto.
    + rewrite list_lookup_insert_ne in Hj1 by done. rewrite list_lookup_insert_ne in Hj2 by done. eauto.
  - intros j a p Hj Ho Hv. destruct (decide (j = i)) as [->|Hji].
    + rewrite list_lookup_insert in Hj by done. injection Hj as <-.
      destruct (kind_own _ _ _ _ _ _ p Hk Ho) as [Ho'|[Ho' _]].
      * by eapply Gn.
      * destruct (grows_valid _ _ _ Gg Hv) as [pt Hpt]. congruence.
    + rewrite list_lookup_insert_ne in Hj by done. by eapply Gn.
  - intros p Hv.
    assert (Hold : valid h p -> valid h0 p \/ exists i0 a, <[i := ph']> phs !! i0 = Some a /\ own a = Some p).
    { intros Hvh. destruct (Gc p Hvh) as [?|(j & a & Hj & Ho)]; [by left|]. right.
      destruct (decide (j = i)) as [->|Hji].
      - rewrite Hph in Hj. injection Hj as <-. exists i, ph'. split; [by apply list_lookup_insert|].
        destruct Hk as [[->|(q & -> & ->)]|q -> ->|q -> ->]; done.
      - exists j, a. by rewrite list_lookup_insert_ne. }
    destruct Hk as [_ _ _ E|q -> -> _ _ _ _ E|q _ _ _ E].
    + apply Hold. destruct Hv as [pt Hpt]. specialize (E p). unfold static in E. rewrite Hpt in E.
      unfold valid. destruct (get_pt h p); [by eexists|done].
    + destruct (decide (p = q)) as [->|Hne].
      * right. exists i, (P1 q). split; [by apply list_lookup_insert|done].
      * apply Hold. unfold valid in *. by rewrite E in Hv.
    + apply Hold. unfold valid, get_pt in *. by rewrite E in Hv.
  - eapply grows_trans; [exact Gg|apply Ha].
  - eapply params_trans; [exact Gp|apply Ha].
  - eapply entry_mono_trans; [exact Ge|apply Ha].
  - eapply ne_mono_trans; [exact Gne|apply Ha].
  - done.
  - done.
  - done.
  - intros j tj phj Htj Hphj. destruct (decide (j = i)) as [->|Hji].
    + rewrite list_lookup_insert in Hphj by done. injection Hphj as <-.
      rewrite Ht in Htj. injection Htj as <-. destruct (Gq i t ph Ht Hph) as [E|?]; [|by right]. exact (Hqu E).
    + rewrite list_lookup_insert_ne in Hphj by done. by eapply Gq.
Qed.

(** the steps that only touch a lock *)
Lemma glob_lock c phs hds Bs ord i pr pr' hd hd' ls :
  GlobX c phs hds Bs ord -> c_threads c !! i = Some pr -> hds !! i = Some hd ->
  (forall t ph B, ok dist N nb0 (tdata t) (toid t) ph (c_sh c) (Pub phs) ->
     wpg dist N nb0 (tdata t) (toid t) (md t) [] hd B ph pr (fun ph' r h' _ => Post t ph' r h') (c_sh c) (Pub phs) ->
     wpg dist N nb0 (tdata t) (toid t) (md t) [] hd' B ph pr' (fun ph' r h' _ => Post t ph' r h') (c_sh c) (Pub phs)) ->
  (forall l j, occ j (lk_readers (ls l)) = occ (Rd, l) (default [] (<[i := hd']> hds !! j))) ->
  (forall l j, occ (Wr, l) (default [] (<[i := hd']> hds !! j)) = if decide (lk_writer (ls l) = Some j) then 1 else 0) ->
  (forall l j, lk_writer (ls l) = Some j -> (exists k, <[i := pr']> (c_threads c) !! j = Some (Pend l k)) \/ lk_readers (ls l) = []) ->
  GlobX (Config (c_sh c) ls (<[i := pr']> (c_threads c))) phs (<[i := hd']> hds) Bs ord.
Proof.
  intros [] Hpr Hhd Hw H1 H2 H3. constructor; simpl; auto.
  - by rewrite insert_length.
  - by rewrite insert_length.
  - intros j t ph q hdj B Ht Hph Hq Hh HB. destruct (decide (j = i)) as [->|Hji].
    + rewrite list_lookup_insert in Hq by (by eapply lookup_lt_Some). injection Hq as <-.
      rewrite list_lookup_insert in Hh by (by eapply lookup_lt_Some). injection Hh as <-. apply Hw; [|eauto]. apply rely_refl; eauto.
    + rewrite list_lookup_insert_ne in Hq by done. rewrite list_lookup_insert_ne in Hh by done. eauto.
Qed.

Lemma glob_step c phs hds Bs ord c' : GlobX c phs hds Bs ord -> cstep c c' ->
  exists phs' hds' Bs' ord', GlobX c' phs' hds' Bs' ord'.
Proof.
  intros G [i Hs]. unfold step in Hs. destruct (c_threads c !! i) as [pr|] eqn:Hpr; [|done]. simpl in Hs.
  pose proof (lookup_lt_Some _ _ _ Hpr) as Hlt. rewrite (x_len2 _ _ _ _ _ G) in Hlt.
  destruct (lookup_lt_is_Some_2 ts i Hlt) as [t Ht].
  destruct (lookup_lt_is_Some_2 phs i) as [ph Hph]; [by rewrite (x_len1 _ _ _ _ _ G)|].
  destruct (lookup_lt_is_Some_2 hds i) as [hd Hhd]; [by rewrite (x_len3 _ _ _ _ _ G)|].
  destruct (lookup_lt_is_Some_2 Bs i) as [B HB]; [by rewrite (x_len4 _ _ _ _ _ G)|].
  pose proof (lookup_lt_Some _ _ _ Hhd) as Hlth. pose proof (lookup_lt_Some _ _ _ Hpr) as Hltp.
  pose proof (x_wp _ _ _ _ _ G i t ph pr hd B Ht Hph Hpr Hhd HB) as Hwpi.
  pose proof (x_rd _ _ _ _ _ G) as Grd. pose proof (x_wr _ _ _ _ _ G) as Gwr. pose proof (x_ex _ _ _ _ _ G) as Gex.
  assert (Hat : forall hd' j, default [] (<[i := hd']> hds !! j) = if decide (j = i) then hd' else default [] (hds !! j)).
  { intros hd' j. destruct (decide (j = i)) as [->|]; [by rewrite list_lookup_insert|by rewrite list_lookup_insert_ne]. }
  assert (Hati : default [] (hds !! i) = hd) by (by rewrite Hhd).
  assert (Htn : forall q j, j <> i -> <[i := q]> (c_threads c) !! j = c_threads c !! j).
  { intros q j ?. by rewrite list_lookup_insert_ne. }
  destruct pr as [o|m l k|l k|m l k|f k]; [done|..].
  - (* Lock *)
    assert (Hnone : lk_writer (c_locks c l) = None) by (by destruct m, (lk_writer _)).
    exists phs, (<[i := (m, l) :: hd]> hds), Bs, ord. destruct m; rewrite Hnone in Hs; injection Hs as <-.
    + eapply (glob_lock c phs hds Bs ord i _ k hd ((Rd, l) :: hd)); eauto.
      * intros t' ph' B' Ho' [_ Hw]. exact (Hw _ _ Ho' (stable_refl _ _)).
      * intros l' j. rewrite Hat. unfold upd_lock. destruct (decide (l' = l)) as [->|Hl'].
        -- simpl. rewrite (Grd l j). destruct (decide (j = i)) as [->|]; [|lia]. simpl. rewrite Hati.
           destruct (decide ((Rd, l) = (Rd, l))); [lia|done].
        -- rewrite (Grd l' j). destruct (decide (j = i)) as [->|]; [|done]. simpl. rewrite Hati.
           destruct (decide ((Rd, l') = (Rd, l))); [congruence|lia].
      * intros l' j. rewrite Hat. unfold upd_lock. specialize (Gwr l' j).
        destruct (decide (j = i)) as [->|].
        -- simpl. destruct (decide ((Wr, l') = (Rd, l))) as [?|_]; [congruence|]. rewrite Hati in Gwr. rewrite Gwr.
           destruct (decide (l' = l)) as [->|]; simpl; [by rewrite Hnone|done].
        -- rewrite Gwr. destruct (decide (l' = l)) as [->|]; simpl; [by rewrite Hnone|done].
      * intros l' j. unfold upd_lock. destruct (decide (l' = l)) as [->|Hl']; simpl; [done|]. intros Hwj.
        destruct (Gex l' j Hwj) as [(k' & Hk')|?]; [|by right]. left. exists k'. rewrite Htn; [done|]. intros ->. congruence.
    + eapply (glob_lock c phs hds Bs ord i _ (Pend l k) hd ((Wr, l) :: hd)); eauto.
      * intros t' ph' B' Ho' [Hm Hw]. split; [|exact (Hw _ _ Ho' (stable_refl _ _))]. eauto.
      * intros l' j. rewrite Hat. unfold upd_lock.
        assert (E : occ j (lk_readers (if decide (l' = l) then Lk (lk_readers (c_locks c l)) (Some i) else c_locks c l')) =
          occ j (lk_readers (c_locks c l'))) by (destruct (decide (l' = l)) as [->|]; done).
        rewrite E, (Grd l' j). destruct (decide (j = i)) as [->|]; [|done]. simpl. rewrite Hati.
        destruct (decide ((Rd, l') = (Wr, l))); [congruence|lia].
      * intros l' j. rewrite Hat. unfold upd_lock. specialize (Gwr l' j).
        destruct (decide (l' = l)) as [->|Hl'].
        -- rewrite Hnone in Gwr. destruct (decide (None = Some j)) as [?|_]; [done|]. simpl.
           destruct (decide (j = i)) as [->|Hj].
           ++ simpl. rewrite Hati in Gwr. rewrite Gwr. destruct (decide ((Wr, l) = (Wr, l))); [|done].
              by destruct (decide (Some i = Some i)).
           ++ rewrite Gwr. destruct (decide (Some i = Some j)); [congruence|done].
        -- destruct (decide (j = i)) as [->|]; [|done]. simpl. destruct (decide ((Wr, l') = (Wr, l))); [congruence|].
           by rewrite Hati in Gwr.
      * intros l' j. unfold upd_lock. destruct (decide (l' = l)) as [->|Hl']; simpl.
        -- intros [= <-]. left. exists k. by rewrite list_lookup_insert.
        -- intros Hwj. destruct (Gex l' j Hwj) as [(k' & Hk')|?]; [|by right]. left. exists k'. rewrite Htn; [done|].
           intros ->. congruence.
  - (* Pend *)
    destruct (lk_readers (c_locks c l)) as [|? ?] eqn:Erd; [|done]. injection Hs as <-.
    exists phs, (<[i := hd]> hds), Bs, ord. eapply (glob_lock c phs hds Bs ord i _ k hd hd); eauto.
    + intros t' ph' B' _ [_ Hw]. exact Hw.
    + intros l' j. rewrite Hat, (Grd l' j). destruct (decide (j = i)) as [->|]; [|done]. by rewrite Hati.
    + intros l' j. rewrite Hat. specialize (Gwr l' j). destruct (decide (j = i)) as [->|]; [|done]. by rewrite Hati in Gwr.
    + intros l' j Hwj. destruct (Gex l' j Hwj) as [(k' & Hk')|?]; [|by right].
      destruct (decide (j = i)) as [->|Hj].
      * rewrite Hpr in Hk'. injection Hk' as <- _. by right.
      * left. exists k'. by rewrite Htn.
  - (* Unlock *)
    destruct Hwpi as (hd' & -> & _).
    destruct m; injection Hs as <-; exists phs, (<[i := hd']> hds), Bs, ord;
      eapply (glob_lock c phs hds Bs ord i _ k _ hd'); eauto.
    + intros t' ph' B' _ (hd2 & [= <-] & Hw). exact Hw.
    + intros l' j. rewrite Hat. unfold upd_lock. destruct (decide (l' = l)) as [->|Hl'].
      * simpl. rewrite occ_remove_one, (Grd l j). destruct (decide (j = i)) as [->|]; [|lia]. rewrite Hati. simpl.
        destruct (decide ((Rd, l) = (Rd, l))); [lia|done].
      * rewrite (Grd l' j). destruct (decide (j = i)) as [->|]; [|done]. rewrite Hati. simpl.
        destruct (decide ((Rd, l') = (Rd, l))); [congruence|lia].
    + intros l' j. rewrite Hat. specialize (Gwr l' j).
      assert (E : lk_writer (upd_lock l (Lk (remove_one i (lk_readers (c_locks c l))) (lk_writer (c_locks c l))) (c_locks c) l') =
        lk_writer (c_locks c l')).
      { unfold upd_lock. by destruct (decide (l' = l)) as [->|]. }
      rewrite E, <- Gwr. destruct (decide (j = i)) as [->|]; [|done]. rewrite Hati. simpl.
      by destruct (decide ((Wr, l') = (Rd, l))).
    + intros l' j Hwj. assert (Hwj' : lk_writer (c_locks c l') = Some j).
      { revert Hwj. unfold upd_lock. by destruct (decide (l' = l)) as [->|]. }
      destruct (Gex l' j Hwj') as [(k' & Hk')|Hr].
      * left. exists k'. rewrite Htn; [done|]. intros ->. congruence.
      * right. unfold upd_lock. destruct (decide (l' = l)) as [->|]; [|done]. simpl. by rewrite Hr.
    + intros t' ph' B' _ (hd2 & [= <-] & Hw). exact Hw.
    + intros l' j. rewrite Hat. unfold upd_lock.
      assert (E : occ j (lk_readers (if decide (l' = l) then Lk (lk_readers (c_locks c l)) None else c_locks c l')) =
          occ j (lk_readers (c_locks c l'))) by (destruct (decide (l' = l)) as [->|]; done).
      rewrite E, (Grd l' j). destruct (decide (j = i)) as [->|]; [|done]. rewrite Hati. simpl.
      by destruct (decide ((Rd, l') = (Wr, l))).
    + assert (Hwi : lk_writer (c_locks c l) = Some i).
      { specialize (Gwr l i). rewrite Hati in Gwr. simpl in Gwr.
        destruct (decide ((Wr, l) = (Wr, l))); [|done]. by destruct (decide (lk_writer (c_locks c l) = Some i)). }
      intros l' j. rewrite Hat. specialize (Gwr l' j). unfold upd_lock.
      destruct (decide (l' = l)) as [->|Hl']; simpl.
      * destruct (decide (None = Some j)); [done|]. rewrite Hwi in Gwr. destruct (decide (j = i)) as [->|Hj].
        -- rewrite Hati in Gwr. simpl in Gwr. destruct (decide ((Wr, l) = (Wr, l))); [|done].
           destruct (decide (Some i = Some i)); [lia|done].
        -- rewrite Gwr. destruct (decide (Some i = Some j)); [congruence|done].
      * rewrite <- Gwr. destruct (decide (j = i)) as [->|]; [|done]. rewrite Hati. simpl.
        destruct (decide ((Wr, l') = (Wr, l))); [congruence|done].
    + intros l' j. unfold upd_lock. destruct (decide (l' = l)) as [->|Hl']; simpl; [done|]. intros Hwj.
      destruct (Gex l' j Hwj) as [(k' & Hk')|?]; [|by right]. left. exists k'. rewrite Htn; [done|]. intros ->. congruence.
  - injection Hs as <-. destruct (glob_do c phs hds Bs ord i t ph f k G Ht Hph Hpr) as (phs' & Bs' & ord' & G').
    eauto 10.
Qed.

(** ** The start *)
Context (Hwf : lwf dist h0) (Hml : (0 < max_layer h0)%nat) (Hok : Forall (may_run h0) ts).

(** the modes in which the tasks are known to take their locks *)
Definition mode_ok t : Prop :=
  match t with
  | TInsert _ _ d => writes (md t) /\
      (md t = Ranked -> forall level l, generate (level_scale h0) (max_layer h0) d = Ok level -> (l < level)%nat -> ~ new_level l)
  | TSearch _ _ _ _ => True
  | TIterate => md t = Free \/ md t = Reads
  | TDump => md t = Free \/ md t = Reads \/ md t = Flat
  end.
Context (Hmd : Forall mode_ok ts).

Lemma count_replicate f n : f P0 = false -> count f (replicate n P0) = 0%nat.
Proof.
  intros E. unfold count. induction n as [|n IH]; [done|]. cbn [replicate]. rewrite filter_cons.
  destruct (decide _) as [H|_]; [by rewrite E in H|]. exact IH.
Qed.

Lemma Pub_start n p : Pub (replicate n P0) p <-> valid h0 p.
Proof.
  split; [|by left]. intros [?|(i & Hi)]; [done|]. by apply lookup_replicate in Hi as [? _].
Qed.

Lemma Inv_start : Inv dist N nb0 h0 (valid h0).
Proof.
  destruct Hwf as [Hc Hcnt Hent]. constructor; auto.
  - intros p pt l nbs n Hp Hn Hin.
    pose proof (lo_ref _ _ _ _ _ _ (c_lists _ _ Hc _ _ _ _ Hp Hn)) as Hr. rewrite Forall_forall in Hr.
    destruct (Hr n Hin) as (q & Hq & _). by exists q.
  - intros ep He. by rewrite He in Hent.
  - unfold bounded, N. simpl. lia.
  - intros H0 E. rewrite E in Hent. unfold nb0 in H0. lia.
Qed.

Lemma wp_strengthen {A} data oid dm hf hd B ph (p : prog A) (Q : phase -> A -> hnsw -> (pid -> Prop) -> Prop) h pub :
  wpg dist N nb0 data oid dm hf hd B ph p Q h pub ->
  wpg dist N nb0 data oid dm hf hd B ph p
    (fun ph' a h' pub' => forall h2 pub2, rely dist N nb0 data oid ph' h' pub' h2 pub2 -> stable hf h' h2 -> Q ph' a h2 pub2) h pub.
Proof.
  revert hd B ph h pub. induction p as [o|m l p IH|l p IH|m l p IH|f q IH]; intros hd B ph h pub; simpl.
  - destruct o; try done. intros [Ehd H]. split; [done|]. intros h' pub' Hr Hs h2 pub2 Hr2 Hs2. subst hd.
    apply H; [by eapply rely_trans|by eapply stable_trans].
  - intros [? H]. split; [done|]. auto.
  - intros [? ?]. auto.
  - intros (hd' & ? & ?). eauto.
  - intros H h' pub' Hr' Hs'. destruct (H h' pub' Hr' Hs') as (ph' & Ha & Hg & Hw). exists ph'. split; [done|]. split; [done|]. auto.
Qed.

Lemma wp_then_ret {A B} data oid dm ph (p : prog A) (g : A -> B)
    (Q : phase -> A -> hnsw -> (pid -> Prop) -> Prop) (Q' : phase -> B -> hnsw -> (pid -> Prop) -> Prop) h pub :
  ok dist N nb0 data oid ph h pub ->
  (forall ph' a h' pub', Q ph' a h' pub' -> Q' ph' (g a) h' pub') ->
  wpg dist N nb0 data oid dm [] [] (fun _ _ => False) ph p Q h pub ->
  wpg dist N nb0 data oid dm [] [] (fun _ _ => False) ph (a ← p; ret (g a)) Q' h pub.
Proof.
  intros Ho HQ Hw. apply wp_bind; [done|]. apply wp_strengthen in Hw. eapply wp_mono; [|exact Hw].
  intros ph' a h' pub' H. apply wp_ret. intros h2 pub2 Hr. apply HQ. apply H; [done|apply stable_nil].
Qed.

Lemma glob_start :
  GlobX (initial dist so h0 ts) (replicate (length ts) P0) (replicate (length ts) []) (replicate (length ts) (fun _ _ => False)) [].
Proof.
  assert (Hi : Inv dist N nb0 h0 (Pub (replicate (length ts) P0))).
  { eapply Inv_ext; [|apply Inv_start]. intros p. by rewrite Pub_start. }
  assert (Hhd : forall i, default [] (replicate (length ts) (@nil (lmode * lockid)) !! i) = []).
  { intros i. destruct (_ !! i) as [hd|] eqn:E; [|done]. by apply lookup_replicate in E as [-> _]. }
  constructor; simpl; auto using grows_refl, params_refl, entry_mono_refl, ne_mono_refl.
  - apply replicate_length.
  - apply fmap_length.
  - apply replicate_length.
  - apply replicate_length.
  - intros i t ph pr hd B Ht [-> _]%lookup_replicate Hpr [-> _]%lookup_replicate [-> _]%lookup_replicate.
    rewrite list_lookup_fmap, Ht in Hpr. injection Hpr as <-.
    assert (Ho : ok dist N nb0 (tdata t) (toid t) P0 h0 (Pub (replicate (length ts) P0)))
      by (by apply rely_refl).
    rewrite Forall_lookup in Hok. specialize (Hok i t Ht). rewrite Forall_lookup in Hmd. specialize (Hmd i t Ht).
    set (F := S (S (S (table_size h0 + length ts)))).
    assert (HF : (N < F)%nat) by (unfold N, F; simpl; lia).
    destruct t as [d o dr|q k efa flt| |]; unfold start.
    + destruct Hmd as [Hm1 Hm2].
      eapply wp_then_ret; [exact Ho| |apply wp_insert; auto].
      * intros ph' a h' pub' H. exists a. split; [done|exact H].
      * intros level Hlev. split; [|by intros ED l Hl; eapply Hm2].
        exists d, o, dr. split; [by eapply elem_of_list_lookup_2|done].
    + eapply wp_then_ret; [exact Ho| |by apply wp_search]. intros ph' a h' pub' [H1 H2]. exists a.
      split; [done|]. split; [done|exact H2].
    + eapply wp_then_ret; [exact Ho| |by apply wp_iterate]. intros ph' a h' pub' [H1 H2]. exists a.
      split; [done|]. split; [done|exact H2].
    + eapply wp_then_ret; [exact Ho| |by apply wp_dump]. intros ph' a h' pub' [H1 H2]. exists a.
      split; [done|]. split; [done|exact H2].
  - intros l i. by rewrite Hhd.
  - intros l i. rewrite Hhd. done.
  - intros p. split; [by intros ?%elem_of_nil|]. by intros (i & [? _]%lookup_replicate).
  - constructor.
  - by intros i B p q [-> _]%lookup_replicate.
  - by intros i t ph _ [-> _]%lookup_replicate.
  - by intros i j a b p [-> _]%lookup_replicate.
  - by intros i a p [-> _]%lookup_replicate.
  - rewrite count_replicate by done. lia.
  - rewrite count_replicate by done. unfold nb0. lia.
  - unfold nb0. by rewrite (l_count _ _ Hwf).
  - intros i t ph _ [-> _]%lookup_replicate. by left.
Qed.

Lemma globx_reach c : rtc cstep (initial dist so h0 ts) c -> exists phs hds Bs ord, GlobX c phs hds Bs ord.
Proof.
  intros Hr. assert (H : exists phs hds Bs ord, GlobX (initial dist so h0 ts) phs hds Bs ord) by (do 4 eexists; apply glob_start).
  induction Hr as [|c1 c2 c3 Hs _ IH]; [done|]. apply IH. destruct H as (phs & hds & Bs & ord & G). by eapply glob_step.
Qed.

End Global.

(** a mode for each task, the laxest for those that write *)
Definition any_mode {T} (t : task (T:=T)) : dmode := match t with TInsert _ _ _ => Free | _ => Reads end.

(** The same without the locks. *)
Definition Glob {T} (dist : list T -> list T -> Z) (h0 : hnsw (T:=T)) ts (c : config (T:=T)) (phs : list phase) : Prop :=
  exists hds Bs ord, GlobX dist h0 ts any_mode c phs hds Bs ord.

Section Glob.
Context {T : Type} (dist : list T -> list T -> Z) (h0 : hnsw (T:=T)) (ts : list (task (T:=T))).
Context (c : config (T:=T)) (phs : list phase) (G : Glob dist h0 ts c phs).
Local Ltac proj := destruct G as (hds & Bs & ord & G'); apply G'.

Lemma g_len1 : length phs = length ts.
Proof. proj. Qed.
Lemma g_len2 : length (c_threads c) = length ts.
Proof. proj. Qed.
Lemma g_inv : Inv dist (N h0 ts) (nb0 h0) (c_sh c) (Pub h0 phs).
Proof. proj. Qed.
Lemma g_ph i t ph : ts !! i = Some t -> phs !! i = Some ph -> ph_ok (tdata t) (toid t) ph (c_sh c) (Pub h0 phs).
Proof. proj. Qed.
Lemma g_dist i j a b p : phs !! i = Some a -> phs !! j = Some b -> own a = Some p -> own b = Some p -> i = j.
Proof. proj. Qed.
Lemma g_new i a p : phs !! i = Some a -> own a = Some p -> ~ valid h0 p.
Proof. proj. Qed.
Lemma g_cover p : valid (c_sh c) p -> valid h0 p \/ exists i a, phs !! i = Some a /\ own a = Some p.
Proof. proj. Qed.
Lemma g_grows : grows h0 (c_sh c).
Proof. proj. Qed.
Lemma g_params : params h0 (c_sh c).
Proof. proj. Qed.
Lemma g_entry : entry_mono h0 (c_sh c).
Proof. proj. Qed.
Lemma g_ne : ne_mono h0 (c_sh c).
Proof. proj. Qed.
Lemma g_size : table_size (c_sh c) = (table_size h0 + count started phs)%nat.
Proof. proj. Qed.
Lemma g_quiet i t ph p : ts !! i = Some t -> phs !! i = Some ph -> own ph = Some p -> exists v id d, t = TInsert v id d.
Proof.
  intros Ht Hph Ho. destruct G as (hds & Bs & ord & G'). destruct (x_quiet _ _ _ _ _ _ _ _ _ G' i t ph Ht Hph) as [->|Hw]; [done|].
  destruct t as [v id d|q k e f| |]; [eauto|..]; exfalso; unfold writes, any_mode in Hw; naive_solver.
Qed.
Lemma g_nb : nb_point (c_sh c) = (nb0 h0 + count counted phs)%nat.
Proof. proj. Qed.

Lemma glob_halt i o t ph : ts !! i = Some t -> phs !! i = Some ph -> c_threads c !! i = Some (Halt o) ->
  exists r, o = Ok r /\ Post dist h0 t ph r (c_sh c).
Proof.
  intros Ht Hph Hpr. destruct G as (hds & Bs & ord & G'). pose proof (lookup_lt_Some _ _ _ Ht) as Hlt.
  destruct (lookup_lt_is_Some_2 hds i) as [hd Hhd]; [by rewrite (x_len3 _ _ _ _ _ _ _ _ _ G')|].
  destruct (lookup_lt_is_Some_2 Bs i) as [B HB]; [by rewrite (x_len4 _ _ _ _ _ _ _ _ _ G')|].
  pose proof (x_wp _ _ _ _ _ _ _ _ _ G' i t ph _ hd B Ht Hph Hpr Hhd HB) as Hw. simpl in Hw.
  destruct o as [r| | | | |]; try done. exists r. split; [done|]. eapply (proj2 Hw (c_sh c) (Pub h0 phs)); [|apply stable_refl].
  apply rely_refl; [apply G'|by eapply (x_ph _ _ _ _ _ _ _ _ _ G')].
Qed.

Lemma glob_end rs i t r :
  finished c rs -> ts !! i = Some t -> rs !! i = Some r -> exists ph, phs !! i = Some ph /\ Post dist h0 t ph r (c_sh c).
Proof.
  intros Hf Ht Hr. destruct (lookup_lt_is_Some_2 phs i) as [ph Hph].
  { rewrite g_len1. by eapply lookup_lt_Some. }
  exists ph. split; [done|].
  assert (Hpr : c_threads c !! i = Some (Halt (Ok r))) by (by rewrite Hf, list_lookup_fmap, Hr).
  by destruct (glob_halt i _ t ph Ht Hph Hpr) as (r' & [= <-] & ?).
Qed.

Lemma glob_no_panic i o : c_threads c !! i = Some (Halt o) -> exists r, o = Ok r.
Proof.
  intros Hpr. pose proof (lookup_lt_Some _ _ _ Hpr) as Hlt. rewrite g_len2 in Hlt.
  destruct (lookup_lt_is_Some_2 ts i Hlt) as [t Ht].
  destruct (lookup_lt_is_Some_2 phs i) as [ph Hph]; [by rewrite g_len1|].
  destruct (glob_halt i _ t ph Ht Hph Hpr) as (r & ? & _). eauto.
Qed.
End Glob.

Lemma glob_reach {T} dist so : StdLaws so -> (forall a b, (0 <= dist a b)%Z) -> forall (h0 : hnsw (T:=T)) ts,
  lwf dist h0 -> (0 < max_layer h0)%nat -> Forall (may_run h0) ts ->
  forall c, rtc cstep (initial dist so h0 ts) c -> exists phs, Glob dist h0 ts c phs.
Proof.
  intros LAWS Hnn h0 ts Hwf Hml Hok c Hr.
  destruct (globx_reach dist so LAWS Hnn h0 ts any_mode Hwf Hml Hok) with (c := c) as (phs & hds & Bs & ord & G).
  - apply Forall_forall. intros [v id d|q k e f| |] _; simpl; auto. split; [by left|done].
  - done.
  - exists phs, hds, Bs, ord. done.
Qed.
