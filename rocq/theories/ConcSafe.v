(** Rely-guarantee reasoning on the threads of an interleaving: what each step of an insertion or of a search
    keeps true, whatever the other threads do. *)
From Verif Require Import Prelude Model Lib Table SearchProofs SelectProofs InsertProofs Conc.

(** How far an insertion has come: nothing stored; the point is in the table; it is also counted; it is
    known to other threads. *)
Inductive phase : Type := P0 | P1 (p : pid) | P2 (p : pid) | P3 (p : pid).

Definition own (ph : phase) : option pid :=
  match ph with P0 => None | P1 p | P2 p | P3 p => Some p end.

(** How a thread may take locks while it holds others. [Free]: in any way. [Reads]: in any way, but only for reading.
    [Flat]: only for reading, and only while it holds no lock or a single read lock on the table. [Nested]: while it holds a read lock on the neighbours of one point, it may ask for the write lock on the
    neighbours of another point. [Ranked]: the same, and the other point was known to all threads before the first. *)
Inductive dmode : Type := Free | Reads | Flat | Nested | Ranked.

Definition writes (dm : dmode) : Prop := dm = Free \/ dm = Nested \/ dm = Ranked.

(** the locks held, the last taken first *)
Notation held := (list (lmode * lockid)).

Definition may_lock (dm : dmode) (hd : held) (B : pid -> pid -> Prop) (m : lmode) (l : lockid) : Prop :=
  dm = Free \/
  (dm = Reads /\ m = Rd) \/
  (dm = Flat /\ m = Rd /\ (hd = [] \/ (hd = [(Rd, LTable)] /\ l <> LTable))) \/
  (writes dm /\ hd = []) \/
  (writes dm /\ m = Wr /\ exists np q, hd = [(Rd, LPoint np)] /\ l = LPoint q /\ q <> np /\ (dm = Ranked -> B np q)).

Lemma may_lock_mono dm hd (B B' : pid -> pid -> Prop) m l :
  (forall p q, B p q -> B' p q) -> may_lock dm hd B m l -> may_lock dm hd B' m l.
Proof.
  intros HB [?|[?|[?|[?|(? & ? & np & q & ? & ? & ? & ?)]]]]; [by left|by right; left|by right; right; left|by right; right; right; left|].
  right. right. right. right. split; [done|]. split; [done|]. exists np, q. split_and!; auto.
Qed.

Lemma may_lock_nil dm B l : may_lock dm [] B Rd l.
Proof. unfold may_lock, writes. destruct dm; naive_solver. Qed.
Lemma may_lock_write dm B l : writes dm -> may_lock dm [] B Wr l.
Proof. intros H. right. right. right. by left. Qed.

(** A bound on the number of points, and the levels of the points being inserted. *)
Record bnd : Type := Bnd { bnd_n :> nat; bnd_lev : nat -> Prop }.

Section Safe.
Context {T : Type} (dist : list T -> list T -> Z) (so : StdOps).
Context (LAWS : StdLaws so) (Hnn : forall a b, (0 <= dist a b)%Z).
(** a bound on the number of points with the levels of the new ones, the number of points at the start *)
Context (N : bnd) (nb0 : nat).
Implicit Types (h : hnsw (T:=T)) (p np ep : pid) (pub : pid -> Prop) (ph : phase).

(** the parameters of the index *)
Definition params h h' : Prop :=
  ef_construction h' = ef_construction h /\ max_nb_connection h' = max_nb_connection h /\
  extend_candidates h' = extend_candidates h /\ keep_pruned h' = keep_pruned h /\
  max_layer h' = max_layer h /\ level_scale h' = level_scale h /\ searching h' = searching h /\
  datamap_opt h' = datamap_opt h.

Lemma params_refl h : params h h.
Proof using Type. by repeat split. Qed.
Lemma params_trans h1 h2 h3 : params h1 h2 -> params h2 h3 -> params h1 h3.
Proof using Type. unfold params. intuition congruence. Qed.
Lemma same_meta_params h h' : same_meta h h' -> params h h'.
Proof using Type. unfold same_meta, params. tauto. Qed.

(** the number of points has its bound, and every point counted is in the table *)
Definition bounded h : Prop := (table_size h <= N)%nat /\ (nb_point h <= table_size h)%nat.

(** What is always true. [pub] is the set of the points known to all threads. *)
Record Inv h pub : Prop := {
  v_core : core dist h;
  v_links : forall p pt l nbs n, get_pt h p = Some pt -> pt_nbs pt !! l = Some nbs -> n ∈ nbs -> pub (n_pid n);
  v_pub : forall p, pub p -> valid h p;
  v_entry : forall ep, entry_point h = Some ep -> pub ep;
  v_size : bounded h;
  v_nb : (nb0 <= nb_point h)%nat;
  v_ml : (0 < max_layer h)%nat;
  v_ent : (0 < nb0)%nat -> entry_point h <> None
}.

Lemma Inv_ext h pub pub' : (forall p, pub p <-> pub' p) -> Inv h pub -> Inv h pub'.
Proof using Type.
  intros E []. constructor; auto.
  - intros. apply E. eauto.
  - intros p Hp. apply v_pub0. by apply E.
  - intros ep He. apply E. auto.
Qed.

Lemma Inv_links h pub l : Inv h pub -> (l < NB_LAYER_MAX)%nat -> links_ok h l pub.
Proof using Type.
  intros Hi Hl p pt _ Hp. destruct (core_nbs dist _ _ _ _ (v_core _ _ Hi) Hp Hl) as [nbs Hn].
  exists nbs. split; [done|]. intros n Hin.
  assert (pub (n_pid n)) by (by eapply (v_links _ _ Hi)). split; [|done]. by apply (v_pub _ _ Hi).
Qed.

Definition entry_mono h h' : Prop :=
  forall ep, entry_point h = Some ep -> exists ep', entry_point h' = Some ep' /\ (ep.1 <= ep'.1)%nat.

Lemma entry_mono_refl h : entry_mono h h.
Proof using Type. intros ep H. eauto. Qed.
Lemma entry_mono_trans h1 h2 h3 : entry_mono h1 h2 -> entry_mono h2 h3 -> entry_mono h1 h3.
Proof using Type.
  intros H1 H2 ep He. destruct (H1 ep He) as (e2 & He2 & ?). destruct (H2 e2 He2) as (e3 & ? & ?).
  exists e3. split; [done|lia].
Qed.

(** no list becomes empty *)
Definition ne_mono h h' : Prop :=
  forall p l nbs, own_list h p l = Some nbs -> nbs <> [] -> exists nbs', own_list h' p l = Some nbs' /\ nbs' <> [].

Lemma ne_mono_refl h : ne_mono h h.
Proof using Type. intros p l nbs H. eauto. Qed.
Lemma ne_mono_trans h1 h2 h3 : ne_mono h1 h2 -> ne_mono h2 h3 -> ne_mono h1 h3.
Proof using Type. intros H1 H2 p l nbs Hn Hne. destruct (H1 p l nbs Hn Hne) as (n2 & ? & ?). eauto. Qed.

(** the vector and the id a thread inserts *)
Context (data : list T) (oid : dataid).

Definition ph_ok ph h pub : Prop :=
  match ph with
  | P0 => True
  | P1 p | P2 p => static h p = Some (data, oid, p) /\ ~ pub p
  | P3 p => static h p = Some (data, oid, p) /\ pub p
  end.

(** what the other threads may do *)
Record rely ph h pub h' pub' : Prop := {
  r_inv : Inv h' pub';
  r_ph : ph_ok ph h' pub';
  r_grows : grows h h';
  r_params : params h h';
  r_pub : forall p, pub p -> pub' p;
  r_entry : entry_mono h h';
  r_nb : (nb_point h <= nb_point h')%nat;
  r_ne : ne_mono h h';
  r_own : forall p, own ph = Some p -> ph <> P3 p -> get_pt h' p = get_pt h p;
  r_low : forall p l, own ph = Some p -> ~ bnd_lev N l -> own_list h' p l = own_list h p l
}.

Lemma rely_refl ph h pub : Inv h pub -> ph_ok ph h pub -> rely ph h pub h pub.
Proof using Type. intros. constructor; auto using grows_refl, params_refl, entry_mono_refl, ne_mono_refl. Qed.

Lemma rely_trans ph h1 b1 h2 b2 h3 b3 : rely ph h1 b1 h2 b2 -> rely ph h2 b2 h3 b3 -> rely ph h1 b1 h3 b3.
Proof using Type.
  intros [] []. constructor; auto.
  - by eapply grows_trans.
  - by eapply params_trans.
  - by eapply entry_mono_trans.
  - by etrans.
  - by eapply ne_mono_trans.
  - intros p E1 E2. rewrite r_own1 by done. auto.
  - intros p l E1 E2. rewrite r_low1 by done. auto.
Qed.

(** what a step of the thread does *)
Inductive kind ph h ph' h' : Prop :=
| k_quiet :
    (ph' = ph \/ exists p, ph = P2 p /\ ph' = P3 p) ->
    nb_point h' = nb_point h -> table_size h' = table_size h -> (forall p, static h' p = static h p) ->
    kind ph h ph' h'
| k_push p :
    ph = P0 -> ph' = P1 p -> nb_point h' = nb_point h -> table_size h' = S (table_size h) ->
    get_pt h p = None -> static h' p = Some (data, oid, p) -> (forall p', p' <> p -> get_pt h' p' = get_pt h p') ->
    kind ph h ph' h'
| k_count p :
    ph = P1 p -> ph' = P2 p -> nb_point h' = S (nb_point h) -> points_by_layer h' = points_by_layer h ->
    kind ph h ph' h'.

Definition pubadd pub ph : pid -> Prop := fun p => pub p \/ ph = P3 p.

Record act ph h pub ph' h' : Prop := {
  a_inv : bounded h' -> Inv h' (pubadd pub ph');
  a_ph : ph_ok ph' h' (pubadd pub ph');
  a_grows : grows h h';
  a_params : params h h';
  a_entry : entry_mono h h';
  a_ne : ne_mono h h';
  a_other : forall p, valid h p -> ~ pub p -> own ph <> Some p -> get_pt h' p = get_pt h p;
  a_kind : kind ph h ph' h';
  a_low : forall p l, valid h p -> own ph <> Some p -> ~ bnd_lev N l -> own_list h' p l = own_list h p l
}.

(** What is modified is protected by a lock held for writing. *)
Definition guarded (hd : held) h h' : Prop :=
  (forall p, valid h p -> get_pt h' p = get_pt h p \/ (Wr, LPoint p) ∈ hd) /\
  (forall p, valid h' p -> valid h p \/ (Wr, LTable) ∈ hd) /\
  (nb_point h' = nb_point h \/ (Wr, LCount) ∈ hd) /\
  (entry_point h' = entry_point h \/ (Wr, LEntry) ∈ hd).

Lemma guarded_refl hd h : guarded hd h h.
Proof using Type. unfold guarded. auto. Qed.

(** While a thread reads the table, no other adds a point to it. *)
Definition stable (hd : held) h h' : Prop := (Rd, LTable) ∈ hd -> forall p, valid h' p -> valid h p.

Lemma stable_refl hd h : stable hd h h.
Proof using Type. by intros _ p. Qed.
Lemma stable_trans hd h1 h2 h3 : stable hd h1 h2 -> stable hd h2 h3 -> stable hd h1 h3.
Proof using Type. intros H1 H2 Hin p Hp. auto. Qed.
Lemma stable_tail m l hd h h' : stable ((m, l) :: hd) h h' -> stable hd h h'.
Proof using Type. intros H Hin. apply H. by right. Qed.
Lemma stable_nil h h' : stable [] h h'.
Proof using Type. by intros Hin%elem_of_nil. Qed.

(** how the thread takes its locks *)
Context (dm : dmode).

(** [before p q]: [q] was known to all when [p] became known *)
Definition before ph ph' (B : pid -> pid -> Prop) (pub : pid -> Prop) : pid -> pid -> Prop :=
  fun p q => B p q \/ (ph = P2 p /\ ph' = P3 p /\ pub q).

(** The thread in phase [ph], about to run [p] with the locks [hd], is safe: it never panics, and it ends with [Q] and
    the locks [hf]; it modifies only what it has locked. The table never has more than [N] points. *)
Fixpoint wpg {A} (hf hd : held) (B : pid -> pid -> Prop) ph (p : prog A)
    (Q : phase -> A -> hnsw -> (pid -> Prop) -> Prop) h pub : Prop :=
  match p with
  | Halt (Ok a) => hd = hf /\ forall h' pub', rely ph h pub h' pub' -> stable hd h h' -> Q ph a h' pub'
  | Halt _ => False
  | Lock m l k => may_lock dm hd B m l /\
      forall h' pub', rely ph h pub h' pub' -> stable hd h h' -> wpg hf ((m, l) :: hd) B ph k Q h' pub'
  | Pend l k => (exists hd', hd = (Wr, l) :: hd' /\ may_lock dm hd' B Wr l) /\ wpg hf hd B ph k Q h pub
  | Unlock m l k => exists hd', hd = (m, l) :: hd' /\ wpg hf hd' B ph k Q h pub
  | Do f k => forall h' pub', rely ph h pub h' pub' -> stable hd h h' ->
      exists ph', act ph h' pub' ph' (f h') /\ (guarded hd h' (f h') /\ (ph = P0 -> ph' = P0 \/ writes dm)) /\
        (bounded (f h') -> wpg hf hd (before ph ph' B pub') ph' (k h') Q (f h') (pubadd pub' ph'))
  end.

(** the same without any lock at the beginning and at the end *)
Notation no_points := (fun _ _ : pid => False).
Notation wp := (wpg [] [] no_points).

Lemma wp_rely {A} hf hd B ph (p : prog A) (Q : phase -> A -> hnsw -> (pid -> Prop) -> Prop) h pub h' pub' :
  rely ph h pub h' pub' -> stable hd h h' -> wpg hf hd B ph p Q h pub -> wpg hf hd B ph p Q h' pub'.
Proof using Type.
  intros Hr. revert hd. induction p as [o|m l p IH|l p IH|m l p IH|f q IH]; intros hd Hs; simpl.
  - destruct o; try done. intros [? HQ]. split; [done|]. intros h2 pub2 Hr2 Hs2.
    exact (HQ _ _ (rely_trans _ _ _ _ _ _ _ Hr Hr2) (stable_trans _ _ _ _ Hs Hs2)).
  - intros [? Hq]. split; [done|]. intros h2 pub2 Hr2 Hs2.
    exact (Hq _ _ (rely_trans _ _ _ _ _ _ _ Hr Hr2) (stable_trans _ _ _ _ Hs Hs2)).
  - intros [? ?]. auto.
  - intros (hd' & -> & ?). exists hd'. split; [done|]. apply IH; [|done]. by eapply stable_tail.
  - intros Hq h2 pub2 Hr2 Hs2. exact (Hq _ _ (rely_trans _ _ _ _ _ _ _ Hr Hr2) (stable_trans _ _ _ _ Hs Hs2)).
Qed.

Lemma wpg_before {A} hf hd (B B' : pid -> pid -> Prop) ph (p : prog A) (Q : phase -> A -> hnsw -> (pid -> Prop) -> Prop) h pub :
  (forall p0 q, B p0 q -> B' p0 q) -> wpg hf hd B ph p Q h pub -> wpg hf hd B' ph p Q h pub.
Proof using Type.
  revert hd B B' ph h pub. induction p as [o|m l p IH|l p IH|m l p IH|f q IH]; intros hd B B' ph h pub HB; simpl.
  - done.
  - intros [? Hq]. split; [by eapply may_lock_mono|]. intros h2 pub2 Hr2 Hs2. eapply IH; [done|]. by apply Hq.
  - intros [(hd' & ? & ?) ?]. split; [exists hd'; split; [done|by eapply may_lock_mono]|]. by eapply IH.
  - intros (hd' & ? & ?). exists hd'. split; [done|]. by eapply IH.
  - intros Hq h2 pub2 Hr2 Hs2. destruct (Hq h2 pub2 Hr2 Hs2) as (ph' & Ha & Hg & Hw). exists ph'. split; [done|]. split; [done|].
    intros Hs. eapply IH; [|by apply Hw]. intros p0 q0 [?|?]; [left; auto|by right].
Qed.

Lemma act_rely ph h pub ph' h' :
  act ph h pub ph' h' -> bounded h' -> rely ph' h' (pubadd pub ph') h' (pubadd pub ph').
Proof using Type. intros [] ?. apply rely_refl; auto. Qed.

Lemma rely_ok0 ph h pub h' pub' : rely ph h pub h' pub' -> rely ph h' pub' h' pub'.
Proof using Type. intros []. apply rely_refl; auto. Qed.

Lemma wpg_bind {A C} hf hm hd (B0 B : pid -> pid -> Prop) ph (p : prog A) (k : A -> prog C) Q h pub :
  rely ph h pub h pub -> (forall p0 q, B0 p0 q -> B p0 q) ->
  wpg hm hd B ph p (fun ph' a h' pub' => wpg hf hm B0 ph' (k a) Q h' pub') h pub -> wpg hf hd B ph (p ≫= k) Q h pub.
Proof using Type.
  revert hd B ph h pub. induction p as [o|m l p IH|l p IH|m l p IH|f q IH]; intros hd B ph h pub Hr HB; simpl.
  - destruct o; try done. intros [-> H]. eapply wpg_before; [|by apply H, stable_refl]. done.
  - intros [? Hq]. split; [done|]. intros h2 pub2 Hr2 Hs2. apply IH; [by eapply rely_ok0|done|]. by apply Hq.
  - intros [? ?]. split; [done|]. by apply IH.
  - intros (hd' & ? & ?). exists hd'. split; [done|]. by apply IH.
  - intros H h' pub' Hr' Hs'. destruct (H h' pub' Hr' Hs') as (ph' & Ha & Hg & Hw). exists ph'. split; [done|]. split; [done|].
    intros Hs. apply IH; [by eapply act_rely| |auto]. intros p0 q0 ?. left. auto.
Qed.

Lemma wp_bind {A C} hf hd B ph (p : prog A) (k : A -> prog C) Q h pub :
  rely ph h pub h pub ->
  wpg hd hd B ph p (fun ph' a h' pub' => wpg hf hd B ph' (k a) Q h' pub') h pub -> wpg hf hd B ph (p ≫= k) Q h pub.
Proof using Type. intros. eapply wpg_bind; eauto. Qed.

Lemma wp_mono {A} hf hd B ph (p : prog A) (Q Q' : phase -> A -> hnsw -> (pid -> Prop) -> Prop) h pub :
  (forall ph' a h' pub', Q ph' a h' pub' -> Q' ph' a h' pub') -> wpg hf hd B ph p Q h pub -> wpg hf hd B ph p Q' h pub.
Proof using Type.
  intros HQ. revert hd B ph h pub. induction p as [o|m l p IH|l p IH|m l p IH|f q IH]; intros hd B ph h pub; simpl.
  - destruct o; try done. intros [? ?]. eauto.
  - intros [? ?]. eauto.
  - intros [? ?]. eauto.
  - intros (hd' & ? & ?). eauto.
  - intros H h' pub' Hr' Hs'. destruct (H h' pub' Hr' Hs') as (ph' & Ha & Hg & Hw). exists ph'. split; [done|]. split; [done|]. eauto.
Qed.

(** a state seen by the thread *)
Definition ok ph h pub : Prop := rely ph h pub h pub.
Lemma ok_inv ph h pub : ok ph h pub -> Inv h pub.
Proof using Type. by intros []. Qed.
Lemma ok_ph ph h pub : ok ph h pub -> ph_ok ph h pub.
Proof using Type. by intros []. Qed.
Lemma rely_ok ph h pub h' pub' : rely ph h pub h' pub' -> ok ph h' pub'.
Proof using Type. intros []. apply rely_refl; auto. Qed.

Lemma ph_pub ph h pub : ph_ok ph h pub -> forall p, pubadd pub ph p <-> pub p.
Proof using Type.
  intros H p. unfold pubadd. split; [|by left]. intros [?|E]; [done|]. subst ph. apply H.
Qed.

Lemma act_quiet_refl ph h pub : ok ph h pub -> act ph h pub ph h.
Proof using Type.
  intros Ho. pose proof (ph_pub _ _ _ (ok_ph _ _ _ Ho)) as E. constructor.
  - intros _. eapply Inv_ext; [|by eapply ok_inv]. intros p. by rewrite E.
  - apply ok_ph in Ho. destruct ph; simpl in *; rewrite ?E; auto.
  - apply grows_refl.
  - apply params_refl.
  - apply entry_mono_refl.
  - apply ne_mono_refl.
  - done.
  - apply k_quiet; auto.
  - done.
Qed.

Lemma rely_pubadd ph h pub : ok ph h pub -> rely ph h pub h (pubadd pub ph).
Proof using Type.
  intros Ho. destruct (act_quiet_refl _ _ _ Ho). constructor; auto using grows_refl, params_refl, entry_mono_refl, ne_mono_refl.
  - apply a_inv0. apply ok_inv in Ho. apply Ho.
  - intros p Hp. by left.
Qed.

(** ** Reading *)
Lemma wp_do_read_s {A} hf hd B ph (k : hnsw -> prog A) (Q : phase -> A -> hnsw -> (pid -> Prop) -> Prop) h pub :
  ok ph h pub ->
  (forall h' pub', rely ph h pub h' pub' -> stable hd h h' -> wpg hf hd B ph (k h') Q h' pub') ->
  wpg hf hd B ph (Do id k) Q h pub.
Proof using Type.
  intros Ho H h' pub' Hr Hs. exists ph. pose proof (rely_ok _ _ _ _ _ Hr) as Ho'.
  split; [exact (act_quiet_refl _ _ _ Ho')|]. split; [split; [apply guarded_refl|by left]|]. intros _.
  eapply wpg_before; [|exact (wp_rely _ _ _ _ _ _ _ _ _ _ (rely_pubadd _ _ _ Ho') (stable_refl _ _) (H _ _ Hr Hs))].
  intros p0 q. by left.
Qed.

Lemma wp_do_read {A} hf hd B ph (k : hnsw -> prog A) (Q : phase -> A -> hnsw -> (pid -> Prop) -> Prop) h pub :
  ok ph h pub ->
  (forall h' pub', rely ph h pub h' pub' -> wpg hf hd B ph (k h') Q h' pub') ->
  wpg hf hd B ph (Do id k) Q h pub.
Proof using Type. intros Ho H. apply wp_do_read_s; auto. Qed.

Lemma wp_peek_s {A} hd B ph (f : hnsw -> outcome A) (Q : phase -> A -> hnsw -> (pid -> Prop) -> Prop) h pub :
  ok ph h pub ->
  (forall h' pub', rely ph h pub h' pub' -> stable hd h h' ->
     exists a, f h' = Ok a /\ forall h2 pub2, rely ph h' pub' h2 pub2 -> stable hd h' h2 -> Q ph a h2 pub2) ->
  wpg hd hd B ph (peek f) Q h pub.
Proof using Type.
  intros Ho H. apply wp_do_read_s; [done|]. intros h' pub' Hr Hs. destruct (H h' pub' Hr Hs) as (a & E & HQ).
  simpl. rewrite E. split; [done|exact HQ].
Qed.

Lemma wp_peek {A} hd B ph (f : hnsw -> outcome A) (Q : phase -> A -> hnsw -> (pid -> Prop) -> Prop) h pub :
  ok ph h pub ->
  (forall h' pub', rely ph h pub h' pub' ->
     exists a, f h' = Ok a /\ forall h2 pub2, rely ph h' pub' h2 pub2 -> Q ph a h2 pub2) ->
  wpg hd hd B ph (peek f) Q h pub.
Proof using Type.
  intros Ho H. apply wp_peek_s; [done|]. intros h' pub' Hr _. destruct (H h' pub' Hr) as (a & E & HQ). eauto.
Qed.

(** under a lock taken for that access only *)
Lemma wp_read_s {A} hd B ph l (f : hnsw -> outcome A) (Q : phase -> A -> hnsw -> (pid -> Prop) -> Prop) h pub :
  ok ph h pub -> may_lock dm hd B Rd l ->
  (forall h' pub', rely ph h pub h' pub' -> stable hd h h' ->
     exists a, f h' = Ok a /\ forall h2 pub2, rely ph h' pub' h2 pub2 -> stable hd h' h2 -> Q ph a h2 pub2) ->
  wpg hd hd B ph (with_read l f) Q h pub.
Proof using Type.
  intros Ho Hm H. split; [done|]. intros h1 pub1 Hr1 Hs1. apply wp_do_read_s; [by eapply rely_ok|].
  intros h' pub' Hr Hs. apply stable_tail in Hs.
  destruct (H h' pub' (rely_trans _ _ _ _ _ _ _ Hr1 Hr) (stable_trans _ _ _ _ Hs1 Hs)) as (a & E & HQ).
  exists hd. split; [done|]. simpl. rewrite E. split; [done|exact HQ].
Qed.

Lemma wp_read {A} B ph l (f : hnsw -> outcome A) (Q : phase -> A -> hnsw -> (pid -> Prop) -> Prop) h pub :
  ok ph h pub ->
  (forall h' pub', rely ph h pub h' pub' ->
     exists a, f h' = Ok a /\ forall h2 pub2, rely ph h' pub' h2 pub2 -> Q ph a h2 pub2) ->
  wpg [] [] B ph (with_read l f) Q h pub.
Proof using Type.
  intros Ho H. apply wp_read_s; [done|apply may_lock_nil|]. intros h' pub' Hr _.
  destruct (H h' pub' Hr) as (a & E & HQ). eauto.
Qed.

Lemma wpg_write {A} hd B ph l (f : hnsw -> outcome (hnsw * A)) (Q : phase -> A -> hnsw -> (pid -> Prop) -> Prop) h pub :
  ok ph h pub -> may_lock dm hd B Wr l ->
  (forall h' pub', rely ph h pub h' pub' ->
     exists ph' h1 a, f h' = Ok (h1, a) /\ act ph h' pub' ph' h1 /\ guarded ((Wr, l) :: hd) h' h1 /\
       forall h2 pub2, rely ph' h1 (pubadd pub' ph') h2 pub2 -> Q ph' a h2 pub2) ->
  wpg hd hd B ph (with_write l f) Q h pub.
Proof using Type.
  intros Ho Hm H. split; [done|]. simpl. intros h0 pub0 Hr0 _ h' pub' Hr _.
  destruct (H h' pub' (rely_trans _ _ _ _ _ _ _ Hr0 Hr)) as (ph' & h1 & a & E & Ha & Hg & HQ).
  exists ph'. rewrite E. simpl. split; [exact Ha|]. split; [split; [exact Hg|]|].
  { intros _. right. destruct Hm as [?|[[_ ?]|[(_ & ? & _)|[[? _]|[? _]]]]]; try done. by left. }
  intros _. exists hd. split; [done|]. split; [done|]. auto.
Qed.

Lemma wp_write {A} B ph l (f : hnsw -> outcome (hnsw * A)) (Q : phase -> A -> hnsw -> (pid -> Prop) -> Prop) h pub :
  ok ph h pub -> writes dm ->
  (forall h' pub', rely ph h pub h' pub' ->
     exists ph' h1 a, f h' = Ok (h1, a) /\ act ph h' pub' ph' h1 /\ guarded [(Wr, l)] h' h1 /\
       forall h2 pub2, rely ph' h1 (pubadd pub' ph') h2 pub2 -> Q ph' a h2 pub2) ->
  wpg [] [] B ph (with_write l f) Q h pub.
Proof using Type. intros Ho Hw H. apply wpg_write; [done|by apply may_lock_write|done]. Qed.

Lemma wp_ret {A} hd B ph (a : A) (Q : phase -> A -> hnsw -> (pid -> Prop) -> Prop) h pub :
  (forall h2 pub2, rely ph h pub h2 pub2 -> Q ph a h2 pub2) -> wpg hd hd B ph (ret a) Q h pub.
Proof using Type. intros HQ. split; [done|]. auto. Qed.

(** ** Stability of what a thread knows *)
Lemma rely_valid ph h pub h' pub' p : rely ph h pub h' pub' -> valid h p -> valid h' p.
Proof using Type. intros [] ?. by eapply grows_valid. Qed.

Definition Elts h pub q (l : list nbr) : Prop := elts_good dist h q pub l.

Lemma Elts_rely ph h pub h' pub' q l : rely ph h pub h' pub' -> Elts h pub q l -> Elts h' pub' q l.
Proof using Type.
  intros Hr (G1 & G2 & G3). split_and!; auto.
  - eapply Forall_impl; [exact G1|]. intros n. apply elt_ok_grows. apply Hr.
  - eapply Forall_impl; [exact G3|]. intros n. apply (r_pub _ _ _ _ _ Hr).
Qed.

Lemma Cands_rely ph h pub h' pub' q l :
  rely ph h pub h' pub' -> cands_good dist h q pub l -> cands_good dist h' q pub' l.
Proof using Type.
  intros Hr (G1 & G2 & G3). split_and!; auto.
  - eapply Forall_impl; [exact G1|]. intros n. apply cand_ok_grows. apply Hr.
  - eapply Forall_impl; [exact G3|]. intros n. apply (r_pub _ _ _ _ _ Hr).
Qed.

Lemma flt_ok_rely ph h pub h' pub' filter ep l :
  rely ph h pub h' pub' -> flt_ok h filter ep l -> flt_ok h' filter ep l.
Proof using Type.
  intros Hr. unfold flt_ok. destruct filter as [flt|]; [|done]. intros [H|H]; [left|by right].
  eapply Forall_impl; [exact H|]. intros n (pt & Hpt & E).
  destruct (grows_get _ _ _ _ (r_grows _ _ _ _ _ Hr) Hpt) as (pt' & Hpt' & _ & Eo & _).
  exists pt'. by rewrite Eo.
Qed.

Lemma sinv_rely ph h pub h' pub' q ef filter ep d0 s :
  rely ph h pub h' pub' ->
  sinv dist so h q ef filter pub ep d0 s -> sinv dist so h' q ef filter pub' ep d0 s.
Proof using Type.
  intros Hr []. constructor; auto.
  - eapply Forall_impl; [exact i_ret|]. intros n. apply elt_ok_grows. apply Hr.
  - eapply Forall_impl; [exact i_cand|]. intros n. apply cand_ok_grows. apply Hr.
  - eapply Forall_impl; [exact i_vis|]. intros p [H1 H2]. split; [by eapply rely_valid|]. by apply (r_pub _ _ _ _ _ Hr).
  - by eapply flt_ok_rely.
Qed.

(** ** search_layer *)

(** the answer of a search in one layer *)
Definition Found h pub q ef filter ep (hp : heap so) : Prop :=
  Elts h pub q (h_iter so hp) /\ (h_len so hp <= Nat.max 1 ef)%nat /\ flt_ok h filter ep (h_iter so hp).

Lemma Found_rely ph h pub h' pub' q ef filter ep hp :
  rely ph h pub h' pub' -> Found h pub q ef filter ep hp -> Found h' pub' q ef filter ep hp.
Proof.
  intros Hr (H1 & H2 & H3). split; [by eapply Elts_rely|]. split; [done|by eapply flt_ok_rely].
Qed.

Lemma sinv_Found h pub q ef filter ep d0 s :
  sinv dist so h q ef filter pub ep d0 s -> Found h pub q ef filter ep (s_ret so s).
Proof.
  intros []. split; [|by split]. split; [done|]. split; [done|].
  rewrite Forall_forall. intros x Hx. rewrite Forall_forall in i_vis. apply i_vis. auto.
Qed.

Lemma next_candidate_spec h pub q ef filter ep d0 s :
  sinv dist so h q ef filter pub ep d0 s ->
  next_candidate so ef filter s = Ok (inl (s_ret so s)) \/
  exists c, next_candidate so ef filter s = Ok (inr c).
Proof.
  intros Hi. unfold next_candidate. destruct (h_pop so (s_cand so s)) as [[c cand']|] eqn:Epop; [|by left].
  destruct (pop_inv dist so LAWS h q ef filter pub ep d0 s c cand' Hi Epop) as (_ & (cpt & Hc & Hcd) & _).
  destruct (h_peek_nonempty so LAWS (s_ret so s)) as [f Hf]; [apply Hi|].
  rewrite Hf. simpl.
  assert (Hfd : (0 <= n_dist f)%Z).
  { destruct (h_peek_some so LAWS _ _ Hf) as [Hin _]. destruct Hi.
    rewrite Forall_forall in i_ret. destruct (i_ret _ Hin) as (? & _ & ->). apply Hnn. }
  pose proof (Hnn q (pt_data cpt)) as Hcn.
  rewrite (assert_true (0 <=? n_dist f)%Z) by lia. simpl.
  rewrite (assert_true (n_dist c <=? 0)%Z) by lia. simpl.
  match goal with |- context [if ?b then _ else _] => destruct b end; eauto.
Qed.

(** the measure that decreases, with the bound on the number of points *)
Definition cmeas (s : sst so) : nat := h_len so (s_cand so s) + (N - length (s_vis so s)).

Lemma wp_search_loop F ph q ef l filter ep d0 : forall s (Q : phase -> heap so -> hnsw -> (pid -> Prop) -> Prop) h pub,
  ok ph h pub -> (l < max_layer h)%nat -> (filter = None \/ (1 <= ef)%nat) ->
  sinv dist so h q ef filter pub ep d0 s -> (cmeas s < F)%nat ->
  (forall h' pub' hp, rely ph h pub h' pub' -> Found h' pub' q ef filter ep hp -> h_iter so hp <> [] ->
      Q ph hp h' pub') ->
  wp ph (search_loop_p dist so F q ef l filter s) Q h pub.
Proof.
  induction F as [|F IH]; intros s Q h pub Ho Hl Hef Hi Hm HQ; [lia|].
  cbn [search_loop_p].
  destruct (next_candidate_spec _ _ _ _ _ _ _ _ Hi) as [->|(c & ->)].
  { apply wp_ret. intros h' pub' Hr. apply HQ; [done|..].
    - eapply Found_rely; [done|]. by eapply sinv_Found.
    - apply Hi. }
  change (Halt (Ok (inr c)) ≫= ?k) with (k (@inr (heap so) pid c)). cbn beta iota.
  apply wp_bind; [done|]. apply wp_read; [done|]. intros h1 pub1 Hr1.
  assert (Hi1 := sinv_rely _ _ _ _ _ _ _ _ _ _ _ Hr1 Hi).
  assert (Hl1 : (l < max_layer h1)%nat) by (by destruct (r_params _ _ _ _ _ Hr1) as (_&_&_&_&->&_)).
  assert (Hl16 : (l < NB_LAYER_MAX)%nat) by (pose proof (c_max _ _ (v_core _ _ (r_inv _ _ _ _ _ Hr1))); lia).
  pose proof (Inv_links _ _ l (r_inv _ _ _ _ _ Hr1) Hl16) as Hlinks.
  destruct (search_iter_inv dist so LAWS Hnn h1 q ef l filter pub1 ep d0 Hef Hlinks s Hi1)
    as [->|(s' & -> & Hi' & Hm')].
  { eexists. split; [done|]. intros h2 pub2 Hr2. apply wp_ret. intros h3 pub3 Hr3.
    assert (Hr : rely ph h pub h3 pub3) by (eapply rely_trans; [exact Hr1|]; by eapply rely_trans).
    apply HQ; [done|..].
    - eapply Found_rely; [exact Hr|]. by eapply sinv_Found.
    - apply Hi. }
  eexists. split; [done|]. intros h2 pub2 Hr2.
  assert (Hr : rely ph h pub h2 pub2) by (by eapply rely_trans).
  cbn beta iota. apply IH.
  - by eapply rely_ok.
  - by destruct (r_params _ _ _ _ _ Hr) as (_&_&_&_&->&_).
  - done.
  - eapply sinv_rely; [exact Hr2|exact Hi'].
  - pose proof (vis_bound dist so h1 q ef filter pub1 ep d0 s Hi1) as B1.
    pose proof (vis_bound dist so h1 q ef filter pub1 ep d0 s' Hi') as B2.
    destruct (v_size _ _ (r_inv _ _ _ _ _ Hr1)). unfold cmeas, smeas in *. lia.
  - intros h3 pub3 hp Hr3. apply HQ. by eapply rely_trans.
Qed.

Lemma layer_nonempty h p : valid h p -> exists x ly, points_by_layer h !! p.1 = Some (x :: ly).
Proof.
  intros [pt (ly & Hly & Hp)%get_pt_lookup]. destruct ly as [|x ly]; [done|]. eauto.
Qed.

Lemma wp_search_layer F ph q ep ef l filter (Q : phase -> heap so -> hnsw -> (pid -> Prop) -> Prop) h pub :
  ok ph h pub -> (l < max_layer h)%nat -> (filter = None \/ (1 <= ef)%nat) -> pub ep -> (N < F)%nat ->
  (forall h' pub' hp, rely ph h pub h' pub' -> Found h' pub' q ef filter ep hp ->
      ((exists p, valid h p /\ p.1 = l) -> h_iter so hp <> []) -> Q ph hp h' pub') ->
  wp ph (search_layer_p dist so F q ep ef l filter) Q h pub.
Proof.
  intros Ho Hl Hef Hep HF HQ. unfold search_layer_p.
  apply wp_bind; [done|]. apply wp_read; [done|]. intros h1 pub1 Hr1.
  assert (Hl1 : (l < length (points_by_layer h1))%nat).
  { rewrite (c_len _ _ (v_core _ _ (r_inv _ _ _ _ _ Hr1))).
    by destruct (r_params _ _ _ _ _ Hr1) as (_&_&_&_&->&_). }
  apply lookup_lt_is_Some in Hl1 as [ly Hly]. rewrite Hly.
  eexists. split; [reflexivity|]. intros h2 pub2 Hr2.
  assert (Hr : rely ph h pub h2 pub2) by (eapply rely_trans; eassumption).
  destruct ly as [|p0 ly]; cbn [is_empty].
  { apply wp_ret. intros h3 pub3 Hr3. apply HQ.
    - by eapply rely_trans.
    - unfold Found, Elts, elts_good, h_len, flt_ok. rewrite (law_iter_empty _ LAWS). simpl.
      split_and!; try constructor; try lia. destruct filter; [|done]. left. constructor.
    - intros (p & Hp & <-). exfalso.
      destruct (layer_nonempty h1 p) as (? & ? & E); [by eapply rely_valid|]. congruence. }
  apply wp_bind; [by eapply rely_ok|]. apply wp_peek; [by eapply rely_ok|]. intros h3 pub3 Hr3.
  assert (Hr' : rely ph h pub h3 pub3) by (eapply rely_trans; eassumption).
  assert (Hep3 : pub3 ep) by (by apply (r_pub _ _ _ _ _ Hr')).
  destruct (v_pub _ _ (r_inv _ _ _ _ _ Hr') ep Hep3) as [ept Hept].
  destruct (search_init_inv dist so LAWS Hnn h3 q ef filter pub3 ep ept Hept Hep3) as (s & -> & Hi & _ & Hvis & _ & Hcand).
  exists s. split; [done|]. intros h4 pub4 Hr4.
  assert (Hr'' : rely ph h pub h4 pub4) by (eapply rely_trans; eassumption).
  eapply wp_search_loop; eauto.
  - by eapply rely_ok.
  - by destruct (r_params _ _ _ _ _ Hr'') as (_&_&_&_&->&_).
  - eapply sinv_rely; [exact Hr4|exact Hi].
  - destruct (v_size _ _ (r_inv _ _ _ _ _ Hr3)).
    assert (1 <= table_size h3)%nat.
    { apply (valid_count h3 [ep]); [apply NoDup_singleton|]. repeat constructor. by exists ept. }
    unfold cmeas. rewrite Hvis. unfold h_len. rewrite Hcand. simpl. lia.
  - intros h5 pub5 hp Hr5 Hf Hne. apply HQ; auto. by eapply rely_trans.
Qed.

End Safe.
