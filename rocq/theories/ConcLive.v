(** When the threads cannot deadlock. *)
From stdpp Require Import relations.
From Verif Require Import Prelude Model Lib Table SearchProofs SelectProofs InsertProofs QueryProofs IterProofs
  Conc SpecConc ConcSafe ConcSafe2 ConcSafe3 ConcSafe4 ConcGlobal.

Section Live.
Context {T : Type} (dist : list T -> list T -> Z).
Context (h0 : hnsw (T:=T)) (ts : list (task (T:=T))) (md : task (T:=T) -> dmode).
Context (c : config (T:=T)) (phs : list phase) (hds : list held) (Bs : list (pid -> pid -> Prop)) (ord : list pid).
Context (G : GlobX dist h0 ts md c phs hds Bs ord).
(** nobody can make a step, except threads that hold no lock, which are taken to have stopped for good *)
Context (dead : nat -> Prop) (Hdead : forall i, dead i -> default [] (hds !! i) = []).
Context (Hstuck : forall i c', ~ dead i -> step i c <> Some c').

Lemma thread_facts i pr : c_threads c !! i = Some pr ->
  exists t ph hd B, ts !! i = Some t /\ phs !! i = Some ph /\ hds !! i = Some hd /\ Bs !! i = Some B /\
    wpg dist (N h0 ts) (nb0 h0) (tdata t) (toid t) (md t) [] hd B ph pr (fun ph' r h' _ => Post dist h0 t ph' r h') (c_sh c) (Pub h0 phs).
Proof using G.
  intros Hpr. pose proof (lookup_lt_Some _ _ _ Hpr) as Hlt. rewrite (x_len2 _ _ _ _ _ _ _ _ _ G) in Hlt.
  destruct (lookup_lt_is_Some_2 ts i Hlt) as [t Ht].
  destruct (lookup_lt_is_Some_2 phs i) as [ph Hph]; [by rewrite (x_len1 _ _ _ _ _ _ _ _ _ G)|].
  destruct (lookup_lt_is_Some_2 hds i) as [hd Hhd]; [by rewrite (x_len3 _ _ _ _ _ _ _ _ _ G)|].
  destruct (lookup_lt_is_Some_2 Bs i) as [B HB]; [by rewrite (x_len4 _ _ _ _ _ _ _ _ _ G)|].
  exists t, ph, hd, B. split_and!; auto. by eapply (x_wp _ _ _ _ _ _ _ _ _ G).
Qed.

Lemma hd_thread i hd : hds !! i = Some hd -> exists pr, c_threads c !! i = Some pr.
Proof using G.
  intros Hhd%lookup_lt_Some. apply lookup_lt_is_Some_2. rewrite (x_len2 _ _ _ _ _ _ _ _ _ G).
  by rewrite <- (x_len3 _ _ _ _ _ _ _ _ _ G).
Qed.

Lemma can_step i pr c' : c_threads c !! i = Some pr -> ~ dead i -> step i c = Some c' -> False.
Proof using Hstuck. intros _ Hi Hs. by apply (Hstuck i c'). Qed.

Lemma holds_alive i x : x ∈ default [] (hds !! i) -> ~ dead i.
Proof using Hdead. intros Hx Hi. rewrite (Hdead i Hi) in Hx. by apply elem_of_nil in Hx. Qed.

(** thread [i] waits for the write lock of [q] while it reads the neighbours of [np] *)
Definition nested (i : nat) (np q : pid) : Prop :=
  ~ dead i /\ exists t (B : pid -> pid -> Prop), ts !! i = Some t /\ Bs !! i = Some B /\ writes (md t) /\ q <> np /\ (md t = Ranked -> B np q) /\
    ((exists k, c_threads c !! i = Some (Lock Wr (LPoint q) k)) \/ exists k, c_threads c !! i = Some (Pend (LPoint q) k)).

Context (Hmd : Forall (fun t => md t <> Free /\ md t <> Reads) ts).

Lemma mode_of i t : ts !! i = Some t -> md t <> Free /\ md t <> Reads.
Proof using Hmd. intros Ht. rewrite Forall_lookup in Hmd. eauto. Qed.

Lemma stuck_reader i l : (0 < occ i (lk_readers (c_locks c l)))%nat ->
  (exists np q, l = LPoint np /\ nested i np q) \/
  (l = LTable /\ ~ dead i /\ exists m l' k, l' <> LTable /\ c_threads c !! i = Some (Lock m l' k)).
Proof using G Hmd Hstuck Hdead.
  intros Hocc. rewrite (x_rd _ _ _ _ _ _ _ _ _ G) in Hocc. apply occ_elem in Hocc. pose proof (holds_alive i _ Hocc) as Hal.
  destruct (hds !! i) as [hd|] eqn:Hhd; simpl in Hocc; [|by apply elem_of_nil in Hocc].
  destruct (hd_thread i hd Hhd) as [pr Hpr].
  destruct (thread_facts i pr Hpr) as (t & ph & hd' & B & Ht & Hph & Hhd' & HB & Hw).
  rewrite Hhd in Hhd'. injection Hhd' as <-. destruct (mode_of i t Ht) as [M1 M2].
  destruct pr as [o|m l' k|l' k|m l' k|f k]; simpl in Hw.
  - destruct o; try done. destruct Hw as [-> _]. by apply elem_of_nil in Hocc.
  - destruct Hw as [[?|[[? _]|[(_ & _ & [->|[-> Hl']])|[(_ & ->)|(Hwr & -> & np & q & -> & -> & Hne & Hrk)]]]] _]; try done.
    + by apply elem_of_nil in Hocc.
    + apply elem_of_list_singleton in Hocc as [= ->]. right. split; [done|]. split; [done|]. by exists m, l', k.
    + by apply elem_of_nil in Hocc.
    + left. apply elem_of_list_singleton in Hocc as [= ->]. exists np, q. split; [done|]. split; [done|].
      exists t, B. split_and!; auto. left. eauto.
  - destruct Hw as [(hd' & -> & Hm) _]. apply elem_of_cons in Hocc as [[=]|Hocc].
    destruct Hm as [?|[[? _]|[(_ & [=] & _)|[(_ & ->)|(Hwr & _ & np & q & -> & -> & Hne & Hrk)]]]]; try done.
    + by apply elem_of_nil in Hocc.
    + left. apply elem_of_list_singleton in Hocc as [= ->]. exists np, q. split; [done|]. split; [done|].
      exists t, B. split_and!; auto. right. eauto.
  - exfalso. destruct m; (eapply (can_step i _ _ Hpr Hal); unfold step; rewrite Hpr; reflexivity).
  - exfalso. eapply (can_step i _ _ Hpr Hal). unfold step. rewrite Hpr. reflexivity.
Qed.

Lemma stuck_pend i l k : c_threads c !! i = Some (Pend l k) -> ~ dead i -> lk_readers (c_locks c l) <> [].
Proof using Hstuck.
  intros Hpr Hal E. eapply (can_step i _ _ Hpr Hal). unfold step. rewrite Hpr. simpl. rewrite E. reflexivity.
Qed.

Lemma stuck_writer i l : lk_writer (c_locks c l) = Some i -> lk_readers (c_locks c l) <> [].
Proof using G Hmd Hstuck Hdead.
  intros Hwi. pose proof (x_wr _ _ _ _ _ _ _ _ _ G l i) as Hocc. rewrite Hwi in Hocc.
  destruct (decide (Some i = Some i)) as [_|?]; [|done].
  assert (Hin : (Wr, l) ∈ default [] (hds !! i)) by (apply occ_elem; lia).
  pose proof (holds_alive i _ Hin) as Hal.
  destruct (hds !! i) as [hd|] eqn:Hhd; simpl in Hin; [|by apply elem_of_nil in Hin].
  destruct (hd_thread i hd Hhd) as [pr Hpr].
  destruct (thread_facts i pr Hpr) as (t & ph & hd' & B & Ht & Hph & Hhd' & HB & Hw).
  rewrite Hhd in Hhd'. injection Hhd' as <-. destruct (mode_of i t Ht) as [M1 M2].
  destruct pr as [o|m l' k|l' k|m l' k|f k]; simpl in Hw.
  - destruct o; try done. destruct Hw as [-> _]. by apply elem_of_nil in Hin.
  - destruct Hw as [[?|[[? _]|[(_ & _ & [->|[-> _]])|[(_ & ->)|(Hwr & -> & np & q & -> & -> & Hne & Hrk)]]]] _]; try done; exfalso;
      first [by apply elem_of_nil in Hin|by apply elem_of_list_singleton in Hin].
  - destruct Hw as [(hd' & -> & Hm) _]. apply elem_of_cons in Hin as [[= ->]|Hin]; [by eapply stuck_pend|].
    destruct Hm as [?|[[? _]|[(_ & [=] & _)|[(_ & ->)|(Hwr & _ & np & q & -> & -> & Hne & Hrk)]]]]; try done; exfalso;
      first [by apply elem_of_nil in Hin|by apply elem_of_list_singleton in Hin].
  - exfalso. destruct m; (eapply (can_step i _ _ Hpr Hal); unfold step; rewrite Hpr; reflexivity).
  - exfalso. eapply (can_step i _ _ Hpr Hal). unfold step. rewrite Hpr. reflexivity.
Qed.

Lemma stuck_lock i m l k : c_threads c !! i = Some (Lock m l k) -> ~ dead i -> lk_readers (c_locks c l) <> [].
Proof using G Hmd Hstuck Hdead.
  intros Hpr Hal. destruct (lk_writer (c_locks c l)) as [j|] eqn:Hw; [by eapply stuck_writer|].
  exfalso. destruct m; (eapply (can_step i _ _ Hpr Hal); unfold step; rewrite Hpr; simpl; rewrite Hw; reflexivity).
Qed.

Lemma readers_nested l : lk_readers (c_locks c l) <> [] -> exists i np q, nested i np q /\ (l <> LTable -> l = LPoint np).
Proof using G Hmd Hstuck Hdead.
  assert (Hfst : forall l', lk_readers (c_locks c l') <> [] -> exists i, (0 < occ i (lk_readers (c_locks c l')))%nat).
  { intros l' Hne. destruct (lk_readers (c_locks c l')) as [|i rs]; [done|]. exists i. simpl. destruct (decide (i = i)); [lia|done]. }
  intros Hne. destruct (Hfst l Hne) as [i Hi].
  destruct (stuck_reader i l Hi) as [(np & q & -> & Hn)|(-> & Hal & m & l' & k & Hl' & Hpr)]; [by exists i, np, q|].
  destruct (Hfst l' (stuck_lock _ _ _ _ Hpr Hal)) as [j Hj].
  destruct (stuck_reader j l' Hj) as [(np & q & -> & Hn)|(-> & _)]; [|done]. exists j, np, q. by split.
Qed.

Lemma nested_next i np q : nested i np q -> exists j q', nested j q q'.
Proof using G Hmd Hstuck Hdead.
  intros (Hal & t & B & _ & _ & _ & _ & _ & Hpr).
  assert (Hne : lk_readers (c_locks c (LPoint q)) <> []).
  { destruct Hpr as [[k Hpr]|[k Hpr]]; [by eapply stuck_lock|by eapply stuck_pend]. }
  apply readers_nested in Hne as (j & np' & q' & Hn & E). injection (E ltac:(done)) as <-. eauto.
Qed.

Lemma unfinished_nested i pr : c_threads c !! i = Some pr -> (forall o, pr <> Halt o) -> ~ dead i -> exists j np q, nested j np q.
Proof using G Hmd Hstuck Hdead.
  intros Hpr Hno Hal. destruct pr as [o|m l k|l k|m l k|f k].
  - by destruct (Hno o).
  - pose proof (stuck_lock _ _ _ _ Hpr Hal) as Hne. apply readers_nested in Hne as (j & np & q & ? & _). eauto.
  - pose proof (stuck_pend _ _ _ Hpr Hal) as Hne. apply readers_nested in Hne as (j & np & q & ? & _). eauto.
  - exfalso. destruct m; (eapply (can_step i _ _ Hpr Hal); unfold step; rewrite Hpr; reflexivity).
  - exfalso. eapply (can_step i _ _ Hpr Hal). unfold step. rewrite Hpr. reflexivity.
Qed.

(** a single thread that writes *)
Lemma single_live : (forall i j ti tj, ts !! i = Some ti -> ts !! j = Some tj -> writes (md ti) -> writes (md tj) -> i = j) ->
  forall i pr, c_threads c !! i = Some pr -> (forall o, pr <> Halt o) -> ~ dead i -> False.
Proof using G Hmd Hstuck Hdead.
  intros Hone i pr Hpr Hno Hal. destruct (unfinished_nested i pr Hpr Hno Hal) as (j & np & q & Hn).
  destruct (nested_next j np q Hn) as (j' & q' & Hn').
  destruct Hn as (_ & t & B & Ht & HB & Hw & Hne & _ & Hp). destruct Hn' as (_ & t' & B' & Ht' & HB' & Hw' & Hne' & _ & Hp').
  assert (j = j') as <- by (by eapply Hone).
  destruct Hp as [[k Hp]|[k Hp]], Hp' as [[k' Hp']|[k' Hp']]; congruence.
Qed.

(** the order of publication *)
Lemma nodup_split (l : list pid) a b a' b' p : NoDup l -> l = a ++ p :: b -> l = a' ++ p :: b' -> a = a'.
Proof using Type.
  intros Hnd E E'. revert l a' E E' Hnd. induction a as [|x a IH]; intros l a' E E' Hnd; destruct a' as [|x' a'].
  - done.
  - subst l. simpl in E'. injection E' as -> ->. apply NoDup_cons in Hnd as [Hnin _]. exfalso. apply Hnin.
    apply elem_of_app. right. left.
  - subst l. simpl in E'. injection E' as -> <-. apply NoDup_cons in Hnd as [Hnin _]. exfalso. apply Hnin.
    apply elem_of_app. right. left.
  - subst l. simpl in E', Hnd. injection E' as -> E'. apply NoDup_cons in Hnd as [_ Hnd]. f_equal. by apply (IH (a ++ p :: b) a' eq_refl E' Hnd).
Qed.

Lemma ranked_live : Forall (fun t => writes (md t) -> md t = Ranked) ts ->
  forall i pr, c_threads c !! i = Some pr -> (forall o, pr <> Halt o) -> ~ dead i -> False.
Proof using G Hmd Hstuck Hdead.
  intros Hall i pr Hpr Hno Hal. destruct (unfinished_nested i pr Hpr Hno Hal) as (j & np & q & Hn).
  assert (HB : forall j np q, nested j np q -> exists a b, ord = a ++ np :: b /\ (valid h0 q \/ q ∈ a)).
  { intros j' np' q' (_ & t & B & Ht & HB & Hw & Hne & Hrk & _). rewrite Forall_lookup in Hall.
    specialize (Hrk (Hall j' t Ht Hw)). by apply (x_B _ _ _ _ _ _ _ _ _ G j' B np' q' HB). }
  assert (Hdesc : forall n j np q a b, nested j np q -> ord = a ++ np :: b -> (length a < n)%nat -> False).
  { induction n as [|n IH]; intros j' np' q' a b Hn' Ho Hlen; [lia|].
    destruct (nested_next _ _ _ Hn') as (j2 & q2 & Hn2).
    destruct (HB _ _ _ Hn') as (a1 & b1 & Ho1 & Hq).
    assert (a1 = a) as -> by (eapply (nodup_split ord); eauto; apply G).
    destruct (HB _ _ _ Hn2) as (a2 & b2 & Ho2 & _).
    assert (Hqin : q' ∈ ord) by (rewrite Ho2; apply elem_of_app; right; left).
    destruct Hq as [Hv|Hq].
    - apply (x_ord _ _ _ _ _ _ _ _ _ G) in Hqin as (i0 & Hi0). by eapply (x_new _ _ _ _ _ _ _ _ _ G i0 (P3 q') q').
    - apply elem_of_list_split in Hq as (u & v & ->).
      assert (Ho3 : ord = u ++ q' :: (v ++ np' :: b)) by (rewrite Ho, <- app_assoc; done).
      assert (u = a2) as <- by (eapply (nodup_split ord); eauto; apply G).
      eapply (IH j2 q' q2 u b2); eauto. rewrite app_length in Hlen. simpl in Hlen. lia. }
  destruct (HB _ _ _ Hn) as (a & b & Ho & _). eapply Hdesc; eauto.
Qed.

End Live.

(** threads that only read *)
Section LiveReads.
Context {T : Type} (dist : list T -> list T -> Z).
Context (h0 : hnsw (T:=T)) (ts : list (task (T:=T))) (md : task (T:=T) -> dmode).
Context (c : config (T:=T)) (phs : list phase) (hds : list held) (Bs : list (pid -> pid -> Prop)) (ord : list pid).
Context (G : GlobX dist h0 ts md c phs hds Bs ord).

(** every lock a thread holds or will take is for reading *)
Lemma reads_live : Forall (fun t => md t = Reads) ts -> (forall l i, lk_writer (c_locks c l) <> Some i) ->
  forall i pr, (forall c', step i c <> Some c') -> c_threads c !! i = Some pr -> (forall o, pr <> Halt o) -> False.
Proof using G.
  intros Hall Hnw i pr Hstuck Hpr Hno.
  destruct (thread_facts dist h0 ts md c phs hds Bs ord G i pr Hpr) as (t & ph & hd & B & Ht & Hph & Hhd & HB & Hw).
  rewrite Forall_lookup in Hall. specialize (Hall i t Ht).
  destruct pr as [o|m l k|l k|m l k|f k]; simpl in Hw.
  - by destruct (Hno o).
  - destruct (lk_writer (c_locks c l)) as [j|] eqn:E; [by apply (Hnw l j)|].
    destruct m; (eapply Hstuck; unfold step; rewrite Hpr; simpl; rewrite E; reflexivity).
  - destruct Hw as [(hd' & _ & Hm) _]. unfold may_lock, writes in Hm. rewrite Hall in Hm. naive_solver.
  - destruct m; (eapply Hstuck; unfold step; rewrite Hpr; reflexivity).
  - eapply Hstuck; unfold step; rewrite Hpr; reflexivity.
Qed.

Lemma reads_step c' : Forall (fun t => md t = Reads) ts -> cstep c c' ->
  (forall l, lk_writer (c_locks c l) = None) -> forall l, lk_writer (c_locks c' l) = None.
Proof using G.
  intros Hall [i Hs] Hnw l0. unfold step in Hs. destruct (c_threads c !! i) as [pr|] eqn:Hpr; [|done]. simpl in Hs.
  destruct (thread_facts dist h0 ts md c phs hds Bs ord G i pr Hpr) as (t & ph & hd & B & Ht & Hph & Hhd & HB & Hw).
  rewrite Forall_lookup in Hall. specialize (Hall i t Ht).
  destruct pr as [o|m l k|l k|m l k|f k]; simpl in Hw; [done|..].
  - destruct m; rewrite Hnw in Hs; injection Hs as <-; simpl; unfold upd_lock.
    + by destruct (decide (l0 = l)).
    + destruct Hw as [Hm _]. unfold may_lock, writes in Hm. rewrite Hall in Hm. naive_solver.
  - destruct (lk_readers _); [|done]. injection Hs as <-. simpl. auto.
  - destruct m; injection Hs as <-; simpl; unfold upd_lock; destruct (decide (l0 = l)); simpl; auto.
  - injection Hs as <-. simpl. auto.
Qed.

End LiveReads.

(** ** Summary: when no interleaving deadlocks *)
Section NoDeadlock.
Context {T : Type} (dist : list T -> list T -> Z) (so : StdOps) (LAWS : StdLaws so) (Hnn : forall a b, (0 <= dist a b)%Z).
Context (h0 : hnsw (T:=T)) (ts : list (task (T:=T))).
Context (Hwf : lwf dist h0) (Hml : (0 < max_layer h0)%nat) (Hok : Forall (may_run h0) ts).

Definition is_insert (t : task (T:=T)) : Prop := match t with TInsert _ _ _ => True | _ => False end.

(** [dead]: threads that will not make a step any more, and hold no lock *)
Definition gone (c : config (T:=T)) (dead : nat -> Prop) : Prop :=
  forall i, dead i -> forall l, i ∉ lk_readers (c_locks c l) /\ lk_writer (c_locks c l) <> Some i.
(** the others cannot make a step, although one of them has not ended *)
Definition stuck_but (c : config (T:=T)) (dead : nat -> Prop) : Prop :=
  (forall i c', ~ dead i -> step i c <> Some c') /\ exists i pr, ~ dead i /\ c_threads c !! i = Some pr /\ forall o, pr <> Halt o.

Lemma gone_hd md c phs hds Bs ord dead : GlobX dist h0 ts md c phs hds Bs ord -> gone c dead ->
  forall i, dead i -> default [] (hds !! i) = [].
Proof using Type.
  clear Hml Hwf Hok Hnn LAWS. intros G Hg i Hi. destruct (default [] (hds !! i)) as [|[m l] hd] eqn:E; [done|]. exfalso. destruct (Hg i Hi l) as [Hr Hw]. destruct m.
  - pose proof (x_rd _ _ _ _ _ _ _ _ _ G l i) as Ho. rewrite E in Ho. simpl in Ho. destruct (decide ((Rd, l) = (Rd, l))); [|done].
    apply Hr, occ_elem. lia.
  - pose proof (x_wr _ _ _ _ _ _ _ _ _ G l i) as Ho. rewrite E in Ho. simpl in Ho. destruct (decide ((Wr, l) = (Wr, l))); [|done].
    destruct (decide (lk_writer (c_locks c l) = Some i)); [done|lia].
Qed.

(** no iteration, a single insertion *)
Lemma single_no_stuck :
  Forall (fun t => t <> TIterate) ts ->
  (forall i j ti tj, ts !! i = Some ti -> ts !! j = Some tj -> is_insert ti -> is_insert tj -> i = j) ->
  forall c dead, during dist so h0 ts c -> gone c dead -> ~ stuck_but c dead.
Proof using LAWS Hnn Hwf Hml Hok.
  intros Hit Hone c dead Hd Hg [Hstuck (i & pr & Hal & Hpr & Hno)].
  set (md := fun t : task (T:=T) => match t with TInsert _ _ _ => Nested | TSearch _ _ _ _ => Flat | TIterate => Free | TDump => Flat end).
  destruct (globx_reach dist so LAWS Hnn h0 ts md Hwf Hml Hok) with (c := c) as (phs & hds & Bs & ord & G).
  - apply Forall_forall. intros [v id d|q k e f| |] _; simpl; auto. split; [by right; left|done].
  - done.
  - eapply (single_live dist h0 ts md c phs hds Bs ord G dead (gone_hd _ _ _ _ _ _ _ G Hg) Hstuck); eauto.
    + rewrite Forall_forall in Hit. apply Forall_forall. intros [v id d|q k e f| |] Hin; try done. by destruct (Hit _ Hin).
    + intros j j' t t' Ht Ht' Hw Hw'. eapply Hone; eauto.
      * destruct t; [done|unfold writes, md in Hw; naive_solver| |unfold writes, md in Hw; naive_solver]. exfalso. rewrite Forall_lookup in Hit. exact (Hit _ _ Ht eq_refl).
      * destruct t'; [done|unfold writes, md in Hw'; naive_solver| |unfold writes, md in Hw'; naive_solver]. exfalso. rewrite Forall_lookup in Hit. exact (Hit _ _ Ht' eq_refl).
Qed.

(** no iteration, every inserted point of the same level *)
Lemma level_no_stuck level :
  Forall (fun t => match t with
    | TInsert _ _ d => generate (level_scale h0) (max_layer h0) d = Ok level | TSearch _ _ _ _ => True | TIterate => False | TDump => True end) ts ->
  forall c dead, during dist so h0 ts c -> gone c dead -> ~ stuck_but c dead.
Proof using LAWS Hnn Hwf Hml Hok.
  intros Hts c dead Hd Hg [Hstuck (i & pr & Hal & Hpr & Hno)].
  set (md := fun t : task (T:=T) => match t with TInsert _ _ _ => Ranked | TSearch _ _ _ _ => Flat | TIterate => Free | TDump => Flat end).
  destruct (globx_reach dist so LAWS Hnn h0 ts md Hwf Hml Hok) with (c := c) as (phs & hds & Bs & ord & G).
  - eapply Forall_impl; [exact Hts|]. intros [v id d|q k e f| |] Ht; simpl; auto. split; [by right; right|].
    intros _ lv l Hlv Hl (v' & id' & d' & Hin & Hd'). rewrite Forall_forall in Hts. specialize (Hts _ Hin). simpl in Hts.
    rewrite Ht in Hlv. injection Hlv as <-. rewrite Hts in Hd'. injection Hd' as <-. lia.
  - done.
  - eapply (ranked_live dist h0 ts md c phs hds Bs ord G dead (gone_hd _ _ _ _ _ _ _ G Hg) Hstuck); eauto.
    + eapply Forall_impl; [exact Hts|]. by intros [v id d|q k e f| |] Ht.
    + eapply Forall_impl; [exact Hts|]. intros [v id d|q k e f| |] Ht; [done| |done|]; unfold writes, md; naive_solver.
Qed.

(** no insertion *)
Lemma reads_no_stuck :
  Forall (fun t => ~ is_insert t) ts -> forall c dead, during dist so h0 ts c -> gone c dead -> ~ stuck_but c dead.
Proof using LAWS Hnn Hwf Hml Hok.
  intros Hts c dead Hd Hg [Hstuck (i & pr & Hal & Hpr & Hno)].
  set (md := fun t : task (T:=T) => Reads).
  assert (Hmd : Forall (mode_ok h0 ts md) ts).
  { eapply Forall_impl; [exact Hts|]. intros [v id d|q k e f| |] Ht; simpl; auto. by destruct Ht. }
  assert (Hnw : forall l, lk_writer (c_locks c l) = None).
  { clear -Hd LAWS Hnn Hwf Hml Hok Hmd. unfold during in Hd. revert c Hd.
    apply (rtc_ind_r (fun c => forall l, lk_writer (c_locks c l) = None)); [done|].
    intros c1 c2 Hr1 Hs IH. destruct (globx_reach dist so LAWS Hnn h0 ts md Hwf Hml Hok Hmd c1 Hr1) as (phs & hds & Bs & ord & G).
    eapply (reads_step dist h0 ts md c1 phs hds Bs ord G); eauto. by apply Forall_forall. }
  destruct (globx_reach dist so LAWS Hnn h0 ts md Hwf Hml Hok Hmd c Hd) as (phs & hds & Bs & ord & G).
  eapply (reads_live dist h0 ts md c phs hds Bs ord G); eauto.
  - by apply Forall_forall.
  - intros l j. by rewrite Hnw.
Qed.

(** nobody having gone *)
Lemma no_stuck_deadlock c : (forall dead, gone c dead -> ~ stuck_but c dead) -> ~ deadlocked c.
Proof using Type.
  intros H [Hst (i & pr & Hpr & Hno)]. apply (H (fun _ => False)); [by intros ? []|]. split.
  - intros j c' _ Hs. apply (Hst c'). by exists j.
  - exists i, pr. auto.
Qed.
Lemma single_no_deadlock :
  Forall (fun t => t <> TIterate) ts ->
  (forall i j ti tj, ts !! i = Some ti -> ts !! j = Some tj -> is_insert ti -> is_insert tj -> i = j) ->
  forall c, during dist so h0 ts c -> ~ deadlocked c.
Proof using LAWS Hnn Hwf Hml Hok. intros H1 H2 c Hd. apply no_stuck_deadlock. intros dead. by apply single_no_stuck. Qed.
Lemma level_no_deadlock level :
  Forall (fun t => match t with
    | TInsert _ _ d => generate (level_scale h0) (max_layer h0) d = Ok level | TSearch _ _ _ _ => True | TIterate => False | TDump => True end) ts ->
  forall c, during dist so h0 ts c -> ~ deadlocked c.
Proof using LAWS Hnn Hwf Hml Hok. intros H1 c Hd. apply no_stuck_deadlock. intros dead. by apply (level_no_stuck level). Qed.
Lemma reads_no_deadlock :
  Forall (fun t => ~ is_insert t) ts -> forall c, during dist so h0 ts c -> ~ deadlocked c.
Proof using LAWS Hnn Hwf Hml Hok. intros H1 c Hd. apply no_stuck_deadlock. intros dead. by apply reads_no_stuck. Qed.
End NoDeadlock.
