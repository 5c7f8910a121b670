(** A reload at the same time as one dump: what is read is the beginning of the dump. *)
From Coq Require Import Strings.Byte Strings.String.
From stdpp Require Import strings relations.
From Verif Require Import Prelude Model Io IoProofs3 IoProofs5 Dumps DumpsProofs DumpLoad.
Local Open Scope list_scope.

Lemma write_at_end p b : write_at p (length p) b = p ++ b.
Proof.
  unfold write_at. rewrite Nat.sub_diag. cbn [replicate]. rewrite app_nil_r, firstn_all, drop_ge by lia. by rewrite app_nil_r.
Qed.

Section DumpLoadProofs.
Context {T : Type} (cwd : list string).
Implicit Types (j : job T) (s : stage) (ss : list (job T * stage)) (fs : fsys) (loc : list string).

(** at most one call has the file open, and it writes [C] *)
Definition sole ss loc (C : bytes) : Prop := forall i1 j1 s1 x1 i2 j2 s2 x2,
  ss !! i1 = Some (j1, s1) -> todo cwd j1 s1 loc = Some x1 -> ss !! i2 = Some (j2, s2) -> todo cwd j2 s2 loc = Some x2 -> i1 = i2 /\ x1.1 = C.
Lemma sole_back fs ss fs' ss' loc C : dstep cwd (fs, ss) (fs', ss') -> sole ss' loc C -> sole ss loc C.
Proof.
  intros Hst H. inversion Hst as [? ? i j s s' ? Hi Hj]; subst.
  assert (G : forall i1 j1 s1 x1, ss !! i1 = Some (j1, s1) -> todo cwd j1 s1 loc = Some x1 ->
     exists s2 x2, <[i := (j, s')]> ss !! i1 = Some (j1, s2) /\ todo cwd j1 s2 loc = Some x2 /\ x2.1 = x1.1).
  { intros i1 j1 s1 x1 H1 Ht. destruct (decide (i1 = i)) as [->|Hne].
    - rewrite Hi in H1. injection H1 as <- <-. exists s'. rewrite list_lookup_insert by (by eapply lookup_lt_Some).
      destruct (job_step_kind cwd _ _ _ _ _ loc Hj) as [_ E|w E1 E2 _|w b l E1 E2 _].
      + rewrite E. eauto.
      + by rewrite E1 in Ht.
      + rewrite E1 in Ht. injection Ht as <-. rewrite E2. eexists. split_and!; [done..|done].
    - exists s1, x1. by rewrite list_lookup_insert_ne. }
  intros i1 j1 s1 x1 i2 j2 s2 x2 H1 T1 H2 T2. destruct (G _ _ _ _ H1 T1) as (s1' & x1' & A1 & A2 & A3).
  destruct (G _ _ _ _ H2 T2) as (s2' & x2' & B1 & B2 & _). rewrite <- A3. by eapply H.
Qed.

(** the file holds the beginning of [C] *)
Definition part fs ss loc (C : bytes) : Prop :=
  (forall i j s, ss !! i = Some (j, s) -> todo cwd j s loc = None) /\ (fs loc = None \/ fs loc = Some C) \/
  exists i j s p l, ss !! i = Some (j, s) /\ todo cwd j s loc = Some (C, l) /\ C = p ++ l /\ fs loc = Some p.
Lemma part_read fs ss loc C c : part fs ss loc C -> fs loc = Some c -> exists t, C = c ++ t.
Proof.
  intros [[_ [H|H]]|(i & j & s & p & l & _ & _ & Hp & H)] Hc; rewrite H in Hc; try done; injection Hc as ->.
  - exists []. by rewrite app_nil_r.
  - by exists l.
Qed.
Lemma part_step fs ss fs' ss' loc C : dstep cwd (fs, ss) (fs', ss') -> sole ss' loc C -> part fs ss loc C -> part fs' ss' loc C.
Proof.
  intros Hst Hs HI. pose proof (sole_back _ _ _ _ _ _ Hst Hs) as Hs0. inversion Hst as [? ? i j s s' ? Hi Hj]; subst.
  pose proof (lookup_lt_Some _ _ _ Hi) as Hlt.
  assert (Hnew : <[i:=(j, s')]> ss !! i = Some (j, s')) by (by apply list_lookup_insert).
  destruct (job_step_kind cwd _ _ _ _ _ loc Hj) as [E1 E2|w E1 E2 E3|w b l E1 E2 E3].
  - destruct HI as [[Hno Hf]|(i2 & j2 & s2 & p & l & H2 & Ht & HC & Hf)].
    + left. rewrite E1. split; [|done]. intros i2 j2 s2 H2. destruct (decide (i2 = i)) as [->|Hne].
      * rewrite Hnew in H2. injection H2 as <- <-. rewrite E2. eauto.
      * rewrite list_lookup_insert_ne in H2 by done. eauto.
    + right. rewrite E1. destruct (decide (i2 = i)) as [->|Hne].
      * rewrite Hi in H2. injection H2 as <- <-. exists i, j, s', p, l. by rewrite E2.
      * exists i2, j2, s2, p, l. by rewrite list_lookup_insert_ne.
  - destruct (Hs _ _ _ _ _ _ _ _ Hnew E2 Hnew E2) as [_ HC]. cbn [fst] in HC. subst w. right. by exists i, j, s', [], C.
  - destruct (Hs _ _ _ _ _ _ _ _ Hnew E2 Hnew E2) as [_ HC]. cbn [fst] in HC. subst w. right.
    destruct HI as [[Hno _]|(i2 & j2 & s2 & p & l2 & H2 & Ht & HC & Hf)]; [by rewrite (Hno _ _ _ Hi) in E1|].
    destruct (Hs0 _ _ _ _ _ _ _ _ Hi E1 H2 Ht) as [<- _]. rewrite Hi in H2. injection H2 as <- <-. rewrite E1 in Ht. injection Ht as <-.
    exists i, j, s', (p ++ b), l. split_and!; [done|done|by rewrite <- app_assoc|]. rewrite E3, Hf. cbn [default from_option id].
    replace (length C - length (b ++ l))%nat with (length p) by (rewrite HC, app_length; lia). by rewrite write_at_end.
Qed.

Lemma prefix_more (C c g b rest t : bytes) : C = c ++ t -> drop (length g) c = b ++ rest -> (exists t', C = g ++ t') -> exists t', C = (g ++ b) ++ t'.
Proof.
  intros H1 H2 [t' H3]. destruct (decide (length g <= length c)%nat) as [Hl|Hl].
  - assert (Hc : c = g ++ b ++ rest).
    { rewrite <- (firstn_skipn (length g) c). rewrite H2. f_equal.
      transitivity (take (length g) C); [rewrite H1; by rewrite take_app_le|]. rewrite H3. by rewrite take_app. }
    exists (rest ++ t). rewrite H1, Hc. by rewrite !app_assoc.
  - rewrite drop_ge in H2 by lia. symmetry in H2. apply app_eq_nil in H2 as [-> _]. exists t'. by rewrite app_nil_r.
Qed.

Context (dir : path) (name : string).
Lemma read_inv fs0 js G D x : rtc (wstep cwd dir name) ((fs0, begin js), not_open) x ->
  let gl := resolve cwd (graph_file dir name) in let dl := resolve cwd (data_file dir name) in
  (fs0 gl = None \/ fs0 gl = Some G) -> (fs0 dl = None \/ fs0 dl = Some D) ->
  sole x.1.2 gl G -> sole x.1.2 dl D ->
  part x.1.1 x.1.2 gl G /\ part x.1.1 x.1.2 dl D /\
  (forall g, rg_graph x.2 = Some g -> exists t, G = g ++ t) /\ (forall d, rg_data x.2 = Some d -> exists t, D = d ++ t).
Proof.
  intros H gl dl Hg Hd. revert x H. apply (rtc_ind_r (fun x => sole x.1.2 gl G -> sole x.1.2 dl D ->
    part x.1.1 x.1.2 gl G /\ part x.1.1 x.1.2 dl D /\
    (forall g, rg_graph x.2 = Some g -> exists t, G = g ++ t) /\ (forall d, rg_data x.2 = Some d -> exists t, D = d ++ t))).
  - intros _ _. cbn [fst snd not_open rg_graph rg_data].
    assert (Hb : forall loc i j s, begin js !! i = Some (j, s) -> todo cwd j s loc = None).
    { intros loc i j s H. unfold begin in H. rewrite list_lookup_fmap in H. destruct (js !! i); [|done]. simpl in H. injection H as _ <-. done. }
    split_and!; [left; split; [apply Hb|done]..|done|done].
  - intros y z _ Hst IH S1 S2. destruct Hst as [[fs ss] [fs' ss'] r Hx|[fs ss] r r' Hr].
    + cbn [fst snd] in *. destruct IH as (P1 & P2 & R1 & R2); [by eapply sole_back..|].
      split_and!; [by eapply part_step..|done|done].
    + cbn [fst snd] in *. destruct (IH S1 S2) as (P1 & P2 & R1 & R2). split_and!; [done|done| |].
      * destruct Hr as [c Hc|c g Hc|c g d b rest Hc Hb|c g d b rest Hc Hb]; cbn [rg_graph rg_data] in *; intros g' [= <-]; eauto.
        destruct (part_read _ _ _ _ _ P1 Hc) as [t Ht]. eapply prefix_more; eauto.
      * destruct Hr as [c Hc|c g Hc|c g d b rest Hc Hb|c g d b rest Hc Hb]; cbn [rg_graph rg_data] in *; intros g' E; try done; injection E as <-; eauto.
        destruct (part_read _ _ _ _ _ P2 Hc) as [t Ht]. eapply prefix_more; eauto.
Qed.

Lemma act_on_step a (x y : dumps (T:=T) * reading) : act_on cwd dir name a x = Some y -> wstep cwd dir name x y.
Proof.
  destruct x as [[fs ss] r]. destruct a as [i|i n|i n| | |n|n]; cbn [act_on]; intros H.
  - destruct (ss !! i) as [[j s]|] eqn:E; [|done]. cbn [mbind option_bind] in H.
    destruct (job_next cwd j fs s) as [[fs' s']|] eqn:E2; [|done]. cbn [mbind option_bind] in H. injection H as <-.
    constructor. econstructor; [exact E|]. by apply job_next_step.
  - destruct (ss !! i) as [[j [| | | |nm g d|]]|] eqn:E; try done. destruct (take n g) as [|b0 b] eqn:Eb; [done|]. injection H as <-.
    constructor. econstructor; [exact E|]. pose proof (js_write_graph cwd j fs nm (b0 :: b) (drop n g) d ltac:(done)) as G.
    rewrite <- Eb in G. rewrite (firstn_skipn n g) in G. rewrite <- Eb. exact G.
  - destruct (ss !! i) as [[j [| | | |nm g d|]]|] eqn:E; try done. destruct (take n d) as [|b0 b] eqn:Eb; [done|]. injection H as <-.
    constructor. econstructor; [exact E|]. pose proof (js_write_data cwd j fs nm (b0 :: b) g (drop n d) ltac:(done)) as G.
    rewrite <- Eb in G. rewrite (firstn_skipn n d) in G. rewrite <- Eb. exact G.
  - destruct r as [[g|] [d|]]; try done; destruct (fs_read _ _ _) eqn:E; try done. injection H as <-. apply wstep_read. by econstructor.
  - destruct r as [[g|] [d|]]; try done; destruct (fs_read _ _ _) eqn:E; try done. injection H as <-. apply wstep_read. by econstructor.
  - destruct r as [[g|] [d|]]; try done; destruct (fs_read _ _ _) as [c|] eqn:E; try done. injection H as <-. apply wstep_read.
    eapply rs_read_graph; [exact E|]. symmetry. apply firstn_skipn.
  - destruct r as [[g|] [d|]]; try done; destruct (fs_read _ _ _) as [c|] eqn:E; try done. injection H as <-. apply wstep_read.
    eapply rs_read_data; [exact E|]. symmetry. apply firstn_skipn.
Qed.
Lemma act_all_rtc l : forall x y : dumps (T:=T) * reading, act_all cwd dir name l x = Some y -> rtc (wstep cwd dir name) x y.
Proof.
  induction l as [|a l IH]; intros x y H; cbn [act_all] in H; [injection H as <-; apply rtc_refl|].
  destruct (act_on cwd dir name a x) as [z|] eqn:E; [|done]. cbn [mbind option_bind] in H.
  eapply rtc_l; [by eapply act_on_step|by apply IH].
Qed.
End DumpLoadProofs.

(** ** One writer *)
Section OneWriter.
Context {T : Type} (cwd : list string) (dir : path) (name : string) (el : elem T) (dname : string) (h : hnsw (T:=T)).
Local Notation w := (dump el dname h Full).
Definition opens (s : stage) : option string := match s with HalfOpen n | Writing n _ _ | Returned n _ => Some n | _ => None end.
Lemma opened_place (j : job T) s loc y : todo cwd j s loc = Some y ->
  loc = resolve cwd (graph_file dir name) \/ loc = resolve cwd (data_file dir name) ->
  opens s = Some name /\ resolve cwd (j_dir j) = resolve cwd dir /\
  (j_el j = el -> j_dname j = dname -> j_index j = h -> y.1 = if bool_decide (loc = resolve cwd (graph_file dir name)) then w_graph w else w_data w).
Proof.
  intros Ht Hloc.
destruct (todo_opened _ _ _ _ _ Ht) as (n & Hn & Hl & Hs).
  assert (Hinj : resolve cwd (j_dir j) = resolve cwd dir /\ n = name).
  { apply (loc_inj cwd j n (Job (j_el j) (j_dname j) dir name [] (j_index j)) name). unfold gloc, dloc. cbn [j_dir].
    destruct Hl as [-> | ->], Hloc as [E|E]; auto.
    - by apply graph_never_data in E.
    - symmetry in E. by apply graph_never_data in E. }
  destruct Hinj as [Hd ->]. split; [by destruct s|]. split; [done|]. intros E1 E2 E3.
  assert (Eg : gloc cwd j name = resolve cwd (graph_file dir name)).
  { unfold gloc, graph_file. rewrite !resolve_in_dir. unfold resolve in Hd. by rewrite Hd. }
  assert (Ed : dloc cwd j name = resolve cwd (data_file dir name)).
  { unfold dloc, data_file. rewrite !resolve_in_dir. unfold resolve in Hd. by rewrite Hd. }
  assert (Eo : j_out j = w) by (unfold j_out; by rewrite E1, E2, E3).
  destruct s; try done; injection Hn as ->; cbn [todo] in Ht; rewrite Eo, ?Eg, ?Ed in Ht;
    destruct (bool_decide (loc = resolve cwd (graph_file dir name))); try (by injection Ht as <-); try done;
    case_bool_decide; try done; by injection Ht as <-.
Qed.
Definition one_writer (ss : list (job T * stage)) : Prop :=
  forall i j s i' j' s', ss !! i = Some (j, s) -> ss !! i' = Some (j', s') -> opens s = Some name -> opens s' = Some name ->
  resolve cwd (j_dir j) = resolve cwd dir -> resolve cwd (j_dir j') = resolve cwd dir ->
  i = i' /\ j_el j = el /\ j_dname j = dname /\ j_index j = h.
Lemma one_sole ss : one_writer ss ->
  sole cwd ss (resolve cwd (graph_file dir name)) (w_graph w) /\ sole cwd ss (resolve cwd (data_file dir name)) (w_data w).
Proof.
  intros Hsole. split.
  - intros i1 j1 s1 x1 i2 j2 s2 x2 H1 T1 H2 T2.
    destruct (opened_place _ _ _ _ T1) as (O1 & P1 & Q1); [by left|]. destruct (opened_place _ _ _ _ T2) as (O2 & P2 & _); [by left|].
    destruct (Hsole _ _ _ _ _ _ H1 H2 O1 O2 P1 P2) as (-> & E1 & E2 & E3). split; [done|].
    rewrite (Q1 E1 E2 E3). by rewrite bool_decide_true.
  - intros i1 j1 s1 x1 i2 j2 s2 x2 H1 T1 H2 T2.
    destruct (opened_place _ _ _ _ T1) as (O1 & P1 & Q1); [by right|]. destruct (opened_place _ _ _ _ T2) as (O2 & P2 & _); [by right|].
    destruct (Hsole _ _ _ _ _ _ H1 H2 O1 O2 P1 P2) as (-> & E1 & E2 & E3). split; [done|].
    rewrite (Q1 E1 E2 E3). pose proof (graph_data_ne cwd dir name). by rewrite bool_decide_false by congruence.
Qed.
Definition as_dumped (fs : fsys) : Prop :=
  fs_read fs cwd (graph_file dir name) = None /\ fs_read fs cwd (data_file dir name) = None \/
  fs_read fs cwd (graph_file dir name) = Some (w_graph w) /\ fs_read fs cwd (data_file dir name) = Some (w_data w).
Lemma reads_of fs js fs' ss r : rtc (wstep cwd dir name) ((fs, begin js), not_open) ((fs', ss), r) -> as_dumped fs -> one_writer ss ->
  (forall g, rg_graph r = Some g -> exists t, w_graph w = g ++ t) /\ (forall d, rg_data r = Some d -> exists t, w_data w = d ++ t).
Proof.
  intros Hrun Hfs Hsole. destruct (one_sole _ Hsole) as [S1 S2].
  destruct (read_inv cwd dir name fs js (w_graph w) (w_data w) _ Hrun) as (_ & _ & Hg & Hd); [| |done..].
  - destruct Hfs as [[? _]|[? _]]; auto.
  - destruct Hfs as [[_ ?]|[_ ?]]; auto.
Qed.
Lemma parts_of fs js fs' ss : rtc (dstep cwd) (fs, begin js) (fs', ss) -> as_dumped fs -> one_writer ss ->
  part cwd fs' ss (resolve cwd (graph_file dir name)) (w_graph w) /\ part cwd fs' ss (resolve cwd (data_file dir name)) (w_data w).
Proof.
  intros Hrun Hfs Hsole. destruct (one_sole _ Hsole) as [S1 S2].
  assert (Hw : rtc (wstep cwd dir name) ((fs, begin js), not_open) ((fs', ss), not_open)).
  { revert Hrun. generalize (fs, begin js) (fs', ss). induction 1; [apply rtc_refl|]. eapply rtc_l; [by constructor|done]. }
  destruct (read_inv cwd dir name fs js (w_graph w) (w_data w) _ Hw) as (Hg & Hd & _); [| |done..].
  - destruct Hfs as [[? _]|[? _]]; auto.
  - destruct Hfs as [[_ ?]|[_ ?]]; auto.
Qed.
End OneWriter.
