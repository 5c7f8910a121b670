(** Several dumps at once: what is in the files. *)
From Coq Require Import Strings.Byte Strings.String.
From stdpp Require Import strings relations.
From Verif Require Import Prelude Model Io IoProofs3 IoProofs5 Dumps.
Local Open Scope list_scope.

Lemma write_at_length c o b : length (write_at c o b) = Nat.max (length c) (o + length b).
Proof. unfold write_at. rewrite !app_length, take_length, drop_length, app_length, replicate_length. lia. Qed.
Lemma write_at_pre (c : bytes) o : length (take o (c ++ replicate (o - length c) x00)) = o.
Proof. rewrite take_length, app_length, replicate_length. lia. Qed.
Lemma write_at_mid c o b k : (o <= k < o + length b)%nat -> write_at c o b !! k = b !! (k - o)%nat.
Proof.
  intros H. unfold write_at. rewrite lookup_app_r; rewrite (write_at_pre c o); [|lia].
  rewrite lookup_app_l; [done|lia].
Qed.
Lemma write_at_after c o b k : (o + length b <= k)%nat -> write_at c o b !! k = c !! k.
Proof.
  intros H. unfold write_at. rewrite lookup_app_r; rewrite (write_at_pre c o); [|lia].
  rewrite lookup_app_r by lia. rewrite lookup_drop. f_equal. lia.
Qed.
Lemma write_at_before c o b k : (k < o)%nat -> (k < length c)%nat -> write_at c o b !! k = c !! k.
Proof.
  intros H1 H2. unfold write_at. rewrite lookup_app_l by (rewrite (write_at_pre c o); lia).
  rewrite lookup_take by lia. rewrite lookup_app_l; [done|lia].
Qed.

Section DumpsProofs.
Context {T : Type} (cwd : list string).
Implicit Types (j : job T) (s : stage) (ss : list (job T * stage)) (fs : fsys) (loc : list string).

Definition gloc j name := resolve cwd (graph_file (j_dir j) name).
Definition dloc j name := resolve cwd (data_file (j_dir j) name).
Lemma gd_ne j n j' n' : gloc j n <> dloc j' n'.
Proof. apply graph_never_data. Qed.

(** what the call has to write to a file it has open, and what is left of it *)
Definition todo j s loc : option (bytes * bytes) :=
  let G := w_graph (j_out j) in let D := w_data (j_out j) in
  match s with
  | HalfOpen n => if bool_decide (loc = gloc j n) then Some (G, G) else None
  | Writing n g d => if bool_decide (loc = gloc j n) then Some (G, g) else if bool_decide (loc = dloc j n) then Some (D, d) else None
  | Returned n _ => if bool_decide (loc = gloc j n) then Some (G, []) else if bool_decide (loc = dloc j n) then Some (D, []) else None
  | _ => None
  end.

Inductive kind j fs s fs' s' loc : Prop :=
| k_quiet : fs' loc = fs loc -> todo j s' loc = todo j s loc -> kind j fs s fs' s' loc
| k_open w : todo j s loc = None -> todo j s' loc = Some (w, w) -> fs' loc = Some [] -> kind j fs s fs' s' loc
| k_write w b l : todo j s loc = Some (w, b ++ l) -> todo j s' loc = Some (w, l) ->
    fs' loc = Some (write_at (default [] (fs loc)) (length w - length (b ++ l)) b) -> kind j fs s fs' s' loc.

Lemma job_step_kind j fs s fs' s' loc : job_step cwd j fs s fs' s' -> kind j fs s fs' s' loc.
Proof.
  intros H. destruct H; try (apply k_quiet; done).
  - destruct (decide (loc = gloc j name)) as [->|Hne].
    + eapply k_open; [done| |]; cbn [todo]; [by rewrite bool_decide_true|]. unfold fs_write. by rewrite bool_decide_true.
    + apply k_quiet; [unfold fs_write|cbn [todo]]; by rewrite bool_decide_false.
  - destruct (decide (loc = dloc j name)) as [->|Hne].
    + pose proof (gd_ne j name j name) as Hgd.
      eapply k_open; cbn [todo]; [by rewrite bool_decide_false by congruence| |].
      * rewrite bool_decide_false by congruence. by rewrite bool_decide_true.
      * unfold fs_write. by rewrite bool_decide_true.
    + apply k_quiet; [unfold fs_write; by rewrite bool_decide_false|]. cbn [todo].
      destruct (bool_decide (loc = gloc j name)); [done|]. by rewrite bool_decide_false.
  - destruct (decide (loc = gloc j name)) as [->|Hne].
    + eapply k_write; cbn [todo]; [by rewrite bool_decide_true..|].
      unfold fs_write_at, fs_write. by rewrite bool_decide_true.
    + apply k_quiet; [unfold fs_write_at, fs_write; by rewrite bool_decide_false|]. cbn [todo]. by rewrite !bool_decide_false with (P := loc = gloc j name).
  - destruct (decide (loc = dloc j name)) as [->|Hne].
    + pose proof (gd_ne j name j name) as Hgd.
      eapply k_write; cbn [todo]; [rewrite bool_decide_false by congruence; by rewrite bool_decide_true..|].
      unfold fs_write_at, fs_write. by rewrite bool_decide_true.
    + apply k_quiet; [unfold fs_write_at, fs_write; by rewrite bool_decide_false|]. cbn [todo].
      destruct (bool_decide (loc = gloc j name)); [done|]. by rewrite bool_decide_false.
Qed.

(** ** The invariants *)
Definition cuts ss : Prop := forall i j s loc w l, ss !! i = Some (j, s) -> todo j s loc = Some (w, l) -> exists p, w = p ++ l.
Definition agreed ss loc (C : bytes) : Prop := forall i j s w l, ss !! i = Some (j, s) -> todo j s loc = Some (w, l) -> w = C.
Definition filled fs ss : Prop := forall loc C, agreed ss loc C ->
  (exists i j s x, ss !! i = Some (j, s) /\ todo j s loc = Some x) ->
  exists c, fs loc = Some c /\ (length c <= length C)%nat /\
    forall k, c !! k = C !! k \/ exists i j s l, ss !! i = Some (j, s) /\ todo j s loc = Some (C, l) /\ (length C - length l <= k)%nat.

Lemma cuts_step fs ss fs' ss' : dstep cwd (fs, ss) (fs', ss') -> cuts ss -> cuts ss'.
Proof.
  intros Hst HI. inversion Hst as [? ? i j s s' ? Hi Hj]; subst. intros i2 j2 s2 loc w l H2 Ht.
  destruct (decide (i2 = i)) as [->|Hne].
  - rewrite list_lookup_insert in H2 by (by eapply lookup_lt_Some). injection H2 as <- <-.
    destruct (job_step_kind _ _ _ _ _ loc Hj) as [_ E|w' E1 E2 _|w' b l' E1 E2 _].
    + rewrite E in Ht. eauto.
    + rewrite E2 in Ht. injection Ht as <- <-. by exists [].
    + rewrite E2 in Ht. injection Ht as <- <-. destruct (HI _ _ _ _ _ _ Hi E1) as [p ->]. exists (p ++ b). by rewrite app_assoc.
  - rewrite list_lookup_insert_ne in H2 by done. eauto.
Qed.

Lemma filled_step fs ss fs' ss' : dstep cwd (fs, ss) (fs', ss') -> cuts ss -> filled fs ss -> filled fs' ss'.
Proof.
  intros Hst HC HI. inversion Hst as [? ? i j s s' ? Hi Hj]; subst. intros loc C Hag Hex.
  pose proof (lookup_lt_Some _ _ _ Hi) as Hlt.
  assert (Hnew : <[i:=(j, s')]> ss !! i = Some (j, s')) by (by apply list_lookup_insert).
  assert (Hold : forall i2 j2 s2, i2 <> i -> ss !! i2 = Some (j2, s2) -> <[i:=(j, s')]> ss !! i2 = Some (j2, s2))
    by (intros; by rewrite list_lookup_insert_ne).
  assert (Hback : forall i2 j2 s2, i2 <> i -> <[i:=(j, s')]> ss !! i2 = Some (j2, s2) -> ss !! i2 = Some (j2, s2))
    by (intros ??? Hne H; by rewrite list_lookup_insert_ne in H).
  destruct (job_step_kind _ _ _ _ _ loc Hj) as [E1 E2|w E1 E2 E3|w b l E1 E2 E3].
  - destruct (HI loc C) as (c & Hc & Hl & Hk).
    + intros i2 j2 s2 w2 l2 H2 Ht. destruct (decide (i2 = i)) as [->|Hne]; [|eauto].
      rewrite Hi in H2. injection H2 as <- <-. rewrite <- E2 in Ht. eauto.
    + destruct Hex as (i2 & j2 & s2 & x & H2 & Ht). destruct (decide (i2 = i)) as [->|Hne]; [|eauto 7].
      rewrite Hnew in H2. injection H2 as <- <-. rewrite E2 in Ht. eauto 7.
    + exists c. rewrite E1. split_and!; [done..|]. intros k. destruct (Hk k) as [?|(i2 & j2 & s2 & l2 & H2 & Ht & Hle)]; [by left|].
      right. destruct (decide (i2 = i)) as [->|Hne]; [|eauto 8]. rewrite Hi in H2. injection H2 as <- <-. rewrite <- E2 in Ht. eauto 8.
  - assert (w = C) as -> by eauto. exists []. split; [done|]. split; [simpl; lia|]. intros k. right. exists i, j, s', C. split_and!; [done..|lia].
  - assert (w = C) as -> by eauto. destruct (HC _ _ _ _ _ _ Hi E1) as [p Hp].
    destruct (HI loc C) as (c & Hc & Hl & Hk).
    + intros i2 j2 s2 w2 l2 H2 Ht. destruct (decide (i2 = i)) as [->|Hne]; [|eauto].
      rewrite Hi in H2. injection H2 as <- <-. rewrite E1 in Ht. by injection Ht as <- <-.
    + eauto 7.
    + assert (Ho : (length C - length (b ++ l))%nat = length p) by (rewrite Hp, app_length; lia). rewrite Ho in E3.
      rewrite Hc in E3. cbn [default from_option id] in E3.
      assert (HlC : length C = (length p + length b + length l)%nat) by (rewrite Hp, !app_length; lia).
      eexists. split; [exact E3|]. split; [rewrite write_at_length; lia|]. intros k.
      destruct (decide (length p + length b <= k)%nat) as [Hk1|Hk1].
      { right. exists i, j, s', l. split_and!; [done..|lia]. }
      destruct (decide (length p <= k)%nat) as [Hk2|Hk2].
      { left. rewrite write_at_mid by lia. rewrite Hp. rewrite lookup_app_r by lia. by rewrite lookup_app_l by lia. }
      destruct (Hk k) as [Hkk|(i2 & j2 & s2 & l2 & H2 & Ht & Hle)].
      * left. rewrite <- Hkk. apply write_at_before; [lia|].
        apply lookup_lt_is_Some. rewrite Hkk. apply lookup_lt_is_Some. lia.
      * right. destruct (decide (i2 = i)) as [->|Hne]; [|eauto 8].
        rewrite Hi in H2. injection H2 as <- <-. rewrite E1 in Ht. injection Ht as <-. lia.
Qed.

(** files do not disappear, and change only once opened *)
Definition kept fs0 fs ss : Prop := forall loc,
  (is_Some (fs0 loc) -> is_Some (fs loc)) /\
  ((forall i j s, ss !! i = Some (j, s) -> todo j s loc = None) -> fs loc = fs0 loc).
Lemma kept_step fs0 fs ss fs' ss' : dstep cwd (fs, ss) (fs', ss') -> kept fs0 fs ss -> kept fs0 fs' ss'.
Proof.
  intros Hst HI loc. inversion Hst as [? ? i j s s' ? Hi Hj]; subst. destruct (HI loc) as [H1 H2].
  pose proof (lookup_lt_Some _ _ _ Hi) as Hlt.
  assert (Hnew : <[i:=(j, s')]> ss !! i = Some (j, s')) by (by apply list_lookup_insert).
  destruct (job_step_kind _ _ _ _ _ loc Hj) as [E1 E2|w E1 E2 E3|w b l E1 E2 E3].
  - rewrite E1. split; [done|]. intros Hno. apply H2. intros i2 j2 s2 Hi2. destruct (decide (i2 = i)) as [->|Hne].
    + rewrite Hi in Hi2. injection Hi2 as <- <-. rewrite <- E2. eauto.
    + apply (Hno i2). by rewrite list_lookup_insert_ne.
  - rewrite E3. split; [done|]. intros Hno. by rewrite (Hno _ _ _ Hnew) in E2.
  - rewrite E3. split; [done|]. intros Hno. by rewrite (Hno _ _ _ Hnew) in E2.
Qed.

(** a call that must not overwrite has chosen a name that was free *)
Definition name_of s : option string :=
  match s with Named n | HalfOpen n | Writing n _ _ | Returned n _ => Some n | _ => None end.
Definition fresh fs0 ss : Prop := forall i j s n, ss !! i = Some (j, s) -> datamap_opt (j_index j) = true -> name_of s = Some n ->
  fs0 (dloc j n) = None.
Lemma fresh_step fs0 fs ss fs' ss' : dstep cwd (fs, ss) (fs', ss') -> kept fs0 fs ss -> fresh fs0 ss -> fresh fs0 ss'.
Proof.
  intros Hst HK HI. inversion Hst as [? ? i j s s' ? Hi Hj]; subst. intros i2 j2 s2 n H2 Hd Hn.
  destruct (decide (i2 = i)) as [->|Hne]; [|rewrite list_lookup_insert_ne in H2 by done; eauto].
  rewrite list_lookup_insert in H2 by (by eapply lookup_lt_Some). injection H2 as <- <-.
  assert (Habs : forall p, fs_read fs cwd p = None -> fs0 (resolve cwd p) = None).
  { intros p Hp. destruct (fs0 (resolve cwd p)) eqn:E; [|done]. destruct (proj1 (HK (resolve cwd p))) as [x Hx]; [by rewrite E|].
    unfold fs_read in Hp. congruence. }
  destruct Hj; cbn [name_of] in Hn; try (injection Hn as <-); try congruence; try (by apply Habs); eapply HI; eauto.
Qed.

Lemma reach_inv fs0 js fs ss : rtc (dstep cwd) (fs0, begin js) (fs, ss) ->
  cuts ss /\ filled fs ss /\ kept fs0 fs ss /\ fresh fs0 ss.
Proof.
  assert (Hb : forall i j s, begin js !! i = Some (j, s) -> s = Begun).
  { intros i j s H. unfold begin in H. rewrite list_lookup_fmap in H. destruct (js !! i); [|done]. simpl in H. congruence. }
  revert fs ss. cut (forall y, rtc (dstep cwd) (fs0, begin js) y -> cuts y.2 /\ filled y.1 y.2 /\ kept fs0 y.1 y.2 /\ fresh fs0 y.2).
  { intros G fs ss H. apply (G (fs, ss) H). }
  apply rtc_ind_r.
  - cbn [fst snd]. split_and!.
    + intros i j s loc w l H Ht. apply Hb in H as ->. done.
    + intros loc C _ (i & j & s & x & H & Ht). apply Hb in H as ->. done.
    + intros loc. done.
    + intros i j s n H _ Hn. apply Hb in H as ->. done.
  - intros [fs1 ss1] [fs2 ss2] _ Hst (H1 & H2 & H3 & H4). cbn [fst snd] in *.
    split_and!; [by eapply cuts_step|by eapply filled_step|by eapply kept_step|by eapply fresh_step].
Qed.

(** the calls stay what they are *)
Lemma todo_opened j s loc x : todo j s loc = Some x -> exists n, name_of s = Some n /\ (loc = gloc j n \/ loc = dloc j n) /\
  (match s with HalfOpen _ | Writing _ _ _ | Returned _ _ => True | _ => False end).
Proof.
  destruct s; cbn [todo name_of]; try done; intros H; exists name; split; [done| |done| |done|];
  repeat (case_bool_decide; [auto|]); done.
Qed.
Lemma loc_inj j n j' n' : gloc j n = gloc j' n' \/ dloc j n = dloc j' n' -> resolve cwd (j_dir j) = resolve cwd (j_dir j') /\ n = n'.
Proof.
  unfold gloc, dloc, graph_file, data_file. rewrite !resolve_in_dir. intros [H|H]; apply app_inj_tail in H as [H1 H]; (split; [exact H1|]).
  - assert (E : str_bytes (n +:+ ".hnsw.graph") = str_bytes (n' +:+ ".hnsw.graph")) by congruence.
    rewrite !str_bytes_app in E. by apply app_inv_tail, str_bytes_inj in E.
  - assert (E : str_bytes (n +:+ ".hnsw.data") = str_bytes (n' +:+ ".hnsw.data")) by congruence.
    rewrite !str_bytes_app in E. by apply app_inv_tail, str_bytes_inj in E.
Qed.

(** a file whose writers agree and have all ended *)
Lemma complete fs0 js fs ss loc C : rtc (dstep cwd) (fs0, begin js) (fs, ss) ->
  (exists i j s x, ss !! i = Some (j, s) /\ todo j s loc = Some x) ->
  (forall i j s w l, ss !! i = Some (j, s) -> todo j s loc = Some (w, l) -> w = C /\ l = []) ->
  fs loc = Some C.
Proof.
  intros H Hex Hall. apply reach_inv in H as (_ & HF & _).
  destruct (HF loc C) as (c & Hc & Hl & Hk); [|done|].
  { intros i j s w l H1 H2. by destruct (Hall _ _ _ _ _ H1 H2). }
  rewrite Hc. f_equal. apply list_eq. intros k. destruct (Hk k) as [?|(i & j & s & l & H1 & H2 & Hle)]; [done|].
  destruct (Hall _ _ _ _ _ H1 H2) as [_ ->]. cbn [length] in Hle.
  rewrite !lookup_ge_None_2 by lia. done.
Qed.

(** the result is that of the dump *)
Lemma returned_res fs0 js fs ss i j n r : rtc (dstep cwd) (fs0, begin js) (fs, ss) -> ss !! i = Some (j, Returned n r) -> r = w_res (j_out j).
Proof.
  revert fs ss i j n r. cut (forall y, rtc (dstep cwd) (fs0, begin js) y -> forall i j n r, y.2 !! i = Some (j, Returned n r) -> r = w_res (j_out j)).
  { intros G fs ss i j n r H. apply (G (fs, ss) H). }
  apply (rtc_ind_r (fun y => forall i j n r, y.2 !! i = Some (j, Returned n r) -> r = w_res (j_out j))).
  - intros i j n r H. cbn [snd] in H. unfold begin in H. rewrite list_lookup_fmap in H. by destruct (js !! i).
  - intros [fs1 ss1] [fs2 ss2] _ Hst IH i2 j2 n r H. cbn [snd] in *. inversion Hst as [? ? i j s s' ? Hi Hj]; subst.
    destruct (decide (i2 = i)) as [->|Hne]; [|rewrite list_lookup_insert_ne in H by done; eauto].
    rewrite list_lookup_insert in H by (by eapply lookup_lt_Some). injection H as <- ->.
    inversion Hj; subst; done.
Qed.

Lemma job_next_step j fs s fs' s' : job_next cwd j fs s = Some (fs', s') -> job_step cwd j fs s fs' s'.
Proof.
  destruct s as [|[|id l]|n|n|n [|b g] [|b' d]|n r]; cbn [job_next]; intros H; try done.
  - destruct (datamap_opt (j_index j)) eqn:E; [destruct (fs_read _ _ _) eqn:E2|]; injection H as <- <-; by econstructor.
  - destruct (fs_read _ _ _) eqn:E2; injection H as <- <-; by econstructor.
  - injection H as <- <-. constructor.
  - injection H as <- <-. constructor.
  - injection H as <- <-. constructor.
  - injection H as <- <-. pose proof (js_write_data cwd j fs n (b' :: d) [] [] ltac:(done)) as G. by rewrite app_nil_r in G.
  - injection H as <- <-. pose proof (js_write_graph cwd j fs n (b :: g) [] [] ltac:(done)) as G. by rewrite app_nil_r in G.
  - injection H as <- <-. pose proof (js_write_data cwd j fs n (b' :: d) (b :: g) [] ltac:(done)) as G. by rewrite app_nil_r in G.
Qed.
Lemma play_dumps_rtc l : forall x : dumps (T:=T), rtc (dstep cwd) x (play_dumps cwd l x).
Proof.
  induction l as [|i l IH]; intros [fs ss]; cbn [play_dumps fst snd]; [apply rtc_refl|].
  destruct (ss !! i) as [[j s]|] eqn:E; [|apply rtc_refl]. destruct (job_next cwd j fs s) as [[fs' s']|] eqn:E2; [|apply rtc_refl].
  eapply rtc_l; [|apply IH]. econstructor; [exact E|]. by apply job_next_step.
Qed.
End DumpsProofs.
