(** Lemmas about Disk.v: the calls of a dump write what Io.v says; on any disk the files hold prefixes of it. *)
From Coq Require Import Strings.String.
From Verif Require Import Prelude Model Io Lib Disk.

Definition is_graph (t : target) : bool := match t with Graph => true | Data => false end.
(** all that is sent to the graph file, to the data file *)
Definition graph_of (l : list (target * bytes)) : bytes := concat ((fun c => if is_graph c.1 then c.2 else []) <$> l).
Definition data_of (l : list (target * bytes)) : bytes := concat ((fun c => if is_graph c.1 then [] else c.2) <$> l).
Definition of_calls (c : calls) : written := W (graph_of c.1) (data_of c.1) c.2.

Lemma graph_of_app a b : graph_of (a ++ b) = graph_of a ++ graph_of b.
Proof. unfold graph_of. by rewrite fmap_app, concat_app. Qed.
Lemma data_of_app a b : data_of (a ++ b) = data_of a ++ data_of b.
Proof. unfold data_of. by rewrite fmap_app, concat_app. Qed.
Lemma of_cseq a b : of_calls (cseq a b) = wseq (of_calls a) (of_calls b).
Proof.
  destruct a as [la ra], b as [lb rb]. unfold cseq, wseq, of_calls. cbn [fst snd w_res w_graph w_data].
  destruct ra; cbn [fst snd]; [by rewrite graph_of_app, data_of_app|done..].
Qed.
Lemma of_cfail o : of_calls (cfail o) = wfail o. Proof. done. Qed.
Lemma of_cout l : of_calls (cout l) = wout (graph_of l) (data_of l). Proof. done. Qed.

Section S.
Context {T : Type} (el : elem T).

Lemma graph_nil : graph_of [] = []. Proof. done. Qed.
Lemma data_nil : data_of [] = []. Proof. done. Qed.
Lemma graph_gw b l : graph_of (gw b :: l) = b ++ graph_of l. Proof. done. Qed.
Lemma data_gw b l : data_of (gw b :: l) = data_of l. Proof. done. Qed.
Lemma graph_dw b l : graph_of (dw b :: l) = graph_of l. Proof. done. Qed.
Lemma data_dw b l : data_of (dw b :: l) = b ++ data_of l. Proof. done. Qed.

Lemma calls_description de mode : of_calls (description_calls de mode) = description_dump de mode.
Proof.
  unfold description_calls, description_dump. rewrite !of_cseq, !of_cout.
  rewrite !graph_gw, !data_gw, graph_nil, data_nil, !app_nil_r. f_equal. f_equal. by destruct (_ =? _)%N.
Qed.

Lemma pid_graph mode p : graph_of (pid_calls mode p) =
  match mode with Full => u8_bytes (N.of_nat p.1) ++ i32_bytes (Z.of_nat p.2) | Light => [] end.
Proof. by destruct mode. Qed.
Lemma pid_data mode p : data_of (pid_calls mode p) = [].
Proof. by destruct mode. Qed.

Lemma nbr_graph mode l : graph_of (concat (nbr_calls mode <$> l)) = concat (nbr_bytes mode <$> l).
Proof.
  induction l as [|n l IH]; [done|]. rewrite !fmap_cons. cbn [concat]. rewrite graph_of_app, IH. f_equal.
  unfold nbr_calls, nbr_bytes. rewrite graph_gw, graph_of_app, pid_graph, graph_gw, graph_nil, app_nil_r. done.
Qed.
Lemma nbr_data mode l : data_of (concat (nbr_calls mode <$> l)) = [].
Proof.
  induction l as [|n l IH]; [done|]. rewrite fmap_cons. cbn [concat]. rewrite data_of_app, IH, app_nil_r.
  unfold nbr_calls. rewrite data_gw, data_of_app, pid_data, data_gw. done.
Qed.
Lemma lists_graph mode ls : graph_of (concat (nbr_list_calls mode <$> ls)) = concat (nbr_list_bytes mode <$> ls).
Proof.
  induction ls as [|l ls IH]; [done|]. rewrite !fmap_cons. cbn [concat]. rewrite graph_of_app, IH. f_equal.
  unfold nbr_list_calls, nbr_list_bytes. by rewrite graph_gw, nbr_graph.
Qed.
Lemma lists_data mode ls : data_of (concat (nbr_list_calls mode <$> ls)) = [].
Proof.
  induction ls as [|l ls IH]; [done|]. rewrite fmap_cons. cbn [concat]. rewrite data_of_app, IH, app_nil_r.
  unfold nbr_list_calls. by rewrite data_gw, nbr_data.
Qed.

Lemma calls_point (h : hnsw (T:=T)) mode pt : of_calls (point_calls el h mode pt) = dump_point el h mode pt.
Proof.
  unfold point_calls, dump_point. destruct (get_neighborhood_id h pt) as [ls| | | | |]; try done.
  rewrite of_cout, !graph_gw, !data_gw, !graph_of_app, !data_of_app, pid_graph, pid_data, lists_graph, lists_data.
  rewrite !graph_dw, !data_dw, graph_nil, data_nil, !app_nil_r. done.
Qed.
Lemma calls_points (h : hnsw (T:=T)) mode i pts : forall j, of_calls (points_calls el h mode i j pts) = dump_points el h mode i j pts.
Proof.
  induction pts as [|pt pts IH]; intros j; [done|]. cbn [points_calls dump_points]. rewrite of_cseq, IH. f_equal.
  destruct (bool_decide _); [apply calls_point|done].
Qed.
Lemma calls_layers (h : hnsw (T:=T)) mode ls : forall i, of_calls (layers_calls el h mode i ls) = dump_layers el h mode i ls.
Proof.
  induction ls as [|ly ls IH]; intros i; [done|]. cbn [layers_calls dump_layers]. rewrite !of_cseq, IH, calls_points, of_cout.
  rewrite !graph_gw, !data_gw, graph_nil, data_nil, app_nil_r. done.
Qed.
Lemma calls_entry (h : hnsw (T:=T)) mode : of_calls (entry_calls h mode) = dump_entry h mode.
Proof.
  unfold entry_calls, dump_entry. destruct (entry_point h) as [ep|]; [|done]. destruct (get_pt h ep) as [pt|]; [|done].
  by rewrite of_cout, graph_gw, data_gw, pid_graph, pid_data.
Qed.
(** The two models of a dump write the same bytes. *)
Lemma calls_dump dname (h : hnsw (T:=T)) mode : of_calls (dump_calls el dname h mode) = dump el dname h mode.
Proof.
  unfold dump_calls, dump, dump_indexation.
  rewrite !of_cseq, calls_description, calls_layers, calls_entry, !of_cout. f_equal.
Qed.

End S.

(** ** Writers *)

Lemma fd_write_spec ds : forall b out ds' r, fd_write ds b = (out, ds', r) ->
  (r = Ok tt /\ out = b) \/ ((r = Err \/ r = Exit) /\ out `prefix_of` b).
Proof.
  induction ds as [|[[|k]| |] ds IH]; intros b out ds' r E.
  - destruct b; cbn in E; injection E as <- <- <-; by left.
  - destruct b; cbn in E; injection E as <- <- <-; [by left|right; split; [by left|apply prefix_nil]].
  - destruct b as [|x b]; [cbn in E; injection E as <- <- <-; by left|].
    cbn [fd_write] in E. destruct (fd_write ds (drop (S k) (x :: b))) as [[w ds1] r1] eqn:E1. injection E as <- <- <-.
    destruct (IH _ _ _ _ E1) as [[-> ->]|[Hr [z Hz]]].
    + left. split; [done|]. exact (take_drop (S k) (x :: b)).
    + right. split; [done|]. exists z. etrans; [symmetry; exact (take_drop (S k) (x :: b))|]. rewrite Hz. exact (app_assoc (take (S k) (x :: b)) w z).
  - destruct b; cbn in E; injection E as <- <- <-; [by left|right; split; [by left|apply prefix_nil]].
  - destruct b; cbn in E; injection E as <- <- <-; [by left|right; split; [by right|apply prefix_nil]].
Qed.

(** what a writer was given *)
Definition given (w : bufw) : bytes := bw_file w ++ bw_buf w.

Lemma bw_flush_spec ds w w' ds' r : bw_flush ds w = (w', ds', r) ->
  given w' = given w /\ ((r = Ok tt /\ bw_file w' = given w) \/ r = Err \/ r = Exit).
Proof.
  unfold bw_flush. destruct (fd_write ds (bw_buf w)) as [[out ds1] r1] eqn:E. intros H. injection H as <- <- <-.
  unfold given. cbn [bw_file bw_buf]. destruct (fd_write_spec _ _ _ _ _ E) as [[-> ->]|[Hr [z Hz]]].
  - split; [|by left]. by rewrite drop_all, app_nil_r.
  - split; [|by right]. rewrite Hz, drop_app, <- app_assoc. done.
Qed.

Lemma bw_write_spec cap ds w b w' ds' r : bw_write_all cap ds w b = (w', ds', r) ->
  (r = Ok tt /\ given w' = given w ++ b) \/ ((r = Err \/ r = Exit) /\ given w' `prefix_of` given w ++ b).
Proof.
  unfold bw_write_all. destruct (_ <? _)%nat eqn:Es.
  { intros H. injection H as <- <- <-. left. unfold given. cbn. by rewrite app_assoc. }
  set (F := if (cap - length (bw_buf w) <? length b)%nat then bw_flush ds w else (w, ds, Ok tt)).
  assert (HF : forall w1 ds1 r1, F = (w1, ds1, r1) -> given w1 = given w /\
    ((r1 = Ok tt /\ ((cap <= length b)%nat -> bw_buf w1 = [] \/ b = [])) \/ r1 = Err \/ r1 = Exit)).
  { intros w1 ds1 r1. unfold F. destruct (_ <? length b)%nat eqn:E1.
    - intros E. pose proof (bw_flush_spec _ _ _ _ _ E) as [Hg Hr]. split; [done|]. destruct Hr as [[-> Hf]|Hr]; [left|by right].
      split; [done|]. intros _. left. unfold given in Hg. rewrite Hf in Hg. unfold given in Hg.
      rewrite <- (app_nil_r (bw_file w ++ bw_buf w)) in Hg at 2. by apply app_inv_head in Hg.
    - intros E. injection E as <- <- <-. split; [done|]. left. split; [done|]. intros Hc.
      apply Nat.ltb_ge in E1. apply Nat.ltb_ge in Es. destruct (bw_buf w); [by left|]. right. destruct b; [done|]. cbn [length] in *. lia. }
  destruct F as [[w1 ds1] r1]. destruct (HF w1 ds1 r1 eq_refl) as [Hg Hr]. clear HF.
  destruct Hr as [[-> Hb]|[-> | ->]].
  - destruct (cap <=? length b)%nat eqn:Ec.
    + apply Nat.leb_le in Ec. specialize (Hb Ec). destruct (fd_write ds1 b) as [[out ds2] r2] eqn:E2. intros H. injection H as <- <- <-.
      destruct Hb as [Hb| ->].
      2: { destruct ds1; cbn in E2; injection E2 as <- <- <-; left; unfold given in *; cbn [bw_file bw_buf]; by rewrite !app_nil_r. }
      unfold given in *. cbn [bw_file bw_buf]. rewrite Hb, app_nil_r in Hg. rewrite Hb, app_nil_r, <- Hg.
      destruct (fd_write_spec _ _ _ _ _ E2) as [[-> ->]|[Hr Hp]]; [by left|right]. split; [done|]. by apply prefix_app.
    + intros H. injection H as <- <- <-. left. split; [done|]. rewrite <- Hg. unfold given. cbn. by rewrite app_assoc.
  - intros H. injection H as <- <- <-. right. split; [by left|]. rewrite Hg. by apply prefix_app_r.
  - intros H. injection H as <- <- <-. right. split; [by right|]. rewrite Hg. by apply prefix_app_r.
Qed.

Lemma run_calls_spec cap l : forall ds g d last g' d' ds' r, run_calls cap ds g d l last = (g', d', ds', r) ->
  (r = last /\ given g' = given g ++ graph_of l /\ given d' = given d ++ data_of l) \/
  ((r = Err \/ r = Exit) /\ given g' `prefix_of` given g ++ graph_of l /\ given d' `prefix_of` given d ++ data_of l).
Proof.
  induction l as [|[[|] b] l IH]; intros ds g d last g' d' ds' r E.
  - injection E as <- <- <- <-. left. rewrite graph_nil, data_nil, !app_nil_r. done.
  - cbn [run_calls] in E. destruct (bw_write_all cap ds g b) as [[g1 ds1] r1] eqn:E1.
    change (graph_of ((Graph, b) :: l)) with (b ++ graph_of l). change (data_of ((Graph, b) :: l)) with (data_of l).
    destruct (bw_write_spec _ _ _ _ _ _ _ E1) as [[-> Hg]|[Hr Hp]].
    + destruct (IH _ _ _ _ _ _ _ _ E) as [(-> & H1 & H2)|(Hr & H1 & H2)]; [left|right].
      * rewrite H1, H2, Hg, <- app_assoc. done.
      * rewrite Hg, <- app_assoc in H1. done.
    + right. assert ((g1, d, ds1, r1) = (g', d', ds', r)) as [= <- <- <- <-] by (by destruct Hr as [-> | ->]).
      split; [done|]. split; [|by apply prefix_app_r]. rewrite app_assoc. by apply prefix_app_r.
  - cbn [run_calls] in E. destruct (bw_write_all cap ds d b) as [[d1 ds1] r1] eqn:E1.
    change (graph_of ((Data, b) :: l)) with (graph_of l). change (data_of ((Data, b) :: l)) with (b ++ data_of l).
    destruct (bw_write_spec _ _ _ _ _ _ _ E1) as [[-> Hg]|[Hr Hp]].
    + destruct (IH _ _ _ _ _ _ _ _ E) as [(-> & H1 & H2)|(Hr & H1 & H2)]; [left|right].
      * rewrite H1, H2, Hg, <- app_assoc. done.
      * rewrite Hg, <- app_assoc in H2. done.
    + right. assert ((g, d1, ds1, r1) = (g', d', ds', r)) as [= <- <- <- <-] by (by destruct Hr as [-> | ->]).
      split; [done|]. split; [by apply prefix_app_r|]. rewrite app_assoc. by apply prefix_app_r.
Qed.

Lemma flush_both_spec ds g d g' d' ds' r : flush_both ds g d = (g', d', ds', r) ->
  given g' = given g /\ given d' = given d /\
  ((r = Ok tt /\ bw_file g' = given g /\ bw_file d' = given d) \/ r = Err \/ r = Exit).
Proof.
  unfold flush_both. destruct (bw_flush ds d) as [[d1 ds1] r1] eqn:E1. destruct (bw_flush_spec _ _ _ _ _ E1) as [H1 [[-> Hf]|Hr]].
  - destruct (bw_flush ds1 g) as [[g1 ds2] r2] eqn:E2. destruct (bw_flush_spec _ _ _ _ _ E2) as [H2 Hr2].
    intros H. injection H as <- <- <- <-. split_and!; [done..|]. destruct Hr2 as [[-> Hf2]|Hr2]; [by left|by right].
  - intros H. assert ((g, d1, ds1, r1) = (g', d', ds', r)) as [= <- <- <- <-] by (by destruct Hr as [-> | ->]).
    split_and!; [done..|by right].
Qed.
Lemma drop_both_spec ds g d g' d' r : drop_both ds g d = (g', d', r) ->
  given g' = given g /\ given d' = given d /\ (r = Ok tt \/ r = Exit).
Proof.
  unfold drop_both. destruct (bw_flush ds d) as [[d1 ds1] r1] eqn:E1. destruct (bw_flush_spec _ _ _ _ _ E1) as [H1 Hr1].
  destruct (bw_flush ds1 g) as [[g1 ds2] r2] eqn:E2. destruct (bw_flush_spec _ _ _ _ _ E2) as [H2 Hr2].
  destruct Hr1 as [[-> _]|[-> | ->]]; intros H; injection H as <- <- <-; split_and!; try done;
    try by (destruct Hr2 as [[-> _]|[-> | ->]]; auto).
Qed.

Lemma given_nil : given (BufW [] []) = []. Proof. done. Qed.
Lemma file_prefix w : bw_file w `prefix_of` given w.
Proof. apply prefix_app_r. done. Qed.
Lemma drop_flushed ds g d g' d' r : bw_buf g = [] -> bw_buf d = [] -> drop_both ds g d = (g', d', r) ->
  g' = g /\ d' = d /\ r = Ok tt.
Proof.
  intros Hg Hd. unfold drop_both, bw_flush. rewrite Hd. destruct ds; cbn [fd_write]; rewrite Hg; cbn [fd_write]; intros H; injection H as <- <- <-;
    destruct g, d; cbn in *; subst; by rewrite ?app_nil_r.
Qed.

Lemma write_files_spec cap ds cs g d r : write_files cap ds cs = (g, d, r) ->
  bw_file g `prefix_of` graph_of cs.1 /\ bw_file d `prefix_of` data_of cs.1 /\
  (r = Ok tt -> cs.2 = Ok tt /\ bw_file g = graph_of cs.1 /\ bw_file d = data_of cs.1) /\
  (r = Ok tt \/ r = Err \/ r = Exit \/ r = cs.2).
Proof.
  unfold write_files. destruct cs as [l last]. cbn [fst snd].
  destruct (run_calls cap ds (BufW [] []) (BufW [] []) l last) as [[[g0 d0] ds0] r0] eqn:E0.
  pose proof (run_calls_spec _ _ _ _ _ _ _ _ _ _ E0) as H0. rewrite given_nil in H0. cbn [app] in H0.
  assert (Hp : given g0 `prefix_of` graph_of l /\ given d0 `prefix_of` data_of l).
  { destruct H0 as [(_ & -> & ->)|(_ & ? & ?)]; done. }
  destruct Hp as [Hpg Hpd].
  assert (Hpf : forall w w0 x, given w = given w0 -> given w0 `prefix_of` x -> bw_file w `prefix_of` x).
  { intros w w0 x E Hx. etrans; [apply file_prefix|]. by rewrite E. }
  assert (Hcase : r0 = last \/ r0 = Err \/ r0 = Exit) by (destruct H0 as [(? & _)|([?|?] & _)]; auto).
  assert (Hnormal : r0 = Ok tt \/ r0 = Err ->
    (let '(g1, d1, ds2, r1) := flush_both ds0 g0 d0 in
      match r1 with
      | Ok _ | Err => let '(g2, d2, k) := drop_both ds2 g1 d1 in
          (g2, d2, match k with Ok _ => match r1 with Ok _ => r0 | _ => r1 end | _ => k end)
      | _ => (g1, d1, r1)
      end) = (g, d, r) ->
    bw_file g `prefix_of` graph_of l /\ bw_file d `prefix_of` data_of l /\
    (r = Ok tt -> last = Ok tt /\ bw_file g = graph_of l /\ bw_file d = data_of l) /\
    (r = Ok tt \/ r = Err \/ r = Exit \/ r = last)).
  { intros Hr0. destruct (flush_both ds0 g0 d0) as [[[g1 d1] ds2] r1] eqn:E1.
    destruct (flush_both_spec _ _ _ _ _ _ _ E1) as (Hg1 & Hd1 & Hr1).
    destruct Hr1 as [(-> & Hfg & Hfd)|[-> | ->]].
    - assert (Hbg : bw_buf g1 = []).
      { unfold given in Hg1 at 1. rewrite Hfg in Hg1. rewrite <- (app_nil_r (given g0)) in Hg1 at 2. by apply app_inv_head in Hg1. }
      assert (Hbd : bw_buf d1 = []).
      { unfold given in Hd1 at 1. rewrite Hfd in Hd1. rewrite <- (app_nil_r (given d0)) in Hd1 at 2. by apply app_inv_head in Hd1. }
      destruct (drop_both ds2 g1 d1) as [[g2 d2] k] eqn:E2. destruct (drop_flushed _ _ _ _ _ _ Hbg Hbd E2) as (-> & -> & ->).
      intros H. injection H as <- <- <-. split_and!.
      + by apply (Hpf _ g0).
      + by apply (Hpf _ d0).
      + intros ->. destruct H0 as [(<- & H1 & H2)|([?|?] & _)]; [|done..]. split; [done|]. rewrite Hfg, Hfd. done.
      + destruct Hr0; auto.
    - destruct (drop_both ds2 g1 d1) as [[g2 d2] k] eqn:E2. destruct (drop_both_spec _ _ _ _ _ _ E2) as (Hg2 & Hd2 & Hk).
      intros H. injection H as <- <- <-. rewrite <- Hg2 in Hg1. rewrite <- Hd2 in Hd1. split_and!.
      + by apply (Hpf _ g0).
      + by apply (Hpf _ d0).
      + destruct Hk as [-> | ->]; done.
      + destruct Hk as [-> | ->]; auto.
    - intros H. injection H as <- <- <-. split_and!.
      + by apply (Hpf _ g0).
      + by apply (Hpf _ d0).
      + done.
      + auto. }
  assert (Hpanic : forall o, r0 = o -> o <> Ok tt ->
    (let '(g1, d1, k) := drop_both ds0 g0 d0 in (g1, d1, match k with Ok _ => o | _ => k end)) = (g, d, r) ->
    bw_file g `prefix_of` graph_of l /\ bw_file d `prefix_of` data_of l /\
    (r = Ok tt -> last = Ok tt /\ bw_file g = graph_of l /\ bw_file d = data_of l) /\
    (r = Ok tt \/ r = Err \/ r = Exit \/ r = last)).
  { intros o Ho Hno. destruct (drop_both ds0 g0 d0) as [[g1 d1] k] eqn:E2. destruct (drop_both_spec _ _ _ _ _ _ E2) as (Hg2 & Hd2 & Hk).
    intros H. injection H as <- <- <-. split_and!.
    - by apply (Hpf _ g0).
    - by apply (Hpf _ d0).
    - destruct Hk as [-> | ->]; done.
    - destruct Hk as [-> | ->]; [|auto]. destruct Hcase as [E|[E|E]]; rewrite <- Ho, E; auto. }
  destruct r0 as [[]| | | | |].
  - apply Hnormal. by left.
  - apply Hnormal. by right.
  - by apply Hpanic.
  - intros H. injection H as <- <- <-. split_and!; [by apply (Hpf _ g0)|by apply (Hpf _ d0)|done|auto].
  - by apply Hpanic.
  - by apply Hpanic.
Qed.

(** a disk that does not fail *)
Lemma fd_write_perfect b : fd_write [] b = (b, [], Ok tt).
Proof. by destruct b. Qed.
Lemma bw_flush_perfect w : bw_flush [] w = (BufW (given w) [], [], Ok tt).
Proof. unfold bw_flush. rewrite fd_write_perfect, drop_all. done. Qed.
Lemma bw_write_perfect cap w b : exists w', bw_write_all cap [] w b = (w', [], Ok tt).
Proof.
  unfold bw_write_all. destruct (_ <? _)%nat; [by eexists|].
  destruct (_ <? length b)%nat; [rewrite bw_flush_perfect|]; destruct (cap <=? length b)%nat; rewrite ?fd_write_perfect; by eexists.
Qed.
Lemma run_calls_perfect cap l last : forall g d, exists g' d', run_calls cap [] g d l last = (g', d', [], last).
Proof.
  induction l as [|[[|] b] l IH]; intros g d; cbn [run_calls]; [by do 2 eexists|..].
  - destruct (bw_write_perfect cap g b) as [g1 ->]. apply IH.
  - destruct (bw_write_perfect cap d b) as [d1 ->]. apply IH.
Qed.
Lemma write_files_perfect cap l : exists g d, write_files cap [] (l, Ok tt) = (g, d, Ok tt).
Proof.
  unfold write_files. cbn [fst snd]. destruct (run_calls_perfect cap l (Ok tt) (BufW [] []) (BufW [] [])) as (g & d & ->).
  unfold flush_both. rewrite !bw_flush_perfect. unfold drop_both. rewrite !bw_flush_perfect. by do 2 eexists.
Qed.

(** ** Why a dump fails *)
Definition cause {A} (ds ds' : list wres) (r : outcome A) : Prop :=
  ds' `suffix_of` ds /\ (r = Err -> WError ∈ ds \/ Wrote 0 ∈ ds) /\ (r = Exit -> WKilled ∈ ds).
Lemma cause_trans {A B} ds1 ds2 ds3 (r : outcome A) (r' : outcome B) : cause ds1 ds2 r -> cause ds2 ds3 r' -> cause ds1 ds3 r'.
Proof.
  intros (S1 & _ & _) (S2 & E2 & K2). assert (Hin : forall a, a ∈ ds2 -> a ∈ ds1).
  { intros a Ha. destruct S1 as [z ->]. apply elem_of_app. by right. }
  split; [by etrans|]. split.
  - intros H. destruct (E2 H); [left|right]; by apply Hin.
  - intros H. by apply Hin, K2.
Qed.
Lemma cause_ok {A} ds (a : A) : cause ds ds (Ok a).
Proof. split; [done|]. by split. Qed.
Lemma fd_write_cause ds : forall b out ds' r, fd_write ds b = (out, ds', r) -> cause ds ds' r.
Proof.
  induction ds as [|a ds IH]; intros b out ds' r E.
  - destruct b; cbn in E; injection E as <- <- <-; apply cause_ok.
  - destruct b as [|x b]; [cbn in E; injection E as <- <- <-; apply cause_ok|].
    assert (Hs : ds `suffix_of` a :: ds) by (by apply suffix_cons_r).
    destruct a as [[|k]| |].
    + injection E as <- <- <-. split; [done|]. split; [|done]. intros _. right. by left.
    + cbn [fd_write] in E. destruct (fd_write ds (drop (S k) (x :: b))) as [[w ds1] r1] eqn:E1. injection E as <- <- <-.
      apply (cause_trans _ ds _ (Ok tt) _); [split; [done|by split]|]. by apply (IH _ _ _ _ E1).
    + injection E as <- <- <-. split; [done|]. split; [|done]. intros _. left. by left.
    + injection E as <- <- <-. split; [done|]. split; [done|]. intros _. by left.
Qed.
Lemma bw_flush_cause ds w w' ds' r : bw_flush ds w = (w', ds', r) -> cause ds ds' r.
Proof.
  unfold bw_flush. destruct (fd_write ds (bw_buf w)) as [[out ds1] r1] eqn:E. intros H. injection H as <- <- <-.
  by apply (fd_write_cause _ _ _ _ _ E).
Qed.
Lemma bw_write_cause cap ds w b w' ds' r : bw_write_all cap ds w b = (w', ds', r) -> cause ds ds' r.
Proof.
  unfold bw_write_all. destruct (_ <? _)%nat. { intros H. injection H as <- <- <-. apply cause_ok. }
  set (F := if (cap - length (bw_buf w) <? length b)%nat then bw_flush ds w else (w, ds, Ok tt)).
  assert (HF : forall w1 ds1 r1, F = (w1, ds1, r1) -> cause ds ds1 r1).
  { intros w1 ds1 r1. unfold F. destruct (_ <? length b)%nat; [apply bw_flush_cause|]. intros E. injection E as <- <- <-. apply cause_ok. }
  destruct F as [[w1 ds1] r1]. specialize (HF _ _ _ eq_refl).
  destruct r1 as [[]| | | | |]; try (intros H; injection H as <- <- <-; done).
  destruct (cap <=? length b)%nat; [|intros H; injection H as <- <- <-; done].
  destruct (fd_write ds1 b) as [[out ds2] r2] eqn:E2. intros H. injection H as <- <- <-.
  eapply cause_trans; [exact HF|]. by eapply fd_write_cause.
Qed.
Lemma run_calls_cause cap l last : forall ds g d g' d' ds' r, run_calls cap ds g d l last = (g', d', ds', r) ->
  r = last /\ ds' `suffix_of` ds \/ cause ds ds' r.
Proof.
  assert (Hsuf : forall (r : outcome unit) ds1 ds2 ds3 r', cause ds1 ds2 r -> (r' = last /\ ds3 `suffix_of` ds2 \/ cause ds2 ds3 r') ->
    r' = last /\ ds3 `suffix_of` ds1 \/ cause ds1 ds3 r').
  { intros r ds1 ds2 ds3 r' Hc [[-> Hs]|H]; [left|right].
    - split; [done|]. destruct Hc as (? & _). by etrans.
    - by eapply cause_trans. }
  induction l as [|[[|] b] l IH]; intros ds g d g' d' ds' r E.
  - injection E as <- <- <- <-. by left.
  - cbn [run_calls] in E. destruct (bw_write_all cap ds g b) as [[g1 ds1] r1] eqn:E1. apply bw_write_cause in E1.
    destruct r1; try (injection E as <- <- <- <-; by right). eapply Hsuf; [exact E1|]. by eapply IH.
  - cbn [run_calls] in E. destruct (bw_write_all cap ds d b) as [[d1 ds1] r1] eqn:E1. apply bw_write_cause in E1.
    destruct r1; try (injection E as <- <- <- <-; by right). eapply Hsuf; [exact E1|]. by eapply IH.
Qed.
Lemma flush_both_cause ds g d g' d' ds' r : flush_both ds g d = (g', d', ds', r) -> cause ds ds' r.
Proof.
  unfold flush_both. destruct (bw_flush ds d) as [[d1 ds1] r1] eqn:E1. apply bw_flush_cause in E1.
  destruct r1; try (intros H; injection H as <- <- <- <-; done).
  destruct (bw_flush ds1 g) as [[g1 ds2] r2] eqn:E2. apply bw_flush_cause in E2. intros H. injection H as <- <- <- <-.
  by eapply cause_trans.
Qed.
Lemma drop_both_cause ds g d g' d' r : drop_both ds g d = (g', d', r) -> r = Exit -> WKilled ∈ ds.
Proof.
  unfold drop_both. destruct (bw_flush ds d) as [[d1 ds1] r1] eqn:E1. apply bw_flush_cause in E1.
  destruct (bw_flush ds1 g) as [[g1 ds2] r2] eqn:E2. apply bw_flush_cause in E2.
  pose proof (cause_trans _ _ _ _ _ E1 E2) as (_ & _ & K). destruct E1 as (_ & _ & K1).
  destruct r1; intros H; injection H as <- <- <-; try (by intros; apply K1); destruct r2; try done; intros _; by apply K.
Qed.
Lemma write_files_cause cap ds l g d r : write_files cap ds (l, Ok tt) = (g, d, r) ->
  (r = Err -> WError ∈ ds \/ Wrote 0 ∈ ds) /\ (r = Exit -> WKilled ∈ ds).
Proof.
  unfold write_files. cbn [fst snd].
  destruct (run_calls cap ds (BufW [] []) (BufW [] []) l (Ok tt)) as [[[g0 d0] ds0] r0] eqn:E0.
  pose proof (run_calls_cause _ _ _ _ _ _ _ _ _ _ E0) as H0.
  assert (C0 : cause ds ds0 r0). { destruct H0 as [[-> H]|H]; [|done]. split; [done|by split]. } clear H0.
  pose proof (run_calls_spec _ _ _ _ _ _ _ _ _ _ E0) as H0.
  assert (Hr : r0 = Ok tt \/ r0 = Err \/ r0 = Exit) by (destruct H0 as [(? & _)|([?|?] & _)]; auto). clear H0.
  assert (Hn : r0 = Ok tt \/ r0 = Err -> (let '(g1, d1, ds2, r1) := flush_both ds0 g0 d0 in
      match r1 with
      | Ok _ | Err => let '(g2, d2, k) := drop_both ds2 g1 d1 in
          (g2, d2, match k with Ok _ => match r1 with Ok _ => r0 | _ => r1 end | _ => k end)
      | _ => (g1, d1, r1)
      end) = (g, d, r) -> (r = Err -> WError ∈ ds \/ Wrote 0 ∈ ds) /\ (r = Exit -> WKilled ∈ ds)).
  { intros Hr0. destruct (flush_both ds0 g0 d0) as [[[g1 d1] ds2] r1] eqn:E1.
    pose proof (flush_both_spec _ _ _ _ _ _ _ E1) as (_ & _ & Hr1). apply flush_both_cause in E1.
    pose proof (cause_trans _ _ _ _ _ C0 E1) as (S1 & X1 & K1).
    assert (Hin : forall a, a ∈ ds2 -> a ∈ ds). { intros a Ha. destruct S1 as [z ->]. apply elem_of_app. by right. }
    destruct C0 as (_ & X0 & K0).
    destruct (drop_both ds2 g1 d1) as [[g2 d2] k] eqn:E2. pose proof (drop_both_spec _ _ _ _ _ _ E2) as (_ & _ & Hk).
    pose proof (drop_both_cause _ _ _ _ _ _ E2) as Ck.
    destruct Hr1 as [(-> & _)|[-> | ->]]; intros H; injection H as <- <- <-.
    - destruct Hk as [-> | ->]; [|split; [by intros|intros _; by apply Hin, Ck]].
      destruct Hr0 as [-> | ->]; split; (by intros) || auto.
    - destruct Hk as [-> | ->]; [|split; [by intros|intros _; by apply Hin, Ck]]. split; [auto|by intros].
    - split; [by intros|auto]. }
  destruct Hr as [-> |[-> | ->]].
  - apply Hn. by left.
  - apply Hn. by right.
  - intros H. injection H as <- <- <-. split; [done|]. apply C0.
Qed.
