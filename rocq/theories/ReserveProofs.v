(** What the reservations of Reserve.v change (for C98). *)
From Verif Require Import Prelude Model Lib Table SearchProofs InsertProofs Reserve.

Section Proofs.
Context {T : Type} (dist : list T -> list T -> Z) (so : StdOps).
Context (gives : N -> bool).
Implicit Types (h : hnsw (T:=T)) (q : list T) (p : pid).
Local Notation reserve := (reserve gives).

Lemma reserve_ok n : (n < 2 ^ 60)%N -> gives (8 * n)%N = true -> reserve n = Ok tt.
Proof. intros Hn Hg. unfold Reserve.reserve. destruct (N.ltb_spec (2 ^ 63 - 1) (8 * n)); [lia|]. by rewrite Hg. Qed.
Lemma reserve_refused n : (n < 2 ^ 60)%N -> gives (8 * n)%N = false -> reserve n = Exit.
Proof. intros Hn Hg. unfold Reserve.reserve. destruct (N.ltb_spec (2 ^ 63 - 1) (8 * n)); [lia|]. by rewrite Hg. Qed.
Lemma reserve_too_much n : (2 ^ 60 <= n)%N -> reserve n = Panic.
Proof. intros Hn. unfold Reserve.reserve. destruct (N.ltb_spec (2 ^ 63 - 1) (8 * n)); [done|lia]. Qed.

Lemma search_layer_r_ok h q ep ef layer filter : reserve (N.of_nat (Nat.max ef 2)) = Ok tt ->
  search_layer_r dist so gives h q ep ef layer filter = search_layer dist so h q ep ef layer filter.
Proof.
  intros E. unfold search_layer_r, search_layer. rewrite E. cbn [mbind outcome_bind].
  destruct (points_by_layer h !! layer) as [[|]|]; try done.
Qed.
Lemma search_layer_r_bad h q ep ef layer filter : reserve (N.of_nat (Nat.max ef 2)) <> Ok tt ->
  search_layer_r dist so gives h q ep ef layer filter = (_ ← reserve (N.of_nat (Nat.max ef 2)); Fuel).
Proof. intros E. unfold search_layer_r. destruct (reserve _) as [[]| | | | |]; done. Qed.

Lemma upd_nbs_params h p l f h' : upd_nbs h p l f = Ok h' ->
  ef_construction h' = ef_construction h /\ max_nb_connection h' = max_nb_connection h.
Proof.
  unfold upd_nbs. intros H. apply bind_inv in H as (ly & _ & H). apply bind_inv in H as (pt & _ & H).
  apply bind_inv in H as (nbs & _ & H). by injection H as <-.
Qed.

Lemma descend_r_ok ls : reserve 2 = Ok tt -> forall h np data ep dte,
  descend_r dist so gives ls h np data ep dte = descend dist so ls h np data ep dte.
Proof.
  intros E. induction ls as [|l ls IH]; intros h np data ep dte; [done|]. cbn [descend_r descend].
  rewrite search_layer_r_ok by exact E.
  destruct (search_layer dist so h data ep 1 l None) as [hp| | | | |]; try done. cbn [mbind outcome_bind].
  destruct (descend_use dist so h np data l hp ep dte) as [[[h1 ep1] dte1]| | | | |]; try done. cbn [mbind outcome_bind]. apply IH.
Qed.

Lemma descend_params ls : forall h np data ep dte h' ep', descend dist so ls h np data ep dte = Ok (h', ep') ->
  ef_construction h' = ef_construction h /\ max_nb_connection h' = max_nb_connection h.
Proof.
  induction ls as [|l ls IH]; intros h np data ep dte h' ep' H; cbn [descend] in H; [by injection H as <- _|].
  apply bind_inv in H as (hp & _ & H). apply bind_inv in H as ([[h1 ep1] dte1] & Hu & H). apply IH in H as [-> ->].
  unfold descend_use in Hu. destruct (1 <? h_len so hp)%nat; [done|]. destruct (h_pop so hp) as [[e hp']|]; [|by injection Hu as <- _ _].
  apply bind_inv in Hu as (h2 & Hp & Hu). apply bind_inv in Hu as (ept & _ & Hu). apply upd_nbs_params in Hp as [<- <-].
  by destruct (dist data (pt_data ept) <? dte)%Z; injection Hu as <- _ _.
Qed.

Lemma connect_use_params h np data l hp ep h' ep' : connect_use dist so h np data l hp ep = Ok (h', ep') ->
  ef_construction h' = ef_construction h /\ max_nb_connection h' = max_nb_connection h.
Proof.
  unfold connect_use. intros H. apply bind_inv in H as (neg & _ & H). destruct (h_len so neg =? 0)%nat; [by injection H as <- _|].
  apply bind_inv in H as (nv & _ & H). apply bind_inv in H as (h1 & Hu & H). injection H as <- _. by apply upd_nbs_params in Hu.
Qed.

Lemma connect_r_ok ls : forall h np data ep,
  reserve (N.of_nat (Nat.max (ef_construction h) 2)) = Ok tt ->
  reserve (N.of_nat (max_nb_connection h)) = Ok tt -> reserve (N.of_nat (2 * max_nb_connection h)) = Ok tt ->
  connect_r dist so gives ls h np data ep = connect dist so ls h np data ep.
Proof.
  induction ls as [|l ls IH]; intros h np data ep E1 E2 E3; [done|]. cbn [connect_r connect].
  rewrite search_layer_r_ok by exact E1.
  destruct (search_layer dist so h data ep (ef_construction h) l None) as [hp| | | | |]; try done. cbn [mbind outcome_bind].
  assert (Eu : connect_use_r dist so gives h np data l hp ep = connect_use dist so h np data l hp ep).
  { unfold connect_use_r, connect_use.
    assert (E : reserve (N.of_nat (nb_conn h l)) = Ok tt) by (unfold nb_conn; by destruct (l =? 0)%nat).
    rewrite E. reflexivity. }
  rewrite Eu. destruct (connect_use dist so h np data l hp ep) as [[h1 ep1]| | | | |] eqn:Eh; try done. cbn [mbind outcome_bind].
  apply connect_use_params in Eh as [P1 P2]. apply IH; by rewrite ?P1, ?P2.
Qed.

Lemma generate_new_point_params h data oid d h0 np rank : generate_new_point h data oid d = Ok (h0, np, rank) ->
  ef_construction h0 = ef_construction h /\ max_nb_connection h0 = max_nb_connection h /\ entry_point h0 = entry_point h /\
  rank = S (nb_point h).
Proof.
  unfold generate_new_point, push_point, incr_nb_point. intros H. apply bind_inv in H as (level & _ & H).
  apply bind_inv in H as ([h1 p] & Hp & H). apply bind_inv in Hp as (ly & _ & Hp). injection Hp as <- <-. by injection H as <- <- <-.
Qed.

(** an insertion for which the memory is there *)
Lemma insert_r_ok h data oid d :
  reserve 2 = Ok tt -> reserve (N.of_nat (Nat.max (ef_construction h) 2)) = Ok tt ->
  reserve (N.of_nat (max_nb_connection h)) = Ok tt -> reserve (N.of_nat (2 * max_nb_connection h)) = Ok tt ->
  insert_slice_r dist so gives h data oid d = insert_slice dist so h data oid d.
Proof.
  intros E0 E1 E2 E3. unfold insert_slice_r, insert_slice.
  destruct (generate_new_point h data oid d) as [[[h0 np] rank]| | | | |] eqn:Eg; try done. cbn [mbind outcome_bind].
  apply generate_new_point_params in Eg as (P1 & P2 & _). destruct (entry_point h0) as [ep|]; [|done].
  destruct (rank =? 1)%nat; [done|]. destruct (unwrap (get_pt h0 ep)) as [ept| | | | |]; try done. cbn [mbind outcome_bind]. cbv zeta.
  rewrite descend_r_ok by done.
  destruct (descend dist so _ h0 np data ep (dist data (pt_data ept))) as [[h1 ep1]| | | | |] eqn:Ed; try done. cbn [mbind outcome_bind].
  apply descend_params in Ed as [Q1 Q2]. by rewrite connect_r_ok by (by rewrite ?Q1, ?Q2, ?P1, ?P2).
Qed.

Lemma insert_r_first h data oid d : entry_point h = None ->
  insert_slice_r dist so gives h data oid d = insert_slice dist so h data oid d.
Proof.
  intros E. unfold insert_slice_r, insert_slice.
  destruct (generate_new_point h data oid d) as [[[h0 np] rank]| | | | |] eqn:Eg; try done. cbn [mbind outcome_bind].
  apply generate_new_point_params in Eg as (_ & _ & -> & _). by rewrite E.
Qed.

(** an insertion with a width that cannot be reserved *)
Lemma insert_r_bad h data oid d h' : insert_slice dist so h data oid d = Ok h' -> entry_point h <> None -> nb_point h <> 0%nat ->
  reserve 2 = Ok tt -> reserve (N.of_nat (Nat.max (ef_construction h) 2)) <> Ok tt ->
  insert_slice_r dist so gives h data oid d = (_ ← reserve (N.of_nat (Nat.max (ef_construction h) 2)); Fuel).
Proof.
  intros Hi Hne Hn E0 E1. unfold insert_slice in Hi. unfold insert_slice_r.
  apply bind_inv in Hi as ([[h0 np] rank] & Eg & Hi). rewrite Eg. cbn [mbind outcome_bind].
  apply generate_new_point_params in Eg as (P1 & P2 & P3 & P4). rewrite <- P3 in Hne. destruct (entry_point h0) as [ep|]; [|done].
  destruct (Nat.eqb_spec rank 1); [lia|]. apply bind_inv in Hi as (ept & Ep & Hi). rewrite Ep. cbn [mbind outcome_bind]. cbv zeta.
  rewrite descend_r_ok by done. apply bind_inv in Hi as ([h1 ep1] & Ed & Hi). rewrite Ed. cbn [mbind outcome_bind].
  apply descend_params in Ed as [Q1 Q2]. rewrite seq_S, rev_app_distr. cbn [rev app connect_r].
  rewrite Q1, P1. rewrite search_layer_r_bad by done.
  destruct (reserve (N.of_nat (Nat.max (ef_construction h) 2))) as [[]| | | | |]; reflexivity.
Qed.

(** a search *)
Lemma search_filter_r_split h q k efa filter ep pv l : entry_point h = Some ep -> find_pivot dist h q ep = Ok pv ->
  layer_to_search h = Ok l ->
  (reserve (N.of_nat (Nat.max (Nat.max efa k) 2)) = Ok tt ->
     search_filter_r dist so gives h q k efa filter = search_filter dist so h q k efa filter) /\
  (reserve (N.of_nat (Nat.max (Nat.max efa k) 2)) = Exit -> search_filter_r dist so gives h q k efa filter = Exit) /\
  (reserve (N.of_nat (Nat.max (Nat.max efa k) 2)) = Panic -> search_filter_r dist so gives h q k efa filter = Panic).
Proof.
  intros He Hp Hl. unfold search_filter_r, search_filter. rewrite He, Hp. cbn [mbind outcome_bind]. cbv zeta. rewrite Hl. cbn [mbind outcome_bind].
  split_and!; intros E; [by rewrite search_layer_r_ok|rewrite search_layer_r_bad by (by rewrite E)..]; by rewrite E.
Qed.

Lemma reserve_layers_ok expected M n ls : (forall i, i ∈ ls -> reserve (expected M i n) = Ok tt) ->
  reserve_layers gives expected M n ls = Ok tt.
Proof.
  unfold reserve_layers. induction ls as [|i ls IH]; intros H; [done|]. cbn [foldl mbind outcome_bind].
  rewrite H by left. apply IH. intros j Hj. apply H. by right.
Qed.
Lemma reserve_layers_bad (expected : nat -> nat -> N -> N) M n ls : forall acc : outcome unit,
  (acc = Panic \/ acc = Ok tt /\ exists i, i ∈ ls /\ (2 ^ 60 <= expected M i n)%N) ->
  (forall i, i ∈ ls -> reserve (expected M i n) = Ok tt \/ reserve (expected M i n) = Panic) ->
  foldl (fun acc i => _ ← acc; reserve (expected M i n)) acc ls = Panic.
Proof.
  induction ls as [|i ls IH]; intros acc Ha Hall.
  - destruct Ha as [->|(_ & i & Hi & _)]; [done|by apply elem_of_nil in Hi].
  - cbn [foldl]. apply IH; [|intros j Hj; apply Hall; by right].
    destruct Ha as [->|(-> & j & Hj & Hb)]; [by left|]. cbn [mbind outcome_bind].
    apply elem_of_cons in Hj as [->|Hj]; [left; by apply reserve_too_much|].
    destruct (Hall i ltac:(left)) as [E|E]; rewrite E; [right|by left]. split; [done|]. by exists j.
Qed.

End Proofs.
