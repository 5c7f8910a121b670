(** A search answers points that the links reach from the entry point. *)
From Verif Require Import Prelude Model Lib Table SearchProofs InsertProofs QueryProofs.

Section Reach.
Context {T : Type} (dist : list T -> list T -> Z) (so : StdOps).
Context (LAWS : StdLaws so) (Hnn : forall a b, (0 <= dist a b)%Z).
Context (h : hnsw (T:=T)) (Sset : pid -> Prop).
Context (Hs : searchable h) (Hlinks : forall l, (l < NB_LAYER_MAX)%nat -> links_ok h l Sset).

Lemma pivot_descend_in q ls : forall pv d, (forall l, l ∈ ls -> (l < NB_LAYER_MAX)%nat) -> Sset pv ->
  (exists pt, get_pt h pv = Some pt /\ d = dist q (pt_data pt)) ->
  exists pv', pivot_descend dist ls h q pv d = Ok pv' /\ Sset pv'.
Proof using LAWS Hnn Hlinks.
  induction ls as [|l ls IH]; intros pv d Hls HS Hp; simpl; [by exists pv|].
  destruct Hp as (pt & Hpt & Hd). rewrite Hpt. simpl.
  destruct (Hlinks l) with (p := pv) (pt := pt) as (nbs & Hn & Hin); auto. { apply Hls. left. }
  rewrite Hn. simpl.
  destruct (pivot_scan_spec dist Hnn h q nbs pv d) as (pv' & d' & -> & Hp' & Hle & Hc).
  { intros n Hn'. by apply Hin. } { by exists pt. }
  rewrite bind_Ok. apply IH; [intros l' Hl'; apply Hls; by right| |done].
  destruct Hc as [->|(m & Hm & Em)]; [done|]. first [rewrite <- Em|rewrite Em]. by apply Hin.
Qed.

Lemma search_in q k efa filter ep res : entry_point h = Some ep -> Sset ep -> (filter = None \/ 1 <= Nat.max efa k)%nat ->
  search_filter dist so h q k efa filter = Ok res -> forall a, a ∈ res -> Sset (p_id a).
Proof using All.
  intros Hep HS Hf Hr a Ha.
  destruct (search_filter_srch dist so LAWS Hnn h q k efa filter ep Hs Hep Hf) as
    (pv & pvt & ept & l & ly & hp & res' & P1 & P2 & P3 & P4 & P5 & P6 & P7 & P8 & P9 & P10 & _ & _ & _ & _ & _ & _ & Q & _).
  rewrite Hr in P10. injection P10 as <-.
  assert (Hpv : Sset pv).
  { unfold find_pivot in P8. rewrite P1 in P8. simpl in P8.
    destruct (pivot_descend_in q (rev (seq 1 ep.1)) ep (dist q (pt_data ept))) as (pv' & E & H); [|done|by exists ept|].
    - intros j Hj. apply elem_of_list_In, in_rev, in_seq in Hj. pose proof (searchable_layer _ _ Hs (s_entry _ Hs _ Hep)). lia.
    - congruence. }
  destruct (search_layer_spec dist so LAWS Hnn h q pv pvt (Nat.max efa k) l filter ly Sset) as (hp' & E & _ & _ & R & _); auto.
  rewrite P9 in E. injection E as <-.
  assert (Hin : p_id a ∈ n_pid <$> take k (h_sorted so hp)) by (rewrite <- Q; by apply elem_of_list_fmap_1).
  apply elem_of_list_fmap in Hin as (n & -> & Hn). rewrite Forall_forall in R. apply R.
  rewrite <- (law_sorted_perm _ LAWS). eapply elem_of_submseteq; [exact Hn|]. rewrite <- (take_drop k (h_sorted so hp)) at 2.
  apply submseteq_inserts_r. done.
Qed.
End Reach.
