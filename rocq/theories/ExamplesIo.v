(** Concrete indexes over bytes (the element type u8), for the examples about dump and reload. *)
From Coq Require Import SpecFloat Strings.Byte Strings.String.
From stdpp Require Import strings sets.
From Verif Require Import Prelude Model StdInst Spec Io IoBase SpecIo SpecBuilt Examples.
Local Open Scope list_scope.

(** u8 *)
Definition el_u8 : elem byte := Elem byte "u8" 1 (fun b => [b]) (fun l => match l with b :: _ => b | [] => x00 end)
  (fun _ => None) false.
Lemma el_u8_ok : elem_ok el_u8.
Proof. done. Qed.
Definition l1_name : string := "anndists::dist::distances::DistL1".

Definition dB (a b : list byte) : Z :=
  match a, b with x :: _, y :: _ => Z.abs (Z.of_N (Byte.to_N x) - Z.of_N (Byte.to_N y)) | _, _ => 0%Z end.
Lemma dB_nonneg a b : (0 <= dB a b)%Z.
Proof. destruct a, b; simpl; lia. Qed.

Definition empty_b (M ml ef : nat) : hnsw (T:=byte) :=
  Hnsw ef M false false (Nat.min 16 ml) (replicate (Nat.min 16 ml) []) f64_1 0 None false false.
Definition mkb (M ml ef : nat) (l : list (list byte * dataid * nat)) : outcome (hnsw (T:=byte)) :=
  h ← hnsw_new one_scale M ml ef; ins_all dB simple_ops l h.
Lemma mkb_built M ml ef l h : mkb M ml ef l = Ok h -> built dB simple_ops one_scale M ml ef (fst <$> l) h.
Proof.
  unfold mkb. intros H. destruct (hnsw_new one_scale M ml ef) as [h0| | | | |] eqn:E; try done. simpl in H.
  exact (ins_all_built _ _ _ _ _ _ _ [] _ _ (built_new _ _ _ _ _ _ _ E) H).
Qed.

(** deciding machine_sized and uniform *)
Definition sized_b {T} (el : elem T) (h : hnsw (T:=T)) : bool :=
  match iter_points h with
  | Ok pts =>
      (N.of_nat (ef_construction h) <? 2 ^ 64)%N && (N.of_nat (nb_point h) <? 2 ^ 63)%N &&
      f64_ok (level_scale h) &&
      forallb (fun pt => (Z.of_nat (pt_pid pt).2 <? 2 ^ 31)%Z && (pt_oid pt <? 2 ^ 64)%N &&
                 (N.of_nat (length (pt_data pt)) <? 2 ^ 64)%N &&
                 (N.of_nat (length (pt_data pt) * el_size el) <? 2 ^ 64)%N &&
                 match get_neighborhood_id h pt with
                 | Ok lists => forallb (forallb (fun n => (0 <=? distance n)%Z && (distance n <=? 2139095040)%Z)) lists
                 | _ => false
                 end) pts
  | _ => false
  end.
Lemma sized_check {T} (el : elem T) (h : hnsw (T:=T)) : sized_b el h = true -> machine_sized el h.
Proof.
  unfold sized_b. destruct (iter_points h) as [pts| | | | |] eqn:Ei; try done.
  rewrite !andb_true_iff. intros [[[H1 H2] H3] H4]. rewrite forallb_forall in H4.
  assert (Hpt : forall p pt, point_at h p pt -> In pt pts /\ pt_pid pt = p).
  { intros p pt (pts' & E & Hin & Hp). rewrite Ei in E. injection E as <-. split; [by apply elem_of_list_In|done]. }
  constructor; [lia|lia|done| |].
  - intros p pt Hp. apply Hpt in Hp as [Hin <-]. apply H4 in Hin. rewrite !andb_true_iff in Hin.
    destruct Hin as [[[[A1 A2] A3] A4] _]. lia.
  - intros p l ns n (pt & lists & Hp & Hg & Hl) Hn. apply Hpt in Hp as [Hin <-]. apply H4 in Hin.
    rewrite !andb_true_iff in Hin. destruct Hin as [_ A]. rewrite Hg, forallb_forall in A.
    apply elem_of_list_lookup_2, elem_of_list_In in Hl. apply A in Hl. rewrite forallb_forall in Hl.
    apply elem_of_list_In in Hn. apply Hl in Hn. lia.
Qed.
Definition uniform_b {T} (h : hnsw (T:=T)) (dim : nat) : bool :=
  forallb (forallb (fun pt => Nat.eqb (length (pt_data pt)) dim)) (points_by_layer h).
Lemma uniform_check {T} (h : hnsw (T:=T)) dim : uniform_b h dim = true -> uniform h.
Proof.
  unfold uniform_b. rewrite forallb_forall. intros H. exists dim. intros p v Hv.
  unfold vector_at, get_point_data in Hv. replace (Z.of_nat p.2 <? 0)%Z with false in Hv by lia. cbv zeta in Hv.
  destruct (_ && _); [|done]. rewrite Nat2Z.id in Hv.
  destruct (points_by_layer h !! p.1) as [ly|] eqn:E1; [|done]. simpl in Hv.
  destruct (ly !! p.2) as [pt|] eqn:E2; [|done]. simpl in Hv. injection Hv as <-.
  apply elem_of_list_lookup_2, elem_of_list_In in E1. apply H in E1. rewrite forallb_forall in E1.
  apply elem_of_list_lookup_2, elem_of_list_In in E2. apply E1 in E2. lia.
Qed.

Lemma l1_ok : name_ok l1_name.
Proof. split; [vm_compute; reflexivity|vm_compute; lia]. Qed.
Lemma u8_ok : name_ok (el_name el_u8).
Proof. split; [vm_compute; reflexivity|vm_compute; lia]. Qed.
Lemma l1_short : last_component l1_name "DistL1".
Proof.
  split; [|split; [done|]].
  - right. by exists "anndists::dist::distances".
  - vm_compute. intuition congruence.
Qed.

Lemma ready_u8 ml hist h : (16 <= ml)%nat -> hist <> [] -> sized_b el_u8 h = true -> dump_ready el_u8 l1_name ml hist h.
Proof. intros. constructor; auto using el_u8_ok, l1_ok, u8_ok, sized_check. Qed.

(** Five points on two layers, vectors of two bytes. *)
Definition exb_points : list (list byte * dataid * nat) :=
  [([x00; x01], 10%N, 0%nat); ([x0a; x02], 11%N, 1%nat); ([x14; x03], 12%N, 0%nat); ([x05; x04], 13%N, 0%nat);
   ([x0a; x05], 14%N, 1%nat)].
Definition exb : hnsw (T:=byte) := Eval vm_compute in the (empty_b 2 16 10) (mkb 2 16 10 exb_points).
Lemma exb_built : built dB simple_ops one_scale 2 16 10 (fst <$> exb_points) exb.
Proof. apply mkb_built. vm_compute. reflexivity. Qed.
Lemma exb_ready : dump_ready el_u8 l1_name 16 (fst <$> exb_points) exb.
Proof. apply ready_u8; [lia|done|vm_compute; reflexivity]. Qed.
Lemma exb_uniform : uniform exb.
Proof. apply (uniform_check exb 2). vm_compute. reflexivity. Qed.
Lemma exb_distinct : distinct_ids (fst <$> exb_points).
Proof. unfold distinct_ids. vm_compute. repeat constructor; set_solver. Qed.

(** two points with the same id *)
Definition exd_points : list (list byte * dataid * nat) := [([x00], 7%N, 0%nat); ([x0a], 7%N, 0%nat)].
Definition exd : hnsw (T:=byte) := Eval vm_compute in the (empty_b 2 16 10) (mkb 2 16 10 exd_points).
Lemma exd_built : built dB simple_ops one_scale 2 16 10 (fst <$> exd_points) exd.
Proof. apply mkb_built. vm_compute. reflexivity. Qed.
Lemma exd_ready : dump_ready el_u8 l1_name 16 (fst <$> exd_points) exd.
Proof. apply ready_u8; [lia|done|vm_compute; reflexivity]. Qed.
Lemma exd_uniform : uniform exd.
Proof. apply (uniform_check exd 1). vm_compute. reflexivity. Qed.

(** vectors of different lengths: the entry point has the shorter, the longer one *)
Definition exv_points : list (list byte * dataid * nat) := [([x00], 7%N, 0%nat); ([x0a; x0b], 8%N, 0%nat)].
Definition exv : hnsw (T:=byte) := Eval vm_compute in the (empty_b 2 16 10) (mkb 2 16 10 exv_points).
Lemma exv_built : built dB simple_ops one_scale 2 16 10 (fst <$> exv_points) exv.
Proof. apply mkb_built. vm_compute. reflexivity. Qed.
Lemma exv_ready : dump_ready el_u8 l1_name 16 (fst <$> exv_points) exv.
Proof. apply ready_u8; [lia|done|vm_compute; reflexivity]. Qed.
Definition exw_points : list (list byte * dataid * nat) := [([x00; x0b], 7%N, 0%nat); ([x0a], 8%N, 0%nat)].
Definition exw : hnsw (T:=byte) := Eval vm_compute in the (empty_b 2 16 10) (mkb 2 16 10 exw_points).
Lemma exw_built : built dB simple_ops one_scale 2 16 10 (fst <$> exw_points) exw.
Proof. apply mkb_built. vm_compute. reflexivity. Qed.
Lemma exw_ready : dump_ready el_u8 l1_name 16 (fst <$> exw_points) exw.
Proof. apply ready_u8; [lia|done|vm_compute; reflexivity]. Qed.

(** the working directory, an absolute directory, an empty file system *)
Definition cwd0 : list string := ["home"; "me"].
Definition tmp_dir : path := Path true ["tmp"].
Definition fs0 : fsys := fun _ => None.
