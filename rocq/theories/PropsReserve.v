(** Property C98: the sizes given by the caller. *)
From Verif Require Import Prelude Model StdInst Lib Table SearchProofs InsertProofs ExhaustProofs QueryProofs Spec SpecProofs
  Io SpecIo SpecBuilt Conc SpecConc ConcEnd BuiltProofs Reserve ReserveProofs Examples.
Local Open Scope list_scope.

(** C98, as far as it is true: with the memory for max(ef, knbn) answers (two blocks of 8 bytes each) a search does what Model.v
    says; without, it ends the process, and it panics if 8 * max(ef, knbn) bytes are more than isize::MAX. The same for an
    insertion in an index with points, with ef_construction; the first insertion asks for none of it. Hnsw::new panics exactly
    when the size it computes for some layer is too large. *)
Theorem C98_sizes_partial :
  forall {T} (dist : list T -> list T -> Z) so, StdLaws so -> (forall a b, (0 <= dist a b)%Z) ->
  forall gives : N -> bool,
  (forall expected_size inv_ln M max_elements ml ef,
     (forall i, (i < Nat.min 16 ml)%nat ->
        (expected_size M i max_elements < 2 ^ 60)%N /\ gives (8 * expected_size M i max_elements)%N = true) ->
     hnsw_new_r (T:=T) gives expected_size inv_ln M max_elements ml ef = hnsw_new inv_ln M ml ef) /\
  (forall expected_size inv_ln M max_elements ml ef,
     (forall n, (n < 2 ^ 63)%N -> gives n = true) ->
     (exists i, (i < Nat.min 16 ml)%nat /\ (2 ^ 60 <= expected_size M i max_elements)%N) ->
     hnsw_new_r (T:=T) gives expected_size inv_ln M max_elements ml ef = Panic) /\
  (forall inv_ln M ml ef hist h, used dist so inv_ln M ml ef hist h ->
    (forall q knbn ef_arg filter,
       let size := N.of_nat (Nat.max 2 (Nat.max ef_arg knbn)) in
       (hist = [] -> search_filter_r dist so gives h q knbn ef_arg filter = Ok []) /\
       (hist <> [] ->
          ((size < 2 ^ 60)%N -> gives (8 * size)%N = true ->
             search_filter_r dist so gives h q knbn ef_arg filter = search_filter dist so h q knbn ef_arg filter) /\
          ((size < 2 ^ 60)%N -> gives (8 * size)%N = false -> search_filter_r dist so gives h q knbn ef_arg filter = Exit) /\
          ((2 ^ 60 <= size)%N -> search_filter_r dist so gives h q knbn ef_arg filter = Panic))) /\
    ((1 <= ml)%nat -> forall v id d,
       (hist = [] -> insert_slice_r dist so gives h v id d = insert_slice dist so h v id d) /\
       (hist <> [] ->
          ((N.of_nat ef < 2 ^ 60)%N -> (forall n, (n <= 8 * N.of_nat (Nat.max 512 ef))%N -> gives n = true) ->
             insert_slice_r dist so gives h v id d = insert_slice dist so h v id d) /\
          (gives 16%N = true -> (N.of_nat ef < 2 ^ 60)%N -> (2 <= ef)%nat -> gives (8 * N.of_nat ef)%N = false ->
             insert_slice_r dist so gives h v id d = Exit) /\
          (gives 16%N = true -> (2 ^ 60 <= N.of_nat ef)%N -> insert_slice_r dist so gives h v id d = Panic)))).
Proof.
  intros T dist so LAWS Hnn gives. split_and!.
  - intros ex inv_ln M n ml ef H. unfold hnsw_new_r. cbv zeta. rewrite reserve_layers_ok; [done|].
    intros i Hi. apply elem_of_seq in Hi. destruct (H i) as [H1 H2]; [unfold NB_LAYER_MAX in Hi; lia|]. by apply reserve_ok.
  - intros ex inv_ln M n ml ef Hg (i & Hi & Hb). unfold hnsw_new_r, reserve_layers. cbv zeta. rewrite reserve_layers_bad; [done|..].
    + right. split; [done|]. exists i. split; [|done]. apply elem_of_seq. unfold NB_LAYER_MAX. lia.
    + intros j _. destruct (N.lt_ge_cases (ex M j n) (2 ^ 60)) as [Hlt|Hge].
      * left. apply reserve_ok; [done|]. apply Hg. lia.
      * right. by apply reserve_too_much.
  - intros inv_ln M ml ef hist h Hu.
    destruct (used_facts dist so LAWS Hnn _ _ _ _ _ _ Hu) as (Hwf & Eml & EM & Eef & Hst & Hnb). pose proof (l_core _ _ Hwf) as Hc.
    assert (Hent : hist <> [] -> exists ep, entry_point h = Some ep /\ valid h ep).
    { intros Hne. pose proof (l_entry _ _ Hwf) as He. destruct (entry_point h) as [ep|] eqn:E; [by exists ep|].
      exfalso. rewrite <- (l_count _ _ Hwf) in He. unfold get_nb_point in Hnb. rewrite He in Hnb. by apply Hne, nil_length_inv. }
    assert (Hempty : hist = [] -> entry_point h = None).
    { intros ->. destruct (entry_point h) as [ep|] eqn:E; [|done]. exfalso. pose proof (l_entry _ _ Hwf) as He. rewrite E in He.
      destruct He as [pt Hpt]. apply stored_at in Hpt. rewrite Hst in Hpt. by apply elem_of_nil in Hpt. }
    split.
    + intros q k efa filter size. split.
      { intros Hh. unfold search_filter_r. by rewrite (Hempty Hh). }
      intros Hne. destruct (Hent Hne) as (ep & Eep & Hep). destruct Hep as [ept Hept].
      destruct (find_pivot_spec dist Hnn h q ep ept Hc Hept) as (pv & pvt & Hpv & Hpvt & _).
      destruct (layer_to_search_spec h pv ltac:(by exists pvt)) as (l & ly & Hls & _).
      destruct (search_filter_r_split dist so gives h q k efa filter ep pv l Eep Hpv Hls) as (S1 & S2 & S3).
      assert (Es : N.of_nat (Nat.max (Nat.max efa k) 2) = size) by (unfold size; lia). rewrite Es in S1, S2, S3. split_and!.
      * intros. by apply S1, reserve_ok.
      * intros. by apply S2, reserve_refused.
      * intros. by apply S3, reserve_too_much.
    + intros Hml v id d. split; [intros Hh; by apply insert_r_first, Hempty|].
      intros Hne. destruct (Hent Hne) as (ep & Eep & _). pose proof (c_M _ _ Hc) as HM.
      assert (Hn0 : nb_point h <> 0%nat).
      { unfold get_nb_point in Hnb. rewrite Hnb. by intros E%nil_length_inv. }
      destruct (insert_lspec dist so LAWS Hnn h v id d Hwf ltac:(rewrite Eml; lia)) as (h' & np & Hi & _).
      assert (H2 : gives 16%N = true -> reserve gives 2 = Ok tt) by (intros; by apply (reserve_ok gives 2)).
      split_and!.
      * intros Hlt Hg. apply insert_r_ok; (apply reserve_ok; [|apply Hg]); lia.
      * intros Hg Hlt Hge Hno.
        assert (E : reserve gives (N.of_nat (Nat.max (ef_construction h) 2)) = Exit).
        { rewrite Eef, Nat.max_l by lia. by apply reserve_refused. }
        rewrite (insert_r_bad dist so gives h v id d h' Hi); rewrite ?E; auto; by rewrite Eep.
      * intros Hg Hge.
        assert (E : reserve gives (N.of_nat (Nat.max (ef_construction h) 2)) = Panic).
        { rewrite Eef. apply reserve_too_much. lia. }
        rewrite (insert_r_bad dist so gives h v id d h' Hi); rewrite ?E; auto; by rewrite Eep.
Qed.
Print Assumptions C98_sizes_partial.

(** C98 as stated is false: with usize::MAX for "all", a search panics in every index with a point, whatever the memory; so does
    the second insertion in an index made with this ef_construction, and Hnsw::new with a max_elements of 2^60 or more (the size
    computed for layer 0, (1 + ln M) * max_elements, is not below max_elements). *)
Theorem C98_sizes_refuted :
  exists so, StdLaws so /\ (forall a b, (0 <= d1 a b)%Z) /\ forall usize_max, N.of_nat usize_max = (2 ^ 64 - 1)%N ->
  (forall gives inv_ln M ml ef hist h, used d1 so inv_ln M ml ef hist h -> hist <> [] -> forall q ef_arg knbn,
     (knbn = usize_max \/ ef_arg = usize_max) -> search_r d1 so gives h q knbn ef_arg = Panic) /\
  (exists inv_ln h, used d1 so inv_ln 2 16 usize_max [([0%Z], 1%N)] h /\
     forall gives v id d, gives 16%N = true -> insert_slice_r d1 so gives h v id d = Panic) /\
  (forall gives expected_size inv_ln M ef, (forall n, (n < 2 ^ 63)%N -> gives n = true) ->
     (2 ^ 60 <= expected_size M 0%nat (2 ^ 60))%N ->
     hnsw_new_r (T:=Z) gives expected_size inv_ln M (2 ^ 60) 16 ef = Panic).
Proof.
  exists simple_ops. split; [exact simple_laws|]. split; [exact d1_nonneg|]. intros um Hum.
  split_and!.
  - intros gives inv_ln M ml ef hist h Hu Hne q efa k Hk.
    destruct (C98_sizes_partial d1 simple_ops simple_laws d1_nonneg gives) as (_ & _ & H3).
    destruct (H3 _ _ _ _ _ _ Hu) as [Hs _]. destruct (Hs q k efa None) as [_ Hs']. apply Hs'; [done|]. lia.
  - exists one_scale.
    assert (Hn : exists h0 : hnsw (T:=Z), hnsw_new one_scale 2 16 um = Ok h0) by (eexists; reflexivity).
    destruct Hn as [h0 Hn].
    assert (Hu0 : used d1 simple_ops one_scale 2 16 um [] h0) by (apply used_built; by apply built_new).
    destruct (used_facts d1 simple_ops simple_laws d1_nonneg _ _ _ _ _ _ Hu0) as (Hwf & Eml & _).
    destruct (insert_lspec d1 simple_ops simple_laws d1_nonneg h0 [0%Z] 1%N (lv 0) Hwf ltac:(rewrite Eml; lia)) as (h1 & np & Hi & _).
    assert (Hu : used d1 simple_ops one_scale 2 16 um [([0%Z], 1%N)] h1).
    { apply used_built. change [([0%Z], 1%N)] with ([] ++ [([0%Z], 1%N)]). eapply built_insert; [by apply built_new|exact Hi]. }
    exists h1. split; [done|]. intros gives v id d Hg.
    destruct (C98_sizes_partial d1 simple_ops simple_laws d1_nonneg gives) as (_ & _ & H3).
    destruct (H3 _ _ _ _ _ _ Hu) as [_ Hi']. destruct (Hi' ltac:(lia) v id d) as [_ Hi2]. destruct (Hi2 ltac:(done)) as (_ & _ & Hp).
    apply Hp; [done|]. lia.
  - intros gives ex inv_ln M ef Hg Hb.
    destruct (C98_sizes_partial d1 simple_ops simple_laws d1_nonneg gives) as (_ & H2 & _). apply H2; [done|].
    exists 0%nat. split; [lia|done].
Qed.
Print Assumptions C98_sizes_refuted.

(** a search for 3 answers on a machine that gives blocks of up to 1000 bytes, and one for 200 *)
Example C98_example : used d1 simple_ops one_scale 2 16 10 ex1_hist ex1 /\
  (exists res, search_r d1 simple_ops (fun n => (n <=? 1000)%N) ex1 [6%Z] 3 10 = Ok res /\ length res = 3%nat) /\
  search_r d1 simple_ops (fun n => (n <=? 1000)%N) ex1 [6%Z] 200 10 = Exit /\
  (exists h, insert_slice_r d1 simple_ops (fun n => (n <=? 1000)%N) ex1 [6%Z] 17%N (lv 1) = Ok h /\ get_nb_point h = 8%nat) /\
  insert_slice_r d1 simple_ops (fun n => (n <=? 79)%N) ex1 [6%Z] 17%N (lv 1) = Exit /\
  (exists h, hnsw_new_r (T:=Z) (fun n => (n <=? 10000)%N) (fun M i n => (n * (1 + N.of_nat i))%N) one_scale 2 50 16 10 = Ok h) /\
  hnsw_new_r (T:=Z) (fun n => (n <=? 10000)%N) (fun M i n => (n * (1 + N.of_nat i))%N) one_scale 2 500 16 10 = Exit.
Proof.
  split; [exact (used_built _ _ _ _ _ _ _ _ ex1_built)|].
  split_and!; try (vm_compute; reflexivity); eexists; try (split; vm_compute; reflexivity); vm_compute; reflexivity.
Qed.
