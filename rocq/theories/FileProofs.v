(** The readers of Io.v accept exactly the texts of SpecFile.v. *)
From Coq Require Import Strings.String.
From Verif Require Import Prelude Model Lib Table SearchProofs InsertProofs Spec Io IoBase IoProofs LoadProofs SpecIo SpecFile.
Local Open Scope list_scope.

(** [p] returns [a] exactly when what it consumes of the two files is related to [a] by [E] *)
Definition exact {A} (p : rd A) (E : A -> list Byte.byte -> list Byte.byte -> Prop) : Prop :=
  forall g d a rg rdd, p (g, d) = Ok (a, (rg, rdd)) <-> exists g1 d1, g = g1 ++ rg /\ d = d1 ++ rdd /\ E a g1 d1.

Lemma exact_iff {A} (p : rd A) E E' : exact p E -> (forall a g d, E a g d <-> E' a g d) -> exact p E'.
Proof. intros H HE g d a rg rdd. rewrite (H g d a rg rdd). by setoid_rewrite HE. Qed.
Lemma exact_ret {A} (x : A) : exact (rret x) (fun a g d => a = x /\ g = [] /\ d = []).
Proof.
  intros g d a rg rdd. unfold rret. split.
  - intros [= -> -> ->]. exists [], []. done.
  - intros (g1 & d1 & -> & -> & -> & -> & ->). done.
Qed.
Lemma exact_lift {A} (o : outcome A) : exact (rlift o) (fun a g d => o = Ok a /\ g = [] /\ d = []).
Proof.
  intros g d a rg rdd. unfold rlift. split.
  - intros (x & -> & [= -> -> ->])%bind_inv. exists [], []. done.
  - intros (g1 & d1 & -> & -> & -> & -> & ->). done.
Qed.
Lemma exact_bind {A B} (p : rd A) (k : A -> rd B) E F : exact p E -> (forall a, exact (k a) (F a)) ->
  exact (rbind p k) (fun b g d => exists a g1 g2 d1 d2, g = g1 ++ g2 /\ d = d1 ++ d2 /\ E a g1 d1 /\ F a b g2 d2).
Proof.
  intros Hp Hk g d b rg rdd. unfold rbind. split.
  - intros ([a [g1 d1]] & H1 & H2)%bind_inv. apply Hp in H1 as (x1 & y1 & -> & -> & H1). apply Hk in H2 as (x2 & y2 & -> & -> & H2).
    exists (x1 ++ x2), (y1 ++ y2). rewrite !app_assoc. split_and!; try done. by exists a, x1, x2, y1, y2.
  - intros (? & ? & -> & -> & a & x1 & x2 & y1 & y2 & -> & -> & H1 & H2). rewrite <- !app_assoc.
    rewrite (proj2 (Hp _ _ a (x2 ++ rg) (y2 ++ rdd))) by eauto. simpl. apply Hk. eauto.
Qed.
Lemma exact_bind2 {A1 A2 B} (p : rd (A1 * A2)) (k : A1 * A2 -> rd B) E F : exact p E -> (forall x y, exact (k (x, y)) (F x y)) ->
  exact (rbind p k) (fun b g d => exists x y g1 g2 d1 d2, g = g1 ++ g2 /\ d = d1 ++ d2 /\ E (x, y) g1 d1 /\ F x y b g2 d2).
Proof.
  intros Hp Hk. eapply exact_iff; [apply (exact_bind p k E (fun a => F a.1 a.2) Hp); intros [x y]; apply Hk|]. intros b g d. split.
  - intros ([x y] & H). by exists x, y.
  - intros (x & y & H). by exists (x, y).
Qed.
Lemma exact_panic {A} (p : rd A) E : exact p E -> exact (or_panic p) E.
Proof. intros H g d a rg rdd. rewrite <- (H g d a rg rdd). unfold or_panic. by destruct (p (g, d)). Qed.
Lemma exact_exit {A} (p : rd A) E : exact p E -> exact (or_exit p) E.
Proof. intros H g d a rg rdd. rewrite <- (H g d a rg rdd). unfold or_exit. by destruct (p (g, d)). Qed.
Lemma exact_gread k : exact (gread k) (fun b g d => g = b /\ d = [] /\ length b = k).
Proof.
  intros g d a rg rdd. unfold gread. cbn [fst snd]. destruct (length g <? k)%nat eqn:E.
  - split; [done|]. intros (g1 & d1 & -> & -> & -> & -> & Hl). rewrite app_length in E. apply Nat.ltb_lt in E. lia.
  - apply Nat.ltb_ge in E. split.
    + intros [= <- <- <-]. exists (take k g), []. rewrite take_drop, take_length. split_and!; try done. lia.
    + intros (g1 & d1 & -> & -> & -> & -> & <-). by rewrite take_app, drop_app.
Qed.
Lemma exact_dread k : exact (dread k) (fun b g d => d = b /\ g = [] /\ length b = k).
Proof.
  intros g d a rg rdd. unfold dread. cbn [fst snd]. destruct (length d <? k)%nat eqn:E.
  - split; [done|]. intros (g1 & d1 & -> & -> & -> & -> & Hl). rewrite app_length in E. apply Nat.ltb_lt in E. lia.
  - apply Nat.ltb_ge in E. split.
    + intros [= <- <- <-]. exists [], (take k d). rewrite take_drop, take_length. split_and!; try done. lia.
    + intros (g1 & d1 & -> & -> & -> & -> & <-). by rewrite take_app, drop_app.
Qed.

Lemma byte_of_to_N x : byte_of_N (Byte.to_N x) = x.
Proof. by destruct x. Qed.
Lemma to_N_lt x : (Byte.to_N x < 256)%N.
Proof. pose proof (Byte.to_N_bounded x). lia. Qed.
Lemma le_bytes_val b : le_bytes (length b) (le_val b) = b.
Proof.
  induction b as [|x b IH]; [done|]. cbn [length le_bytes le_val]. pose proof (to_N_lt x). f_equal.
  - rewrite <- (byte_of_to_N x) at 2. unfold byte_of_N.
    replace ((Byte.to_N x + 256 * le_val b) mod 256)%N with (Byte.to_N x mod 256)%N; [done|].
    rewrite (N.mul_comm 256), N.mod_add; done.
  - transitivity (le_bytes (length b) (le_val b)); [|done]. f_equal. rewrite (N.mul_comm 256), N.div_add by done. rewrite N.div_small by done. lia.
Qed.

Lemma exact_gnum k : exact (gnum k) (fun n g d => g = le_bytes k n /\ d = [] /\ (n < 256 ^ N.of_nat k)%N).
Proof.
  eapply exact_iff; [eapply exact_bind; [apply exact_gread|intros; apply exact_ret]|]. intros n g d. split.
  - intros (b & g1 & g2 & d1 & d2 & -> & -> & (-> & -> & <-) & -> & -> & ->). rewrite !app_nil_r, le_bytes_val.
    split_and!; try done. apply le_val_lt.
  - intros (-> & -> & Hn). exists (le_bytes k n), (le_bytes k n), [], [], []. rewrite !app_nil_r. split_and!; try done.
    + apply le_bytes_length. + by rewrite le_val_bytes.
Qed.
Lemma exact_dnum k : exact (dnum k) (fun n g d => d = le_bytes k n /\ g = [] /\ (n < 256 ^ N.of_nat k)%N).
Proof.
  eapply exact_iff; [eapply exact_bind; [apply exact_dread|intros; apply exact_ret]|]. intros n g d. split.
  - intros (b & g1 & g2 & d1 & d2 & -> & -> & (-> & -> & <-) & -> & -> & ->). rewrite !app_nil_r, le_bytes_val.
    split_and!; try done. apply le_val_lt.
  - intros (-> & -> & Hn). exists (le_bytes k n), [], [], (le_bytes k n), []. rewrite !app_nil_r. split_and!; try done.
    + apply le_bytes_length. + by rewrite le_val_bytes.
Qed.
Definition never {A} : A -> list Byte.byte -> list Byte.byte -> Prop := fun _ _ _ => False.
Lemma exact_fail {A} (o : outcome A) : (forall a, o <> Ok a) -> exact (rlift o) never.
Proof. intros H. eapply exact_iff; [apply exact_lift|]. intros a g d. unfold never. split; [intros [E _]; by apply (H a)|done]. Qed.
(** a reader of the graph file alone *)
Definition reads {A X} (p : rd A) (f : X -> list Byte.byte) (R : X -> A -> Prop) : Prop :=
  exact p (fun a g d => d = [] /\ exists x, g = f x /\ R x a).
Lemma reads_rrep {A X} (p : rd A) (f : X -> list Byte.byte) R n : reads p f R ->
  exact (rrep n p) (fun l g d => d = [] /\ exists xs, g = concat (f <$> xs) /\ length xs = n /\ Forall2 R xs l).
Proof.
  intros H. induction n as [|n IH]; cbn [rrep].
  - eapply exact_iff; [apply exact_ret|]. intros l g d. split.
    + intros (-> & -> & ->). split; [done|]. exists []. split_and!; try done.
    + intros (-> & xs & -> & H1%nil_length_inv & H2). subst. by inversion H2.
  - eapply exact_iff; [eapply exact_bind; [apply H|intros a; eapply exact_bind; [apply IH|intros; apply exact_ret]]|].
    intros l g d. split.
    + intros (a & g1 & g2 & d1 & d2 & -> & -> & (-> & x & -> & Hx) & l1 & g3 & g4 & d3 & d4 & -> & -> & (-> & xs & -> & L & HF) & -> & -> & ->).
      split; [done|]. exists (x :: xs). rewrite !app_nil_r. cbn [fmap list_fmap concat length]. split_and!; try done; [by rewrite L|].
      by constructor.
    + intros (-> & xs & -> & L & HF). destruct xs as [|x xs]; [done|]. inversion HF as [|? a ? l' Hx HF' E1 E2]; subst.
      exists a, (f x), (concat (f <$> xs)), [], []. split_and!; try done. { by exists x. }
      exists l', (concat (f <$> xs)), [], [], []. rewrite !app_nil_r. split_and!; try done. exists xs. split_and!; try done. by injection L.
Qed.

Ltac byexact := repeat first [apply exact_ret | apply exact_gnum | apply exact_dnum | apply exact_lift | apply exact_panic | apply exact_exit
  | eapply exact_bind; [|intros]].

Lemma i32_inv n : (n < 2 ^ 32)%N -> le_bytes 4 n = i32_bytes (i32_of n) /\ (- 2 ^ 31 <= i32_of n < 2 ^ 31)%Z.
Proof.
  intros Hn. unfold i32_bytes, i32_of. destruct (n <? 2 ^ 31)%N eqn:E.
  - apply N.ltb_lt in E. split; [|lia]. f_equal. rewrite Z.mod_small by lia. lia.
  - apply N.ltb_ge in E. split; [|lia]. f_equal. rewrite <- (Z.mod_unique (Z.of_N n - 2 ^ 32) (2 ^ 32) (-1) (Z.of_N n)); lia.
Qed.
Lemma i32_bytes_le z : (- 2 ^ 31 <= z < 2 ^ 31)%Z -> exists n, (n < 2 ^ 32)%N /\ i32_bytes z = le_bytes 4 n /\ i32_of n = z.
Proof.
  intros Hz. exists (Z.to_N (z mod 2 ^ 32)). split; [|split; [done|]].
  - pose proof (Z.mod_pos_bound z (2 ^ 32)). lia.
  - rewrite <- (i32_round z Hz) at 2. unfold i32_bytes. rewrite le_val_bytes; [done|]. pose proof (Z.mod_pos_bound z (2 ^ 32)). lia.
Qed.

(** one neighbour *)
Definition nbr_read (mode : N) (t : text_nbr) (n : raw_nbr) : Prop :=
  fits_nbr mode t /\ rn_id n = tn_id t /\ rn_layer n = tn_layer t /\ rn_rank n = tn_rank t /\ f32_of (tn_bits t) = Some (rn_dist n).
Lemma reads_nbr de : reads (load_nbr de) (nbr_text (dumpmode de)) (nbr_read (dumpmode de)).
Proof.
  unfold load_nbr. destruct (dumpmode de =? 1)%N eqn:Em.
  - eapply exact_iff.
    { eapply exact_bind; [apply exact_panic, exact_gnum|intros id]. eapply exact_bind2.
      { eapply exact_bind; [apply exact_panic, exact_gnum|intros l]. eapply exact_bind; [apply exact_panic, exact_gnum|intros r]. apply exact_ret. }
      intros l r. eapply exact_bind; [apply exact_panic, exact_gnum|intros b]. eapply exact_bind; [apply exact_lift|intros z]. apply exact_ret. }
    intros n g d. unfold nbr_text, nbr_read, fits_nbr. rewrite Em. split.
    + intros (id & ? & ? & ? & ? & -> & -> & (-> & -> & Hid) & l & r & ? & ? & ? & ? & -> & -> &
        (l' & ? & ? & ? & ? & -> & -> & (-> & -> & Hl) & r' & ? & ? & ? & ? & -> & -> & (-> & -> & Hr) & [= -> ->] & -> & ->) &
        b & ? & ? & ? & ? & -> & -> & (-> & -> & Hb) & z & ? & ? & ? & ? & -> & -> & (Hz & -> & ->) & -> & -> & ->).
      split; [done|]. destruct (i32_inv r' Hr) as [E1 E2]. exists (TextNbr id l' (i32_of r') b). cbn [tn_id tn_layer tn_rank tn_bits rn_id rn_layer rn_rank rn_dist]. rewrite ?app_nil_r, E1.
      split; [by rewrite <- !app_assoc|]. split_and!; try done; try lia. by destruct (f32_of b); inversion Hz.
    + intros (-> & [id l r b] & -> & (Hid & Hb & Hl & Hr) & E1 & E2 & E3 & E4). cbn [tn_id tn_layer tn_rank tn_bits rn_id rn_layer rn_rank rn_dist] in *.
      destruct (i32_bytes_le r Hr) as (r' & Hr' & Er1 & Er2).
      exists id, (u64_bytes id), ((u8_bytes l ++ i32_bytes r) ++ u32_bytes b), [], []. split_and!; try done.
      exists l, r, (u8_bytes l ++ i32_bytes r), (u32_bytes b), [], []. split_and!; try done.
      { exists l, (u8_bytes l), (i32_bytes r), [], []. split_and!; try done.
        exists r', (i32_bytes r), [], [], []. rewrite ?app_nil_r. split_and!; try done. by rewrite Er2. }
      exists b, (u32_bytes b), [], [], []. rewrite ?app_nil_r. split_and!; try done.
      exists (rn_dist n), [], [], [], []. rewrite E4. split_and!; try done. destruct n as [a1 a2 a3 a4]. cbn [tn_id tn_layer tn_rank tn_bits rn_id rn_layer rn_rank rn_dist] in *. by subst.
  - eapply exact_iff.
    { eapply exact_bind; [apply exact_panic, exact_gnum|intros id]. eapply exact_bind2; [apply exact_ret|].
      intros l r. eapply exact_bind; [apply exact_panic, exact_gnum|intros b]. eapply exact_bind; [apply exact_lift|intros z]. apply exact_ret. }
    intros n g d. unfold nbr_text, nbr_read, fits_nbr. rewrite Em. split.
    + intros (id & ? & ? & ? & ? & -> & -> & (-> & -> & Hid) & l & r & ? & ? & ? & ? & -> & -> & ([= -> ->] & -> & ->) &
        b & ? & ? & ? & ? & -> & -> & (-> & -> & Hb) & z & ? & ? & ? & ? & -> & -> & (Hz & -> & ->) & -> & -> & ->).
      split; [done|]. exists (TextNbr id 0 0 b). cbn [tn_id tn_layer tn_rank tn_bits rn_id rn_layer rn_rank rn_dist]. rewrite ?app_nil_r. split; [done|]. split_and!; try done. by destruct (f32_of b); inversion Hz.
    + intros (-> & [id l r b] & -> & (Hid & Hb & Hl & Hr) & E1 & E2 & E3 & E4). cbn [tn_id tn_layer tn_rank tn_bits rn_id rn_layer rn_rank rn_dist] in *. subst l r.
      exists id, (u64_bytes id), (u32_bytes b), [], []. split_and!; try done.
      exists 0%N, 0%Z, [], (u32_bytes b), [], []. split_and!; try done.
      exists b, (u32_bytes b), [], [], []. rewrite ?app_nil_r. split_and!; try done.
      exists (rn_dist n), [], [], [], []. rewrite E4. split_and!; try done. destruct n as [a1 a2 a3 a4]. cbn [tn_id tn_layer tn_rank tn_bits rn_id rn_layer rn_rank rn_dist] in *. by subst.
Qed.

Definition list_read (mode : N) (t : list text_nbr) (l : list raw_nbr) : Prop :=
  (N.of_nat (length t) < 2 ^ 64)%N /\ Forall2 (nbr_read mode) t l.
Lemma reads_list de : reads (load_nbr_list de) (list_text (dumpmode de)) (list_read (dumpmode de)).
Proof.
  eapply exact_iff.
  { eapply exact_bind; [apply exact_panic, exact_gnum|intros n]. apply (reads_rrep _ _ _ _ (reads_nbr de)). }
  intros l g d. split.
  - intros (n & ? & ? & ? & ? & -> & -> & (-> & -> & Hn) & -> & ts & -> & Hl & HF). split; [done|]. exists ts.
    unfold list_text, list_read. assert (E : N.of_nat (length ts) = n) by lia. rewrite E. by split.
  - intros (-> & ts & -> & Hn & HF). exists (N.of_nat (length ts)), (u64_bytes (N.of_nat (length ts))), (concat (nbr_text (dumpmode de) <$> ts)), [], [].
    split_and!; try done. exists ts. split_and!; try done. lia.
Qed.

Lemma exact_if {A} (b : bool) (p q : rd A) E F : (b = true -> exact p E) -> (b = false -> exact q F) -> exact (if b then p else q) (if b then E else F).
Proof. destruct b; auto. Qed.
Lemma exact_unless {A} (b : bool) (o : outcome A) (p : rd A) E : (forall a, o <> Ok a) -> exact p E ->
  exact (if b then rlift o else p) (fun a g d => b = false /\ E a g d).
Proof.
  intros Ho Hp. destruct b.
  - eapply exact_iff; [by apply exact_fail|]. intros a g d. unfold never. naive_solver.
  - eapply exact_iff; [exact Hp|]. naive_solver.
Qed.
(** a checked number *)
Lemma exact_assert b : exact (rlift (assert_ b)) (fun _ g d => b = true /\ g = [] /\ d = []).
Proof. eapply exact_iff; [apply exact_lift|]. intros [] g d. unfold assert_. destruct b; naive_solver. Qed.
Lemma nil_l {A} (x y : list A) : x = [] -> x ++ y = y.
Proof. by intros ->. Qed.

Definition point_read (de : description) (t : text_point) (l r : nat) (lists : list (list raw_nbr)) : Prop :=
  exists l0, Forall2 (list_read (dumpmode de)) (tp_lists t) l0 /\ length (tp_lists t) = N.to_nat (de_nb_layer de) /\
    lists = l0 ++ replicate (NB_LAYER_MAX - N.to_nat (de_nb_layer de)) [].

(** the graph part of a point: layer and rank as they are in the file *)
Lemma exact_point_graph de : exact (load_point_graph de) (fun x g d => d = [] /\ exists oid layer rank lists ts l0,
  x = (oid, layer, rank, lists) /\ (oid < 2 ^ 64)%N /\ (layer < 256)%N /\ (- 2 ^ 31 <= rank < 2 ^ 31)%Z /\
  g = u32_bytes MAGICPOINT ++ u64_bytes oid ++ u8_bytes layer ++ i32_bytes rank ++ concat (list_text (dumpmode de) <$> ts) /\
  length ts = N.to_nat (de_nb_layer de) /\ Forall2 (list_read (dumpmode de)) ts l0 /\
  lists = l0 ++ replicate (NB_LAYER_MAX - N.to_nat (de_nb_layer de)) []).
Proof.
  eapply exact_iff.
  { unfold load_point_graph. eapply exact_bind; [apply exact_panic, exact_gnum|intros magic]. apply exact_unless; [done|].
    eapply exact_bind; [apply exact_panic, exact_gnum|intros oid]. eapply exact_bind; [apply exact_panic, exact_gnum|intros layer].
    eapply exact_bind; [apply exact_panic, exact_gnum|intros rank].
    eapply exact_bind; [apply (reads_rrep _ _ _ _ (reads_list de))|intros lists]. apply exact_ret. }
  intros x g d. split.
  - intros (magic & ? & ? & ? & ? & -> & -> & (-> & -> & Hm) & Em%negb_false_iff%N.eqb_eq &
      oid & ? & ? & ? & ? & -> & -> & (-> & -> & Ho) & layer & ? & ? & ? & ? & -> & -> & (-> & -> & Hl) &
      rank & ? & ? & ? & ? & -> & -> & (-> & -> & Hr) & l0 & ? & ? & ? & ? & -> & -> & (-> & ts & -> & Hts & HF) & -> & -> & ->).
    subst magic. split; [done|]. destruct (i32_inv rank Hr) as [E1 E2].
    exists oid, layer, (i32_of rank). eexists. exists ts, l0. rewrite E1, app_nil_r. split_and!; try done; lia.
  - intros (-> & oid & layer & rank & lists & ts & l0 & -> & Ho & Hl & Hr & -> & Hts & HF & ->).
    destruct (i32_bytes_le rank Hr) as (r' & Hr' & Er1 & Er2). rewrite Er1. subst rank.
    eexists MAGICPOINT, _, _, [], []. split; [done|]. split; [done|]. split; [done|]. split; [done|].
    eexists oid, _, _, [], []. split; [done|]. split; [done|]. split; [done|].
    eexists layer, _, _, [], []. split; [done|]. split; [done|]. split; [done|].
    eexists r', _, _, [], []. split; [done|]. split; [done|]. split; [done|].
    eexists l0, _, [], [], []. split; [symmetry; apply app_nil_r|]. split; [done|]. split; [|done].
    split; [done|]. by exists ts.
Qed.

Lemma exact_record oid : exact (load_record oid) (fun b g d => g = [] /\ (oid < 2 ^ 64)%N /\ (N.of_nat (length b) < 2 ^ 64)%N /\
  d = u32_bytes MAGICDATAP ++ u64_bytes oid ++ u64_bytes (N.of_nat (length b)) ++ b).
Proof.
  eapply exact_iff.
  { unfold load_record. eapply exact_bind; [apply exact_dnum|intros magic]. eapply exact_bind; [apply exact_assert|intros u].
    eapply exact_bind; [apply exact_dnum|intros id]. eapply exact_bind; [apply exact_assert|intros u2].
    eapply exact_bind; [apply exact_dnum|intros len]. apply exact_dread. }
  intros b g d. split.
  - intros (magic & ? & ? & ? & ? & -> & -> & (-> & -> & Hm) & [] & ? & ? & ? & ? & -> & -> & (Em%N.eqb_eq & -> & ->) &
      id & ? & ? & ? & ? & -> & -> & (-> & -> & Hi) & [] & ? & ? & ? & ? & -> & -> & (Ei%N.eqb_eq & -> & ->) &
      len & ? & ? & ? & ? & -> & -> & (-> & -> & Hl) & -> & -> & Hb). subst magic id.
    assert (E : N.of_nat (length b) = len) by lia. rewrite E. done.
  - intros (-> & Ho & Hb & ->).
    eexists MAGICDATAP, [], [], _, _. split; [done|]. split; [done|]. split; [done|].
    eexists tt, [], [], [], (u64_bytes oid ++ u64_bytes (N.of_nat (length b)) ++ b). split; [done|]. split; [done|]. split; [done|].
    eexists oid, [], [], _, _. split; [done|]. split; [done|]. split; [done|].
    eexists tt, [], [], [], (u64_bytes (N.of_nat (length b)) ++ b). split; [done|]. split; [done|]. split; [by rewrite N.eqb_refl|].
    eexists (N.of_nat (length b)), [], [], _, _. split; [done|]. split; [done|]. split; [done|]. split_and!; try done. lia.
Qed.

(** two lists related position by position, positions being counted from [r] *)
Definition irel {A B} (R : nat -> A -> B -> Prop) (r : nat) (xs : list A) (ys : list B) : Prop :=
  length xs = length ys /\ forall i x y, xs !! i = Some x -> ys !! i = Some y -> R (r + i)%nat x y.
Lemma irel_nil {A B} (R : nat -> A -> B -> Prop) r : irel R r [] [].
Proof. by split. Qed.
Lemma irel_cons {A B} (R : nat -> A -> B -> Prop) r t ts p ps : irel R r (t :: ts) (p :: ps) <-> R r t p /\ irel R (S r) ts ps.
Proof.
  unfold irel. split.
  - intros [E H]. split_and!.
    + rewrite <- (Nat.add_0_r r). by apply (H 0%nat).
    + by injection E.
    + intros i t' p' H1 H2. rewrite Nat.add_succ_comm. by apply (H (S i)).
  - intros [H0 [E H]]. split; [simpl; by rewrite E|]. intros [|i] t' p'; simpl.
    + intros [= <-] [= <-]. by rewrite Nat.add_0_r.
    + intros H1 H2. rewrite <- Nat.add_succ_comm. by apply H.
Qed.
Lemma irel_inv_l {A B} (R : nat -> A -> B -> Prop) r x xs ys : irel R r (x :: xs) ys -> exists y ys', ys = y :: ys' /\ R r x y /\ irel R (S r) xs ys'.
Proof. intros H. destruct ys as [|y ys]; [by destruct H|]. apply irel_cons in H as [H1 H2]. by exists y, ys. Qed.
Lemma irel_inv_nil {A B} (R : nat -> A -> B -> Prop) r ys : irel R r [] ys -> ys = [].
Proof. intros [H _]. by destruct ys. Qed.
Lemma irel_iff {A B} (R S : nat -> A -> B -> Prop) r xs ys : (forall i x y, xs !! i = Some x -> R (r + i)%nat x y <-> S (r + i)%nat x y) -> irel R r xs ys <-> irel S r xs ys.
Proof. intros H. unfold irel. split; intros [E H1]; (split; [done|]); intros i x y Hx Hy; apply (H i x y Hx); auto. Qed.
Lemma irel_comp {A B C} (R : nat -> A -> B -> Prop) (P : B -> Prop) (F : B -> C) xs : forall r zs,
  irel (fun r x z => exists y, R r x y /\ P y /\ z = F y) r xs zs <-> exists ys, irel R r xs ys /\ Forall P ys /\ zs = F <$> ys.
Proof.
  induction xs as [|x xs IH]; intros r zs.
  - split.
    + intros ->%irel_inv_nil. exists []. split_and!; try done.
    + intros (ys & ->%irel_inv_nil & _ & ->). apply irel_nil.
  - split.
    + intros (z & zs' & -> & (y & H1 & H2 & ->) & (ys & H3 & H4 & ->)%IH)%irel_inv_l. exists (y :: ys). split_and!; [|by constructor|done].
      by apply irel_cons.
    + intros (ys & (y & ys' & -> & H1 & H2)%irel_inv_l & H3 & ->). inversion_clear H3 as [|? ? P1 P2]. csimpl. apply irel_cons. split; [by exists y|].
      apply IH. by exists ys'.
Qed.
Lemma irel_lookup {A B} (R : nat -> A -> B -> Prop) r xs ys i x : irel R r xs ys -> xs !! i = Some x -> exists y, ys !! i = Some y /\ R (r + i)%nat x y.
Proof.
  intros [E H] Hx. destruct (ys !! i) as [y|] eqn:Ey; [eauto|]. apply lookup_ge_None in Ey. apply lookup_lt_Some in Hx. lia.
Qed.
Lemma irel_lookup_r {A B} (R : nat -> A -> B -> Prop) r xs ys i y : irel R r xs ys -> ys !! i = Some y -> exists x, xs !! i = Some x /\ R (r + i)%nat x y.
Proof.
  intros [E H] Hy. destruct (xs !! i) as [x|] eqn:Ex; [eauto|]. apply lookup_ge_None in Ex. apply lookup_lt_Some in Hy. lia.
Qed.

Section File.
Context {T : Type} (so : StdOps) (LAWS : StdLaws so) (el : elem T) (dm : option datamap) (opts : reload_options) (Hmm : ro_datamap opts = false).
Context (de : description) (Hv : format_version de = 2%N \/ format_version de = 3%N \/ format_version de = 4%N).
Notation mode := (dumpmode de).
Notation version := (format_version de).
Notation dim := (de_dimension de).

Lemma exact_data oid : exact (load_point_data el oid de) (fun v g d => g = [] /\ exists b, spelled el version dim b v /\
  (oid < 2 ^ 64)%N /\ (N.of_nat (length b) < 2 ^ 64)%N /\ d = u32_bytes MAGICDATAP ++ u64_bytes oid ++ u64_bytes (N.of_nat (length b)) ++ b).
Proof using Hv.
  clear Hmm. unfold load_point_data.
  assert (Hs : forall b, exact (if el_nodata el then rret [] else if (version =? 2)%N then rlift (unwrap (el_bincode el b))
    else if (version =? 3)%N || (version =? 4)%N then rlift (from_raw_parts el b dim) else rlift Exit)
    (fun v g d => g = [] /\ d = [] /\ spelled el version dim b v)).
  { intros b. unfold spelled. destruct (el_nodata el); [eapply exact_iff; [apply exact_ret|naive_solver]|].
    destruct (version =? 2)%N eqn:E2.
    - eapply exact_iff; [apply exact_lift|]. intros v g d. destruct (el_bincode el b); simpl; naive_solver.
    - apply N.eqb_neq in E2. assert (E34 : (version =? 3)%N || (version =? 4)%N = true) by (destruct Hv as [E|[E|E]]; rewrite E; done).
      rewrite E34. eapply exact_iff; [apply exact_lift|]. intros v g d. unfold from_raw_parts.
      destruct (_ <? _)%N eqn:E; [apply N.ltb_lt in E|apply N.ltb_ge in E].
      + split; [naive_solver|]. intros (_ & _ & H & _). lia.
      + naive_solver. }
  eapply exact_iff; [eapply exact_bind; [apply exact_record|intros b; apply Hs]|]. intros v g d. split.
  - intros (b & ? & ? & ? & ? & -> & -> & (-> & Ho & Hb & ->) & -> & -> & H). split; [done|]. exists b. by rewrite app_nil_r.
  - intros (-> & b & H & Ho & Hb & ->). eexists b, [], [], _, []. split; [done|]. split; [symmetry; apply app_nil_r|]. done.
Qed.

(** a raw point read at layer l and rank r *)
Record raw_rel (l r : nat) (t : text_point) (p : raw_point (T:=T)) : Prop := {
  rr_l : (l < 256)%nat;
  rr_r : (Z.of_nat r < 2 ^ 31)%Z;
  rr_id : (tp_id t < 2 ^ 64)%N;
  rr_len : (N.of_nat (length (tp_bytes t)) < 2 ^ 64)%N;
  rr_oid : rp_oid p = tp_id t;
  rr_layer : rp_layer p = N.of_nat l;
  rr_rank : rp_rank p = Z.of_nat r;
  rr_data : spelled el version dim (tp_bytes t) (rp_data p);
  rr_mapped : rp_mapped p = false;
  rr_nb : length (tp_lists t) = N.to_nat (de_nb_layer de);
  rr_lists : exists l0, Forall2 (list_read mode) (tp_lists t) l0 /\ rp_lists p = l0 ++ replicate (NB_LAYER_MAX - N.to_nat (de_nb_layer de)) []
}.

Lemma exact_point : exact (load_point el dm de false) (fun p g d => exists t l0, (tp_id t < 2 ^ 64)%N /\ (rp_layer p < 256)%N /\
  (- 2 ^ 31 <= rp_rank p < 2 ^ 31)%Z /\ (N.of_nat (length (tp_bytes t)) < 2 ^ 64)%N /\ rp_oid p = tp_id t /\
  spelled el version dim (tp_bytes t) (rp_data p) /\ rp_mapped p = false /\ length (tp_lists t) = N.to_nat (de_nb_layer de) /\
  Forall2 (list_read mode) (tp_lists t) l0 /\ rp_lists p = l0 ++ replicate (NB_LAYER_MAX - N.to_nat (de_nb_layer de)) [] /\
  g = u32_bytes MAGICPOINT ++ u64_bytes (tp_id t) ++ u8_bytes (rp_layer p) ++ i32_bytes (rp_rank p) ++ concat (list_text mode <$> tp_lists t) /\
  d = record_text t).
Proof using Hv.
  clear Hmm. assert (H : exact (load_point el dm de false) (fun p g d => exists a g1 g2 d1 d2, g = g1 ++ g2 /\ d = d1 ++ d2 /\
    (d1 = [] /\ exists oid layer rank lists ts l0,
      a = (oid, layer, rank, lists) /\ (oid < 2 ^ 64)%N /\ (layer < 256)%N /\ (- 2 ^ 31 <= rank < 2 ^ 31)%Z /\
      g1 = u32_bytes MAGICPOINT ++ u64_bytes oid ++ u8_bytes layer ++ i32_bytes rank ++ concat (list_text (dumpmode de) <$> ts) /\
      length ts = N.to_nat (de_nb_layer de) /\ Forall2 (list_read (dumpmode de)) ts l0 /\
      lists = l0 ++ replicate (NB_LAYER_MAX - N.to_nat (de_nb_layer de)) []) /\
    (exists v g3 g4 d3 d4, g2 = g3 ++ g4 /\ d2 = d3 ++ d4 /\ (g3 = [] /\ exists b, spelled el version dim b v /\
       (a.1.1.1 < 2 ^ 64)%N /\ (N.of_nat (length b) < 2 ^ 64)%N /\ d3 = u32_bytes MAGICDATAP ++ u64_bytes a.1.1.1 ++ u64_bytes (N.of_nat (length b)) ++ b) /\
       p = RawPoint a.1.1.1 a.1.1.2 a.1.2 a.2 v false /\ g4 = [] /\ d4 = []))).
  { unfold load_point. eapply (exact_bind _ _ _ (fun a p g2 d2 => exists v g3 g4 d3 d4, g2 = g3 ++ g4 /\ d2 = d3 ++ d4 /\ (g3 = [] /\ exists b, spelled el version dim b v /\
       (a.1.1.1 < 2 ^ 64)%N /\ (N.of_nat (length b) < 2 ^ 64)%N /\ d3 = u32_bytes MAGICDATAP ++ u64_bytes a.1.1.1 ++ u64_bytes (N.of_nat (length b)) ++ b) /\
       p = RawPoint a.1.1.1 a.1.1.2 a.1.2 a.2 v false /\ g4 = [] /\ d4 = [])); [apply exact_point_graph|].
    intros [[[oid layer] rank] lists]. cbn [fst snd]. eapply exact_bind; [apply exact_exit, exact_data|intros v]. apply exact_ret. }
  eapply exact_iff; [exact H|]. intros p g d. split.
  - intros (a & ? & ? & ? & ? & -> & -> & (-> & oid & layer & rank & lists & ts & l0 & -> & Ho & Hl & Hr & -> & Hts & HF & ->) &
      v & ? & ? & ? & ? & -> & -> & (-> & b & Hb & _ & Hbl & ->) & -> & -> & ->). cbn [fst snd].
    exists (TextPoint oid ts b), l0. cbn [tp_id tp_lists tp_bytes rp_layer rp_rank rp_oid rp_data rp_mapped rp_lists]. unfold record_text. cbn [tp_id tp_bytes].
    rewrite !app_nil_r. split_and!; try done; apply Hr.
  - destruct p as [oid layer rank lists v mapped]. cbn [rp_layer rp_rank rp_oid rp_data rp_mapped rp_lists].
    intros ([id ts b] & l0 & Ho & Hl & Hr & Hbl & E1 & Hs & E2 & Hn & HF & E3 & -> & ->). cbn [tp_id tp_lists tp_bytes] in *. subst oid mapped lists.
    eexists (id, layer, rank, _), _, [], [], _. split; [symmetry; apply app_nil_r|]. split; [done|]. split.
    { split; [done|]. exists id, layer, rank. eexists. exists ts, l0. split_and!; try done; apply Hr. }
    cbn [fst snd]. eexists v, [], [], _, []. split; [done|]. split; [symmetry; apply app_nil_r|]. split_and!; try done. by exists b.
Qed.

Notation raws l := (irel (raw_rel l)).

Lemma exact_points l n : forall r still, exact (load_points el dm opts de l n r still) (fun x g d => exists ts ps,
  x = (ps, (still - Z.of_nat n)%Z) /\ length ts = n /\ (n = 0%nat \/ (Z.of_nat n <= still)%Z) /\ raws l r ts ps /\
  g = points_text mode l r ts /\ d = concat (record_text <$> ts)).
Proof using Hmm Hv.
  induction n as [|n IH]; intros r still; cbn [load_points].
  - eapply exact_iff; [apply exact_ret|]. intros x g d. rewrite Z.sub_0_r. split.
    + intros (-> & -> & ->). exists [], []. split_and!; try done. by left.
    + intros (ts & ps & -> & E%nil_length_inv & _ & E2 & -> & ->). subst ts. apply irel_inv_nil in E2 as ->. done.
  - assert (Em : point_use_mmap opts still = false) by (unfold point_use_mmap; by rewrite Hmm). rewrite Em.
    eapply exact_iff.
    { eapply exact_bind; [apply exact_point|intros p]. eapply exact_bind; [apply exact_assert|intros u1].
      eapply exact_bind; [apply exact_assert|intros u2]. eapply exact_bind; [apply exact_assert|intros u3].
      eapply exact_bind2; [apply IH|intros ps st]. apply exact_ret. }
    intros x g d. split.
    + intros (p & ? & ? & ? & ? & -> & -> & (t & l0 & Ho & Hl & Hr & Hbl & E1 & Hs & E2 & Hn & HF & E3 & -> & ->) &
        [] & ? & ? & ? & ? & -> & -> & (A1%N.eqb_eq & -> & ->) & [] & ? & ? & ? & ? & -> & -> & (A2%Z.eqb_eq & -> & ->) &
        [] & ? & ? & ? & ? & -> & -> & (A3%Z.leb_le & -> & ->) & ps & st & ? & ? & ? & ? & -> & -> &
        (ts & ps' & [= -> ->] & Lt & Hc & HR & -> & ->) & -> & -> & ->).
      exists (t :: ts), (p :: ps'). rewrite !app_nil_r, <- A1, <- A2. cbn [points_text fmap list_fmap concat]. unfold point_text. rewrite <- !app_assoc.
      split_and!; try done.
      * f_equal. lia. * simpl. by rewrite Lt. * right. lia.
      * apply irel_cons. split; [|done]. rewrite <- A1 in Hl. rewrite <- A2 in Hr. split; try done; try lia. by exists l0.
    + intros (ts & ps & -> & Lt & Hc & HR & -> & ->). destruct ts as [|t ts]; [done|]. apply irel_inv_l in HR as (p & ps0 & -> & HR0 & HR). rename ps0 into ps. destruct HR0 as [Rl Rr Ri Rb Eo El Er Rd Rm Rn (l0 & HF & E3)].
      eexists p, _, _, _, _. split; [done|]. split; [done|]. split.
      { exists t, l0. rewrite El, Er. split_and!; try done; try lia. }
      exists tt, [], (points_text mode l (S r) ts), [], (concat (record_text <$> ts)). split; [done|]. split; [done|].
      split; [split; [rewrite El; apply N.eqb_refl|done]|].
      exists tt, [], (points_text mode l (S r) ts), [], (concat (record_text <$> ts)). split; [done|]. split; [done|].
      split; [split; [rewrite Er; apply Z.eqb_refl|done]|].
      exists tt, [], (points_text mode l (S r) ts), [], (concat (record_text <$> ts)). split; [done|]. split; [done|].
      split; [split; [apply Z.leb_le; lia|done]|].
      exists ps, (still - 1 - Z.of_nat n)%Z, (points_text mode l (S r) ts), [], (concat (record_text <$> ts)), []. rewrite !app_nil_r.
      split; [done|]. split; [done|]. split; [|split_and!; try done; f_equal; lia].
      exists ts, ps. split_and!; try done. * by injection Lt. * destruct n; [by left|right; lia].
Qed.

Notation lraws := (irel (fun l => raws l 0)).
Lemma exact_layers n : forall l still, exact (load_layers el dm opts de n l still) (fun ls g d => exists tls, length tls = n /\
  lraws l tls ls /\ (forall ts, ts ∈ tls -> (N.of_nat (length ts) < 2 ^ 64)%N) /\
  (length (concat tls) = 0%nat \/ (Z.of_nat (length (concat tls)) <= still)%Z) /\
  g = layers_text mode l tls /\ d = concat (record_text <$> concat tls)).
Proof using Hmm Hv.
  induction n as [|n IH]; intros l still; cbn [load_layers].
  - eapply exact_iff; [apply exact_ret|]. intros ls g d. split.
    + intros (-> & -> & ->). exists []. split_and!; try done. { intros ts Hts. by apply elem_of_nil in Hts. } by left.
    + intros (tls & E%nil_length_inv & HR & _ & _ & -> & ->). subst tls. by apply irel_inv_nil in HR as ->.
  - eapply exact_iff.
    { eapply exact_bind; [apply exact_gnum|intros magic]. apply exact_unless; [done|]. eapply exact_bind; [apply exact_gnum|intros np].
      eapply exact_bind2; [apply exact_points|intros ps st]. eapply exact_bind; [apply IH|intros ls]. apply exact_ret. }
    intros x g d. split.
    + intros (magic & ? & ? & ? & ? & -> & -> & (-> & -> & Hm) & Em%negb_false_iff%N.eqb_eq & np & ? & ? & ? & ? & -> & -> & (-> & -> & Hnp) &
        ps & st & ? & ? & ? & ? & -> & -> & (ts & ps' & [= -> ->] & Lt & Hc & HR & -> & ->) & ls & ? & ? & ? & ? & -> & -> &
        (tls & Ll & HL & Hs & Hc2 & -> & ->) & -> & -> & ->). subst magic.
      exists (ts :: tls). rewrite !app_nil_r. assert (E : N.of_nat (length ts) = np) by lia.
      cbn [layers_text concat length]. rewrite fmap_app, concat_app, app_length, E. split_and!; try done.
      * by rewrite Ll.
      * by apply irel_cons.
      * intros ts' [->|H]%elem_of_cons; [lia|by apply Hs].
      * lia.
    + intros (tls & Ll & HR & Hs & Hc & -> & ->). destruct tls as [|ts tls]; [done|].
      apply irel_inv_l in HR as (ps & ls' & -> & HR0 & HR).
      assert (Hts : (N.of_nat (length ts) < 2 ^ 64)%N) by (apply Hs; by left).
      cbn [layers_text concat length] in *. rewrite fmap_app, concat_app. rewrite app_length in Hc.
      eexists MAGICLAYER, _, _, [], (concat (record_text <$> ts) ++ concat (record_text <$> concat tls)). split; [done|]. split; [done|]. split; [done|]. split; [done|].
      eexists (N.of_nat (length ts)), _, _, [], (concat (record_text <$> ts) ++ concat (record_text <$> concat tls)). split; [done|]. split; [done|]. split; [done|].
      exists ps, (still - Z.of_nat (N.to_nat (N.of_nat (length ts))))%Z. eexists _, _, _, _. split; [done|]. split; [done|]. split.
      { exists ts, ps. split_and!; try done; lia. }
      eexists ls', _, [], _, []. rewrite !app_nil_r. split; [done|]. split; [done|]. split; [|done].
      exists tls. split_and!; try done. * by injection Ll. * intros ts' H. apply Hs. by right. * lia.
Qed.

(** ** Links *)
Definition valid_ref (raw : list (list (raw_point (T:=T)))) (layer : N) (rank : Z) : Prop :=
  (0 <= rank)%Z /\ exists ly, raw !! N.to_nat layer = Some ly /\ (Z.to_nat rank < length ly)%nat.
Lemma raw_index_iff raw layer rank p : raw_index raw layer rank = Ok p <-> valid_ref raw layer rank /\ p = (N.to_nat layer, Z.to_nat rank).
Proof using Type.
  clear Hmm Hv. unfold raw_index, valid_ref. destruct (rank <? 0)%Z eqn:E; [apply Z.ltb_lt in E|apply Z.ltb_ge in E].
  - split; [done|]. intros [[H _] _]. lia.
  - destruct (raw !! N.to_nat layer) as [ly|] eqn:E1; simpl.
    + destruct (ly !! Z.to_nat rank) as [x|] eqn:E2; simpl.
      * split; [|by intros [_ ->]]. intros [= <-]. split; [|done]. split; [done|]. exists ly. split; [done|]. by eapply lookup_lt_Some.
      * apply lookup_ge_None in E2. split; [done|]. intros [(_ & ly' & [= <-] & H) _]. lia.
    + split; [done|]. by intros [(_ & ly' & H & _) _].
Qed.

Lemma mapM_iff {A B} (f : A -> outcome B) (P : A -> Prop) (F : A -> B) l l' : (forall x y, f x = Ok y <-> P x /\ y = F x) ->
  mapM f l = Ok l' <-> Forall P l /\ l' = F <$> l.
Proof using Type.
  intros H. split.
  - intros HF%mapM_outcome_inv. induction HF as [|x y l l' Hx HF IH]; [done|]. apply H in Hx as [H1 ->]. destruct IH as [H2 ->]. split; [by constructor|done].
  - intros [HF ->]. induction HF as [|x l Hx HF IH]; [done|]. cbn [mapM]. rewrite (proj2 (H x (F x))) by done. simpl. by rewrite IH.
Qed.

Definition raw_nb (n : raw_nbr) : nbr := Nbr (N.to_nat (rn_layer n), Z.to_nat (rn_rank n)) (rn_dist n).
Definition linkable (ref : N -> Z -> Prop) (p : raw_point (T:=T)) : Prop :=
  (length (rp_lists p) <= 16)%nat /\ Forall (Forall (fun n => ref (rn_layer n) (rn_rank n))) (rp_lists p).
Definition linked (p : raw_point (T:=T)) : point (T:=T) :=
  Point (rp_data p) (rp_oid p) (N.to_nat (rp_layer p), Z.to_nat (rp_rank p)) ((fun l => u_sort so nbr n_dist (raw_nb <$> l)) <$> rp_lists p).
Lemma link_all_iff raw lp : link_all so raw = Ok lp <-> Forall (Forall (linkable (valid_ref raw))) raw /\ lp = (fmap (M:=list) linked) <$> raw.
Proof using Type.
  clear Hmm Hv LAWS. apply mapM_iff. intros ly lyp. apply mapM_iff. intros p pt. unfold link_point, linkable.
  assert (HL : forall lists, mapM (link_list so raw) (rp_lists p) = Ok lists <->
    Forall (Forall (fun n => valid_ref raw (rn_layer n) (rn_rank n))) (rp_lists p) /\ lists = (fun l => u_sort so nbr n_dist (raw_nb <$> l)) <$> rp_lists p).
  { intros lists. apply mapM_iff. intros l l'. unfold link_list.
    assert (HN : forall ns, mapM (link_nbr raw) l = Ok ns <-> Forall (fun n => valid_ref raw (rn_layer n) (rn_rank n)) l /\ ns = raw_nb <$> l).
    { intros ns. apply mapM_iff. intros n n'. unfold link_nbr. destruct (raw_index raw (rn_layer n) (rn_rank n)) as [q| | | | |] eqn:E.
      - apply raw_index_iff in E as [E1 ->]. simpl. unfold raw_nb. split; [by intros [= <-]|by intros [_ ->]].
      - split; [done|]. intros [H _]. by rewrite (proj2 (raw_index_iff raw _ _ _) (conj H eq_refl)) in E.
      - split; [done|]. intros [H _]. by rewrite (proj2 (raw_index_iff raw _ _ _) (conj H eq_refl)) in E.
      - split; [done|]. intros [H _]. by rewrite (proj2 (raw_index_iff raw _ _ _) (conj H eq_refl)) in E.
      - split; [done|]. intros [H _]. by rewrite (proj2 (raw_index_iff raw _ _ _) (conj H eq_refl)) in E.
      - split; [done|]. intros [H _]. by rewrite (proj2 (raw_index_iff raw _ _ _) (conj H eq_refl)) in E. }
    split.
    - intros (ns & [H ->]%HN & [= <-])%bind_inv. done.
    - intros [H ->]. rewrite (proj2 (HN _) (conj H eq_refl)). done. }
  unfold NB_LAYER_MAX. split.
  - intros (u & H1%assert_inv & H)%bind_inv. apply bind_inv in H as (lists & [H2 ->]%HL & [= <-]). apply Nat.leb_le in H1. done.
  - intros [[H1 H2] ->]. apply Nat.leb_le in H1. rewrite H1. simpl. by rewrite (proj2 (HL _) (conj H2 eq_refl)).
Qed.
End File.
