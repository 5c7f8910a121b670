(** Loading arbitrary bytes: where undefined behaviour can come from. *)
From Coq Require Import Strings.String Strings.Byte.
From stdpp Require Import relations.
From Verif Require Import Prelude Model Lib Io IoBase SpecIo.
Local Open Scope list_scope.

Section Safe.
Context {T : Type} (so : StdOps) (el : elem T) (dim : N).

(** a record of the data file that is shorter than [dim] elements, somewhere in [d] *)
Definition bad (d : bytes) : Prop :=
  exists pre magicb idb lenb vec post, d = pre ++ magicb ++ idb ++ lenb ++ vec ++ post /\
    length magicb = 4 /\ le_val magicb = MAGICDATAP /\ length idb = 8 /\ length lenb = 8 /\ le_val lenb = N.of_nat (length vec) /\
    (N.of_nat (length vec) < dim * N.of_nat (el_size el))%N.
Lemma bad_suffix pre d : bad d -> bad (pre ++ d).
Proof. intros (p & m & i & l & v & q & -> & H). exists (pre ++ p), m, i, l, v, q. split; [by rewrite <- app_assoc|done]. Qed.

Definition tame_at {A} (p : rd A) (s : str2) : Prop :=
  match p s with Ok (_, s') => exists pre, s.2 = pre ++ s'.2 | UB => bad s.2 | Fuel => False | _ => True end.
Definition tame {A} (p : rd A) : Prop := forall s, tame_at p s.
Definition fine {A} (o : outcome A) : Prop := o <> UB /\ o <> Fuel.

Lemma tame_ret {A} (a : A) : tame (rret a).
Proof. intros s. exists []. done. Qed.
Lemma tame_lift {A} (o : outcome A) : fine o -> tame (rlift o).
Proof. intros [H1 H2] s. unfold tame_at, rlift. destruct o; try done. exists []. done. Qed.
Lemma tame_bind {A B} (p : rd A) (k : A -> rd B) : tame p -> (forall a, tame (k a)) -> tame (rbind p k).
Proof.
  intros Hp Hk s. specialize (Hp s). unfold tame_at, rbind in *. destruct (p s) as [[a s']| | | | |]; try done.
  destruct Hp as [pre Hpre]. specialize (Hk a s'). unfold tame_at in Hk. change (mbind _ (Ok (a, s'))) with (k a s').
  destruct (k a s') as [[b s'']| | | | |]; try done.
  - destruct Hk as [pre' Hk]. exists (pre ++ pre'). by rewrite Hpre, Hk, app_assoc.
  - rewrite Hpre. by apply bad_suffix.
Qed.
(** the same when the continuation only needs to behave on what the first reader returned *)
Lemma tame_bind_at {A B} (p : rd A) (k : A -> rd B) s : tame_at p s -> (forall a s', p s = Ok (a, s') -> tame_at (k a) s') -> tame_at (rbind p k) s.
Proof.
  intros Hp Hk. unfold tame_at, rbind in *. destruct (p s) as [[a s']| | | | |]; try done.
  destruct Hp as [pre Hpre]. specialize (Hk a s' eq_refl). unfold tame_at in Hk. change (mbind _ (Ok (a, s'))) with (k a s').
  destruct (k a s') as [[b s'']| | | | |]; try done.
  - destruct Hk as [pre' Hk]. exists (pre ++ pre'). by rewrite Hpre, Hk, app_assoc.
  - rewrite Hpre. by apply bad_suffix.
Qed.
Lemma tame_panic {A} (p : rd A) : tame p -> tame (or_panic p).
Proof. intros Hp s. specialize (Hp s). unfold tame_at, or_panic in *. destruct (p s) as [[]| | | | |]; done. Qed.
Lemma tame_exit {A} (p : rd A) : tame p -> tame (or_exit p).
Proof. intros Hp s. specialize (Hp s). unfold tame_at, or_exit in *. destruct (p s) as [[]| | | | |]; done. Qed.
Lemma tame_gread n : tame (gread n).
Proof. intros s. unfold tame_at, gread. destruct (_ <? _)%nat; [done|]. exists []. done. Qed.
Lemma tame_dread n : tame (dread n).
Proof. intros s. unfold tame_at, dread. destruct (_ <? _)%nat; [done|]. exists (take n s.2). cbn. by rewrite take_drop. Qed.
Lemma tame_gnum n : tame (gnum n).
Proof. apply tame_bind; [apply tame_gread|]. intros a. apply tame_ret. Qed.
Lemma tame_dnum n : tame (dnum n).
Proof. apply tame_bind; [apply tame_dread|]. intros a. apply tame_ret. Qed.
Lemma tame_rep {A} n (p : rd A) : tame p -> tame (rrep n p).
Proof.
  intros Hp. induction n as [|n IH]; [apply tame_ret|]. cbn [rrep]. apply tame_bind; [done|]. intros x. apply tame_bind; [done|].
  intros l. apply tame_ret.
Qed.
Lemma fine_Ok {A} (a : A) : fine (Ok a). Proof. by split. Qed.
Lemma fine_Err {A} : fine (Err : outcome A). Proof. by split. Qed.
Lemma fine_Panic {A} : fine (Panic : outcome A). Proof. by split. Qed.
Lemma fine_Exit {A} : fine (Exit : outcome A). Proof. by split. Qed.
Lemma fine_unwrap {A} (o : option A) : fine (unwrap o). Proof. by destruct o. Qed.
Lemma fine_assert b : fine (assert_ b). Proof. by destruct b. Qed.
Lemma fine_bind {A B} (o : outcome A) (k : A -> outcome B) : fine o -> (forall a, fine (k a)) -> fine (o ≫= k).
Proof. intros [H1 H2] Hk. destruct o; try done. apply Hk. Qed.
Lemma fine_mapM {A B} (f : A -> outcome B) l : (forall a, fine (f a)) -> fine (mapM f l).
Proof.
  intros Hf. induction l as [|a l IH]; [apply fine_Ok|]. cbn. apply fine_bind; [apply Hf|]. intros b.
  apply fine_bind; [done|]. intros bs. apply fine_Ok.
Qed.
End Safe.

Ltac tame := repeat first
  [ apply tame_ret | apply tame_gnum | apply tame_dnum | apply tame_gread | apply tame_dread | apply tame_panic | apply tame_exit | apply tame_rep
  | apply tame_lift; first [apply fine_Ok|apply fine_Err|apply fine_Panic|apply fine_Exit|apply fine_unwrap|apply fine_assert]
  | apply tame_bind; [|intros ?]
  | match goal with |- tame _ _ (match ?x with _ => _ end) => destruct x end ].

Section Load.
Context {T : Type} (so : StdOps) (el : elem T).

Lemma tame_description dim : tame el dim load_description.
Proof. unfold load_description, load_name. tame. Qed.

Lemma tame_point_graph dim de : tame el dim (load_point_graph de).
Proof. unfold load_point_graph, load_nbr_list, load_nbr. tame. Qed.

Lemma tame_record dim oid : tame el dim (load_record oid).
Proof. unfold load_record. tame. Qed.

Lemma dnum_inv n s v s' : dnum n s = Ok (v, s') -> exists b, s.2 = b ++ s'.2 /\ length b = n /\ v = le_val b /\ s'.1 = s.1.
Proof.
  unfold dnum, rbind, dread, rret. destruct (Nat.ltb_spec (length s.2) n); [done|]. cbn. intros [= <- <-].
  exists (take n s.2). cbn. rewrite take_drop, take_length. split_and!; auto; lia.
Qed.

Lemma record_inv oid s b s' : load_record oid s = Ok (b, s') ->
  exists magicb idb lenb, s.2 = magicb ++ idb ++ lenb ++ b ++ s'.2 /\ length magicb = 4 /\ le_val magicb = MAGICDATAP /\ length idb = 8 /\
    length lenb = 8 /\ le_val lenb = N.of_nat (length b).
Proof.
  unfold load_record. unfold rbind at 1. intros H. apply bind_inv in H as ([m s1] & H1 & H).
  apply dnum_inv in H1 as (b1 & E1 & L1 & -> & _).
  unfold rbind at 1 in H. apply bind_inv in H as ([u1 s2] & H2 & H). unfold rlift in H2. apply bind_inv in H2 as (u & H2 & H2').
  injection H2' as <- <-. unfold assert_ in H2. destruct (N.eqb_spec (le_val b1) MAGICDATAP) as [Em|]; [|done].
  unfold rbind at 1 in H. apply bind_inv in H as ([i s3] & H3 & H). apply dnum_inv in H3 as (b3 & E3 & L3 & -> & _).
  unfold rbind at 1 in H. apply bind_inv in H as ([u3 s4] & H4 & H). unfold rlift in H4. apply bind_inv in H4 as (u' & H4 & H4').
  injection H4' as <- <-.
  unfold rbind at 1 in H. apply bind_inv in H as ([l s5] & H5 & H). apply dnum_inv in H5 as (b5 & E5 & L5 & -> & _).
  unfold dread in H. destruct (Nat.ltb_spec (length s5.2) (N.to_nat (le_val b5))); [done|]. injection H as <- <-.
  exists b1, b3, b5. cbn. rewrite take_drop, E1, E3, E5, take_length. split_and!; auto. lia.
Qed.

Lemma raw_parts_fine b n : (n * N.of_nat (el_size el) <= N.of_nat (length b))%N -> fine (from_raw_parts el b n).
Proof. intros H. unfold from_raw_parts. destruct (N.ltb_spec (N.of_nat (length b)) (n * N.of_nat (el_size el))); [lia|]. apply fine_Ok. Qed.

Lemma tame_point_data oid de : tame el (de_dimension de) (load_point_data el oid de).
Proof.
  intros s. unfold load_point_data. unfold tame_at. unfold rbind at 1.
  pose proof (tame_record (de_dimension de) oid s) as Hr. unfold tame_at in Hr.
  destruct (load_record oid s) as [[b s']| | | | |] eqn:E; try done.
  apply record_inv in E as (mb & ib & lb & E & R1 & R2 & R3 & R4 & R5). change (mbind ?f (Ok (b, s'))) with (f (b, s')). cbn beta iota.
  assert (Hok : exists pre, s.2 = pre ++ s'.2). { exists (mb ++ ib ++ lb ++ b). by rewrite E, <- !app_assoc. }
  destruct (el_nodata el); [done|]. destruct (format_version de =? 2)%N.
  { unfold rlift. by destruct (el_bincode el b). }
  destruct (_ || _); [|done]. unfold rlift, from_raw_parts.
  destruct (N.ltb_spec (N.of_nat (length b)) (de_dimension de * N.of_nat (el_size el))); [|done].
  exists [], mb, ib, lb, b, s'.2. split_and!; auto.
Qed.

(** a data map whose records are all inside the mapping *)
Definition dm_safe (dm : option datamap) : Prop := forall m id, dm = Some m -> fine (dm_get_data el m id).

Lemma tame_point dm de um : dm_safe dm -> tame el (de_dimension de) (load_point el dm de um).
Proof.
  intros Hdm. unfold load_point. apply tame_bind; [apply tame_point_graph|]. intros [[[oid layer] rank] lists].
  destruct um.
  - apply tame_bind; [apply tame_record|]. intros _ s. apply tame_bind_at; [apply tame_lift, fine_unwrap|].
    intros m s' E. unfold rlift in E. destruct dm as [m0|]; [|done]. cbn in E. injection E as <- <-.
    revert s. apply (tame_bind el). + apply tame_lift. by apply Hdm. + intros o. tame.
  - apply tame_bind; [apply tame_exit, tame_point_data|]. intros v. apply tame_ret.
Qed.

Lemma tame_points dm opts de l n : dm_safe dm -> forall r still, tame el (de_dimension de) (load_points el dm opts de l n r still).
Proof.
  intros Hdm. induction n as [|n IH]; intros r still; cbn [load_points]; [apply tame_ret|].
  apply tame_bind; [by apply tame_point|]. intros p. tame. apply IH.
Qed.
Lemma tame_layers dm opts de n : dm_safe dm -> forall l still, tame el (de_dimension de) (load_layers el dm opts de n l still).
Proof.
  intros Hdm. induction n as [|n IH]; intros l still; cbn [load_layers]; [apply tame_ret|].
  tame; [by apply tame_points|apply IH].
Qed.

Lemma fine_index (ls : list (list (raw_point (T:=T)))) layer rank : fine (raw_index ls layer rank).
Proof.
  unfold raw_index. destruct (_ <? _)%Z; [apply fine_Panic|]. apply fine_bind; [apply fine_unwrap|]. intros ly.
  apply fine_bind; [apply fine_unwrap|]. intros x. apply fine_Ok.
Qed.
Lemma fine_link_all ls : fine (link_all (T:=T) so ls).
Proof.
  unfold link_all. apply fine_mapM. intros ly. apply fine_mapM. intros p. unfold link_point.
  apply fine_bind; [apply fine_assert|]. intros _. apply fine_bind; [|intros ?; apply fine_Ok].
  apply fine_mapM. intros l. unfold link_list. apply fine_bind; [|intros ?; apply fine_Ok]. apply fine_mapM. intros n.
  unfold link_nbr. apply fine_bind; [apply fine_index|]. intros ?. apply fine_Ok.
Qed.

Lemma tame_indexation dm opts de : dm_safe dm -> tame el (de_dimension de) (load_point_indexation so el dm opts de).
Proof.
  intros Hdm. unfold load_point_indexation. tame; [by apply tame_layers|apply tame_lift, fine_link_all|apply tame_lift, fine_index].
Qed.

(** reading the description does not touch the data file *)
Definition keeps {A} (p : rd A) : Prop := forall s, match p s with Ok (_, s') => s'.2 = s.2 | UB => False | Fuel => False | _ => True end.
Lemma keeps_ret {A} (a : A) : keeps (rret a). Proof. done. Qed.
Lemma keeps_lift {A} (o : outcome A) : fine o -> keeps (rlift o).
Proof. intros [H1 H2] s. unfold rlift. by destruct o. Qed.
Lemma keeps_bind {A B} (p : rd A) (k : A -> rd B) : keeps p -> (forall a, keeps (k a)) -> keeps (rbind p k).
Proof.
  intros Hp Hk s. specialize (Hp s). unfold rbind. destruct (p s) as [[a s']| | | | |]; try done.
  change (mbind ?f (Ok (a, s'))) with (f (a, s')). cbn beta iota. specialize (Hk a s'). destruct (k a s') as [[b s'']| | | | |]; try done. congruence.
Qed.
Lemma keeps_gread n : keeps (gread n).
Proof. intros s. unfold gread. by destruct (_ <? _)%nat. Qed.
Lemma keeps_gnum n : keeps (gnum n).
Proof. apply keeps_bind; [apply keeps_gread|]. intros a. apply keeps_ret. Qed.
Lemma keeps_description_all : keeps load_description.
Proof.
  unfold load_description, load_name. repeat first
  [ apply keeps_ret | apply keeps_gnum | apply keeps_gread | apply keeps_lift; first [apply fine_Ok|apply fine_Err|apply fine_Panic]
  | apply keeps_bind; [|intros ?]
  | match goal with |- keeps (match ?x with _ => _ end) => destruct x end ].
Qed.
Lemma keeps_description s de s' : load_description s = Ok (de, s') -> s'.2 = s.2.
Proof. intros E. pose proof (keeps_description_all s) as H. by rewrite E in H. Qed.

(** the header gives the dimension of the data file *)
Lemma header_inv s de s' : load_header s = Ok (de, s') ->
  exists magicb dimb, s.2 = magicb ++ dimb ++ s'.2 /\ length magicb = 4 /\ length dimb = 8 /\ le_val dimb = de_dimension de.
Proof.
  unfold load_header. unfold rbind at 1. intros H. apply bind_inv in H as ([de' s1] & H1 & H).
  assert (E0 : s.2 = s1.2).
  { clear H. unfold or_panic in H1. assert (Hd : load_description s = Ok (de', s1)) by (destruct (load_description s); congruence).
    symmetry. by eapply keeps_description. }
  unfold rbind at 1 in H. apply bind_inv in H as ([m s2] & H2 & H). apply dnum_inv in H2 as (b2 & E2 & L2 & -> & _).
  unfold rbind at 1 in H. apply bind_inv in H as ([u s3] & H3 & H). unfold rlift in H3. apply bind_inv in H3 as (u' & _ & H3). injection H3 as <- <-.
  unfold rbind at 1 in H. apply bind_inv in H as ([dm s4] & H4 & H). apply dnum_inv in H4 as (b4 & E4 & L4 & -> & _).
  unfold rbind at 1 in H. apply bind_inv in H as ([u4 s5] & H5 & H). unfold rlift in H5. apply bind_inv in H5 as (u5 & H5 & H5'). injection H5' as <- <-.
  injection H as <- <-. unfold assert_ in H5. destruct (N.eqb_spec (le_val b4) (de_dimension de')); [|done].
  exists b2, b4. by rewrite E0, E2, E4.
Qed.

Lemma header_fine s : fine (load_header s).
Proof.
  pose proof (keeps_description_all s) as Hk. unfold load_header, rbind, or_panic.
  destruct (load_description s) as [[de s1]| | | | |]; try done. rewrite bind_Ok.
  assert (Hd : forall n s, fine (dnum n s)). { intros n s0. unfold dnum, rbind, dread. by destruct (_ <? _)%nat. }
  apply fine_bind; [apply Hd|]. intros [m s2]. apply fine_bind; [unfold rlift; apply fine_bind; [apply fine_assert|intros ?; apply fine_Ok]|].
  intros [u s3]. apply fine_bind; [apply Hd|]. intros [dm s4].
  apply fine_bind; [unfold rlift; apply fine_bind; [apply fine_assert|intros ?; apply fine_Ok]|]. intros [u' s5]. apply fine_Ok.
Qed.

(** ** Data maps *)
Lemma slice_inv (b : bytes) a n x : slice b a n = Ok x -> (a + n <= length b)%nat /\ x = take n (drop a b).
Proof. unfold slice. destruct (Nat.ltb_spec (length b) (a + n)); [done|]. intros [= <-]. done. Qed.
Lemma fine_slice (b : bytes) a n : fine (slice b a n).
Proof. unfold slice. destruct (_ <? _)%nat; [apply fine_Panic|apply fine_Ok]. Qed.

Lemma slices_app (b : bytes) a n1 n2 : (a + n1 + n2 <= length b)%nat -> take n1 (drop a b) ++ take n2 (drop (a + n1) b) = take (n1 + n2) (drop a b).
Proof. intros H. by rewrite <- take_take_drop, drop_drop. Qed.

Definition map_ok (mm : bytes) (dim : N) (m : list (dataid * nat)) : Prop :=
  forall id a, (id, a) ∈ m -> (a + 8 <= length mm)%nat /\ (dim * N.of_nat (el_size el) <= N.of_nat (length mm - (a + 8)))%N.

Lemma imap_insert_in k v m x : x ∈ imap_insert k v m -> x = (k, v) \/ x ∈ m.
Proof.
  induction m as [|[k' v'] m IH]; cbn [imap_insert].
  - intros ->%elem_of_list_singleton. auto.
  - destruct (N.eqb_spec k' k) as [->|].
    + intros [->|Hx]%elem_of_cons; [auto|]. right. by right.
    + intros [->|Hx]%elem_of_cons; [right; left|]. destruct (IH Hx) as [->|]; [auto|]. right. by right.
Qed.

Lemma map_records_safe mm dim n : forall addr m, map_ok mm dim m ->
  match map_records el mm dim n addr m with Ok m' => map_ok mm dim m' | UB => bad el dim mm | Fuel => False | _ => True end.
Proof.
  induction n as [|n IH]; intros addr m Hm; cbn [map_records]; [done|].
  pose proof (fine_slice mm addr 4) as [F1 F1']. destruct (slice mm addr 4) as [magicb| | | | |] eqn:E1; try done. rewrite bind_Ok.
  destruct (N.eqb_spec (le_val magicb) MAGICDATAP) as [Em|]; [|done]. cbn [assert_]. rewrite bind_Ok.
  pose proof (fine_slice mm (addr + 4) 8) as [F2 F2']. destruct (slice mm (addr + 4) 8) as [idb| | | | |] eqn:E2; try done. rewrite bind_Ok. cbn zeta.
  pose proof (fine_slice mm (addr + 12) 8) as [F3 F3']. destruct (slice mm (addr + 12) 8) as [lenb| | | | |] eqn:E3; try done. rewrite bind_Ok.
  pose proof (fine_slice mm (addr + 20) (N.to_nat (le_val lenb))) as [F4 F4'].
  destruct (slice mm (addr + 20) (N.to_nat (le_val lenb))) as [v| | | | |] eqn:E4; try done. rewrite bind_Ok.
  apply slice_inv in E1 as [B1 E1], E2 as [B2 E2], E3 as [B3 E3], E4 as [B4 E4].
  assert (Lv : length v = N.to_nat (le_val lenb)). { rewrite E4, take_length, drop_length. lia. }
  unfold from_raw_parts. destruct (N.ltb_spec (N.of_nat (length v)) (dim * N.of_nat (el_size el))) as [Hlt|Hge].
  - cbn. exists (take addr mm), magicb, idb, lenb, v, (drop (addr + 20 + N.to_nat (le_val lenb)) mm). split_and!; auto.
    + set (L := N.to_nat (le_val lenb)) in *. clearbody L. rewrite E1, E2, E3, E4. replace (addr + 12)%nat with (addr + 4 + 8)%nat by lia. replace (addr + 20)%nat with (addr + 4 + 8 + 8)%nat by lia.
      rewrite <- !drop_drop. rewrite !take_drop. done.
    + rewrite E1, take_length, drop_length. lia.
    + rewrite E2, take_length, drop_length. lia.
    + rewrite E3, take_length, drop_length. lia.
    + lia.
  - rewrite bind_Ok. apply IH. intros id a [[= -> ->]|Ha]%imap_insert_in; [|by apply (Hm id)]. split; [lia|]. lia.
Qed.

Lemma imap_get_in k m a : imap_get k m = Some a -> (k, a) ∈ m.
Proof.
  induction m as [|[k' v'] m IH]; cbn [imap_get]; [done|]. destruct (N.eqb_spec k' k) as [->|].
  - intros [= ->]. left.
  - intros H. right. by apply IH.
Qed.
Lemma get_data_safe dm id : map_ok (dm_mmap dm) (dm_dimension dm) (dm_map dm) -> fine (dm_get_data el dm id).
Proof.
  intros Hm. unfold dm_get_data. destruct (imap_get id (dm_map dm)) as [a|] eqn:E; [|apply fine_Ok].
  apply imap_get_in in E. destruct (Hm id a E) as [H1 H2].
  apply fine_bind; [apply fine_slice|]. intros _. apply fine_bind; [apply fine_slice|]. intros _.
  apply fine_bind; [apply raw_parts_fine; rewrite drop_length; lia|]. intros v. apply fine_Ok.
Qed.

Lemma datamap_of_safe g d : match datamap_of el g d with
  | Ok dm => forall id, fine (dm_get_data el dm id) | UB => bad el (le_val (take 8 (drop 4 d))) d | Fuel => False | _ => True end.
Proof.
  unfold datamap_of. pose proof (tame_panic el 0 _ (tame_description 0) (g, [])) as Ht. unfold tame_at in Ht.
  assert (Hd : or_panic load_description (g, []) <> UB).
  { intros E. rewrite E in Ht. destruct Ht as (pre & mb & ib & lb & v & q & Ht & L & _). cbn [snd] in Ht. symmetry in Ht.
    apply app_nil in Ht as [_ Ht]. apply app_nil in Ht as [-> _]. done. }
  destruct (or_panic load_description (g, [])) as [[de s]| | | | |]; try done. rewrite bind_Ok.
  destruct (_ <=? _)%N; [done|]. destruct (negb _); [done|].
  pose proof (fine_slice d 0 4) as [F1 F1']. destruct (slice d 0 4) as [magicb| | | | |] eqn:E1; try done. rewrite bind_Ok.
  destruct (assert_ _) as [[]| | | | |] eqn:Ea; try done; [|by destruct (le_val magicb =? MAGICDATAP)%N..]. rewrite bind_Ok.
  pose proof (fine_slice d 4 8) as [F2 F2']. destruct (slice d 4 8) as [dimb| | | | |] eqn:E2; try done. rewrite bind_Ok. cbn zeta.
  apply slice_inv in E2 as [B2 E2]. destruct (N.eqb_spec (le_val dimb) (de_dimension de)) as [Ed|]; [|done]. cbn [negb].
  pose proof (map_records_safe d (le_val dimb) (N.to_nat (N.of_nat (length d - 12) / (20 + le_val dimb * N.of_nat (el_size el)))) 12 []) as Hm.
  destruct (map_records _ _ _ _ _ _) as [m| | | | |]; try done; try (apply Hm; intros id a []%elem_of_nil).
  - cbn. intros id. apply get_data_safe. cbn. rewrite <- Ed. apply Hm. intros id' a []%elem_of_nil.
  - rewrite <- E2. apply Hm. intros id a []%elem_of_nil.
Qed.

Lemma from_hnswdump_safe cwd fs dir base : match from_hnswdump el cwd fs dir base with
  | Ok dm => forall id, fine (dm_get_data el dm id)
  | UB => exists d, fs_read fs cwd (data_file dir base) = Some d /\ bad el (le_val (take 8 (drop 4 d))) d | Fuel => False | _ => True end.
Proof.
  unfold from_hnswdump. destruct (fs_read fs cwd (graph_file (join dir dir) base)) as [g|]; [|done].
  destruct (fs_read fs cwd (data_file dir base)) as [d|] eqn:Ed.
  - pose proof (datamap_of_safe g d) as H. destruct (datamap_of el g d); try done. eauto.
  - pose proof (tame_panic el 0 _ (tame_description 0) (g, [])) as Ht. unfold tame_at in Ht.
    destruct (or_panic load_description (g, [])) as [[de s]| | | | |]; try done.
    + rewrite bind_Ok. destruct (_ <=? _)%N; [done|]. destruct (negb _); done.
    + destruct Ht as (pre & mb & ib & lb & v & q & Ht & L & _). cbn [snd] in Ht. symmetry in Ht.
      apply app_nil in Ht as [_ Ht]. apply app_nil in Ht as [-> _]. done.
Qed.

Lemma load_safe inv_ln dname cwd fs io : dm_safe (io_datamap io) ->
  (load_hnsw so el inv_ln dname cwd fs io = UB \/ load_hnsw_with_dist so el inv_ln dname cwd fs io = UB ->
    exists d, fs_read fs cwd (data_file (io_dir io) (io_basename io)) = Some d /\ bad el (le_val (take 8 (drop 4 d))) d) /\
  load_hnsw so el inv_ln dname cwd fs io <> Fuel /\ load_hnsw_with_dist so el inv_ln dname cwd fs io <> Fuel.
Proof.
  intros Hio. unfold load_hnsw, load_hnsw_with_dist, io_open.
  destruct (fs_read fs cwd (graph_file _ _)) as [g|]; [|split_and!; [by intros []|done|done]].
  destruct (fs_read fs cwd (data_file _ _)) as [d|] eqn:Ed; [|split_and!; [by intros []|done|done]]. rewrite !bind_Ok. set (prev := io_datamap io) in *.
  set (B := bad el (le_val (take 8 (drop 4 d))) d).
  assert (Hgen : forall {A} (k : description -> rd A), (forall de s', tame_at el (de_dimension de) (k de) s' \/ (k de s' <> Fuel /\ B)) ->
      run_rd (rbind load_header k) g d <> Fuel /\ (run_rd (rbind load_header k) g d = UB -> B)).
  { intros A k Hk. unfold run_rd, rbind. pose proof (header_fine (g, d)) as [Hu Hf].
    destruct (load_header (g, d)) as [[de s']| | | | |] eqn:Eh; try done. rewrite bind_Ok.
    apply header_inv in Eh as Hi. destruct Hi as (mb & db & E & L1 & L2 & Hd). cbn [snd] in E.
    assert (Edim : le_val (take 8 (drop 4 d)) = de_dimension de).
    { rewrite E, (drop_app_alt mb) by done. by rewrite (take_app_alt db) by done. }
    destruct (Hk de s') as [H|[H1 H2]]; [|destruct (k de s') as [[]| | | | |]; done].
    unfold tame_at in H. destruct (k de s') as [[a s'']| | | | |]; try done. cbn. split; [done|]. intros _.
    unfold B. rewrite Edim, E, app_assoc. by apply bad_suffix. }
  pose proof (from_hnswdump_safe cwd fs (io_dir io) (io_basename io)) as Hmk.
  set (mk := from_hnswdump el cwd fs (io_dir io) (io_basename io)) in *.
  assert (H1 : run_rd (load_rd so el inv_ln dname prev (io_options io) mk) g d <> Fuel /\
               (run_rd (load_rd so el inv_ln dname prev (io_options io) mk) g d = UB -> B)).
  { unfold load_rd. apply Hgen. intros de s'.
    assert (Hch : (exists dm, choose_datamap prev (io_options io) mk = Ok dm /\ dm_safe dm) \/
                  choose_datamap prev (io_options io) mk = Panic \/ choose_datamap prev (io_options io) mk = Exit \/
                  (choose_datamap prev (io_options io) mk = UB /\ B)).
    { unfold choose_datamap. destruct (ro_datamap (io_options io)); [|left; by exists prev]. destruct mk as [dm| | | | |]; auto.
      - left. exists (Some dm). split; [done|]. intros m id [= <-]. apply Hmk.
      - left. by exists prev.
      - done.
      - right; right; right. split; [done|]. destruct Hmk as (d' & Hd' & Hb). rewrite Ed in Hd'. by injection Hd' as <-. }
    destruct Hch as [(dm & -> & Hdm)|[->|[->|[-> HB]]]].
    - left. revert s'. change (tame el (de_dimension de) (same <~ (if el_nodata el then rret true
           else
             a <~ rlift (unwrap (rsplit_terminator dname !! 0));
             b <~ rlift (unwrap (rsplit_terminator (de_distname de) !! 0));
             rret (bool_decide (a = b)));
       if negb (same : bool) then rlift Err
       else
         dm <~ rlift (Ok dm);
         ld <~ load_point_indexation so el dm (io_options io) de;
         rret (make_hnsw inv_ln de ld true, ld_mapped ld))).
      apply tame_bind; [tame|]. intros same. destruct (negb same); [tame|]. intros s. apply tame_bind_at; [apply tame_lift, fine_Ok|].
      intros dm' s' E. unfold rlift in E. cbn in E. injection E as <- <-. revert s. apply (tame_bind el); [by apply tame_indexation|].
      intros ld. tame.
    - left. revert s'. match goal with |- forall s, tame_at _ _ ?p s => change (tame el (de_dimension de) p) end.
      apply tame_bind; [tame|]. intros same. destruct (negb same); [tame|]. intros s. exact I.
    - left. revert s'. match goal with |- forall s, tame_at _ _ ?p s => change (tame el (de_dimension de) p) end.
      apply tame_bind; [tame|]. intros same. destruct (negb same); [tame|]. intros s. exact I.
    - right. split; [|done]. unfold rbind. destruct (el_nodata el); [done|].
      destruct (rsplit_terminator dname !! 0); [|done]. destruct (rsplit_terminator (de_distname de) !! 0); [|done]. cbn.
      by destruct (bool_decide _). }
  assert (H2 : run_rd (load_with_dist_rd so el inv_ln dname prev (io_options io)) g d <> Fuel /\
               (run_rd (load_with_dist_rd so el inv_ln dname prev (io_options io)) g d = UB -> B)).
  { unfold load_with_dist_rd. apply Hgen. intros de s'. left. revert s'.
    match goal with |- forall s, tame_at _ _ ?p s => change (tame el (de_dimension de) p) end.
    destruct (_ && _); [tame|]. apply tame_bind; [by apply tame_indexation|]. intros ld. tame. }
  split; [|split; [apply H1|apply H2]]. intros [H|H]; exists d; (split; [done|]); [by apply H1|by apply H2].
Qed.

End Load.
