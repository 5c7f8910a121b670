(** Properties C25, C26, C47, C48, C54-C58: flattened neighbourhoods, filters, options and limits of the mapped data.
    Same conventions as PropsIo.v. *)
From Coq Require Import SpecFloat Strings.Byte Strings.String.
From stdpp Require Import strings sets sorting.
From Verif Require Import Prelude Model StdInst Lib Table SearchProofs InsertProofs IterProofs Spec SpecProofs Io IoBase
  SpecIo SpecBuilt IoProofs IoProofs2 IoProofs3 IoProofs4 IoProofs5 BuiltProofs ReloadProofs IoProofs6 Examples ExamplesIo PropsIo PropsIo2.
Local Open Scope list_scope.

Lemma assoc_last_elem {A} k (m : list (dataid * A)) v : assoc_last k m = Some v -> (k, v) ∈ m.
Proof.
  induction m as [|[k' v'] m IH]; [done|]. cbn [assoc_last]. destruct (assoc_last k m).
  - intros [= ->]. right. auto.
  - destruct (N.eqb_spec k' k) as [->|]; [|done]. intros [= ->]. left.
Qed.
Lemma assoc_last_none {A} k (m : list (dataid * A)) : assoc_last k m = None -> forall v, (k, v) ∉ m.
Proof.
  induction m as [|[k' v'] m IH]; [intros _ v; apply not_elem_of_nil|]. cbn [assoc_last].
  destruct (assoc_last k m); [done|]. destruct (N.eqb_spec k' k) as [->|Hne]; [done|]. intros _ v.
  rewrite not_elem_of_cons. split; [congruence|]. auto.
Qed.

(** C25: the flattened neighbourhood of a non empty index. *)
Theorem C25_flat_neighbourhood :
  forall {T} (dist : list T -> list T -> Z) so, StdLaws so -> (forall a b, (0 <= dist a b)%Z) ->
  forall inv_ln M ml ef hist h, built dist so inv_ln M ml ef hist h -> hist <> [] ->
  exists flat, flatten so h = Ok flat /\
    (* Some exactly for the ids of stored points *)
    (forall id, is_Some (flat_get_neighbours flat id) <-> id ∈ hist.*2) /\
    (* the answer is the neighbours of a point with this id over all its layers, sorted by distance *)
    (forall id ns, flat_get_neighbours flat id = Some ns -> sorted_by distance ns /\
       exists p pt lists, point_at h p pt /\ pt_oid pt = id /\
         (forall l nsl, neighbours_at h p l nsl <-> lists !! l = Some nsl) /\ ns ≡ₚ concat lists) /\
    (* of the point with this id, when ids are distinct *)
    (distinct_ids hist -> forall p pt, point_at h p pt -> exists ns lists,
       flat_get_neighbours flat (pt_oid pt) = Some ns /\ sorted_by distance ns /\
       (forall l nsl, neighbours_at h p l nsl <-> lists !! l = Some nsl) /\ ns ≡ₚ concat lists).
Proof.
  intros T dist so LAWS Hnn inv_ln M ml ef hist h Hb Hne.
  destruct (built_facts dist so LAWS Hnn _ _ _ _ _ _ Hb) as (Hwf & _ & _ & _ & Hst & _).
  destruct (built_entry dist so LAWS Hnn _ _ _ _ _ _ Hb) as [(-> & _)|(_ & ep & Hep)]; [done|].
  assert (Hfl : flatten so h = Ok ((fun pt => flat_of so (to_nbs h <$> pt_nbs pt) pt) <$> all_points h)).
  { unfold flatten. rewrite (iter_points_spec dist h ep Hwf Hep). cbn [mbind outcome_bind]. apply mapM_ok_map.
    intros pt Hin. apply elem_of_all_points in Hin as [p Hp]. unfold flatten_point. rewrite (nbhd_eq dist h pt p (wf_lwf _ _ Hwf) Hp). done. }
  eexists. split; [exact Hfl|]. set (flat := _ <$> all_points h).
  assert (Hids : forall id, id ∈ hist.*2 <-> exists p pt, get_pt h p = Some pt /\ pt_oid pt = id).
  { intros id. rewrite <- Hst. unfold stored. rewrite <- list_fmap_compose, elem_of_list_fmap. split.
    - intros (pt & -> & Hi). apply elem_of_all_points in Hi as [p Hp]. eauto.
    - intros (p & pt & Hp & <-). exists pt. split; [done|]. apply elem_of_all_points. eauto. }
  assert (Hel : forall id fp, (id, fp) ∈ flat <-> exists p pt, get_pt h p = Some pt /\ pt_oid pt = id /\
      fp = (flat_of so (to_nbs h <$> pt_nbs pt) pt).2).
  { intros id fp. unfold flat. rewrite elem_of_list_fmap. split.
    - intros (pt & E & Hi). apply elem_of_all_points in Hi as [p Hp]. exists p, pt. unfold flat_of in *. by injection E as -> ->.
    - intros (p & pt & Hp & <- & ->). exists pt. split; [done|]. apply elem_of_all_points. eauto. }
  assert (Hpt : forall p pt, get_pt h p = Some pt -> 
     let ns := fp_neighbours (flat_of so (to_nbs h <$> pt_nbs pt) pt).2 in
     sorted_by distance ns /\ exists lists, point_at h p pt /\
     (forall l nsl, neighbours_at h p l nsl <-> lists !! l = Some nsl) /\ ns ≡ₚ concat lists).
  { intros p pt Hp. cbn [flat_of fp_neighbours snd]. split; [apply (law_usort _ LAWS)|].
    exists (to_nbs h <$> pt_nbs pt). split; [by apply (point_at_pt dist)|]. split; [|apply (law_usort_perm _ LAWS)].
    pose proof (nbhd_eq dist h pt p (wf_lwf _ _ Hwf) Hp) as Hg. intros l nsl. split.
    - intros (pt' & lists & Hpt' & Hg' & Hl). apply (point_at_pt dist) in Hpt'; [|done].
      rewrite Hp in Hpt'. injection Hpt' as <-. rewrite Hg in Hg'. by injection Hg' as <-.
    - intros Hl. exists pt, (to_nbs h <$> pt_nbs pt). split; [by apply (point_at_pt dist)|]. by split. }
  split_and!.
  - intros id. unfold flat_get_neighbours. rewrite fmap_is_Some, Hids. split.
    + intros [fp Hfp]. apply assoc_last_elem, Hel in Hfp as (p & pt & ? & ? & _). eauto.
    + intros (p & pt & Hp & E). destruct (assoc_last id flat) eqn:Ea; [done|].
      eapply assoc_last_none in Ea. destruct Ea. apply Hel. eauto.
  - intros id ns Hg. unfold flat_get_neighbours in Hg. apply fmap_Some in Hg as (fp & Hfp & ->).
    apply assoc_last_elem, Hel in Hfp as (p & pt & Hp & Hid & ->). destruct (Hpt p pt Hp) as [Hs (lists & A1 & A2 & A3)].
    split; [done|]. exists p, pt, lists. done.
  - intros HD p pt Hp. apply (point_at_pt dist) in Hp; [|done]. destruct (Hpt p pt Hp) as [Hs (lists & A1 & A2 & A3)].
    eexists _, lists. split; [|split; [exact Hs|]; split; [exact A2|exact A3]].
    unfold flat_get_neighbours. destruct (assoc_last (pt_oid pt) flat) as [fp|] eqn:Ea.
    + apply assoc_last_elem, Hel in Ea as (p' & pt' & Hp' & Hid & ->). simpl. do 2 f_equal.
      assert (HND : NoDup (pt_oid <$> all_points h)).
      { unfold distinct_ids in HD. rewrite <- Hst in HD. unfold stored in HD. by rewrite <- list_fmap_compose in HD. }
      assert (Hi : pt ∈ all_points h) by (apply elem_of_all_points; eauto).
      assert (Hi' : pt' ∈ all_points h) by (apply elem_of_all_points; eauto).
      apply elem_of_list_lookup in Hi as [i Hi]. apply elem_of_list_lookup in Hi' as [j Hj].
      assert (i = j) as ->. { eapply NoDup_lookup; [exact HND|..]; rewrite list_lookup_fmap; [by rewrite Hi|by rewrite Hj, <- Hid]. }
      congruence.
    + eapply assoc_last_none in Ea. destruct Ea. apply Hel. eauto.
Qed.
Print Assumptions C25_flat_neighbourhood.
Example C25_example : exists flat, flatten simple_ops exb = Ok flat /\ (fst <$> exb_points) <> [] /\
  distinct_ids (fst <$> exb_points) /\ map d_id <$> flat_get_neighbours flat 14%N = Some [11; 11; 13; 10; 12; 10]%N /\ flat_get_neighbours flat 15%N = None.
Proof. eexists. split_and!; [vm_compute; reflexivity|done|exact exb_distinct|vm_compute; reflexivity..]. Qed.

(** C26: a vector of ids used as a filter: whatever the positions probed by the binary search. *)
Lemma bsearch_sound mid (l : list dataid) (id : dataid) : forall fuel lo size, bsearch fuel mid l id lo size = true -> id ∈ l.
Proof.
  induction fuel as [|fuel IH]; intros lo size; [done|]. cbn [bsearch]. destruct (size =? 0)%nat; [done|]. cbv zeta.
  destruct (l !! _) as [x|] eqn:E; [|done].
  destruct (N.compare_spec x id) as [->|?|?]; eauto. intros _. by eapply elem_of_list_lookup_2.
Qed.
Lemma bsearch_complete mid (l : list dataid) (id : dataid) : StronglySorted N.le l -> forall fuel lo size i, (size < fuel)%nat -> (lo + size <= length l)%nat ->
  (lo <= i < lo + size)%nat -> l !! i = Some id -> bsearch fuel mid l id lo size = true.
Proof.
  intros Hs. induction fuel as [|fuel IH]; intros lo size i Hf Hlen Hi Hid; [lia|]. cbn [bsearch].
  destruct (Nat.eqb_spec size 0); [lia|]. cbv zeta.
  assert (Hm : (mid lo size `mod` size < size)%nat) by (apply Nat.mod_upper_bound; lia).
  destruct (lookup_lt_is_Some_2 l (lo + mid lo size `mod` size)) as [x Hx]; [lia|]. replace (l !! (lo + mid lo size `mod` size)) with (Some x : option dataid) by (symmetry; exact Hx). cbv iota.
  assert (Hmono : forall a b xa xb, (a <= b)%nat -> l !! a = Some xa -> l !! b = Some xb -> (xa <= xb)%N).
  { clear -Hs. induction Hs as [|y l Hs IH Hy]; intros a b xa xb Hab Ha Hb; [done|]. destruct a, b; simpl in *; try lia.
    - injection Ha as ->. injection Hb as ->. lia.
    - injection Ha as ->. rewrite Forall_forall in Hy. apply Hy. by eapply elem_of_list_lookup_2.
    - eapply (IH a b); eauto; lia. }
  destruct (N.compare_spec x id) as [->|Hlt|Hgt]; [done|..].
  - eapply (IH _ _ i); try lia; [|done]. split; [|lia].
    destruct (decide (i <= lo + mid lo size `mod` size)%nat) as [Hle|]; [|lia].
    specialize (Hmono _ _ _ _ Hle Hid Hx). lia.
  - eapply (IH _ _ i); try lia; [|done]. split; [lia|].
    destruct (decide (lo + mid lo size `mod` size <= i)%nat) as [Hle|]; [|lia].
    specialize (Hmono _ _ _ _ Hle Hx Hid). lia.
Qed.
Theorem C26_vec_filter :
  forall (mid : nat -> nat -> nat) (l : list dataid) (id : dataid),
  (vec_filter mid l id = true -> id ∈ l) /\
  (StronglySorted N.le l -> (vec_filter mid l id = true <-> id ∈ l)).
Proof.
  intros mid l id. unfold vec_filter. assert (H : bsearch (S (length l)) mid l id 0 (length l) = true -> id ∈ l) by apply bsearch_sound.
  split; [exact H|]. intros Hs. split; [exact H|]. intros Hin. apply elem_of_list_lookup in Hin as [i Hi].
  pose proof (lookup_lt_Some _ _ _ Hi). eapply (bsearch_complete mid l id Hs); eauto; lia.
Qed.
Print Assumptions C26_vec_filter.
Example C26_example : StronglySorted N.le [3; 5; 5; 9]%N /\ vec_filter (fun _ n => n / 2)%nat [3; 5; 5; 9]%N 5%N = true /\
  vec_filter (fun _ n => n / 2)%nat [3; 5; 5; 9]%N 4%N = false /\
  (* unsorted: an id of the vector can be missed *)
  vec_filter (fun _ n => n / 2)%nat [9; 5; 3]%N 9%N = false.
Proof. split; [repeat constructor; lia|]. split_and!; reflexivity. Qed.

(** C47: any sequence of calls of the setters of ReloadOptions. *)
Inductive ro_call : Type := SetMmap (b : bool) | SetThreshold (n : N).
Definition ro_do (o : reload_options) (c : ro_call) : reload_options :=
  match c with SetMmap b => ro_set_mmap b o | SetThreshold n => ro_set_mmap_threshold n o end.
(** the last element of the list satisfying [f] *)
Definition last_such {A B} (f : A -> option B) (l : list A) (d : B) (b : B) : Prop :=
  (exists pre x post, l = pre ++ x :: post /\ f x = Some b /\ (forall y, y ∈ post -> f y = None)) \/
  ((forall y, y ∈ l -> f y = None) /\ b = d).
Theorem C47_reload_options :
  forall (b0 : bool) (calls : list ro_call) b t, ro_use_mmap (fold_left ro_do calls (ro_new b0)) = (b, t) ->
  (* the threshold is the last non zero one, 0 at first *)
  last_such (fun c => match c with SetThreshold n => if (n =? 0)%N then None else Some n | _ => None end) calls 0%N t /\
  (* the use of mmap is what the last call other than set_mmap_threshold(0) asks for; a non zero threshold asks for it *)
  last_such (fun c => match c with SetThreshold n => if (n =? 0)%N then None else Some true | SetMmap v => Some v end) calls b0 b.
Proof.
  intros b0 calls. induction calls as [|c calls IH] using rev_ind; intros b t H.
  - cbn in H. injection H as <- <-. split; right; (split; [intros y Hy; by apply elem_of_nil in Hy|done]).
  - rewrite fold_left_app in H. cbn [fold_left] in H. specialize (IH _ _ (surjective_pairing _)).
    destruct (fold_left ro_do calls (ro_new b0)) as [b1 t1]. cbn [ro_use_mmap ro_datamap ro_threshold fst snd] in IH. destruct IH as [IH1 IH2].
    assert (Hskip : forall {B} (f : ro_call -> option B) d x, f c = None -> last_such f calls d x -> last_such f (calls ++ [c]) d x).
    { intros B f d x Hc [(pre & y & post & -> & Hy & Hp)|[Hn ->]].
      - left. exists pre, y, (post ++ [c]). split; [by rewrite <- app_assoc|]. split; [done|]. intros z Hz.
        apply elem_of_app in Hz as [Hz|Hz]; [auto|]. apply elem_of_list_singleton in Hz as ->. done.
      - right. split; [|done]. intros z Hz. apply elem_of_app in Hz as [Hz|Hz]; [auto|]. apply elem_of_list_singleton in Hz as ->. done. }
    assert (Hlast : forall {B} (f : ro_call -> option B) d x, f c = Some x -> last_such f (calls ++ [c]) d x).
    { intros B f d x Hc. left. exists calls, c, []. split; [done|]. split; [done|]. intros y Hy. by apply elem_of_nil in Hy. }
    destruct c as [v|n]; cbn [ro_do] in H.
    + cbn in H. injection H as <- <-. split; [by apply Hskip|by apply Hlast].
    + unfold ro_set_mmap_threshold in H. destruct (N.ltb_spec 0 n).
      * cbn in H. injection H as <- <-. split; apply Hlast; (destruct (N.eqb_spec n 0); [lia|done]).
      * assert (n = 0)%N as -> by lia. cbn in H. injection H as <- <-. split; by apply Hskip.
Qed.
Print Assumptions C47_reload_options.
Example C47_example : ro_use_mmap (fold_left ro_do [SetMmap false; SetThreshold 7; SetMmap false; SetThreshold 0] (ro_new true)) = (false, 7%N).
Proof. reflexivity. Qed.

(** C48: any sequence of calls of set_values and set_options. *)
Inductive io_call : Type := SetValues (d : path) (b : string) (o : reload_options) | SetOptions (o : reload_options).
(** a call returning Err leaves the structure as it was; true is for Ok *)
Definition io_do (s : hnswio * list bool) (c : io_call) : hnswio * list bool :=
  match c with
  | SetOptions o => (io_set_options s.1 o, s.2)
  | SetValues d b o =>
      match io_set_values s.1 d b o with Ok io => (io, s.2 ++ [true]) | _ => (s.1, s.2 ++ [false]) end
  end.
Definition values_calls (cs : list io_call) : list (path * string) :=
  omap (fun c => match c with SetValues d b _ => Some (d, b) | _ => None end) cs.
Theorem C48_set_values :
  (* made by new: every call fails and the files stay the same *)
  (forall dir base opts calls io res, fold_left io_do calls (io_new_with_options dir base opts, []) = (io, res) ->
     io_dir io = dir /\ io_basename io = base /\ res = replicate (length (values_calls calls)) false) /\
  (forall dir base, io_new dir base = io_new_with_options dir base ro_default) /\
  (* made by default: exactly the first call succeeds and sets the files *)
  (forall calls io res, fold_left io_do calls (io_default, []) = (io, res) ->
     match values_calls calls with
     | [] => io_dir io = io_dir io_default /\ io_basename io = "" /\ res = []
     | (d, b) :: more => io_dir io = d /\ io_basename io = b /\ res = true :: replicate (length more) false
     end).
Proof.
  assert (Hinit : forall calls io0 res0 io res, io_initialized io0 = true -> fold_left io_do calls (io0, res0) = (io, res) ->
     io_dir io = io_dir io0 /\ io_basename io = io_basename io0 /\ res = res0 ++ replicate (length (values_calls calls)) false).
  { induction calls as [|c calls IH]; intros io0 res0 io res Hi H.
    - cbn in H. injection H as <- <-. by rewrite app_nil_r.
    - cbn [fold_left] in H. destruct c as [d b o|o]; cbn [io_do] in H.
      + unfold io_set_values in H. cbn [fst snd] in H. rewrite Hi in H. apply IH in H as (H1 & H2 & H3); [|done].
        split_and!; auto. rewrite H3, <- app_assoc. done.
      + apply IH in H as (H1 & H2 & H3); [|done]. done. }
  split; [|split; [done|]].
  - intros dir base opts calls io res H. apply Hinit in H as (? & ? & ?); done.
  - intros calls. assert (Hgen : forall io0 io res, io_initialized io0 = false -> io_dir io0 = io_dir io_default -> io_basename io0 = "" ->
      fold_left io_do calls (io0, []) = (io, res) ->
      match values_calls calls with
      | [] => io_dir io = io_dir io_default /\ io_basename io = "" /\ res = []
      | (d, b) :: more => io_dir io = d /\ io_basename io = b /\ res = true :: replicate (length more) false
      end); [|by intros io res; apply Hgen].
    induction calls as [|c calls IH]; intros io0 io res Hi Hd Hb H.
    + cbn in H. injection H as <- <-. done.
    + cbn [fold_left] in H. destruct c as [d b o|o]; cbn [io_do] in H.
      * unfold io_set_values in H. cbn [fst snd] in H. rewrite Hi in H. apply Hinit in H as (H1 & H2 & H3); [|done]. done.
      * by eapply (IH (io_set_options io0 o)).
Qed.
Print Assumptions C48_set_values.
Example C48_example : exists io, fold_left io_do [SetOptions (ro_new true); SetValues tmp_dir "a" ro_default; SetValues tmp_dir "b" ro_default] (io_default, []) =
  (io, [true; false]) /\ io_basename io = "a".
Proof. eexists. split; reflexivity. Qed.

(** C54: with elements aligned on 8 bytes (f64, u64...), every data map of two points or more gives a misaligned
    slice for some id. *)
Theorem C54_alignment_refuted :
  forall {T} (dist : list T -> list T -> Z) so, StdLaws so -> (forall a b, (0 <= dist a b)%Z) ->
  forall inv_ln M ml ef hist h, built dist so inv_ln M ml ef hist h ->
  forall el dname, dump_ready el dname ml hist h -> uniform h -> distinct_ids hist -> (2 <= length hist)%nat ->
  (el_size el mod 8 = 0)%nat ->
  forall cwd fs dir base draws fs' name, file_dump el dname cwd fs dir base draws h = (fs', Ok name) -> plain_dir dir ->
  exists dm id off v, from_hnswdump el cwd fs' dir name = Ok dm /\ dm_get_data el dm id = Ok (Some v) /\
    dm_offset dm id = Some off /\ (off mod 8 = 4)%nat.
Proof.
  intros T dist so LAWS Hnn inv_ln M ml ef hist h Hb el dname Hr Hu HD H2 H8 cwd fs dir base draws fs' name Hf Hpd.
  destruct (C36_datamap dist so LAWS Hnn _ _ _ _ _ _ Hb el dname Hr Hu _ _ _ _ _ _ _ Hf Hpd) as (dm & Hdm & _ & _ & G & _).
  apply file_dump_at in Hf as [Hat _].
  destruct (bd_offsets dist so LAWS Hnn _ _ _ _ _ _ Hb el dname Hr _ _ _ _ Hat Hu Hpd HD) as (dm' & Hdm' & Hoff).
  rewrite Hdm in Hdm'. injection Hdm' as <-.
  destruct (built_facts dist so LAWS Hnn _ _ _ _ _ _ Hb) as (_ & _ & _ & _ & Hst & _).
  destruct (lookup_lt_is_Some_2 (all_points h) 1) as [pt Hpt].
  { apply Permutation_length in Hst. unfold stored in Hst. rewrite fmap_length in Hst. lia. }
  specialize (Hoff 1%nat pt Hpt). destruct (G (pt_oid pt)) as (v & Hv & _).
  { rewrite <- (bd_ids dist so LAWS Hnn _ _ _ _ _ _ Hb el dname Hr). apply elem_of_list_lookup_2 in Hpt. by apply elem_of_list_fmap_1. }
  eexists dm, (pt_oid pt), _, v. split; [done|]. split; [done|]. split; [exact Hoff|].
  apply Nat.mod_divides in H8 as [k ->]; [|lia].
  replace (32 + 1 * (20 + get_data_dimension h * (8 * k)))%nat with (4 + (6 + get_data_dimension h * k) * 8)%nat by lia.
  by rewrite Nat.mod_add by lia.
Qed.
Print Assumptions C54_alignment_refuted.

(** C54 for alignments 1, 2 and 4: every slice is aligned. *)
Theorem C54_alignment_partial :
  forall {T} (dist : list T -> list T -> Z) so, StdLaws so -> (forall a b, (0 <= dist a b)%Z) ->
  forall inv_ln M ml ef hist h, built dist so inv_ln M ml ef hist h ->
  forall el dname, dump_ready el dname ml hist h -> uniform h -> distinct_ids hist ->
  forall align, (align = 1 \/ align = 2 \/ align = 4)%nat -> (el_size el mod align = 0)%nat ->
  forall cwd fs dir base draws fs' name, file_dump el dname cwd fs dir base draws h = (fs', Ok name) -> plain_dir dir ->
  exists dm, from_hnswdump el cwd fs' dir name = Ok dm /\
    forall id, id ∈ hist.*2 -> exists off, dm_offset dm id = Some off /\ (off mod align = 0)%nat.
Proof.
  intros T dist so LAWS Hnn inv_ln M ml ef hist h Hb el dname Hr Hu HD al Hal H8 cwd fs dir base draws fs' name Hf Hpd.
  apply file_dump_at in Hf as [Hat _].
  destruct (bd_offsets dist so LAWS Hnn _ _ _ _ _ _ Hb el dname Hr _ _ _ _ Hat Hu Hpd HD) as (dm & Hdm & Hoff).
  exists dm. split; [done|]. intros id Hid. rewrite <- (bd_ids dist so LAWS Hnn _ _ _ _ _ _ Hb el dname Hr) in Hid.
  apply elem_of_list_fmap in Hid as (pt & -> & Hpt). apply elem_of_list_lookup in Hpt as [i Hi].
  eexists. split; [by apply Hoff|]. apply Nat.mod_divides in H8 as [k ->]; [|lia]. apply Nat.mod_divides; [lia|].
  destruct Hal as [->|[->| ->]].
  - eexists. symmetry. apply Nat.mul_1_l.
  - exists (16 + i * (10 + get_data_dimension h * k))%nat. lia.
  - exists (8 + i * (5 + get_data_dimension h * k))%nat. lia.
Qed.
Print Assumptions C54_alignment_partial.
(** a type of 8 bytes: the concrete index of bytes read as the type of arrays of 8 bytes *)
Definition byte8 : Type := byte * byte * byte * byte * (byte * byte * byte * byte).
Definition el_8 : elem byte8 := Elem byte8 "u64" 8
  (fun '(a, b, c, d, (e, f, g, i)) => [a; b; c; d; e; f; g; i])
  (fun l => match l with [a; b; c; d; e; f; g; i] => (a, b, c, d, (e, f, g, i)) | _ => (x00, x00, x00, x00, (x00, x00, x00, x00)) end)
  (fun _ => None) false.
Definition w8 (b : byte) : byte8 := (b, x00, x00, x00, (x00, x00, x00, x00)).
Definition d8 (a b : list byte8) : Z :=
  match a, b with x :: _, y :: _ => Z.abs (Z.of_N (Byte.to_N x.1.1.1.1) - Z.of_N (Byte.to_N y.1.1.1.1)) | _, _ => 0%Z end.
Definition ex8_points : list (list byte8 * dataid * nat) := [([w8 x00], 1%N, 0%nat); ([w8 x07], 2%N, 0%nat)].
Definition ex8 : hnsw (T:=byte8) :=
  Eval vm_compute in match (h ← hnsw_new one_scale 2 16 10; ins_all d8 simple_ops ex8_points h) with Ok h => h
    | _ => Hnsw 0 0 false false 0 [] f64_1 0 None false false end.
Lemma ex8_built : built d8 simple_ops one_scale 2 16 10 (fst <$> ex8_points) ex8.
Proof.
  destruct (hnsw_new (T:=byte8) one_scale 2 16 10) as [h0| | | | |] eqn:E; try (by vm_compute in E).
  refine (ins_all_built d8 simple_ops _ _ _ _ ex8_points [] _ _ (built_new _ _ _ _ _ _ _ E) _).
  vm_compute in E. injection E as <-. vm_compute. reflexivity.
Qed.
Lemma ex8_ready : dump_ready el_8 l1_name 16 (fst <$> ex8_points) ex8.
Proof.
  constructor; [|exact l1_ok| |lia|done|].
  - intros [[[[a b] c] d] [[[e f] g] i]]. done.
  - split; [vm_compute; reflexivity|vm_compute; lia].
  - apply sized_check. vm_compute. reflexivity.
Qed.
Definition fs8 : fsys := fst (file_dump el_8 l1_name cwd0 fs0 tmp_dir "b" [] ex8).
Example C54_example : uniform ex8 /\ distinct_ids (fst <$> ex8_points) /\ (el_size el_8 mod 8 = 0)%nat /\
  (exists dm, from_hnswdump el_8 cwd0 fs8 tmp_dir "b" = Ok dm /\ dm_offset dm 1%N = Some 32%nat /\ dm_offset dm 2%N = Some 60%nat) /\
  (exists dm, from_hnswdump el_u8 cwd0 exb_fs tmp_dir "b" = Ok dm /\ dm_offset dm 12%N = Some 54%nat).
Proof.
  split; [apply (uniform_check ex8 1); vm_compute; reflexivity|]. split; [unfold distinct_ids; vm_compute; repeat constructor; set_solver|].
  split; [done|]. split; eexists; split_and!; vm_compute; reflexivity.
Qed.

(** C55: a data map from a relative directory: unless a graph file of the same name is found in dir/dir, the process exits. *)
Theorem C55_relative_directory_refuted :
  forall {T} (dist : list T -> list T -> Z) so, StdLaws so -> (forall a b, (0 <= dist a b)%Z) ->
  forall inv_ln M ml ef hist h, built dist so inv_ln M ml ef hist h ->
  forall el dname, dump_ready el dname ml hist h -> el_nodata el = false ->
  forall cwd fs dir base draws fs' name, file_dump el dname cwd fs dir base draws h = (fs', Ok name) ->
  pa_abs dir = false -> pa_comps dir <> [] ->
  fs_read fs' cwd (graph_file (Path false (pa_comps dir ++ pa_comps dir)) name) = None ->
  from_hnswdump el cwd fs' dir name = Exit /\
  forall c, last_component dname c -> forall k, load_hnsw so el inv_ln dname cwd fs' (io_new_with_options dir name (ROptions true k)) = Exit.
Proof.
  intros T dist so LAWS Hnn inv_ln M ml ef hist h Hb el dname Hr Hnd cwd fs dir base draws fs' name Hf Ha Hc Hno.
  apply file_dump_at in Hf as [Hat _].
  assert (HE : forall {T'} (el' : elem T'), from_hnswdump el' cwd fs' dir name = Exit).
  { intros T' el'. unfold from_hnswdump, join at 1. rewrite Ha, Hno. done. }
  split; [apply HE|]. intros c Hcomp k. unfold load_hnsw.
  pose proof (bd_dumpable dist so LAWS Hnn _ _ _ _ _ _ Hb el dname Hr) as Hdu.
  destruct (bd_entry dist so LAWS Hnn _ _ _ _ _ _ Hb el dname Hr) as [ep Hep]. destruct Hr as [R1 R2 R3 R4 R5 R6].
  rewrite (ready_open dist Hnn h el dname R1 Hdu R2 R3 ep Hep cwd fs' dir name Hat) by done. cbn [mbind outcome_bind].
  destruct (ready_header dist Hnn h el dname R1 Hdu R2 R3 ep Hep cwd fs' dir name Hat) as [s Hs].
  unfold run_rd, load_rd. cbn [io_dir io_basename io_options io_datamap io_new_with_options]. rewrite HE, Hnd.
  unfold rbind at 1. rewrite Hs. cbn [mbind outcome_bind]. apply rsplit_last in Hcomp.
  unfold de_read. cbn [de_distname]. rewrite Hcomp. unfold rbind, rlift, rret. cbn [unwrap mbind outcome_bind].
  rewrite bool_decide_true by done. cbn [negb choose_datamap ro_datamap mbind outcome_bind fmap outcome_fmap]. done.
Qed.
Print Assumptions C55_relative_directory_refuted.
Definition rel_dir : path := Path false ["d"].
Example C55_example : exists fs', (file_dump el_u8 l1_name cwd0 fs0 rel_dir "b" [] exb).1 = fs' /\
  (file_dump el_u8 l1_name cwd0 fs0 rel_dir "b" [] exb).2 = Ok "b" /\
  fs_read fs' cwd0 (graph_file (Path false ["d"; "d"]) "b") = None.
Proof. eexists. split; [reflexivity|]. split; vm_compute; reflexivity. Qed.

(** C55, what does hold: absolute directories and the working directory itself (C36), for every dump. *)
Theorem C55_relative_directory_partial :
  forall {T} (dist : list T -> list T -> Z) so, StdLaws so -> (forall a b, (0 <= dist a b)%Z) ->
  forall inv_ln M ml ef hist h, built dist so inv_ln M ml ef hist h ->
  forall el dname, dump_ready el dname ml hist h -> uniform h ->
  forall cwd fs dir base draws fs' name, file_dump el dname cwd fs dir base draws h = (fs', Ok name) ->
  (pa_abs dir = true \/ pa_comps dir = []) -> exists dm, from_hnswdump el cwd fs' dir name = Ok dm.
Proof.
  intros T dist so LAWS Hnn inv_ln M ml ef hist h Hb el dname Hr Hu cwd fs dir base draws fs' name Hf Hpd.
  destruct (C36_datamap dist so LAWS Hnn _ _ _ _ _ _ Hb el dname Hr Hu _ _ _ _ _ _ _ Hf Hpd) as (dm & Hdm & _). eauto.
Qed.
Print Assumptions C55_relative_directory_partial.

(** C56: load_hnsw_with_dist does not make the data map its options ask for: it panics, for every dump with more
    points than the threshold. *)
Theorem C56_with_dist_mmap_refuted :
  forall {T} (dist : list T -> list T -> Z) so, StdLaws so -> (forall a b, (0 <= dist a b)%Z) ->
  forall inv_ln M ml ef hist h, built dist so inv_ln M ml ef hist h ->
  forall el dname, dump_ready el dname ml hist h ->
  forall cwd fs dir base draws fs' name, file_dump el dname cwd fs dir base draws h = (fs', Ok name) ->
  forall k, (k < N.of_nat (length hist))%N ->
  load_hnsw_with_dist so el inv_ln dname cwd fs' (io_new_with_options dir name (ROptions true k)) = Panic.
Proof.
  intros T dist so LAWS Hnn inv_ln M ml ef hist h Hb el dname Hr cwd fs dir base draws fs' name Hf k Hk.
  apply file_dump_at in Hf as [Hat _].
  pose proof (bd_dumpable dist so LAWS Hnn _ _ _ _ _ _ Hb el dname Hr) as Hdu.
  destruct (bd_entry dist so LAWS Hnn _ _ _ _ _ _ Hb el dname Hr) as [ep Hep].
  destruct (built_facts dist so LAWS Hnn _ _ _ _ _ _ Hb) as (_ & _ & _ & _ & _ & Hnb). destruct Hr as [R1 R2 R3 R4 R5 R6].
  unfold load_hnsw_with_dist.
  rewrite (ready_open dist Hnn h el dname R1 Hdu R2 R3 ep Hep cwd fs' dir name Hat) by done. cbn [mbind outcome_bind].
  apply run_dies. apply (dies_load_with_dist dist Hnn h el dname R1 Hdu R2 R3); try done.
  - cbn [io_options io_new_with_options ro_threshold]. pose proof (ms_nb _ _ R6). unfold as_i64.
    replace (k <? 2 ^ 63)%N with true by lia. lia.
  - by right.
  - lia.
Qed.
Print Assumptions C56_with_dist_mmap_refuted.
(** C56, what does hold: without mapping the result is the one of load_hnsw, but for the later choice of file names. *)
Theorem C56_with_dist_partial :
  forall {T} (dist : list T -> list T -> Z) so, StdLaws so -> (forall a b, (0 <= dist a b)%Z) ->
  forall inv_ln M ml ef hist h, built dist so inv_ln M ml ef hist h ->
  forall el dname, dump_ready el dname ml hist h -> el_nodata el = false -> uniform h -> dname <> "" ->
  forall cwd fs dir base draws fs' name, file_dump el dname cwd fs dir base draws h = (fs', Ok name) ->
  exists h1 h2, load_hnsw so el inv_ln dname cwd fs' (io_new dir name) = Ok (h1, []) /\
    load_hnsw_with_dist so el inv_ln dname cwd fs' (io_new dir name) = Ok (h2, []) /\
    same_graph h h2 /\ same_vectors h h2 /\ same_lists h1 h2 /\
    (forall q k efa f, search_filter dist so h2 q k efa f = search_filter dist so h1 q k efa f).
Proof.
  intros T dist so LAWS Hnn inv_ln M ml ef hist h Hb el dname Hr Hnd Hu Hne cwd fs dir base draws fs' name Hf.
  apply file_dump_at in Hf as [Hat _].
  destruct (bd_plain dist so LAWS Hnn _ _ _ _ _ _ Hb el dname Hr cwd fs' dir name Hat dname (io_new dir name)) as (ep & Hep & H1); try done.
  { destruct (rsplit_some dname Hne) as [c Hc]. eauto. }
  destruct (bd_with_dist dist so LAWS Hnn _ _ _ _ _ _ Hb el dname Hr cwd fs' dir name Hat (io_new dir name)) as (ep' & Hep' & H2); try done.
  rewrite Hep in Hep'. injection Hep' as <-.
  destruct (bd_shows dist so LAWS Hnn _ _ _ _ _ _ Hb el dname Hr cwd fs' dir name Hat false ep Hep) as (A1 & A2 & _).
  eexists _, _. split; [exact H1|]. split; [exact H2|]. split; [exact A1|]. split; [exact A2|]. split.
  { pose proof (bd_wf dist so LAWS Hnn _ _ _ _ _ _ Hb el dname Hr) as Hwf. intros p l ns. unfold neighbours_at, point_at.
    rewrite (relink_iter dist Hnn so LAWS h Hwf ep Hep pt_data (reloaded h so inv_ln ep pt_data true) eq_refl eq_refl eq_refl).
    rewrite (relink_iter dist Hnn so LAWS h Hwf ep Hep pt_data (reloaded h so inv_ln ep pt_data false) eq_refl eq_refl eq_refl).
    reflexivity. }
  intros q k efa f. by apply search_filter_same.
Qed.
Print Assumptions C56_with_dist_partial.
Example C56_example : exists h', load_hnsw_with_dist simple_ops el_u8 one_scale l1_name cwd0 exb_fs (io_new tmp_dir "b") = Ok (h', []) /\
  datamap_opt h' = false /\ (2 < N.of_nat (length (fst <$> exb_points)))%N /\
  load_hnsw_with_dist simple_ops el_u8 one_scale l1_name cwd0 exb_fs (io_new_with_options tmp_dir "b" (ROptions true 2)) = Panic.
Proof. eexists. split_and!; vm_compute; reflexivity. Qed.

(** C57: a graph-only reload (NoData) with the mapping option panics, for every dump with more points than the threshold. *)
Theorem C57_nodata_mmap_refuted :
  forall {T} (dist : list T -> list T -> Z) so, StdLaws so -> (forall a b, (0 <= dist a b)%Z) ->
  forall inv_ln M ml ef hist h, built dist so inv_ln M ml ef hist h ->
  forall el dname, dump_ready el dname ml hist h ->
  forall cwd fs dir base draws fs' name, file_dump el dname cwd fs dir base draws h = (fs', Ok name) -> plain_dir dir ->
  forall {T'} (el' : elem T') dname', el_nodata el' = true -> el_name el' <> el_name el ->
  forall k, (k < N.of_nat (length hist))%N ->
  load_hnsw so el' inv_ln dname' cwd fs' (io_new_with_options dir name (ROptions true k)) = Panic.
Proof.
  intros T dist so LAWS Hnn inv_ln M ml ef hist h Hb el dname Hr cwd fs dir base draws fs' name Hf Hpd T' el' dname' Hnd Hne k Hk.
  apply file_dump_at in Hf as [Hat _].
  pose proof (bd_dumpable dist so LAWS Hnn _ _ _ _ _ _ Hb el dname Hr) as Hdu.
  destruct (bd_entry dist so LAWS Hnn _ _ _ _ _ _ Hb el dname Hr) as [ep Hep].
  destruct (built_facts dist so LAWS Hnn _ _ _ _ _ _ Hb) as (_ & _ & _ & _ & _ & Hnb). destruct Hr as [R1 R2 R3 R4 R5 R6].
  unfold load_hnsw.
  rewrite (ready_open dist Hnn h el dname R1 Hdu R2 R3 ep Hep cwd fs' dir name Hat) by done. cbn [mbind outcome_bind].
  apply run_dies. apply (dies_load_nodata dist Hnn h el dname R1 Hdu R2 R3); try done.
  - cbn [io_options io_new_with_options ro_threshold]. pose proof (ms_nb _ _ R6). unfold as_i64.
    replace (k <? 2 ^ 63)%N with true by lia. lia.
  - cbn [io_dir io_basename io_new_with_options]. unfold from_hnswdump. rewrite plain_graph by done. destruct Hat as [-> ->].
    by apply (datamap_other dist h el dname).
  - lia.
Qed.
Print Assumptions C57_nodata_mmap_refuted.
Example C57_example : el_nodata el_none = true /\ el_name el_none <> el_name el_u8 /\
  load_hnsw simple_ops el_none one_scale "d" cwd0 exb_fs (io_new_with_options tmp_dir "b" (ROptions true 2)) = Panic.
Proof. split; [done|]. split; [done|]. vm_compute. reflexivity. Qed.
(** C57, what does hold: without the mapping option, whatever the threshold, both loaders restore the graph. *)
Theorem C57_nodata_partial :
  forall {T} (dist : list T -> list T -> Z) so, StdLaws so -> (forall a b, (0 <= dist a b)%Z) ->
  forall inv_ln M ml ef hist h, built dist so inv_ln M ml ef hist h ->
  forall el dname, dump_ready el dname ml hist h ->
  forall cwd fs dir base draws fs' name, file_dump el dname cwd fs dir base draws h = (fs', Ok name) ->
  forall {T'} (el' : elem T') dname' k, el_nodata el' = true ->
  exists h1 h2, load_hnsw so el' inv_ln dname' cwd fs' (io_new_with_options dir name (ROptions false k)) = Ok (h1, []) /\
    load_hnsw_with_dist so el' inv_ln dname' cwd fs' (io_new_with_options dir name (ROptions false k)) = Ok (h2, []) /\
    same_graph h h1 /\ same_graph h h2.
Proof.
  intros T dist so LAWS Hnn inv_ln M ml ef hist h Hb el dname Hr cwd fs dir base draws fs' name Hf T' el' dname' k Hnd.
  apply file_dump_at in Hf as [Hat _].
  destruct (bd_nodata dist so LAWS Hnn _ _ _ _ _ _ Hb el dname Hr cwd fs' dir name Hat el' dname' (io_new_with_options dir name (ROptions false k))) as (ep & Hep & H1 & H2); try done.
  pose proof (bd_wf dist so LAWS Hnn _ _ _ _ _ _ Hb el dname Hr) as Hwf.
  eexists _, _. split; [exact H1|]. split; [exact H2|].
  split; by apply (relink_same_graph dist Hnn so LAWS h Hwf ep Hep (fun _ => [] : list T')).
Qed.
Print Assumptions C57_nodata_partial.

(** C58: a dump that returns Ok can be unreadable: a type name of more than 256 bytes. *)
Definition long_name : string := String.concat "" (repeat "Wrapper<" 40).
Theorem C58_readable_refuted :
  exists (dist : list byte -> list byte -> Z) so inv_ln M ml ef hist h (el : elem byte) dname cwd fs fs' dir base,
    StdLaws so /\ (forall a b, (0 <= dist a b)%Z) /\ built dist so inv_ln M ml ef hist h /\
    elem_ok el /\ name_ok dname /\ (16 <= ml)%nat /\ hist <> [] /\ machine_sized el h /\ uniform h /\
    file_dump el dname cwd fs dir base [] h = (fs', Ok base) /\
    forall T' so' (el' : elem T') inv_ln' dname' io x, io_dir io = dir -> io_basename io = base ->
      load_hnsw so' el' inv_ln' dname' cwd fs' io <> Ok x /\ load_hnsw_with_dist so' el' inv_ln' dname' cwd fs' io <> Ok x.
Proof.
  exists dB, simple_ops, one_scale, 2%nat, 16%nat, 10%nat, (fst <$> exb_points), exb, (el_named long_name),
    l1_name, cwd0, fs0, (fst (file_dump (el_named long_name) l1_name cwd0 fs0 tmp_dir "b" [] exb)), tmp_dir, "b".
  split; [exact simple_laws|]. split; [exact dB_nonneg|]. split; [exact exb_built|]. destruct exb_ready as [R1 R2 R3 R4 R5 R6].
  split; [done|]. split; [done|]. split; [done|]. split; [done|]. split; [by destruct R6|]. split; [exact exb_uniform|]. split.
  { assert (E : snd (file_dump (el_named long_name) l1_name cwd0 fs0 tmp_dir "b" [] exb) = Ok "b") by (vm_compute; reflexivity).
    revert E. generalize (file_dump (el_named long_name) l1_name cwd0 fs0 tmp_dir "b" [] exb). intros [a b] E. cbn [fst snd] in *. by rewrite E. }
  intros T' so' el' inv_ln' dname' io x E1 E2.
  assert (Hh : forall d, exists g, fs_read (fst (file_dump (el_named long_name) l1_name cwd0 fs0 tmp_dir "b" [] exb)) cwd0 (graph_file tmp_dir "b") = Some g /\
    load_header (g, d) = Panic).
  { intros d. eexists. split; [vm_compute; reflexivity|]. vm_compute. reflexivity. }
  assert (Ho : forall g d, io_open cwd0 (fst (file_dump (el_named long_name) l1_name cwd0 fs0 tmp_dir "b" [] exb)) io = Ok (g, d) -> load_header (g, d) = Panic).
  { intros g d. unfold io_open. rewrite E1, E2. destruct (Hh d) as (g1 & Hg1 & Hg2). rewrite Hg1. destruct (fs_read _ cwd0 (data_file tmp_dir "b")) as [dd|]; intros Hx; [|discriminate Hx]. injection Hx as <- ->. exact Hg2. }
  split; intros H; apply bind_inv in H as ([g d] & Hop & H); apply Ho in Hop; unfold run_rd in H.
  - unfold load_rd in H. unfold rbind in H at 1. rewrite Hop in H. done.
  - unfold load_with_dist_rd in H. unfold rbind in H at 1. rewrite Hop in H. done.
Qed.
Print Assumptions C58_readable_refuted.

(** C58, what does hold: names of 256 bytes at most, vectors of one length. *)
Theorem C58_readable_partial :
  forall {T} (dist : list T -> list T -> Z) so, StdLaws so -> (forall a b, (0 <= dist a b)%Z) ->
  forall inv_ln M ml ef hist h, built dist so inv_ln M ml ef hist h ->
  forall el dname, dump_ready el dname ml hist h -> el_nodata el = false -> uniform h -> dname <> "" ->
  forall cwd fs dir base draws fs' name, file_dump el dname cwd fs dir base draws h = (fs', Ok name) ->
  exists h' x, load_hnsw so el inv_ln dname cwd fs' (io_new dir name) = Ok (h', x) /\ same_graph h h' /\ same_vectors h h'.
Proof.
  intros T dist so LAWS Hnn inv_ln M ml ef hist h Hb el dname Hr Hnd Hu Hne cwd fs dir base draws fs' name Hf.
  apply file_dump_at in Hf as [Hat _].
  destruct (bd_plain dist so LAWS Hnn _ _ _ _ _ _ Hb el dname Hr cwd fs' dir name Hat dname (io_new dir name)) as (ep & Hep & H1); try done.
  { destruct (rsplit_some dname Hne) as [c Hc]. eauto. }
  destruct (bd_shows dist so LAWS Hnn _ _ _ _ _ _ Hb el dname Hr cwd fs' dir name Hat true ep Hep) as (A1 & A2 & _).
  eexists _, _. split; [exact H1|]. by split.
Qed.
Print Assumptions C58_readable_partial.
Example C58_example : dump_ready el_u8 l1_name 16 (fst <$> exb_points) exb /\ uniform exb /\ l1_name <> "" /\
  file_dump el_u8 l1_name cwd0 fs0 tmp_dir "b" [] exb = (exb_fs, Ok "b").
Proof. split; [exact exb_ready|]. split; [exact exb_uniform|]. split; [done|]. exact exb_dumped. Qed.
