(** Which pairs of files DataMap::from_hnswdump maps, and what the map answers. *)
From Coq Require Import Strings.String.
From Verif Require Import Prelude Model Lib Table SearchProofs InsertProofs Spec Io IoBase IoProofs IoProofs2 IoProofs3 IoProofs5 LoadProofs SpecIo SpecFile FileProofs FileProofs2.
Local Open Scope list_scope.

Lemma slice_iff (pre x b : bytes) k n : k = length pre -> slice (pre ++ x) k n = Ok b <-> exists y, x = b ++ y /\ length b = n.
Proof.
  intros ->. unfold slice. rewrite app_length. destruct (Nat.ltb_spec (length pre + length x) (length pre + n)) as [H|H].
  - split; [done|]. intros (y & -> & <-). rewrite app_length in H. lia.
  - rewrite drop_app. split.
    + intros [= <-]. exists (drop n x). rewrite take_drop, take_length. split; [done|lia].
    + intros (y & -> & <-). by rewrite take_app.
Qed.
Lemma imap_get_insert k v m id : imap_get id (imap_insert k v m) = if (k =? id)%N then Some v else imap_get id m.
Proof.
  induction m as [|[k' v'] m IH]; cbn [imap_insert imap_get]; [done|]. destruct (N.eqb_spec k' k) as [->|Hne]; cbn [imap_get].
  - by destruct (k =? id)%N.
  - destruct (N.eqb_spec k' id) as [->|]; [|done]. destruct (N.eqb_spec k id); [congruence|done].
Qed.

Section Map.
Context {T : Type} (el : elem T) (dim : N).
Notation rec := (dataid * bytes)%type.
Definition rtext (r : rec) : bytes := record_text (TextPoint r.1 [] r.2).
Definition rec_ok (r : rec) : Prop :=
  (r.1 < 2 ^ 64)%N /\ (N.of_nat (length r.2) < 2 ^ 64)%N /\ (dim * N.of_nat (el_size el) <= N.of_nat (length r.2))%N.
Lemma rtext_length r : length (rtext r) = (20 + length r.2)%nat.
Proof. unfold rtext, record_text. cbn [tp_id tp_bytes]. unfold u32_bytes, u64_bytes. rewrite !app_length, !le_bytes_length. lia. Qed.

(** the records with their addresses *)
Fixpoint addressed (a : nat) (recs : list rec) : list (rec * nat) :=
  match recs with [] => [] | r :: recs => (r, a) :: addressed (a + length (rtext r)) recs end.
Definition add_recs (l : list (rec * nat)) (m : list (dataid * nat)) : list (dataid * nat) :=
  foldl (fun m x => imap_insert x.1.1 (x.2 + 12)%nat m) m l.

Lemma map_records_iff mm n : forall pre x m m', mm = pre ++ x ->
  map_records el mm dim n (length pre) m = Ok m' <->
  exists recs tail, x = concat (rtext <$> recs) ++ tail /\ length recs = n /\ Forall rec_ok recs /\ m' = add_recs (addressed (length pre) recs) m.
Proof.
  induction n as [|n IH]; intros pre x m m' ->; cbn [map_records].
  - split.
    + intros [= <-]. by exists [], x.
    + intros (recs & tail & _ & ->%nil_length_inv & _ & ->). done.
  - split.
    + intros (b1 & H1 & H)%bind_inv. apply slice_iff in H1 as (x1 & -> & L1); [|done].
      apply bind_inv in H as ([] & E1%assert_inv & H). apply N.eqb_eq in E1.
      apply bind_inv in H as (b2 & H2 & H). rewrite app_assoc in H2. apply slice_iff in H2 as (x2 & -> & L2); [|rewrite app_length; lia].
      apply bind_inv in H as (b3 & H3 & H). rewrite app_assoc in H3. rewrite (app_assoc _ b2) in H3. apply slice_iff in H3 as (x3 & -> & L3); [|rewrite !app_length; lia].
      apply bind_inv in H as (b4 & H4 & H). rewrite !app_assoc in H4. rewrite <- (app_assoc _ _ x3) in H4. rewrite app_assoc in H4.
      apply slice_iff in H4 as (x4 & -> & L4); [|rewrite !app_length; lia].
      apply bind_inv in H as (v & H5 & H).
      pose (r := (le_val b2, b4) : rec).
      assert (Er : rtext r = b1 ++ b2 ++ b3 ++ b4).
      { unfold rtext, record_text, r. cbn [tp_id tp_bytes fst snd]. unfold u32_bytes, u64_bytes. f_equal; [|f_equal; [|f_equal]].
        - rewrite <- L1. change MAGICDATAP with (0xa67f0000)%N in E1. rewrite <- E1. apply le_bytes_val.
        - rewrite <- L2. apply le_bytes_val.
        - rewrite L4, N2Nat.id, <- L3. apply le_bytes_val. }
      assert (Hlen : (length pre + 20 + N.to_nat (le_val b3))%nat = length (pre ++ rtext r)).
      { rewrite app_length, rtext_length. unfold r. cbn [snd]. lia. }
      rewrite Hlen in H.
      apply (IH (pre ++ rtext r) x4) in H as (recs & tail & -> & <- & Hok & ->); [|rewrite Er, <- !app_assoc; done].
      exists (r :: recs), tail. split_and!.
      * cbn [fmap list_fmap concat]. rewrite Er, <- !app_assoc. done.
      * done.
      * constructor; [|done]. split_and!.
        -- cbn. pose proof (le_val_lt b2) as B. rewrite L2 in B. exact B.
        -- cbn. rewrite L4, N2Nat.id. pose proof (le_val_lt b3) as B. rewrite L3 in B. exact B.
        -- cbn. unfold from_raw_parts in H5. destruct (N.ltb_spec (N.of_nat (length b4)) (dim * N.of_nat (el_size el))); [done|lia].
      * cbn [addressed add_recs foldl]. rewrite app_length. done.
    + intros ([|r recs] & tail & -> & Hlen & Hok & ->); [done|]. apply Forall_cons in Hok as [(K1 & K2 & K3) Hok]. injection Hlen as Hlen.
      cbn [fmap list_fmap concat] in IH |- *. set (y := concat (rtext <$> recs) ++ tail).
      assert (Ey : (rtext r ++ concat (rtext <$> recs)) ++ tail = rtext r ++ y) by (unfold y; by rewrite app_assoc). rewrite Ey in IH |- *.
      assert (E : pre ++ rtext r ++ y = pre ++ u32_bytes MAGICDATAP ++ u64_bytes r.1 ++ u64_bytes (N.of_nat (length r.2)) ++ r.2 ++ y).
      { unfold rtext, record_text. cbn [tp_id tp_bytes]. by rewrite <- !app_assoc. }
      rewrite (proj2 (slice_iff pre (rtext r ++ y) (u32_bytes MAGICDATAP) _ 4 eq_refl)).
      2: { eexists. split; [|done]. by apply app_inv_head in E. }
      cbn [mbind outcome_bind]. unfold u32_bytes at 1. rewrite le_val_bytes by done. cbn [assert_ N.eqb mbind outcome_bind].
      rewrite N.eqb_refl. cbn [assert_ mbind outcome_bind].
      assert (S2 : slice (pre ++ rtext r ++ y) (length pre + 4) 8 = Ok (u64_bytes r.1)).
      { rewrite E, app_assoc. apply slice_iff; [by rewrite app_length|]. by eexists. }
      rewrite S2. cbn [mbind outcome_bind].
      assert (S3 : slice (pre ++ rtext r ++ y) (length pre + 12) 8 = Ok (u64_bytes (N.of_nat (length r.2)))).
      { rewrite E, app_assoc, (app_assoc _ (u64_bytes r.1)). apply slice_iff; [rewrite !app_length; unfold u32_bytes, u64_bytes; rewrite !le_bytes_length; lia|]. by eexists. }
      rewrite S3. cbn [mbind outcome_bind]. unfold u64_bytes. rewrite !le_val_bytes by done. rewrite Nat2N.id.
      assert (S4 : slice (pre ++ rtext r ++ y) (length pre + 20) (length r.2) = Ok r.2).
      { rewrite E, app_assoc, (app_assoc _ (u64_bytes r.1)), (app_assoc _ (u64_bytes (N.of_nat (length r.2)))). apply slice_iff; [rewrite !app_length; unfold u32_bytes, u64_bytes; rewrite !le_bytes_length; lia|]. by eexists. }
      rewrite S4. cbn [mbind outcome_bind]. unfold from_raw_parts. replace (N.of_nat (length r.2) <? dim * N.of_nat (el_size el))%N with false by lia.
      cbn [mbind outcome_bind]. replace (length pre + 20 + length r.2)%nat with (length (pre ++ rtext r)) by (rewrite app_length, rtext_length; lia).
      apply (IH (pre ++ rtext r) y); [by rewrite <- app_assoc|]. exists recs, tail. split_and!; [done|done|done|].
      cbn [addressed add_recs foldl]. by rewrite app_length.
Qed.

Lemma addressed_fst a recs : fst <$> addressed a recs = recs.
Proof. revert a. induction recs as [|r recs IH]; intros a; csimpl; [done|]. by rewrite IH. Qed.
Lemma addressed_at pre recs tail r a : (r, a) ∈ addressed (length pre) recs ->
  exists pre' post, pre ++ concat (rtext <$> recs) ++ tail = pre' ++ rtext r ++ post /\ a = length pre'.
Proof.
  revert pre. induction recs as [|r' recs IH]; intros pre; cbn [addressed]; [by intros ?%elem_of_nil|].
  rewrite elem_of_cons. cbn [fmap list_fmap concat]. intros [[= -> ->]|H].
  - exists pre, (concat (rtext <$> recs) ++ tail). split; [|done]. by rewrite <- !app_assoc.
  - rewrite <- app_length in H. apply IH in H as (pre' & post & E & ->). exists pre', post. split; [|done]. rewrite <- E, <- !app_assoc. done.
Qed.
Lemma get_recs l id : forall m, imap_get id (add_recs l m) =
  match last (filter (fun x : rec * nat => x.1.1 = id) l) with Some x => Some (x.2 + 12)%nat | None => imap_get id m end.
Proof.
  induction l as [|x l IH] using rev_ind; intros m; [done|]. unfold add_recs. rewrite foldl_app. cbn [foldl]. rewrite imap_get_insert.
  rewrite filter_app. destruct (N.eqb_spec x.1.1 id) as [E|E].
  - rewrite filter_cons_True, filter_nil by done. by rewrite last_snoc.
  - rewrite filter_cons_False, filter_nil, app_nil_r by done. apply IH.
Qed.
Lemma keys_recs l : fst <$> add_recs l [] = first_seen ((fun x : rec * nat => x.1.1) <$> l).
Proof.
  induction l as [|x l IH] using rev_ind; [done|]. unfold add_recs. rewrite foldl_app. cbn [foldl]. rewrite imap_insert_keys.
  fold (add_recs l []). rewrite IH, fmap_app. csimpl. rewrite first_seen_snoc.
  destruct (decide (x.1.1 ∈ ((fun x : rec * nat => x.1.1) <$> l))).
  - rewrite !bool_decide_true; [done|done|]. by rewrite elem_of_first_seen.
  - rewrite !bool_decide_false; [done|done|]. by rewrite elem_of_first_seen.
Qed.
Lemma last_fmap_filter a recs id :
  fst <$> last (filter (fun x : rec * nat => x.1.1 = id) (addressed a recs)) = last (filter (fun r : rec => r.1 = id) recs).
Proof.
  revert a. induction recs as [|r recs IH] using rev_ind; intros a; [done|].
  assert (E : exists b, addressed a (recs ++ [r]) = addressed a recs ++ [(r, b)]).
  { clear IH. revert a. induction recs as [|r' recs IH]; intros a; cbn [app addressed]; [by eexists|]. destruct (IH (a + length (rtext r'))%nat) as [b ->]. by eexists. }
  destruct E as [b ->]. rewrite !filter_app. destruct (decide (r.1 = id)) as [H|H].
  - rewrite !filter_cons_True, !filter_nil by done. by rewrite !last_snoc.
  - rewrite !filter_cons_False, !filter_nil, !app_nil_r by done. apply IH.
Qed.
Lemma dec_vec_app n b c : (n * el_size el <= length b)%nat -> dec_vec el n (b ++ c) = dec_vec el n b.
Proof.
  revert b. induction n as [|n IH]; intros b H; [done|]. cbn [dec_vec]. rewrite take_app_le, drop_app_le by lia. rewrite IH; [done|]. rewrite drop_length. lia.
Qed.
End Map.

Lemma fits_head t : fits t -> head_fits t.
Proof. by intros []. Qed.
Lemma head_fits_fits t : head_fits t -> exists t', fits t' /\ de_of t' = de_of t /\ head_text t' = head_text t /\ tx_version t' = tx_version t /\ tx_type t' = tx_type t /\ tx_dim t' = tx_dim t /\ tx_dist t' = tx_dist t.
Proof.
  intros [V B S W N]. exists (Text (tx_version t) (tx_mode t) (tx_m t) (tx_scale t) (tx_lists t) (tx_ef t) (tx_count t) (tx_dim t) (tx_dist t) (tx_type t) [] (0%N, 0%N, 0%Z)).
  split; [|done]. split; try done. intros ps []%elem_of_nil.
Qed.

Section Top.
Context {T : Type} (el : elem T).

Lemma datamap_of_iff g d dm : datamap_of el g d = Ok dm <-> exists t recs, mappable el g d t recs /\
  dm = DataMap d (add_recs (addressed 12 recs) []) (tx_type t) (tx_dim t) (tx_dist t).
Proof.
  unfold datamap_of. split.
  - intros ([de [g' d']] & H1 & H)%bind_inv. apply (exact_panic _ _ exact_description) in H1 as (xg & xd & -> & E & -> & t0 & -> & Hh & ->).
    destruct (head_fits_fits _ Hh) as (t & F & Ed & Et & Ev & Ety & Edim & Edn). rewrite <- Ed in H.
    change (format_version (de_of t)) with (tx_version t) in H. change (de_t_name (de_of t)) with (tx_type t) in H.
    destruct (N.leb_spec (tx_version t) 2) as [|Hv]; [done|]. destruct (String.eqb_spec (el_name el) (tx_type t)) as [Hn|]; [|done]. cbn [negb] in H.
    apply bind_inv in H as (b1 & H2 & H). apply (slice_iff [] d) in H2 as (x1 & -> & L1); [|done].
    apply bind_inv in H as ([] & E1%assert_inv & H). apply N.eqb_eq in E1.
    apply bind_inv in H as (b2 & H2 & H). apply (slice_iff b1) in H2 as (x2 & -> & L2); [|done].
    change (de_dimension (de_of t)) with (tx_dim t) in H. destruct (N.eqb_spec (le_val b2) (tx_dim t)) as [Ed2|]; [|done]. cbn [negb] in H.
    apply bind_inv in H as (m & H3 & [= <-]). rewrite Ed2 in H3.
    assert (EB : b1 ++ b2 = u32_bytes 0xa67f0000 ++ u64_bytes (tx_dim t)).
    { unfold u32_bytes, u64_bytes. change MAGICDATAP with (0xa67f0000)%N in E1. rewrite <- E1, <- Ed2. f_equal; [rewrite <- L1|rewrite <- L2]; by rewrite le_bytes_val. }
    rewrite app_assoc in H3. change 12%nat with (length (u32_bytes 0xa67f0000 ++ u64_bytes 0)) in H3 at 2.
    replace (length (u32_bytes 0xa67f0000 ++ u64_bytes 0)) with (length (b1 ++ b2)) in H3 by (rewrite EB; done).
    apply (map_records_iff el _ _ _ (b1 ++ b2) x2) in H3 as (recs & tail & -> & Hl & Hok & ->); [|done].
    assert (E12 : length (b1 ++ b2) = 12%nat) by (rewrite app_length; lia).
    exists t, recs. split.
    + split; [by exists g'; rewrite Et|]. split; [done|]. split; [lia|]. split; [done|]. split.
      * exists tail. rewrite app_assoc, EB, <- app_assoc. done.
      * split; [|intros r Hr; rewrite Forall_forall in Hok; by apply Hok]. rewrite Hl, N2Nat.id. rewrite !app_assoc. done.
    + rewrite E12. done.
  - intros (t & recs & ((rest & ->) & F & Hv & Hn & (tail & Ed) & Hl & Hok) & ->).
    assert (H1 : or_panic load_description (head_text t ++ rest, []) = Ok (de_of t, (rest, []))).
    { apply (exact_panic _ _ exact_description). exists (head_text t), []. split; [done|]. split; [done|]. split; [done|]. exists t. split; [done|]. split; [by apply fits_head|done]. }
    rewrite H1. cbn [mbind outcome_bind].
    change (format_version (de_of t)) with (tx_version t). change (de_t_name (de_of t)) with (tx_type t). change (de_dimension (de_of t)) with (tx_dim t).
    replace (tx_version t <=? 2)%N with false by (pose proof (ft_version _ F); lia). rewrite Hn, String.eqb_refl. cbn [negb].
    assert (S1 : slice d 0 4 = Ok (u32_bytes 0xa67f0000)).
    { rewrite Ed. apply (slice_iff []); [done|]. by eexists. }
    assert (S2 : slice d 4 8 = Ok (u64_bytes (tx_dim t))).
    { rewrite Ed. apply (slice_iff (u32_bytes 0xa67f0000)); [done|]. by eexists. }
    rewrite S1, S2. cbn [mbind outcome_bind]. unfold u32_bytes at 1. rewrite le_val_bytes by done. unfold MAGICDATAP at 1. rewrite N.eqb_refl. cbn [assert_ mbind outcome_bind].
    unfold u64_bytes at 1 2 3. rewrite le_val_bytes by apply F. rewrite N.eqb_refl. cbn [negb].
    assert (HM : map_records el d (tx_dim t) (N.to_nat (N.of_nat (length d - 12) / (20 + tx_dim t * N.of_nat (el_size el)))) 12 [] = Ok (add_recs (addressed 12 recs) [])).
    { change 12%nat with (length (u32_bytes 0xa67f0000 ++ u64_bytes (tx_dim t))) at 2 3.
      apply (map_records_iff el (tx_dim t) d _ (u32_bytes 0xa67f0000 ++ u64_bytes (tx_dim t)) (concat (rtext <$> recs) ++ tail)).
      - rewrite Ed. by rewrite <- !app_assoc.
      - exists recs, tail. split_and!; [done| | |done].
        + rewrite <- Hl. lia.
        + apply Forall_forall. intros r Hr. by apply Hok. }
    rewrite HM. done.
Qed.

Lemma map_answers g d t recs id : mappable el g d t recs ->
  dm_get_data el (DataMap d (add_recs (addressed 12 recs) []) (tx_type t) (tx_dim t) (tx_dist t)) id = Ok (mapped_vector el t recs id).
Proof.
  intros (_ & _ & _ & _ & (tail & Ed) & _ & Hok). unfold dm_get_data, mapped_vector. cbn [dm_map dm_mmap dm_dimension].
  rewrite get_recs. rewrite <- (last_fmap_filter 12 recs id).
  destruct (last (filter (fun x : dataid * bytes * nat => x.1.1 = id) (addressed 12 recs))) as [[r a]|] eqn:El; [|done]. cbn [fmap option_fmap option_map fst snd].
  apply last_Some_elem_of, elem_of_list_filter in El as [Hid Hin]. cbn [fst] in Hid.
  assert (Hr : r ∈ recs). { rewrite <- (addressed_fst 12 recs). apply elem_of_list_fmap. by exists (r, a). }
  destruct (Hok _ Hr) as (K1 & K2 & K3).
  change 12%nat with (length (u32_bytes 0xa67f0000 ++ u64_bytes 0)) in Hin.
  replace (length (u32_bytes 0xa67f0000 ++ u64_bytes 0)) with (length (u32_bytes 0xa67f0000 ++ u64_bytes (tx_dim t))) in Hin by done.
  apply (addressed_at _ _ tail) in Hin as (pre & post & E & ->).
  assert (Ed' : d = pre ++ rtext r ++ post) by (rewrite Ed, app_assoc; exact E). clear Ed E.
  assert (Ed : d = (pre ++ u32_bytes 0xa67f0000 ++ u64_bytes r.1) ++ u64_bytes (N.of_nat (length r.2)) ++ r.2 ++ post).
  { rewrite Ed'. unfold rtext, record_text. cbn [tp_id tp_bytes]. by rewrite <- !app_assoc. }
  assert (L1 : (length pre + 12)%nat = length (pre ++ u32_bytes 0xa67f0000 ++ u64_bytes r.1)).
  { unfold u32_bytes, u64_bytes. rewrite !app_length, !le_bytes_length. lia. }
  rewrite L1. clear L1 Ed'. set (q := pre ++ u32_bytes 0xa67f0000 ++ u64_bytes r.1) in *.
  assert (S1 : slice d (length q) 8 = Ok (u64_bytes (N.of_nat (length r.2)))).
  { rewrite Ed. apply slice_iff; [done|]. by eexists. }
  rewrite S1. cbn [mbind outcome_bind].
  assert (Ed2 : d = (q ++ u64_bytes (N.of_nat (length r.2))) ++ r.2 ++ post) by (by rewrite <- app_assoc).
  assert (L2 : (length q + 8)%nat = length (q ++ u64_bytes (N.of_nat (length r.2)))) by (unfold u64_bytes; rewrite !app_length, !le_bytes_length; lia).
  assert (S2 : slice d (length q + 8) 0 = Ok []).
  { rewrite Ed2, L2. apply slice_iff; [done|]. by eexists. }
  rewrite S2. cbn [mbind outcome_bind].
  assert (S3 : drop (length q + 8) d = r.2 ++ post). { rewrite Ed2, L2. by rewrite drop_app. }
  rewrite S3. unfold from_raw_parts. rewrite app_length. rewrite (proj2 (N.ltb_ge _ _)) by (rewrite Nat2N.inj_add; etransitivity; [exact K3|apply N.le_add_r]). cbn [mbind outcome_bind].
  rewrite dec_vec_app; [done|]. pose proof (Nat2N.inj_mul (N.to_nat (tx_dim t)) (el_size el)) as EM. rewrite N2Nat.id in EM. rewrite <- EM in K3. clear -K3. unfold dataid in *. lia.
Qed.
End Top.
