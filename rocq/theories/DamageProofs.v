(** The grammar of SpecFile.v is unambiguous; data files that differ in their vectors. *)
From Coq Require Import Strings.String.
From Verif Require Import Prelude Model Lib Table SearchProofs InsertProofs Spec Io IoBase IoProofs LoadProofs SpecIo SpecFile FileProofs
  IterProofs IoProofs5 SpecDamage.
Local Open Scope list_scope.
Notation length := List.length.

Lemma num_inj k a b x y : (a < 256 ^ N.of_nat k)%N -> (b < 256 ^ N.of_nat k)%N -> le_bytes k a ++ x = le_bytes k b ++ y -> a = b /\ x = y.
Proof.
  intros Ha Hb E. apply app_inj_1 in E as [E ->]; [|by rewrite !le_bytes_length]. split; [|done].
  rewrite <- (le_val_bytes k a), <- (le_val_bytes k b) by done. by rewrite E.
Qed.
Lemma u64_inj a b x y : (a < 2 ^ 64)%N -> (b < 2 ^ 64)%N -> u64_bytes a ++ x = u64_bytes b ++ y -> a = b /\ x = y.
Proof. intros. by apply (num_inj 8). Qed.
Lemma u32_inj a b x y : (a < 2 ^ 32)%N -> (b < 2 ^ 32)%N -> u32_bytes a ++ x = u32_bytes b ++ y -> a = b /\ x = y.
Proof. intros. by apply (num_inj 4). Qed.
Lemma u8_inj a b x y : (a < 256)%N -> (b < 256)%N -> u8_bytes a ++ x = u8_bytes b ++ y -> a = b /\ x = y.
Proof. intros. by apply (num_inj 1). Qed.
Lemma i32_inj a b x y : (- 2 ^ 31 <= a < 2 ^ 31)%Z -> (- 2 ^ 31 <= b < 2 ^ 31)%Z -> i32_bytes a ++ x = i32_bytes b ++ y -> a = b /\ x = y.
Proof.
  intros (n & Hn & -> & <-)%i32_bytes_le (n' & Hn' & -> & <-)%i32_bytes_le E. apply (num_inj 4) in E as [-> ->]; done.
Qed.
Lemma seq_inj {A} (f : A -> bytes) (P : A -> Prop) : (forall a b x y, P a -> P b -> f a ++ x = f b ++ y -> a = b /\ x = y) ->
  forall l l' x y, Forall P l -> Forall P l' -> length l = length l' -> concat (f <$> l) ++ x = concat (f <$> l') ++ y -> l = l' /\ x = y.
Proof.
  intros H l. induction l as [|a l IH]; intros [|b l'] x y Hl Hl' E EE; try done.
  cbn [fmap list_fmap concat] in EE. rewrite <- !app_assoc in EE. apply Forall_cons in Hl as [? ?]. apply Forall_cons in Hl' as [? ?].
  apply H in EE as [-> EE]; [|done..]. apply IH in EE as [-> ->]; [done..|]. simpl in E. lia.
Qed.
Lemma nbr_inj mode a b x y : fits_nbr mode a -> fits_nbr mode b -> nbr_text mode a ++ x = nbr_text mode b ++ y -> a = b /\ x = y.
Proof.
  intros (H1 & H2 & H3) (K1 & K2 & K3) E. unfold nbr_text in E. rewrite <- !app_assoc in E. apply u64_inj in E as [E1 E]; [|done..].
  destruct a as [i l r bi], b as [i' l' r' bi']. cbn [tn_id tn_layer tn_rank tn_bits] in *. subst i'. destruct (mode =? 1)%N.
  - rewrite <- !app_assoc in E. destruct H3, K3. apply u8_inj in E as [-> E]; [|done..]. apply i32_inj in E as [-> E]; [|done..].
    by apply u32_inj in E as [-> ->].
  - destruct H3, K3. subst. cbn [app] in E. by apply u32_inj in E as [-> ->].
Qed.
Lemma list_inj mode a b x y : (N.of_nat (length a) < 2 ^ 64)%N /\ Forall (fits_nbr mode) a -> (N.of_nat (length b) < 2 ^ 64)%N /\ Forall (fits_nbr mode) b ->
  list_text mode a ++ x = list_text mode b ++ y -> a = b /\ x = y.
Proof.
  intros [H1 H2] [K1 K2] E. unfold list_text in E. rewrite <- !app_assoc in E. apply u64_inj in E as [E1 E]; [|done..].
  apply (seq_inj (nbr_text mode) (fits_nbr mode)) in E; [done|apply nbr_inj|done|done|lia].
Qed.

(** the same point, the bytes of its vector set aside *)
Definition same_tp (p p' : text_point) : Prop := tp_id p' = tp_id p /\ tp_lists p' = tp_lists p.
Lemma point_inj mode l r p p' x y : (l < 256)%nat -> (Z.of_nat r < 2 ^ 31)%Z -> fits_point mode p -> fits_point mode p' -> length (tp_lists p) = length (tp_lists p') ->
  point_text mode l r p ++ x = point_text mode l r p' ++ y -> same_tp p p' /\ x = y.
Proof.
  intros Hl Hr (H1 & _ & H3) (K1 & _ & K3) EL E. unfold point_text in E. rewrite <- !app_assoc in E. apply u32_inj in E as [_ E]; [|done..].
  apply u64_inj in E as [E1 E]; [|done..]. apply u8_inj in E as [_ E]; [|lia..]. apply i32_inj in E as [_ E]; [|lia..].
  apply (seq_inj (list_text mode) (fun l => (N.of_nat (length l) < 2 ^ 64)%N /\ Forall (fits_nbr mode) l)) in E as [E2 E]; [|apply list_inj|done..].
  by split.
Qed.
Lemma points_inj mode l (k : nat) ts : (l < 256)%nat -> forall ts' r x y, (Z.of_nat (r + length ts) <= 2 ^ 31)%Z -> Forall (fits_point mode) ts -> Forall (fits_point mode) ts' ->
  (forall p, p ∈ ts -> length (tp_lists p) = k) -> (forall p, p ∈ ts' -> length (tp_lists p) = k) -> length ts = length ts' ->
  points_text mode l r ts ++ x = points_text mode l r ts' ++ y -> Forall2 same_tp ts ts' /\ x = y.
Proof.
  intros Hl. induction ts as [|p ts IH]; intros [|p' ts'] r x y Hr H H' Hk Hk' EL E; try done. 
  cbn [points_text] in E. rewrite <- !app_assoc in E. apply Forall_cons in H as [? ?]. apply Forall_cons in H' as [? ?]. cbn [List.length] in *.
  apply point_inj in E as [Hs E]; [|done|lia|done|done|rewrite Hk by left; by rewrite Hk' by left].
  apply IH in E as [Hs' ->]; [|lia|done|done|intros; apply Hk; by right|intros; apply Hk'; by right|lia]. split; [|done]. by constructor.
Qed.
Lemma layers_inj mode (k : nat) ls : forall ls' l x y, (l + length ls <= 256)%nat ->
  (forall ps, ps ∈ ls -> (Z.of_nat (length ps) <= 2 ^ 31)%Z /\ Forall (fits_point mode) ps) -> (forall ps, ps ∈ ls' -> (Z.of_nat (length ps) <= 2 ^ 31)%Z /\ Forall (fits_point mode) ps) ->
  (forall p, p ∈ concat ls -> length (tp_lists p) = k) -> (forall p, p ∈ concat ls' -> length (tp_lists p) = k) -> length ls = length ls' ->
  layers_text mode l ls ++ x = layers_text mode l ls' ++ y -> Forall2 (Forall2 same_tp) ls ls' /\ x = y.
Proof.
  induction ls as [|ps ls IH]; intros [|ps' ls'] l x y Hl H H' Hk Hk' EL E; try done. cbn [layers_text] in E. rewrite <- !app_assoc in E.
  cbn [List.length concat] in *. destruct (H ps) as [Hp1 Hp2]; [by left|]. destruct (H' ps') as [Hq1 Hq2]; [by left|].
  apply u32_inj in E as [_ E]; [|done..]. apply u64_inj in E as [E1 E]; [|lia..]. apply Nat2N.inj in E1.
  apply (points_inj mode l k) in E as [Hs E]; [|lia|lia|done|done|intros; apply Hk, elem_of_app; by left|intros; apply Hk', elem_of_app; by left|done].
  apply IH in E as [Hs' ->]; [|lia|intros; apply H; by right|intros; apply H'; by right|intros; apply Hk, elem_of_app; by right|intros; apply Hk', elem_of_app; by right|lia].
  split; [|done]. by constructor.
Qed.
Lemma name_inj a b x y : (length (str_bytes a) <= 256)%nat -> (length (str_bytes b) <= 256)%nat -> name_text a ++ x = name_text b ++ y -> a = b /\ x = y.
Proof.
  intros Ha Hb E. unfold name_text in E. rewrite <- !app_assoc in E. apply u64_inj in E as [E1 E]; [|lia..].
  apply app_inj_1 in E as [E ->]; [|lia]. by apply str_bytes_inj in E.
Qed.

(** the same contents, vectors set aside *)
Record same_text (t t' : text) : Prop := {
  st_version : tx_version t' = tx_version t; st_mode : tx_mode t' = tx_mode t; st_m : tx_m t' = tx_m t;
  st_scale : tx_version t = 4%N -> tx_scale t' = tx_scale t; st_lists : tx_lists t' = tx_lists t; st_ef : tx_ef t' = tx_ef t;
  st_count : tx_count t' = tx_count t; st_dim : tx_dim t' = tx_dim t; st_dist : tx_dist t' = tx_dist t; st_type : tx_type t' = tx_type t;
  st_layers : Forall2 (Forall2 same_tp) (tx_layers t) (tx_layers t'); st_entry : tx_entry t' = tx_entry t
}.
Lemma graph_inj t t' x y : fits t -> fits t' -> (length (tx_layers t) <= 16)%nat -> (length (tx_layers t') <= 16)%nat ->
  (forall p, p ∈ concat (tx_layers t) -> length (tp_lists p) = N.to_nat (tx_lists t)) -> (forall p, p ∈ concat (tx_layers t') -> length (tp_lists p) = N.to_nat (tx_lists t')) ->
  graph_text t ++ x = graph_text t' ++ y -> same_text t t' /\ x = y.
Proof.
  intros F F' L L' Hk Hk' E. unfold graph_text, head_text in E. rewrite <- !app_assoc in E.
  assert (Hv : forall t : text, fits t -> ((if (tx_version t =? 2)%N then 0x002a677f else if (tx_version t =? 3)%N then 0x002a6771 else 0x002a6779) < 2 ^ 32)%N).
  { intros u _. destruct (tx_version u =? 2)%N; [reflexivity|]. destruct (tx_version u =? 3)%N; reflexivity. }
  apply u32_inj in E as [Ev E]; [|by apply Hv..].
  assert (Ver : tx_version t' = tx_version t).
  { clear -Ev F F'. destruct (ft_version _ F) as [A|[A|A]], (ft_version _ F') as [B|[B|B]]; rewrite A, B in Ev; vm_compute in Ev; congruence. }
  destruct (ft_bytes _ F) as (? & ? & ?), (ft_bytes _ F') as (? & ? & ?), (ft_words _ F) as (? & ? & ?), (ft_words _ F') as (? & ? & ?).
  apply u8_inj in E as [Emode E]; [|done..]. apply u8_inj in E as [Em E]; [|done..]. rewrite Ver in E.
  assert (Hsc : (tx_version t = 4%N -> tx_scale t' = tx_scale t) /\ exists X Y, X = Y /\
     X = u8_bytes (tx_lists t) ++ u64_bytes (tx_ef t) ++ u64_bytes (tx_count t) ++ u64_bytes (tx_dim t) ++ name_text (tx_dist t) ++ name_text (tx_type t) ++
       u8_bytes (N.of_nat (length (tx_layers t))) ++ layers_text (tx_mode t) 0 (tx_layers t) ++ u64_bytes (tx_entry t).1.1 ++ u8_bytes (tx_entry t).1.2 ++ i32_bytes (tx_entry t).2 ++ x /\
     Y = u8_bytes (tx_lists t') ++ u64_bytes (tx_ef t') ++ u64_bytes (tx_count t') ++ u64_bytes (tx_dim t') ++ name_text (tx_dist t') ++ name_text (tx_type t') ++
       u8_bytes (N.of_nat (length (tx_layers t'))) ++ layers_text (tx_mode t') 0 (tx_layers t') ++ u64_bytes (tx_entry t').1.1 ++ u8_bytes (tx_entry t').1.2 ++ i32_bytes (tx_entry t').2 ++ y).
  { destruct (tx_version t =? 4)%N eqn:E4.
    - apply u64_inj in E as [Es E]; [|apply F|apply F']. split; [done|]. eexists _, _. split; [exact E|]. done.
    - cbn [app] in E. split; [intros E5; by rewrite E5 in E4|]. eexists _, _. split; [exact E|]. done. }
  clear E. destruct Hsc as (Hsc & X & Y & E & EX & EY). rewrite EX, EY in E. clear X Y EX EY.
  apply u8_inj in E as [E1 E]; [|done..]. apply u64_inj in E as [E2 E]; [|done..]. apply u64_inj in E as [E3 E]; [|done..]. apply u64_inj in E as [E4 E]; [|done..].
  apply name_inj in E as [E5 E]; [|apply (ft_names _ F); by left|apply (ft_names _ F'); by left].
  apply name_inj in E as [E6 E]; [|apply (ft_names _ F); by right|apply (ft_names _ F'); by right].
  apply u8_inj in E as [E7 E]; [|lia..]. apply Nat2N.inj in E7. rewrite <- Emode in E.
  apply (layers_inj (tx_mode t) (N.to_nat (tx_lists t))) in E as [Hs E]; [|lia|apply F|rewrite Emode; apply F'|done|by rewrite E1|done].
  destruct (ft_entry _ F) as (? & ? & ?), (ft_entry _ F') as (? & ? & ?).
  apply u64_inj in E as [E8 E]; [|done..]. apply u8_inj in E as [E9 E]; [|done..]. apply i32_inj in E as [E10 E]; [|done..].
  split; [|done]. split; try done. destruct (tx_entry t) as [[? ?] ?], (tx_entry t') as [[? ?] ?]. cbn in *. by subst.
Qed.

(** ** The records of a data file *)
Definition rec_text (r : dataid * bytes) : bytes := record_text (TextPoint r.1 [] r.2).
Definition rec_of (p : text_point) : dataid * bytes := (tp_id p, tp_bytes p).
Lemma rec_text_of p : rec_text (rec_of p) = record_text p.
Proof. done. Qed.
Lemma data_text_recs t : data_text t = u32_bytes 0xa67f0000 ++ u64_bytes (tx_dim t) ++ concat (rec_text <$> (rec_of <$> concat (tx_layers t))).
Proof. unfold data_text. do 2 f_equal. by rewrite <- list_fmap_compose. Qed.
Definition rec_fits (r : dataid * bytes) : Prop := (r.1 < 2 ^ 64)%N /\ (N.of_nat (length r.2) < 2 ^ 64)%N.
Lemma rec_inj r r' x y : rec_fits r -> rec_fits r' -> rec_text r ++ x = rec_text r' ++ y -> r = r' /\ x = y.
Proof.
  intros [H1 H2] [K1 K2] E. unfold rec_text, record_text in E. cbn [tp_id tp_bytes] in E. rewrite <- !app_assoc in E.
  apply u32_inj in E as [_ E]; [|done..]. apply u64_inj in E as [E1 E]; [|done..]. apply u64_inj in E as [E2 E]; [|done..].
  apply app_inj_1 in E as [E3 ->]; [|lia]. split; [|done]. destruct r, r'. cbn in *. by subst.
Qed.
Lemma rec_len r : length (rec_text r) = (20 + length r.2)%nat.
Proof. unfold rec_text, record_text. cbn [tp_id tp_bytes]. unfold u32_bytes, u64_bytes. rewrite !app_length, !le_bytes_length. lia. Qed.
Lemma recs_inj rs : forall rs' x y, Forall rec_fits rs -> Forall rec_fits rs' -> (length rs' <= length rs)%nat ->
  concat (rec_text <$> rs) ++ x = concat (rec_text <$> rs') ++ y -> exists k, rs' = take k rs.
Proof.
  induction rs as [|r rs IH]; intros [|r' rs'] x y H H' L E; [by exists 0%nat|simpl in L; lia|by exists 0%nat|].
  cbn [fmap list_fmap concat] in E. rewrite <- !app_assoc in E. apply Forall_cons in H as [? ?]. apply Forall_cons in H' as [? ?].
  apply rec_inj in E as [-> E]; [|done..]. apply IH in E as [k ->]; [|done..|simpl in L; lia]. by exists (S k).
Qed.
Lemma recs_long rs s : Forall (fun r : dataid * bytes => (s <= length r.2)%nat) rs -> (length rs * (20 + s) <= length (concat (rec_text <$> rs)))%nat.
Proof. induction 1 as [|r rs Hr _ IH]; [simpl; lia|]. cbn [fmap list_fmap concat List.length]. rewrite app_length, rec_len. lia. Qed.
Lemma recs_len rs s : Forall (fun r : dataid * bytes => length r.2 = s) rs -> length (concat (rec_text <$> rs)) = (length rs * (20 + s))%nat.
Proof. induction 1 as [|r rs Hr _ IH]; [done|]. cbn [fmap list_fmap concat List.length]. rewrite app_length, rec_len, IH. lia. Qed.
Lemma recs_tight rs s : Forall (fun r : dataid * bytes => (s <= length r.2)%nat) rs -> (length (concat (rec_text <$> rs)) <= length rs * (20 + s))%nat ->
  Forall (fun r => length r.2 = s) rs.
Proof.
  induction 1 as [|r rs Hr H IH]; [done|]. cbn [fmap list_fmap concat List.length]. rewrite app_length, rec_len. intros L.
  apply recs_long in H. constructor; [lia|]. apply IH. lia.
Qed.
Lemma rec_head r r' i : r'.1 = r.1 -> length r'.2 = length r.2 -> (i < 20)%nat -> rec_text r' !! i = rec_text r !! i.
Proof.
  intros E1 E2 Hi. unfold rec_text, record_text. cbn [tp_id tp_bytes]. rewrite E1, E2, !app_assoc.
  assert (L : forall a b c : bytes, length a = 4%nat -> length b = 8%nat -> length c = 8%nat -> forall u v, (((a ++ b) ++ c) ++ u) !! i = (((a ++ b) ++ c) ++ v) !! i).
  { intros a b c La Lb Lc u v. rewrite (lookup_app_l _ u), (lookup_app_l _ v); [done|rewrite !app_length; lia..]. }
  apply L; apply le_bytes_length.
Qed.
(** records with the same ids and lengths agree outside of the vectors *)
Lemma recs_agree s rs : forall rs', rs'.*1 = rs.*1 -> Forall (fun r : dataid * bytes => length r.2 = s) rs -> Forall (fun r => length r.2 = s) rs' ->
  forall i, (i mod (20 + s) < 20)%nat -> concat (rec_text <$> rs') !! i = concat (rec_text <$> rs) !! i.
Proof.
  induction rs as [|r rs IH]; intros [|r' rs'] E H H' i Hi; try done. injection E as E1 E2. apply Forall_cons in H as [? ?]. apply Forall_cons in H' as [? ?].
  cbn [fmap list_fmap concat]. assert (L : length (rec_text r) = (20 + s)%nat) by (rewrite rec_len; lia). assert (L' : length (rec_text r') = (20 + s)%nat) by (rewrite rec_len; lia).
  destruct (decide (i < 20 + s)%nat).
  - rewrite !lookup_app_l by lia. rewrite Nat.mod_small in Hi by done. apply rec_head; [done|lia|done].
  - rewrite !lookup_app_r by lia. rewrite L, L'. apply IH; [done..|].
    replace i with (i - (20 + s) + 1 * (20 + s))%nat in Hi by lia. by rewrite Nat.mod_add in Hi by lia.
Qed.
(** what agrees with records outside of the vectors is a list of records *)
Lemma agree_recs s rs : forall x, Forall (fun r : dataid * bytes => length r.2 = s) rs -> length x = length (concat (rec_text <$> rs)) ->
  (forall i, (i mod (20 + s) < 20)%nat -> x !! i = concat (rec_text <$> rs) !! i) ->
  exists rs', rs'.*1 = rs.*1 /\ Forall (fun r => length r.2 = s) rs' /\ x = concat (rec_text <$> rs').
Proof.
  induction rs as [|r rs IH]; intros x H L Hx.
  - exists []. split; [done|]. split; [done|]. by apply nil_length_inv.
  - apply Forall_cons in H as [Hr H]. cbn [fmap list_fmap concat] in *. rewrite app_length, rec_len, Hr in L.
    assert (Lr : length (rec_text r) = (20 + s)%nat) by (rewrite rec_len; lia).
    destruct (IH (drop (20 + s) x)) as (rs' & E1 & H1 & E2); [done|rewrite drop_length; lia|..].
    { intros i Hi. rewrite lookup_drop, Hx.
      - rewrite lookup_app_r by lia. f_equal. lia.
      - replace (20 + s + i)%nat with (i + 1 * (20 + s))%nat by lia. by rewrite Nat.mod_add by lia. }
    exists ((r.1, take s (drop 20 x)) :: rs'). cbn [fmap list_fmap concat]. split; [by rewrite E1|]. 
    assert (Lb : length (take s (drop 20 x)) = s) by (rewrite take_length, drop_length; lia).
    split; [by constructor|]. rewrite <- E2.
    rewrite <- (take_drop (20 + s) x) at 1. f_equal.
    rewrite <- (take_drop 20 (rec_text _)). rewrite <- (take_drop 20 (take (20 + s) x)). f_equal.
    + rewrite take_take, Nat.min_l by lia. apply list_eq. intros i. destruct (decide (i < 20)%nat).
      * rewrite !lookup_take by done. rewrite Hx by (rewrite Nat.mod_small; lia). rewrite lookup_app_l by lia. symmetry. apply rec_head; cbn; [done|lia|done].
      * rewrite !lookup_ge_None_2; [done|rewrite take_length; lia..].
    + rewrite skipn_firstn_comm. replace (20 + s - 20)%nat with s by lia. unfold rec_text, record_text. cbn [tp_id tp_bytes fst snd].
      rewrite !app_assoc, drop_app_alt; [done|]. rewrite !app_length. unfold u32_bytes, u64_bytes. by rewrite !le_bytes_length.
Qed.
Lemma recs_vector s rs k r : Forall (fun r : dataid * bytes => length r.2 = s) rs -> rs !! k = Some r ->
  take s (drop (k * (20 + s) + 20) (concat (rec_text <$> rs))) = r.2.
Proof.
  revert k. induction rs as [|r' rs IH]; intros [|k] H Hk; try done; apply Forall_cons in H as [Hr H]; cbn [fmap list_fmap concat].
  - injection Hk as ->. unfold rec_text at 1, record_text. cbn [tp_id tp_bytes fst snd]. rewrite <- Hr. rewrite <- !app_assoc. rewrite !app_assoc. rewrite <- app_assoc.
    rewrite drop_app_alt; [by rewrite take_app|]. rewrite !app_length. unfold u32_bytes, u64_bytes. by rewrite !le_bytes_length.
  - cbn in Hk. rewrite <- (IH k H Hk). f_equal. rewrite drop_app_ge by (rewrite rec_len; lia). f_equal. rewrite rec_len. lia.
Qed.
Lemma recs_eq rs : forall rs', Forall rec_fits rs -> Forall rec_fits rs' -> concat (rec_text <$> rs) = concat (rec_text <$> rs') -> rs = rs'.
Proof.
  induction rs as [|r rs IH]; intros [|r' rs'] H H' E; [done|..].
  - apply (f_equal length) in E. cbn [fmap list_fmap concat] in E. rewrite app_length, rec_len in E. simpl in E. lia.
  - apply (f_equal length) in E. cbn [fmap list_fmap concat] in E. rewrite app_length, rec_len in E. simpl in E. lia.
  - cbn [fmap list_fmap concat] in E. apply Forall_cons in H as [? ?]. apply Forall_cons in H' as [? ?]. apply rec_inj in E as [-> E]; [|done..]. f_equal. by apply IH.
Qed.
Lemma text_recs_fit t : fits t -> Forall rec_fits (rec_of <$> concat (tx_layers t)).
Proof.
  intros F. apply Forall_forall. intros r (p & -> & Hp)%elem_of_list_fmap. apply elem_of_list_lookup in Hp as [i Hi]. apply elem_of_list_lookup_2 in Hi.
  apply elem_of_list_In, in_concat in Hi as (ps & H1 & H2). apply elem_of_list_In in H1, H2. destruct (ft_layers _ F ps H1) as [_ HF].
  apply (proj1 (Forall_forall _ _) HF) in H2 as (A & B & _). by split.
Qed.
