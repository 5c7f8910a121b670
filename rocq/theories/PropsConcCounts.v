(** Property C110: what the index reports while threads insert. *)
From Coq Require Import SpecFloat.
From stdpp Require Import relations.
From Verif Require Import Prelude Model StdInst Lib Table SearchProofs InsertProofs IterProofs QueryProofs Spec SpecProofs
  Io SpecIo SpecBuilt Conc SpecConc ConcSafe ConcSafe2 ConcSafe3 ConcGlobal ConcEnd ConcLinks ConcCounts BuiltProofs PropsConc
  PropsIndex PropsConcLinks Examples ExamplesConc.
Local Open Scope list_scope.

(** C110: between two moments of any interleaving the counts and the maximal level do not decrease, and the points stay where they
    are with their vectors and ids. *)
Theorem C110_only_grows :
  forall {T} (dist : list T -> list T -> Z) so, StdLaws so -> (forall a b, (0 <= dist a b)%Z) ->
  forall inv_ln M ml ef hist h, used dist so inv_ln M ml ef hist h -> (1 <= ml)%nat ->
  forall ts, Forall (may_run h) ts -> forall c c', during dist so h ts c -> rtc cstep c c' ->
  (get_nb_point (c_sh c) <= get_nb_point (c_sh c'))%nat /\
  (get_max_level_observed (c_sh c) <= get_max_level_observed (c_sh c'))%nat /\
  (forall l, (get_layer_nb_point (c_sh c) l <= get_layer_nb_point (c_sh c') l)%nat) /\
  (forall p pt, layer_point (c_sh c) p pt ->
     exists pt', layer_point (c_sh c') p pt' /\ pt_data pt' = pt_data pt /\ pt_oid pt' = pt_oid pt).
Proof.
  intros T dist so LAWS Hnn inv_ln M ml ef hist h Hb Hml ts Hok c c' Hd Hr.
  pose proof (used_pos dist so LAWS Hnn _ _ _ _ _ _ Hb Hml) as Hpos.
  destruct (used_facts dist so LAWS Hnn _ _ _ _ _ _ Hb) as (Hwf & _).
  assert (Hd' : during dist so h ts c') by (by eapply rtc_transitive).
  destruct (during_glob dist so LAWS Hnn h ts Hwf Hpos Hok c Hd) as (phs & G).
  destruct (during_glob dist so LAWS Hnn h ts Hwf Hpos Hok c' Hd') as (phs' & G').
  pose proof (v_core _ _ _ _ _ (g_inv _ _ _ _ _ G)) as Hc. pose proof (v_core _ _ _ _ _ (g_inv _ _ _ _ _ G')) as Hc'.
  destruct (rise_run _ c (rise_initial dist so h ts) Hd) as [Ha _].
  destruct (rise_run c c' Ha Hr) as [_ Hu].
  split; [apply Hu|]. split; [by apply up_level|]. split; [intros l; by apply up_layer|].
  intros p pt Hp. apply (layer_point_pt dist) in Hp; [|done]. destruct (up_ids _ _ Hu p pt Hp) as (pt' & Hp' & E1 & E2).
  exists pt'. split; [by apply (layer_point_pt dist)|done].
Qed.
Print Assumptions C110_only_grows.

(** C110, the number of points: whoever reads get_nb_point finds at least the points whose insertions have returned and at most
    those whose insertions were asked for. *)
Theorem C110_number_of_points :
  forall {T} (dist : list T -> list T -> Z) so, StdLaws so -> (forall a b, (0 <= dist a b)%Z) ->
  forall inv_ln M ml ef hist h, used dist so inv_ln M ml ef hist h -> (1 <= ml)%nat ->
  forall ts, Forall (may_run h) ts -> forall c, during dist so h ts c ->
  (forall js, NoDup js -> (forall j, j ∈ js -> exists p, returned c j (RInserted p)) ->
     (get_nb_point h + length js <= get_nb_point (c_sh c))%nat) /\
  (get_nb_point (c_sh c) <= get_nb_point h + length (inserts ts))%nat /\
  (exists xs, contents (c_sh c) xs /\ (get_nb_point (c_sh c) <= length xs <= get_nb_point h + length (inserts ts))%nat).
Proof.
  intros T dist so LAWS Hnn inv_ln M ml ef hist h Hb Hml ts Hok c Hd.
  pose proof (used_pos dist so LAWS Hnn _ _ _ _ _ _ Hb Hml) as Hpos.
  destruct (used_facts dist so LAWS Hnn _ _ _ _ _ _ Hb) as (Hwf & _ & _ & _ & Hst & Hnb).
  destruct (during_glob dist so LAWS Hnn h ts Hwf Hpos Hok c Hd) as (phs & G).
  pose proof (g_nb _ _ _ _ _ G) as En. pose proof (g_size _ _ _ _ _ G) as Es. unfold nb0 in En.
  pose proof (g_len1 _ _ _ _ _ G) as El.
  assert (Hst' : (count started phs <= length (inserts ts))%nat).
  { apply (count_at_most dist started phs ts); [done|]. intros i t ph Ht Hph Hs.
    assert (Hq : exists p, ConcSafe.own ph = Some p) by (destruct ph; try done; by eexists). destruct Hq as [p Hq].
    by destruct (g_quiet _ _ _ _ _ G i t ph p Ht Hph Hq) as (v & id & d & ->). }
  pose proof (counted_started phs) as Hcs. unfold get_nb_point.
  split; [|split; [lia|]].
  - intros js Hnd Hj. rewrite En. enough (length js <= count counted phs)%nat by lia. apply count_at_least; [done|].
    intros j Hin. destruct (Hj j Hin) as (p & Hr). pose proof (lookup_lt_Some _ _ _ Hr) as Hlt. rewrite (g_len2 _ _ _ _ _ G) in Hlt.
    destruct (lookup_lt_is_Some_2 ts j Hlt) as [t Ht]. destruct (lookup_lt_is_Some_2 phs j) as [ph Hph]; [by rewrite El|].
    exists ph. split; [done|]. destruct (glob_halt _ _ _ _ _ G j _ t ph Ht Hph Hr) as (r & [= <-] & HP).
    destruct t as [v id d|q k e f| |]; simpl in HP.
    + destruct HP as (np & _ & [(-> & _)|(-> & _)]); done.
    + by destruct HP as (? & ? & _).
    + by destruct HP as (? & ? & _).
    + by destruct HP as (? & ? & _).
  - exists (stored (c_sh c)). split; [by apply (contents_stored dist); [apply (g_inv _ _ _ _ _ G)|]|].
    assert (E : forall h1 : hnsw (T:=T), length (stored h1) = table_size h1).
    { intros h1. unfold stored. rewrite fmap_length. apply all_points_length. }
    pose proof (Permutation_length Hst). rewrite E in *. lia.
Qed.
Print Assumptions C110_number_of_points.

(** C110, the levels: in an index that was not empty and whose points were within the maximal level, at any moment
    get_max_level_observed is the level of a stored point and no point that is settled is above it. (Two first insertions into
    an empty index can break this: C45.) *)
Theorem C110_max_level :
  forall {T} (dist : list T -> list T -> Z) so, StdLaws so -> (forall a b, (0 <= dist a b)%Z) ->
  forall inv_ln M ml ef hist h, used dist so inv_ln M ml ef hist h -> (1 <= ml)%nat -> hist <> [] ->
  (forall p pt, layer_point h p pt -> (p.1 <= get_max_level_observed h)%nat) ->
  forall ts, Forall (may_run h) ts -> forall c, during dist so h ts c ->
  (forall p, settled h c p -> (p.1 <= get_max_level_observed (c_sh c))%nat) /\
  (exists p pt, layer_point (c_sh c) p pt /\ p.1 = get_max_level_observed (c_sh c)).
Proof.
  intros T dist so LAWS Hnn inv_ln M ml ef hist h Hb Hml Hne Hmax ts Hok c Hd.
  pose proof (used_pos dist so LAWS Hnn _ _ _ _ _ _ Hb Hml) as Hpos.
  destruct (used_facts dist so LAWS Hnn _ _ _ _ _ _ Hb) as (Hwf & _ & _ & _ & Hst & Hnb).
  destruct (during_glob dist so LAWS Hnn h ts Hwf Hpos Hok c Hd) as (phs & G).
  assert (Hn0 : (0 < nb_point h)%nat) by (rewrite Hnb; destruct hist; simpl; [done|lia]).
  pose proof (g_inv _ _ _ _ _ G) as Hi.
  destruct (rise_run _ c (rise_initial dist so h ts) Hd) as [_ Hu]. split.
  - intros p [(pt & Hp)|(i & Hr)].
    + etrans; [by eapply Hmax|]. by apply (up_level _ _ Hu).
    + pose proof (lookup_lt_Some _ _ _ Hr) as Hlt. rewrite (g_len2 _ _ _ _ _ G) in Hlt.
      destruct (lookup_lt_is_Some_2 ts i Hlt) as [t Ht]. destruct (lookup_lt_is_Some_2 phs i) as [ph Hph]; [by rewrite (g_len1 _ _ _ _ _ G)|].
      destruct (glob_halt _ _ _ _ _ G i _ t ph Ht Hph Hr) as (r & [= <-] & HP).
      destruct t as [v id d|q k e f| |]; simpl in HP; try (by destruct HP as (? & ? & _)).
      destruct HP as (np & [= <-] & [(_ & (ep & He & Hle) & _)|(_ & E & _)]); [|unfold nb0 in E; lia].
      unfold get_max_level_observed. by rewrite He.
  - destruct (entry_point (c_sh c)) as [ep|] eqn:He; [|by destruct (v_ent _ _ _ _ _ Hi Hn0)].
    destruct (v_pub _ _ _ _ _ Hi ep (v_entry _ _ _ _ _ Hi ep He)) as [pt Hpt]. exists ep, pt.
    split; [apply (layer_point_pt dist); [apply Hi|done]|]. unfold get_max_level_observed. by rewrite He.
Qed.
Print Assumptions C110_max_level.

(** two insertions, the first one at a new highest level; a moment at which it has returned and the second point is in the
    table but not counted *)
Definition cc_tasks : list (task (T:=Z)) := [TInsert [1%Z] 1%N (lv 3); TInsert [2%Z] 2%N (lv 4)].
Definition cc_mid := play [(0, 300); (1, 4)]%nat (initial d1 simple_ops exd cc_tasks).
Definition cc_end := play [(1, 300)]%nat cc_mid.
Example C110_example : built d1 simple_ops one_scale 2 16 10 exd_hist exd /\ Forall (may_run exd) cc_tasks /\
  during d1 simple_ops exd cc_tasks cc_mid /\ rtc cstep cc_mid cc_end /\ returned cc_mid 0 (RInserted (3, 0)%nat) /\
  (get_max_level_observed exd, get_max_level_observed (c_sh cc_mid), get_max_level_observed (c_sh cc_end)) = (2, 3, 4)%nat /\
  (get_nb_point exd, get_nb_point (c_sh cc_mid), get_nb_point (c_sh cc_end)) = (2, 3, 4)%nat /\
  get_layer_nb_point (c_sh cc_mid) 4 = 1%nat.
Proof.
  split; [exact exd_built|]. split; [repeat constructor|]. split; [apply play_during|]. split; [apply play_rtc|].
  split_and!; vm_compute; reflexivity.
Qed.
Example C110_example_levels : forall p pt, layer_point exd p pt -> (p.1 <= get_max_level_observed exd)%nat.
Proof.
  assert (Hnn : forall a b, (0 <= d1 a b)%Z) by apply d1_nonneg.
  destruct (built_facts d1 simple_ops simple_laws Hnn _ _ _ _ _ _ exd_built) as (Hwf & _).
  intros p pt Hp. apply (layer_point_pt d1) in Hp; [|apply Hwf].
  eapply (C18_max_level d1 simple_ops simple_laws Hnn _ _ _ _ _ _ exd_built). by apply (point_at_pt d1).
Qed.
