(** Property C109: a search beside other threads is at least as good as an entry point of the time it ran. *)
From Coq Require Import SpecFloat.
From stdpp Require Import relations.
From Verif Require Import Prelude Model StdInst Lib Table SearchProofs InsertProofs IterProofs QueryProofs Spec SpecProofs
  Io SpecIo SpecBuilt Conc SpecConc ConcSafe ConcSafe2 ConcSafe3 ConcGlobal ConcEnd ConcLinks ConcBest BuiltProofs PropsConc Examples ExamplesConc.
Local Open Scope list_scope.

(** C109: the first answer of a search without filter is not further than what was the entry point at some moment. Such a search has
    an answer unless the index was empty at the start (C59). *)
Theorem C109_search_beside_insertions :
  forall {T} (dist : list T -> list T -> Z) so, StdLaws so -> (forall a b, (0 <= dist a b)%Z) ->
  forall inv_ln M ml ef hist h, used dist so inv_ln M ml ef hist h -> (1 <= ml)%nat ->
  forall ts, Forall (may_run h) ts -> forall c, during dist so h ts c ->
  forall i q knbn e, ts !! i = Some (TSearch q knbn e None) ->
  forall a ns, returned c i (RFound (a :: ns)) ->
  exists c0 ep pt, during dist so h ts c0 /\ rtc cstep c0 c /\
    entry_point (c_sh c0) = Some ep /\ layer_point (c_sh c0) ep pt /\ (distance a <= dist q (pt_data pt))%Z.
Proof.
  intros T dist so LAWS Hnn inv_ln M ml ef hist h Hb Hml ts Hok c Hd i q knbn e Ht a ns Hr.
  pose proof (used_pos dist so LAWS Hnn _ _ _ _ _ _ Hb Hml) as Hpos.
  destruct (used_facts dist so LAWS Hnn _ _ _ _ _ _ Hb) as (Hwf & _ & HM & _ & _ & _).
  set (I := fun h1 : hnsw (T:=T) => exists c1, during dist so h ts c1 /\ rtc cstep c1 c /\ c_sh c1 = h1).
  set (V := fun p : pid => pt_data <$> get_pt (c_sh c) p).
  assert (HV : forall h1 p pt, I h1 -> get_pt h1 p = Some pt -> V p = Some (pt_data pt)).
  { intros h1 p pt (c1 & Hd1 & Hr1 & <-) Hp. destruct (owned_reach dist so h ts c1 Hd1) as (own & Ho).
    destruct (touches_aged so LAWS _ _ _ (run_touch so h own c1 c Ho Hr1)) as (_ & Hids & _).
    destruct (Hids p pt Hp) as (pt' & Hp' & _ & E). unfold V. rewrite Hp'. simpl. by rewrite E. }
  pose proof (gives_run I (fun r => forall a ns, r = RFound (a :: ns) ->
      exists h ep v, I h /\ entry_point h = Some ep /\ V ep = Some v /\ (distance a <= dist q v)%Z)
    (initial dist so h ts) c i) as HG.
  assert (HQ : exists h ep v, I h /\ entry_point h = Some ep /\ V ep = Some v /\ (distance a <= dist q v)%Z).
  { refine (HG _ _ Hd _ Hr _ eq_refl a ns eq_refl); [intros c1 H1 H2; exists c1; done|].
    intros p Hp. unfold initial in Hp. cbn [c_threads] in Hp. rewrite list_lookup_fmap, Ht in Hp.
    apply (inj Some) in Hp as <-. unfold start. refine (gives_bind I _ _ _ _ (best_search dist so LAWS I V HV _ q knbn e) _). intros ns0 Hns. apply gives_ret. intros a0 ns1 [= ->]. by eapply Hns. }
  destruct HQ as (h1 & ep & v & (c1 & Hd1 & Hr1 & <-) & Hep & Hv & Hle).
  destruct (during_glob dist so LAWS Hnn h ts Hwf Hpos Hok c1 Hd1) as (phs & G).
  pose proof (v_core _ _ _ _ _ (g_inv _ _ _ _ _ G)) as Hc.
  assert (Hpt : exists pt, get_pt (c_sh c1) ep = Some pt).
  { apply (v_pub _ _ _ _ _ (g_inv _ _ _ _ _ G)). by apply (v_entry _ _ _ _ _ (g_inv _ _ _ _ _ G)). }
  destruct Hpt as [pt Hpt]. exists c1, ep, pt. split; [done|]. split; [done|]. split; [done|].
  split; [by apply (layer_point_pt dist)|]. rewrite (HV (c_sh c1) ep pt) in Hv; [by injection Hv as <-| |done]. exists c1. done.
Qed.
Print Assumptions C109_search_beside_insertions.

(** a search beside two insertions, interleaved: it answers a point inserted meanwhile *)
Example C109_example : built d1 simple_ops one_scale 2 16 10 exd_hist exd /\ Forall (may_run exd) ca_tasks /\
  during d1 simple_ops exd ca_tasks ca_end /\ ca_tasks !! 2%nat = Some (TSearch [2%Z] 2 4 None) /\
  returned ca_end 2 (RFound [Neighbour 1%N 1 (2, 1)%nat; Neighbour 10%N 2 (2, 0)%nat]) /\
  (entry_point exd = Some (2, 0)%nat).
Proof.
  split; [exact exd_built|]. split; [apply C43_example|]. split; [apply play_during|]. split; [reflexivity|].
  split; vm_compute; reflexivity.
Qed.
