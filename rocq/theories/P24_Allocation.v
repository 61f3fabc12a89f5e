(** C34: transmit opportunities are legal. C35: allocated resources never overlap. *)
From Verif Require Import Base IntHelpers IntHelpersSpec IntHelpersFacts Duration Allocation AllocationSpec AllocationFacts.
Open Scope Z_scope.

(** After any history of successful calls, in each direction all resources have at least one sample, lie within the
    beacon period, do not overlap each other and are at most eight. *)
Theorem C35_never_overlap : forall a, reachable a -> forall d,
  Forall (inside (period a)) (of_direction a d) /\ pairwise_disjoint (of_direction a d) /\ (length (of_direction a d) <= 8)%nat.
Proof. intros a R d. apply reachable_ok in R. destruct R as ((_ & O) & _). exact (O d). Qed.
(** Adding a resource succeeds exactly if it has at least one sample, lies within the beacon period, is disjoint from
    all resources of its direction and is at most the eighth; it is then appended, everything else is unchanged.
    Otherwise the call aborts. *)
Theorem C35_add_exact : forall a d o l, reachable a -> is_u32 o -> is_u32 l ->
  let r := mkRes o l in
  let good := d <> both /\ inside (period a) r /\ (forall q, In q (of_direction a d) -> disjoint q r) /\ (length (of_direction a d) < 8)%nat in
  (good -> exists b, add_resource a d o l = Ok b /\
     of_direction b d = of_direction a d ++ [r] /\ (forall e, e <> d -> of_direction b e = of_direction a e) /\
     pa_period b = pa_period a /\ pa_beacon b = pa_beacon a /\ pa_turnaround b = pa_turnaround a /\
     pa_after_beacon b = pa_after_beacon a /\ pa_after_now b = pa_after_now a) /\
  (~ good -> add_resource a d o l = Abort).
Proof.
  intros a d o l R So Sl r good. apply reachable_ok in R. destruct R as (O & _). split; intros G.
  - exists (with_vec a d (of_direction a d ++ [r])). split; [apply add_resource_yes; auto|]. destruct G as (N & _).
    rewrite of_with by auto. split; [destruct d; congruence|]. split; [intros e NE; rewrite of_with by auto; destruct d, e; congruence|].
    destruct d; repeat split.
  - apply add_resource_no; auto.
Qed.
(** Uplink and downlink of one terminal are not checked against each other: they can be the same samples. *)
Theorem C35_directions_may_overlap_refuted : exists a r, reachable a /\ pa_ul a = [r] /\ pa_dl a = [r].
Proof.
  set (d := mkDur 1 s001 1 10). set (p := mkDur 1 s001 1 20). set (l := mkLut 1 (fun _ => 1)).
  exists (mkPt l p p p 0 UNDEFINED_EARLY_64 [mkRes d d] [mkRes d d]), (mkRes d d). split; [|auto].
  exists l, p, p, p, 0, [Add ul d d; Add dl d d]. do 3 (split; [reflexivity|]). split; [repeat constructor|]. vm_compute. reflexivity.
Qed.

Definition time_ok (t : Z) : Prop := - 2 ^ 60 <= t <= 2 ^ 60.
(** Times for which no sum can overflow. *)
Definition times_ok (a : allocation_pt) (now tx_earliest : Z) : Prop :=
  time_ok (pa_beacon a) /\ time_ok now /\ time_ok tx_earliest /\ 0 <= pa_turnaround a <= 2 ^ 32.

Lemma opportunity_generic a d now te : reachable a -> d <> both -> times_ok a now te -> (d = ul -> pa_beacon a <= now) ->
  get_tx_opportunity a d now te = get_tx_opportunity_generic a (earliest a now te) (limit a d now) (of_direction a d) /\
  - 2 ^ 61 - 2 ^ 32 <= earliest a now te <= 2 ^ 61 + 2 ^ 32 /\ - 2 ^ 61 - 2 ^ 33 <= limit a d now <= 2 ^ 61 + 2 ^ 33.
Proof.
  intros R D (T1 & T2 & T3 & T4) U. apply reachable_ok in R. destruct R as ((S & _) & S1 & S2). unfold time_ok, small, earliest in *.
  change (2 ^ 61) with 2305843009213693952 in *. change (2 ^ 60) with 1152921504606846976 in *. change (2 ^ 32)%N with 4294967296%N in *.
  change (2 ^ 32) with 4294967296 in *. change (2 ^ 33) with 8589934592 in *. unfold get_tx_opportunity.
  rewrite sgn_ok by in64. cbn [bind]. destruct d; [| |congruence].
  - replace (pa_beacon a <=? now) with true by (specialize (U eq_refl); lia). cbn [guard]. rewrite !sgn_ok by in64. cbn [bind].
    split; [reflexivity|]. unfold limit. lia.
  - rewrite sgn_ok by in64. cbn [bind]. split; [reflexivity|]. unfold limit. lia.
Qed.
(** An opportunity, if any, begins within the permitted window, at the beginning of an allocated resource in some
    beacon period, and is as long as that resource. The call never aborts, except in the uplink direction if the
    current time is before the last beacon. *)
Theorem C34_legal : forall a d now te, reachable a -> d <> both -> times_ok a now te ->
  (d = ul /\ now < pa_beacon a -> get_tx_opportunity a d now te = Abort) /\
  (~ (d = ul /\ now < pa_beacon a) -> exists o, get_tx_opportunity a d now te = Ok o /\
     (o = no_opportunity \/
      exists r, In r (of_direction a d) /\ starts_at (pa_beacon a) (period a) r (op_time o) /\ op_N o = last_plus_one r - first r /\
        now + pa_turnaround a <= op_time o /\ te <= op_time o /\ op_time o < limit a d now)).
Proof.
  intros a d now te R D T. split.
  - intros (-> & B). unfold get_tx_opportunity. destruct T as (_ & T2 & _ & T4). unfold time_ok in *.
    change (2 ^ 60) with 1152921504606846976 in *. change (2 ^ 32) with 4294967296 in *.
    rewrite sgn_ok by in64. cbn [bind]. replace (pa_beacon a <=? now) with false by lia. reflexivity.
  - intros U. destruct (opportunity_generic a d now te R D T) as (-> & E & L).
    { intros ->. destruct (Z.lt_ge_cases now (pa_beacon a)); [exfalso; auto|lia]. }
    apply reachable_ok in R. destruct R as ((S & O) & _).
    destruct (generic_spec a _ _ _ (O d) S (proj1 T) E L) as [(-> & _)|(r & t & -> & I & A & (W1 & W2) & _)].
    + eexists. split; [reflexivity|]. auto.
    + eexists. split; [reflexivity|]. right. exists r. unfold earliest in W1. cbn [op_time op_N]. repeat split; auto; lia.
Qed.
(** If the resources were added in the order of their offsets, the opportunity is the earliest legal one, and none is
    returned only if there is no legal one. *)
Theorem C34_earliest : forall a d now te, reachable a -> d <> both -> times_ok a now te -> (d = ul -> pa_beacon a <= now) ->
  ascending (of_direction a d) ->
  let is_legal := legal (pa_beacon a) (period a) (of_direction a d) (earliest a now te) (limit a d now) in
  exists o, get_tx_opportunity a d now te = Ok o /\
    (o = no_opportunity /\ (forall t, ~ is_legal t) \/ is_legal (op_time o) /\ forall t, is_legal t -> op_time o <= t).
Proof.
  intros a d now te R D T U As is_legal. destruct (opportunity_generic a d now te R D T U) as (-> & E & L).
  apply reachable_ok in R. destruct R as ((S & O) & _).
  destruct (generic_spec a _ _ _ (O d) S (proj1 T) E L) as [(-> & N)|(r & t & -> & I & A & W & N)].
  - eexists. split; [reflexivity|]. left. split; [reflexivity|]. exact (N As).
  - eexists. split; [reflexivity|]. right. split; [|exact (N As)]. split; [exact W|]. exists r. auto.
Qed.
(** In any other order an opportunity can be missed. *)
Definition slot (n : N) : duration := mkDur 1 s001 1 n.
Definition unsorted_pt : allocation_pt :=
  mkPt (mkLut 1 (fun _ => 1)) (slot 100) (slot 50) (slot 50) 0 0 [mkRes (slot 80) (slot 5); mkRes (slot 10) (slot 5)] [].
Theorem C34_unsorted_missed_refuted : exists a now te t, reachable a /\ times_ok a now te /\ pa_beacon a <= now /\
  get_tx_opportunity a ul now te = Ok no_opportunity /\
  legal (pa_beacon a) (period a) (pa_ul a) (earliest a now te) (limit a ul now) t.
Proof.
  exists unsorted_pt, 0, 0, 10. split; [|split; [|split; [|split]]].
  - exists (mkLut 1 (fun _ => 1)), (slot 100), (slot 50), (slot 50), 0,
      [Add ul (slot 80) (slot 5); Add ul (slot 10) (slot 5); Beacon 0]. do 3 (split; [reflexivity|]).
    split; [repeat constructor|]. vm_compute. reflexivity.
  - vm_compute. intuition discriminate.
  - vm_compute. discriminate.
  - vm_compute. reflexivity.
  - split; [vm_compute; split; [discriminate|reflexivity]|]. exists (mkRes (slot 10) (slot 5)). split; [right; now left|]. exists 0. vm_compute. intuition discriminate.
Qed.
(** The limit applies to the beginning only: an opportunity may last beyond it. *)
Definition single_pt : allocation_pt :=
  mkPt (mkLut 1 (fun _ => 1)) (slot 100) (slot 50) (slot 50) 0 0 [mkRes (slot 49) (slot 30)] [].
Theorem C34_end_beyond_limit_refuted : exists a now te o, reachable a /\ times_ok a now te /\
  get_tx_opportunity a ul now te = Ok o /\ limit a ul now < op_time o + op_N o.
Proof.
  exists single_pt, 0, 0, (mkOpp 49 30). split; [|split; [|split]].
  - exists (mkLut 1 (fun _ => 1)), (slot 100), (slot 50), (slot 50), 0, [Add ul (slot 49) (slot 30); Beacon 0]. do 3 (split; [reflexivity|]).
    split; [repeat constructor|]. vm_compute. reflexivity.
  - vm_compute. intuition discriminate.
  - vm_compute. reflexivity.
  - vm_compute. reflexivity.
Qed.
(** With the end of the previous opportunity as earliest time, the next one begins no earlier: consecutive
    transmissions do not overlap, whatever the directions, terminals and current times. *)
Theorem C34_consecutive : forall a b d e now now' te o o' t, reachable b -> e <> both -> times_ok b now' t ->
  get_tx_opportunity a d now te = Ok o -> o <> no_opportunity -> get_end o = Ok t ->
  get_tx_opportunity b e now' t = Ok o' -> o' <> no_opportunity ->
  op_time o + op_N o <= op_time o'.
Proof.
  intros a b d e now now' te o o' t Rb E T H1 N1 G H2 N2. unfold get_end in G. apply sgn_inv in G. assert (t = op_time o + op_N o) as -> by (destruct G; lia). clear G.
  destruct (C34_legal b e now' (op_time o + op_N o) Rb E T) as (A & B).
  destruct (Z.lt_ge_cases now' (pa_beacon b)) as [L|L].
  - destruct e; [rewrite A in H2 by auto; discriminate| |congruence].
    destruct B as (x & X & K); [intros (? & _); discriminate|]. rewrite H2 in X. injection X as <-.
    destruct K as [->|(r & _ & _ & _ & _ & K & _)]; [congruence|exact K].
  - destruct B as (x & X & K); [intros (_ & ?); lia|]. rewrite H2 in X. injection X as <-.
    destruct K as [->|(r & _ & _ & _ & _ & K & _)]; [congruence|exact K].
Qed.
(** At non-negative times the caller's test for a negative time recognises exactly the missing opportunity. *)
Theorem C34_sign_test : forall a d now te o, reachable a -> d <> both -> times_ok a now te -> 0 <= te ->
  get_tx_opportunity a d now te = Ok o -> (op_time o < 0 <-> o = no_opportunity).
Proof.
  intros a d now te o R D T P H. split; [|intros ->; reflexivity]. intros N. destruct (C34_legal a d now te R D T) as (A & B).
  assert (C : ~ (d = ul /\ now < pa_beacon a)) by (intros K; rewrite (A K) in H; discriminate).
  destruct (B C) as (x & X & K). rewrite H in X. injection X as <-. destruct K as [K|(r & _ & _ & _ & _ & K & _)]; [exact K|lia].
Qed.

(** The uplink resource closest to a reference time between two beacons: its signed distance is returned. *)
Lemma closest_val a ref l : forall ret, time_ok (pa_beacon a) -> pa_beacon a < ref < pa_beacon a + period a -> small (pa_period a) ->
  Forall (inside (period a)) l -> Z.abs ret <= 2 ^ 60 ->
  exists x, closest_from a ref l ret = Ok x /\ (x = ret \/ exists r, In r l /\ x = ref - (pa_beacon a + first r)) /\
    Z.abs x <= Z.abs ret /\ forall r, In r l -> Z.abs x <= Z.abs (ref - (pa_beacon a + first r)).
Proof.
  unfold time_ok, small. change (2 ^ 60) with 1152921504606846976 in *. change (2 ^ 32)%N with 4294967296%N. unfold period.
  induction l as [|r l IH]; intros ret T B S F A; cbn [closest_from].
  - exists ret. split; [reflexivity|]. split; [auto|]. split; [lia|]. intros r [].
  - inversion F as [|? ? Fr F']; subst. change (Z.of_N (du_N (rs_offset r))) with (first r). unfold inside in Fr.
    rewrite sgn_ok by in64. cbn [bind]. rewrite sgn_ok by in64. cbn [bind]. rewrite !sgn_ok by in64. cbn [bind].
    set (y := ref - (pa_beacon a + first r)) in *.
    destruct (IH (if Z.abs y <? Z.abs ret then y else ret)) as (x & E & X & M & Q); auto.
    { destruct (Z.ltb_spec (Z.abs y) (Z.abs ret)); lia. }
    exists x. split; [exact E|]. split.
    + destruct X as [X|(q & Iq & X)]; [|right; exists q; split; [now right|auto]]. destruct (Z.ltb_spec (Z.abs y) (Z.abs ret)); [right; exists r; split; [now left|auto]|auto].
    + split; [destruct (Z.ltb_spec (Z.abs y) (Z.abs ret)); lia|]. intros q [->|Iq]; [fold y; destruct (Z.ltb_spec (Z.abs y) (Z.abs ret)); lia|auto].
Qed.
Theorem C34_closest : forall a ref, reachable a -> time_ok (pa_beacon a) -> pa_beacon a <> UNDEFINED_EARLY_64 ->
  (pa_beacon a < ref < pa_beacon a + period a -> pa_ul a <> [] ->
     exists r, In r (pa_ul a) /\ get_tx_opportunity_ul_time_closest a ref = Ok (ref - (pa_beacon a + first r)) /\
       forall q, In q (pa_ul a) -> Z.abs (ref - (pa_beacon a + first r)) <= Z.abs (ref - (pa_beacon a + first q))) /\
  (~ pa_beacon a < ref < pa_beacon a + period a -> get_tx_opportunity_ul_time_closest a ref = Abort).
Proof.
  intros a ref R T U. apply reachable_ok in R. destruct R as ((S & O) & _). unfold get_tx_opportunity_ul_time_closest.
  replace (pa_beacon a =? UNDEFINED_EARLY_64) with false by lia.
  assert (X : sgn 64 (pa_beacon a + Z.of_N (du_N (pa_period a))) = Ok (pa_beacon a + period a)).
  { apply sgn_ok. unfold time_ok, small, period in *. change (2 ^ 60) with 1152921504606846976 in *. change (2 ^ 32)%N with 4294967296%N in *. in64. }
  rewrite X. cbn [bind]. split.
  - intros B NE. replace ((pa_beacon a <? ref) && (ref <? pa_beacon a + period a)) with true by lia. cbn [guard].
    destruct (O ul) as (F & _). cbn [of_direction] in F.
    destruct (closest_val a ref (pa_ul a) UNDEFINED_EARLY_64) as (x & E & K & M & Q); auto; [reflexivity|].
    destruct K as [->|(r & I & ->)].
    + exfalso. destruct (pa_ul a) as [|r]; [congruence|]. specialize (Q r (or_introl eq_refl)). inversion F as [|? ? Fr _]; subst.
      unfold inside, UNDEFINED_EARLY_64, small in *. change (2 ^ 60) with 1152921504606846976 in *. change (2 ^ 32)%N with 4294967296%N in *. unfold period in *. lia.
    + exists r. auto.
  - intros B. replace ((pa_beacon a <? ref) && (ref <? pa_beacon a + period a)) with false by lia. reflexivity.
Qed.

Print Assumptions C35_never_overlap.
Print Assumptions C35_add_exact.
Print Assumptions C35_directions_may_overlap_refuted.
Print Assumptions C34_legal.
Print Assumptions C34_earliest.
Print Assumptions C34_unsorted_missed_refuted.
Print Assumptions C34_end_beyond_limit_refuted.
Print Assumptions C34_consecutive.
Print Assumptions C34_sign_test.
Print Assumptions C34_closest.

(** A terminal with two resources, the second of which is found in the second period. *)
Definition demo_pt : allocation_pt :=
  mkPt (mkLut 1 (fun _ => 1)) (slot 100) (slot 250) (slot 300) 5 1000
    [mkRes (slot 10) (slot 5); mkRes (slot 30) (slot 7)] [mkRes (slot 50) (slot 8)].
Example demo_reachable : reachable demo_pt.
Proof.
  exists (mkLut 1 (fun _ => 1)), (slot 100), (slot 250), (slot 300), 5,
    [Add ul (slot 10) (slot 5); Beacon 900; Add ul (slot 30) (slot 7); Add dl (slot 50) (slot 8); Beacon 1000]. do 3 (split; [reflexivity|]).
  split; [repeat constructor|]. vm_compute. reflexivity.
Qed.
Example demo_found : get_tx_opportunity demo_pt ul 1110 1112 = Ok (mkOpp 1130 7) /\ ascending (pa_ul demo_pt) /\ times_ok demo_pt 1110 1112.
Proof. split; [vm_compute; reflexivity|]. split; [vm_compute; auto|]. vm_compute. intuition discriminate. Qed.
Example demo_none : get_tx_opportunity demo_pt ul 1226 0 = Ok no_opportunity /\ get_tx_opportunity demo_pt ul 999 0 = Abort /\
  get_tx_opportunity demo_pt dl 1020 0 = Ok (mkOpp 1050 8) /\ get_tx_opportunity_ul_time_closest demo_pt 1015 = Ok 5.
Proof. vm_compute. auto. Qed.
Example demo_rejected : add_resource demo_pt ul (slot 14) (slot 2) = Abort /\ add_resource demo_pt dl (slot 99) (slot 2) = Abort /\
  is_ok (add_resource demo_pt ul (slot 15) (slot 15)) = true.
Proof. vm_compute. auto. Qed.
