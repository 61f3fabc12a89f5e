(** C53: the USRP radio transmits every packet at its time, complete and unchanged, and nothing else. *)
From Verif Require Import Base UsrpTx UsrpTxSpec UsrpTxFacts.
From Coq Require Import Sorting.
Open Scope Z_scope.

Section claims.
Variable smp : Type.
Variable zero garbage : smp.
Variable adj : Type.
Variable spp gap_max advance prefix : Z.
Variable packets : list (packet smp adj).
(** The packets are well timed, prefix_zeros has passed its assertions, usrp_tx_gap_samples is an int32_t. *)
Definition configured : Prop :=
  0 < spp /\ 0 <= prefix <= spp /\ gap_max < 2147483648 /\ well_timed smp adj spp packets.
Notation go_run := (run smp zero garbage adj spp gap_max advance prefix packets).

(** Whatever the thread finds in the pool and however many samples the driver takes: if the driver takes the calls
    that start a burst, and bursts do not start before the last one ended, then
    - every sample on air is the one to be heard at that time (advanced), a sample of a packet or zero,
    - and is a leading zero, of a packet, or in a gap of at most gap_max samples after a packet,
    - no time is sent twice, and the order is that of time,
    - every sample of every transmitted packet is on air,
    - and no burst is left open while the thread waits. *)
Theorem C53_on_air : forall env t acts dev log,
  configured -> go_run thread_new env = Ok (t, acts) -> starts_taken smp adj acts ->
  air smp adj (Idle None) acts = Some (dev, log) ->
  (forall x s, In (x, s) log ->
     s = signal smp zero adj packets (x + advance) /\
     exists p, In p packets /\ tx_time smp adj p - prefix <= x + advance < end_of smp adj p + Z.max 0 gap_max) /\
  StronglySorted (fun a b => fst a < fst b) log /\
  (forall j p i, (j < released t)%nat -> nth_error packets j = Some p ->
     0 <= i < Z.of_nat (length (samples smp adj p)) -> In (tx_time smp adj p + i - advance) (map fst log)) /\
  (at_place t = Outer -> exists e, dev = Idle e).
Proof.
  intros env t acts dev log (SPP & PRE & GM & WT) R TK A.
  destruct (run_inv smp zero garbage adj spp gap_max advance prefix packets SPP PRE WT env thread_new (Idle None) []
              t acts dev log) as [G PL]; try assumption.
  { apply good_new. } { apply placed_new. }
  cbn [app] in G. destruct G as [GS GB GO GC]. split; [exact GS|]. split; [exact GO|]. split.
  - intros j p i J P I.
    assert (E : exists e, pos dev = Some e /\ end_of smp adj p - advance <= e).
    { assert (ORD : forall k q, (j <= k)%nat -> nth_error packets k = Some q -> end_of smp adj p <= end_of smp adj q).
      { intros k q K Q. destruct (Nat.eq_dec j k) as [<-|NE]; [rewrite P in Q; injection Q as ->; lia|].
        assert (L : (j < k)%nat) by lia.
        pose proof (order smp adj spp packets WT _ _ _ _ L P Q). unfold end_of at 2. lia. }
      assert (ORT : forall k q, (j < k)%nat -> nth_error packets k = Some q -> end_of smp adj p <= tx_time smp adj q).
      { intros k q K Q. exact (order smp adj spp packets WT _ _ _ _ K P Q). }
      assert (LST : forall k, (j < k)%nat -> (k <= length packets)%nat ->
                exists e, last_end smp adj advance packets k = Some e /\ end_of smp adj p - advance <= e).
      { intros [|k] K L; [lia|]. cbn [last_end]. destruct (nth_error packets k) as [q|] eqn:Q.
        - eexists. split; [reflexivity|]. assert (JK : (j <= k)%nat) by lia. pose proof (ORD _ _ JK Q). lia.
        - apply nth_error_None in Q. lia. }
      revert PL J. unfold placed, released. destruct t as [ex [|b [s|]|b cnt|b go n cnt]]; cbn [at_place expected].
      - intros [-> L] J. exact (LST _ J L).
      - intros (-> & _ & q & Q & _ & ->) J. apply (LST _ J).
        assert (nth_error packets ex <> None) as N1 by congruence. apply nth_error_Some in N1. lia.
      - intros (-> & q & Q & ->) J. eexists. split; [reflexivity|]. pose proof (ORT _ _ J Q). lia.
      - intros (_ & q & Q & C & ->) J. eexists. split; [reflexivity|]. pose proof (ORT _ _ J Q). lia.
      - intros (_ & q & Q & PL) J. assert (JB : (j <= b)%nat) by lia. pose proof (ORD _ _ JB Q). destruct go.
        + destruct PL as (r & _ & _ & C & _ & ->). eexists. split; [reflexivity|]. lia.
        + destruct PL as (_ & _ & ->). eexists. split; [reflexivity|]. lia. }
    destruct E as (e & E & LE). apply (GC p i e); [exact (nth_error_In _ _ P)|exact I|exact E|].
    unfold end_of in LE. lia.
  - intros O. unfold placed in PL. rewrite O in PL. destruct PL as [-> _]. eexists. reflexivity.
Qed.

(** If the leading zeros of every packet fit before it, bursts never start before the last one ended. *)
Theorem C53_bursts_in_order : forall env t acts,
  configured -> go_run thread_new env = Ok (t, acts) -> starts_taken smp adj acts ->
  (forall i p q, nth_error packets i = Some p -> nth_error packets (S i) = Some q ->
     end_of smp adj p + prefix <= tx_time smp adj q) ->
  exists dev log, air smp adj (Idle None) acts = Some (dev, log).
Proof.
  intros env t acts (SPP & PRE & GM & WT) R TK RM.
  destruct (air smp adj (Idle None) acts) as [[dev log]|] eqn:A; [exists dev, log; reflexivity|].
  exfalso. refine (run_order smp zero garbage adj spp gap_max advance prefix packets SPP PRE WT env thread_new
                     (Idle None) [] t acts RM _ _ R TK A); [apply good_new|apply placed_new].
Qed.

(** With a driver that takes all samples, and adjustments only at packets after which the burst ends anyway, the
    thread never aborts and starts all bursts properly. *)
Theorem C53_never_aborts : forall env,
  configured -> Forall (fun a => spp <= snd a) env ->
  (forall i p q, nth_error packets i = Some p -> nth_error packets (S i) = Some q ->
     tx_adj smp adj p <> None \/ rx_adj smp adj p <> None -> gap_max < tx_time smp adj q - end_of smp adj p) ->
  exists t acts, go_run thread_new env = Ok (t, acts) /\ starts_taken smp adj acts.
Proof.
  intros env (SPP & PRE & GM & WT) A LO.
  refine (run_total smp zero garbage adj spp gap_max advance prefix packets SPP PRE WT env thread_new (Idle None) _ _ A);
    [|apply placed_new].
  intros i p q P Q HA. apply (LO _ _ _ P Q). unfold has_adj in HA.
  destruct (tx_adj smp adj p); [left; discriminate|]. destruct (rx_adj smp adj p); [right; discriminate|discriminate].
Qed.

(** If moreover every packet is found when looked for, all packets are transmitted after a bounded number of steps. *)
Theorem C53_all_sent : forall env t acts,
  configured -> Forall (fun a => fst a = true /\ spp <= snd a) env ->
  (forall i p q, nth_error packets i = Some p -> nth_error packets (S i) = Some q ->
     tx_adj smp adj p <> None \/ rx_adj smp adj p <> None -> gap_max < tx_time smp adj q - end_of smp adj p) ->
  fold_right (fun p n => Z.of_nat (length (samples smp adj p)) + Z.max 0 gap_max + 5 + n) 0 packets <= Z.of_nat (length env) ->
  go_run thread_new env = Ok (t, acts) ->
  released t = length packets.
Proof.
  intros env t acts (SPP & PRE & GM & WT) A LO LE R.
  destruct (run_done smp zero garbage adj spp gap_max advance prefix packets SPP PRE WT env thread_new (Idle None) t acts)
    as [P E]; try assumption.
  - intros i p q P Q HA. apply (LO _ _ _ P Q). unfold has_adj in HA.
    destruct (tx_adj smp adj p); [left; discriminate|]. destruct (rx_adj smp adj p); [right; discriminate|discriminate].
  - apply placed_new.
  - unfold released. rewrite P. exact E.
Qed.

(** Every adjustment of a transmitted packet is commanded once, in order, for the time at which the packet ends. *)
Theorem C53_adjustments : forall env t acts,
  go_run thread_new env = Ok (t, acts) ->
  adjustments smp adj acts = concat (map (wanted smp adj advance) (firstn (released t) packets)).
Proof.
  intros env t acts R. symmetry.
  exact (run_adjust smp zero garbage adj spp gap_max advance prefix packets env thread_new t acts I R).
Qed.
End claims.
Print Assumptions C53_on_air.
Print Assumptions C53_bursts_in_order.
Print Assumptions C53_never_aborts.
Print Assumptions C53_all_sent.
Print Assumptions C53_adjustments.

(** The leading zeros are counted in whole samples. *)
Theorem C53_leading_zeros : forall rate us spp n,
  0 <= rate -> 0 <= us -> prefix_zeros rate us spp = Ok n ->
  n * 1000000 <= rate * us < (n + 1) * 1000000 /\ n <= spp /\ (0 < us -> 0 < n).
Proof.
  intros rate us spp n R U. unfold prefix_zeros, guard. intros E.
  assert (0 <= rate * us) by (apply Z.mul_nonneg_nonneg; assumption). set (x := rate * us) in *. clearbody x.
  destruct (negb ((0 <? us) && (x / 1000000 =? 0))) eqn:A; [|discriminate].
  destruct (x / 1000000 <=? spp) eqn:B; [|discriminate]. injection E as <-. lia.
Qed.
Print Assumptions C53_leading_zeros.

(** Three packets: the second is found in time and follows in the same burst after two zeros, the third is not found
    and starts a burst of its own. The driver takes three samples at a time where it may. *)
Definition pkt t l a : packet nat nat := {| tx_time := t; samples := l; tx_adj := a; rx_adj := None |}.
Definition example_packets : list (packet nat nat) :=
  [ pkt 101 [1; 2; 3; 4; 5; 6] None; pkt 109 [11; 12; 13; 14; 15; 16; 17] (Some 7%nat);
    pkt 130 [21; 22; 23; 24; 25] None ]%nat.
Definition example_env : list (bool * Z) :=
  [(false, 9); (true, 9); (true, 3); (true, 9); (true, 9); (true, 1); (true, 9); (true, 9); (true, 9); (false, 9);
   (false, 9); (false, 9); (true, 9); (false, 9); (true, 9); (true, 9); (true, 9)].
Example C53_nonvacuous :
  configured nat nat 4 5 1 example_packets /\
  exists t acts dev log,
    run nat 0%nat 99%nat nat 4 5 10 1 example_packets thread_new example_env = Ok (t, acts) /\
    starts_taken nat nat acts /\ air nat nat (Idle None) acts = Some (dev, log) /\ released t = 3%nat /\
    log = [(90, 0%nat); (91, 1%nat); (92, 2%nat); (93, 3%nat); (94, 4%nat); (95, 5%nat); (96, 6%nat); (97, 0%nat); (98, 0%nat); (99, 11%nat); (100, 12%nat); (101, 13%nat);
           (102, 14%nat); (103, 15%nat); (104, 16%nat); (105, 17%nat); (119, 0%nat); (120, 21%nat); (121, 22%nat); (122, 23%nat); (123, 24%nat); (124, 25%nat)] /\
    adjustments nat nat acts = [Adjust_tx nat nat 106 7%nat].
Proof.
  split.
  - split; [lia|]. split; [lia|]. split; [lia|]. constructor.
    + intros p [<-|[<-|[<-|[]]]]; cbn; lia.
    + intros [|[|[|i]]] p q Ep Eq; cbn in Ep, Eq; try discriminate; try (destruct i; discriminate);
        injection Ep as <-; injection Eq as <-; unfold end_of; cbn; lia.
  - eexists _, _, _, _. split; [reflexivity|]. split.
    + intros s e n d I. cbn in I. repeat (destruct I as [I|I]; [first [discriminate I | injection I; intros; subst; reflexivity]|]).
      destruct I.
    + repeat split; reflexivity.
Qed.

(** Without the hypothesis on the driver the claim is false: if it takes only one of two leading zeros, the packet is
    transmitted one sample too early. *)
Theorem C53_leading_zeros_not_taken_refuted :
  configured nat nat 4 5 2 [pkt 101 [1; 2; 3; 4; 5; 6]%nat None] /\
  exists t acts dev, run nat 0%nat 99%nat nat 4 5 0 2 [pkt 101 [1; 2; 3; 4; 5; 6]%nat None] thread_new
      [(true, 1); (true, 4); (true, 4); (true, 4)] = Ok (t, acts) /\ released t = 1%nat /\
    air nat nat (Idle None) acts = Some (dev, [(99, 0%nat); (100, 1%nat); (101, 2%nat); (102, 3%nat); (103, 4%nat); (104, 5%nat); (105, 6%nat)]).
Proof.
  split.
  - split; [lia|]. split; [lia|]. split; [lia|]. constructor.
    + intros p [<-|[]]; cbn; lia.
    + intros [|i] p q Ep Eq; cbn in Ep, Eq; [discriminate|destruct i; discriminate].
  - eexists _, _, _. repeat split; reflexivity.
Qed.
Print Assumptions C53_leading_zeros_not_taken_refuted.

(** Without room for the leading zeros the bursts overlap: the second packet follows the first one immediately, but is
    handed over too late for the same burst. Its leading zeros would have to be sent while the first packet was. *)
Theorem C53_leading_zeros_overlap_refuted :
  let l := [pkt 101 [1; 2; 3; 4; 5; 6]%nat None; pkt 107 [11; 12; 13; 14; 15]%nat None] in
  configured nat nat 4 5 2 l /\
  exists t acts, run nat 0%nat 99%nat nat 4 5 0 2 l thread_new
      [(true, 4); (true, 4); (false, 4); (true, 4); (true, 4)] = Ok (t, acts) /\ starts_taken nat nat acts /\
    air nat nat (Idle None) acts = None /\
    In (Send nat nat None true 2 [5; 6]%nat) acts /\ In (Send nat nat (Some 105) false 2 [0; 0]%nat) acts.
Proof.
  intros l. split.
  - split; [lia|]. split; [lia|]. split; [lia|]. constructor.
    + intros p [<-|[<-|[]]]; cbn; lia.
    + intros [|[|i]] p q Ep Eq; cbn in Ep, Eq; try discriminate; try (destruct i; discriminate);
        injection Ep as <-; injection Eq as <-; unfold end_of; cbn; lia.
  - eexists _, _. split; [reflexivity|]. split.
    + intros s e n d I. cbn in I. repeat (destruct I as [I|I]; [first [discriminate I | injection I; intros; subst; reflexivity]|]).
      destruct I.
    + split; [reflexivity|]. split; cbn; tauto.
Qed.
Print Assumptions C53_leading_zeros_overlap_refuted.

(** The bound on the gap is needed: the gap is computed in 32 bits, and a packet 2^32 samples after the end of the
    last one is transmitted immediately. *)
Theorem C53_large_gap_refuted :
  let l := [pkt 101 [1; 2; 3; 4; 5; 6]%nat None; pkt (107 + 4294967296) [11; 12; 13; 14; 15]%nat None] in
  exists t acts dev, run nat 0%nat 99%nat nat 4 5 0 0 l thread_new
      [(true, 4); (true, 4); (true, 4); (true, 4); (true, 4); (true, 4); (true, 4)] = Ok (t, acts) /\
    released t = 2%nat /\ starts_taken nat nat acts /\
    air nat nat (Idle None) acts = Some (dev, [(101, 1%nat); (102, 2%nat); (103, 3%nat); (104, 4%nat); (105, 5%nat); (106, 6%nat);
                                              (107, 11%nat); (108, 12%nat); (109, 13%nat); (110, 14%nat); (111, 15%nat)]).
Proof.
  intros l. eexists _, _, _. split; [reflexivity|]. split; [reflexivity|]. split.
  - intros s e n d I. cbn in I. repeat (destruct I as [I|I]; [first [discriminate I | injection I; intros; subst; reflexivity]|]).
    destruct I.
  - reflexivity.
Qed.
Print Assumptions C53_large_gap_refuted.
