(** C40: the simulator advances in lock step. *)
From Coq Require FinFun.
From Verif Require Import Base Vspace VspaceSpec VspaceFacts.
Open Scope Z_scope.

Section C40.
Context {data : Type}.
Variable d0 : data.

Lemma reach (rate spp t0 : Z) (cfg : list radio) l : cfg <> [] -> alike rate spp t0 cfg ->
  exists s tr, run data (sim_new data d0 cfg) l = Ok (s, tr) /\ InvV d0 rate spp t0 cfg (length cfg) s tr.
Proof.
  intros Hc Ha. assert (Hp : (0 < length cfg)%nat) by (destruct cfg; [contradiction|cbn; lia]).
  pose proof (init_inv d0 rate spp t0 cfg (length cfg) eq_refl Hp) as H0.
  destruct (run_inv d0 rate spp t0 cfg (length cfg) eq_refl Hp Ha l _ [] (or_introl H0)) as (s & tr & E & HI).
  exists s, tr. auto.
Qed.

Lemma grid_length t0 spp k : length (grid t0 spp k) = k.
Proof. unfold grid. rewrite map_length, seq_length. reflexivity. Qed.

(** Whatever the interleaving of the threads of any number of radios that are configured alike, nothing
    aborts; every radio writes once and reads once for each point of the same time grid, in order; and no radio
    is ahead of another by more than the step being worked on: all have written a step before any has read
    it, and all have read it before any writes the next. *)
Theorem C40_lock_step : forall rate spp t0 cfg l, cfg <> [] -> alike rate spp t0 cfg ->
  exists s tr, run data (sim_new data d0 cfg) l = Ok (s, tr) /\
    forall i, (i < length cfg)%nat ->
      map fst (writes_of i tr) = grid t0 spp (length (writes_of i tr)) /\
      map fst (reads_of i tr) = grid t0 spp (length (reads_of i tr)) /\
      forall j, (j < length cfg)%nat ->
        (length (reads_of i tr) <= length (writes_of j tr) <= length (reads_of i tr) + 1)%nat.
Proof.
  intros rate spp t0 cfg l Hc Ha. destruct (reach rate spp t0 cfg l Hc Ha) as (s & tr & E & HI).
  exists s, tr. split; [exact E|]. intros i Hi.
  destruct HI as [HA|(k & wr & HB)].
  - destruct HA as (-> & _). cbn. auto.
  - destruct HB as (_ & _ & _ & _ & _ & _ & _ & _ & _ & PH & _ & _ & TW & _ & TR & _).
    assert (LW : forall j, (j < length cfg)%nat -> length (writes_of j tr) = (k + b2n (nth j (status_tx_written data (space data s)) false))%nat).
    { intros j Hj. rewrite <- (map_length fst), TW by exact Hj. apply grid_length. }
    assert (LR : forall j, (j < length cfg)%nat -> length (reads_of j tr) = (k + (if wr then 0 else b2n (nth j (status_rx_read data (space data s)) false)))%nat).
    { intros j Hj. rewrite <- (map_length fst), TR by exact Hj. apply grid_length. }
    rewrite TW, TR, LW, LR by exact Hi. split; [reflexivity|]. split; [reflexivity|].
    intros j Hj. rewrite LW by exact Hj. destruct wr.
    + destruct (nth j _ false); cbn [b2n]; lia.
    + destruct PH as [PH _]. rewrite (PH j Hj). destruct (nth i _ false); cbn [b2n]; lia.
Qed.

Lemma grid_nodup t0 spp k : spp <> 0 -> NoDup (grid t0 spp k).
Proof.
  intros Hs. unfold grid. apply FinFun.Injective_map_NoDup; [|apply seq_NoDup].
  intros a b E. assert (Z.of_nat a * spp = Z.of_nat b * spp) by lia. apply Z.mul_reg_r in H; [lia|exact Hs].
Qed.
Lemma nodup_fst {B} (l : list (Z * B)) t x y : NoDup (map fst l) -> In (t, x) l -> In (t, y) l -> x = y.
Proof.
  induction l as [|[a b] l IH]; cbn [map fst]; intros N Hx Hy; [contradiction|]. inversion N as [|? ? N1 N2].
  destruct Hx as [Hx|Hx], Hy as [Hy|Hy].
  - congruence.
  - injection Hx as -> ->. elim N1. change t with (fst (t, y)). apply in_map. exact Hy.
  - injection Hy as -> ->. elim N1. change t with (fst (t, x)). apply in_map. exact Hx.
  - auto.
Qed.

(** What a radio reads at a time is what every radio, itself included, wrote for that time: all of it and
    nothing else. *)
Theorem C40_reads_see_the_step : forall rate spp t0 cfg l s tr i t all,
  cfg <> [] -> alike rate spp t0 cfg -> spp <> 0 ->
  run data (sim_new data d0 cfg) l = Ok (s, tr) ->
  (i < length cfg)%nat -> In (t, all) (reads_of i tr) ->
  length all = length cfg /\
  forall j d, (j < length cfg)%nat -> (nth_error all j = Some d <-> In (t, d) (writes_of j tr)).
Proof.
  intros rate spp t0 cfg l s tr i t all Hc Ha Hs E Hi HIn.
  destruct (reach rate spp t0 cfg l Hc Ha) as (s' & tr' & E' & HI).
  rewrite E in E'. injection E' as <- <-. destruct HI as [(-> & _)|(k & wr & HB)]; [contradiction|].
  destruct HB as (_ & _ & _ & _ & _ & _ & _ & _ & _ & _ & _ & _ & TW & _ & _ & TC).
  destruct (TC i t all Hi HIn) as [A B]. split; [exact A|]. intros j d Hj.
  rewrite (nth_error_nth_iff all j d0) by lia. split.
  - intros [= <-]. apply B. exact Hj.
  - intros Hd. f_equal. apply (nodup_fst (writes_of j tr) t).
    + rewrite TW by exact Hj. apply grid_nodup. exact Hs.
    + apply B. exact Hj.
    + exact Hd.
Qed.

(** There is always a thread that can move: the simulation never blocks. *)
Theorem C40_no_deadlock : forall rate spp t0 cfg l s tr d,
  cfg <> [] -> alike rate spp t0 cfg ->
  run data (sim_new data d0 cfg) l = Ok (s, tr) ->
  exists i a s' e, (i < length cfg)%nat /\ (a = Tx data i d \/ a = Rx data i) /\
    step data s a = Ok (s', e) /\ (txs data s', rxs data s') <> (txs data s, rxs data s).
Proof.
  intros rate spp t0 cfg l s tr d Hc Ha E.
  destruct (reach rate spp t0 cfg l Hc Ha) as (s' & tr' & E' & HI).
  rewrite E in E'. injection E' as <- <-.
  assert (Hp : (0 < length cfg)%nat) by (destruct cfg; [contradiction|cbn; lia]).
  set (n := length cfg) in *.
  assert (NeT : forall i x (l1 l2 : list rx_pc), (i < length (txs data s))%nat -> x <> nth i (txs data s) TxRegister ->
     (upd (txs data s) i x, l1) <> (txs data s, l2)).
  { intros i x l1 l2 Hi Hx Eq. injection Eq as Eq _. apply Hx. rewrite <- Eq at 1. symmetry. apply nth_upd_same. exact Hi. }
  assert (NeR : forall i x (l1 l2 : list tx_pc), (i < length (rxs data s))%nat -> x <> nth i (rxs data s) RxWaitTx ->
     (l1, upd (rxs data s) i x) <> (l2, rxs data s)).
  { intros i x l1 l2 Hi Hx Eq. injection Eq as _ Eq. apply Hx. rewrite <- Eq at 1. symmetry. apply nth_upd_same. exact Hi. }
  destruct HI as [HA|(k & wr & HB)].
  - pose proof HA as (-> & HR & L1 & L2 & L3 & L4 & _ & _ & _ & AR & AT & NR & _ & _ & _ & PT & PR).
    destruct (all_tx_registered data (space data s)) eqn:EA.
    + destruct (some_false_nth _ NR) as (i & Hi & F). rewrite L4 in Hi.
      destruct (rx_step_A d0 rate spp t0 cfg n eq_refl Hp Ha s [] i HA Hi) as (s2 & e & E2 & _).
      exists i, (Rx data i), s2, e. split; [exact Hi|]. split; [auto|]. split; [exact E2|].
      revert E2. unfold rx_step. rewrite (nth_error_nth_iff _ i RxWaitTx) by lia. rewrite HR.
      destruct (radio_ok rate spp t0 cfg n eq_refl Ha i Hi) as (c & -> & _).
      destruct (PR i Hi) as [[P Q]|[P Q]]; [|rewrite F in Q; discriminate]. rewrite P, EA. cbv zeta.
      destruct (hw_register_rx data (space data s) i c); cbn [bind]; try discriminate.
      intros [= <- <-]. cbn [txs rxs]. apply NeR; [lia|]. rewrite P. discriminate.
    + assert (exists i, (i < n)%nat /\ nth i (tx_registered data (space data s)) None = None) as (i & Hi & F).
      { clear -AT L3. symmetry in AT. rewrite <- L3. revert AT. generalize (tx_registered data (space data s)).
        induction l as [|o l IH]; cbn [forallb]; [discriminate|]. destruct o; cbn [is_some andb].
        - intros H. destruct (IH H) as (i & Hi & F). exists (S i). cbn [length nth]. split; [lia|exact F].
        - intros _. exists 0%nat. cbn. split; [lia|reflexivity]. }
      destruct (tx_step_A rate spp t0 cfg n eq_refl Hp Ha s [] i d HA Hi) as (s2 & e & E2 & _).
      exists i, (Tx data i d), s2, e. split; [exact Hi|]. split; [auto|]. split; [exact E2|].
      revert E2. unfold tx_step. rewrite (nth_error_nth_iff _ i TxRegister) by lia. rewrite HR.
      destruct (radio_ok rate spp t0 cfg n eq_refl Ha i Hi) as (c & -> & _).
      destruct (PT i Hi) as [[P Q]|[P Q]]; [|rewrite F in Q; discriminate]. rewrite P. cbv zeta.
      destruct (hw_register_tx data (space data s) i c); cbn [bind]; try discriminate.
      intros [= <- <-]. cbn [txs rxs]. apply NeT; [lia|]. rewrite P. discriminate.
  - pose proof HB as (HR & L1 & L2 & L5 & L6 & L7 & AR & SC & NW & PH & PT & PR & _).
    destruct wr; destruct PH as [_ (i & Hi & F)].
    + destruct (tx_step_B d0 rate spp t0 cfg n eq_refl Hp Ha k true s tr i d HB Hi) as (s2 & e & E2 & _).
      exists i, (Tx data i d), s2, e. split; [exact Hi|]. split; [auto|]. split; [exact E2|].
      revert E2. unfold tx_step. rewrite (nth_error_nth_iff _ i TxRegister) by lia. rewrite HR.
      destruct (radio_ok rate spp t0 cfg n eq_refl Ha i Hi) as (c & -> & _). cbv zeta.
      specialize (PT i Hi). destruct (nth i (txs data s) TxRegister) as [| |t|t] eqn:P; cbn [TxOk] in PT.
      * contradiction.
      * rewrite AR. intros [= <- <-]. cbn [txs rxs]. apply NeT; [lia|]. rewrite P. discriminate.
      * rewrite (rd_ok _ _ false) by lia. rewrite F. cbn [bind]. intros [= <- <-]. cbn [txs rxs]. apply NeT; [lia|]. rewrite P. discriminate.
      * destruct (write data (space data s) i t d); cbn [bind]; try discriminate.
        intros [= <- <-]. cbn [txs rxs]. apply NeT; [lia|]. rewrite P. discriminate.
    + destruct (rx_step_B d0 rate spp t0 cfg n eq_refl Hp Ha k false s tr i HB Hi) as (s2 & e & E2 & _).
      exists i, (Rx data i), s2, e. split; [exact Hi|]. split; [auto|]. split; [exact E2|].
      revert E2. unfold rx_step. rewrite (nth_error_nth_iff _ i RxWaitTx) by lia. rewrite HR.
      destruct (radio_ok rate spp t0 cfg n eq_refl Ha i Hi) as (c & -> & _). cbv zeta.
      specialize (PR i Hi). destruct (nth i (rxs data s) RxWaitTx) as [| |t|t] eqn:P; cbn [RxOk] in PR.
      * contradiction.
      * rewrite AR. intros [= <- <-]. cbn [txs rxs]. apply NeR; [lia|]. rewrite P. discriminate.
      * rewrite (rd_ok _ _ false) by lia. rewrite F. cbn [bind]. intros [= <- <-]. cbn [txs rxs]. apply NeR; [lia|]. rewrite P. discriminate.
      * destruct (read data (space data s) i t) as [[v a]| | |]; cbn [bind]; try discriminate.
        intros [= <- <-]. cbn [txs rxs]. apply NeR; [lia|]. rewrite P. discriminate.
Qed.
End C40.
Print Assumptions C40_lock_step.
Print Assumptions C40_reads_see_the_step.
Print Assumptions C40_no_deadlock.

(** Radios that disagree about the time abort when the second one registers, radios that disagree about the
    packet size when the last one does. *)
Definition two (s1 s2 t1 t2 : Z) : list radio :=
  [ {| samp_rate := 1000; spp_size := s1; start := t1 |}; {| samp_rate := 1000; spp_size := s2; start := t2 |} ].
Theorem C40_disagreement_aborts :
  (forall s t1 t2, t1 <> t2 ->
     run nat (sim_new nat 0%nat (two s s t1 t2)) [Tx _ 0 0; Tx _ 1 0; Rx _ 0; Rx _ 1]%nat = Abort) /\
  (forall s1 s2 t, s1 <> s2 ->
     run nat (sim_new nat 0%nat (two s1 s2 t t)) [Tx _ 0 0; Tx _ 1 0]%nat = Abort).
Proof.
  split.
  - intros s t1 t2 H. cbn. unfold hw_register_tx, guard; cbn. rewrite Z.eqb_refl. cbn.
    unfold hw_register_rx, guard; cbn. rewrite !Z.eqb_refl. cbn. rewrite ?Z.eqb_refl. cbn.
    unfold hw_register_rx, guard; cbn. rewrite ?Z.eqb_refl. cbn.
    destruct (Z.eqb_spec t2 t1); [congruence|reflexivity].
  - intros s1 s2 t H. cbn. unfold hw_register_tx, guard; cbn. destruct (Z.eqb_spec s1 s2); [contradiction|]. reflexivity.
Qed.
Print Assumptions C40_disagreement_aborts.

(** Two steps of two radios. *)
Definition round (d : nat) : list (action nat) := [Tx _ 1 d; Tx _ 0 (d + 10); Tx _ 0 (d + 10); Tx _ 1 d; Rx _ 0; Rx _ 1; Rx _ 1; Rx _ 0]%nat.
Example C40_nonvacuous :
  alike 1000 100 7 (two 100 100 7 7) /\
  exists s tr, run nat (sim_new nat 0%nat (two 100 100 7 7)) (round 0 ++ round 1 ++ round 2 ++ round 3) = Ok (s, tr) /\
    reads_of 0 tr = [(7, [12; 2]%nat); (107, [13; 3]%nat)] /\ writes_of 1 tr = [(7, 2%nat); (107, 3%nat)] /\
    now _ (space _ s) = 207.
Proof.
  split; [repeat constructor|]. eexists. eexists. split; [vm_compute; reflexivity|]. vm_compute. auto.
Qed.
