(** C52: the simulated radio transmits every packet at its time, complete and unchanged, and nothing else. *)
From Verif Require Import Base SimTx SimTxSpec SimTxFacts.
Open Scope Z_scope.

(** Packets that are well timed, and of which no longer one is handed over while a shorter one is still on air
    (see [harmless] for the exact condition): the samples written into the virtual space are, at every sample
    time, the sample of the packet on air, otherwise zero. The thread never aborts. *)
Theorem C52_signal : forall smp (zero : smp) hw spp start packets k,
  0 < spp -> hw zero = zero ->
  well_timed smp spp start packets ->
  (forall i p q, nth_error packets i = Some p -> nth_error packets (S i) = Some q -> harmless smp spp start p q) ->
  exists t os, run smp zero hw spp packets (thread_new start) k = Ok (t, os) /\
    map (o_now smp) os = map (fun i => start + Z.of_nat i * spp) (seq 0 k) /\
    concat (map (o_spp smp) os) = map (signal smp zero hw packets) (times start (k * Z.to_nat spp)).
Proof.
  intros smp zero hw spp start packets k POS HZ WT HL.
  destruct (run_ok smp zero hw spp packets start POS HZ WT HL k _ (inv_new smp spp packets start WT HL))
    as (t & os & E & L & A).
  cbn [thread_new now] in A.
  exists t, os. split; [exact E|]. split.
  - apply (nth_ext _ _ 0 0); [rewrite !map_length, seq_length; exact L|]. intros n Hn. rewrite map_length in Hn.
    destruct (nth_error os n) as [o|] eqn:En; [|apply nth_error_None in En; lia].
    destruct (A _ _ En) as [N _].
    rewrite (nth_error_nth _ _ 0 (map_nth_error (o_now smp) n os En)).
    symmetry. rewrite (nth_error_nth _ n 0 (x := start + Z.of_nat n * spp)); [symmetry; exact N|].
    apply (map_nth_error (fun i => start + Z.of_nat i * spp)).
    rewrite nth_error_nth' with (d := 0%nat) by (rewrite seq_length; lia). rewrite seq_nth by lia. reflexivity.
  - rewrite <- L. apply concat_blocks. intros i o Ei. destruct (A _ _ Ei) as [N [G _]]. rewrite G, N.
    rewrite Z2Nat.id by lia. reflexivity.
Qed.
Print Assumptions C52_signal.

(** vspace.cpp 477-478: the receiver of the same radio hears zeros at position x of the spp. *)
Definition blanked {smp} (o : spp_out smp) (x : Z) : Prop := 0 <= o_idx _ o /\ o_idx _ o <= x < o_idx _ o + o_length _ o.

(** While a packet is on air the radio does not receive; in an spp without any own packet it does. *)
Theorem C52_half_duplex : forall smp (zero : smp) hw spp start packets k t os i o x,
  0 < spp -> hw zero = zero ->
  well_timed smp spp start packets ->
  (forall i p q, nth_error packets i = Some p -> nth_error packets (S i) = Some q -> harmless smp spp start p q) ->
  run smp zero hw spp packets (thread_new start) k = Ok (t, os) -> nth_error os i = Some o -> 0 <= x < spp ->
  (existsb (fun p => on_air smp p (o_now smp o + x)) packets = true -> blanked o x) /\
  (blanked o x -> exists y, 0 <= y < spp /\ existsb (fun p => on_air smp p (o_now smp o + y)) packets = true).
Proof.
  intros smp zero hw spp start packets k t os i o x POS HZ WT HL R Ei Hx.
  destruct (run_ok smp zero hw spp packets start POS HZ WT HL k _ (inv_new smp spp packets start WT HL))
    as (t' & os' & E & L & A).
  rewrite R in E. injection E as <- <-. destruct (A _ _ Ei) as [_ (_ & G1 & G2)]. unfold blanked. split.
  - intros H. pose proof (G1 _ Hx H) as B. destruct G2 as [(_ & _ & N)|(? & _)]; [rewrite (N _ Hx) in H; discriminate|lia].
  - intros [B _]. destruct G2 as [(? & _)|(_ & _ & _ & Y)]; [lia|exact Y].
Qed.
Print Assumptions C52_half_duplex.

(** Three packets: the second starts in the spp in which the first ends, the third much later. *)
Definition example_packets : list (packet nat) :=
  [ {| tx_time := 101; samples := [1; 2; 3; 4; 5; 6]%nat; visible_from := 90 |};
    {| tx_time := 107; samples := [11; 12; 13; 14; 15; 16; 17]%nat; visible_from := 90 |};
    {| tx_time := 130; samples := [21; 22; 23; 24; 25]%nat; visible_from := 100 |} ].

Example C52_nonvacuous :
  well_timed nat 4 100 example_packets /\
  (forall i p q, nth_error example_packets i = Some p -> nth_error example_packets (S i) = Some q ->
     harmless nat 4 100 p q) /\
  exists t os, run nat 0%nat (fun x => x) 4 example_packets (thread_new 100) 9 = Ok (t, os) /\
    concat (map (o_spp nat) os) =
      [0; 1; 2; 3; 4; 5; 6; 11; 12; 13; 14; 15; 16; 17; 0; 0; 0; 0; 0; 0; 0; 0; 0; 0; 0; 0; 0; 0; 0; 0;
       21; 22; 23; 24; 25; 0]%nat.
Proof.
  split; [|split].
  - constructor.
    + intros p [<-|[<-|[<-|[]]]]; cbn; lia.
    + intros p [<-|[<-|[<-|[]]]]; cbn; lia.
    + intros [|[|[|i]]] p q Ep Eq; cbn in Ep, Eq; try discriminate; try (destruct i; discriminate);
        injection Ep as <-; injection Eq as <-; cbn; lia.
    + intros p [<-|[<-|[<-|[]]]]; cbn; lia.
  - intros [|[|[|i]]] p q Ep Eq; cbn in Ep, Eq; try discriminate; try (destruct i; discriminate);
      injection Ep as <-; injection Eq as <-; unfold harmless, spp_start; cbn; lia.
  - eexists _, _. split; reflexivity.
Qed.

(** Without the last hypothesis the claim is false: a longer packet handed over early is transmitted at the wrong
    time, without its first samples, and is then regarded as transmitted. *)
Definition longer_next : list (packet nat) :=
  [ {| tx_time := 0; samples := [1; 2; 3]%nat; visible_from := -4 |};
    {| tx_time := 10; samples := [11; 12; 13; 14; 15]%nat; visible_from := -4 |} ].

Theorem C52_longer_next_refuted :
  well_timed nat 2 0 longer_next /\
  exists t os, run nat 0%nat (fun x => x) 2 longer_next (thread_new 0) 8 = Ok (t, os) /\
    concat (map (o_spp nat) os) = [1; 2; 3; 0; 14; 15; 0; 0; 0; 0; 0; 0; 0; 0; 0; 0]%nat /\
    map (signal nat 0%nat (fun x => x) longer_next) (times 0 16) =
      [1; 2; 3; 0; 0; 0; 0; 0; 0; 0; 11; 12; 13; 14; 15; 0]%nat /\
    expected t = 2%nat.
Proof.
  split.
  - constructor.
    + intros p [<-|[<-|[]]]; cbn; lia.
    + intros p [<-|[<-|[]]]; cbn; lia.
    + intros [|[|i]] p q Ep Eq; cbn in Ep, Eq; try discriminate; try (destruct i; discriminate);
        injection Ep as <-; injection Eq as <-; cbn; lia.
    + intros p [<-|[<-|[]]]; cbn; lia.
  - eexists _, _. repeat split; reflexivity.
Qed.
Print Assumptions C52_longer_next_refuted.
