(** C12: the RX ring buffer. *)
From Verif Require Import Base RxRing RxRingSpec RxRingFacts.
Open Scope Z_scope.

(** Whatever blocks arrive, the buffer never fails, and position (t mod L) of every antenna holds
    sample number t for each of the last L numbers since the last loss of samples. *)
Theorem C12_ring_holds_last_samples :
  forall (S : Type) (c : cfg) (zero : S) st0 bs,
    (0 < cL c)%nat -> init c zero = Ok st0 -> Forall (block_ok c) bs ->
    exists st, run c st0 bs = Ok st /\
      let '(from, n, good) := timeline 0 0 [] bs in
      cnt st = n /\
      forall a t, (a < cant c)%nat -> from <= t -> n - Z.of_nat (cL c) <= t -> t < n ->
        read c st a t = sample_at from good a t /\ sample_at from good a t <> None.
Proof. exact (fun S => @ring_holds S). Qed.
Print Assumptions C12_ring_holds_last_samples.

(** Readers may use all but the oldest M of these samples while the hardware writes. *)
Theorem C12_readable_while_hardware_writes :
  forall (S : Type) (c : cfg) (zero : S) st0 bs b k,
    (0 < cL c)%nat -> init c zero = Ok st0 -> Forall (block_ok c) bs ->
    block_ok c b -> (k <= cM c)%nat ->
    exists st st', run c st0 bs = Ok st /\ hw_write c st b k = Ok st' /\
      let '(from, n, good) := timeline 0 0 [] bs in
      forall a t, (a < cant c)%nat -> from <= t -> n - Z.of_nat (cL c) + Z.of_nat (cM c) <= t ->
        t < n -> read c st' a t = sample_at from good a t.
Proof. exact (fun S => @ring_holds_midwrite S). Qed.
Print Assumptions C12_readable_while_hardware_writes.

(** The clock other threads read is 0 until more than the prestream amount was received, then it is
    the number of the next sample. *)
Theorem C12_published_clock :
  forall (S : Type) (c : cfg) (zero : S) st0 bs,
    (0 < cL c)%nat -> 0 <= cpre c -> init c zero = Ok st0 -> Forall (block_ok c) bs ->
    exists st, run c st0 bs = Ok st /\
      rxt st = if total bs <=? cpre c then 0 else snd (fst (timeline 0 0 [] bs)).
Proof. exact (fun S => @clock_published S). Qed.
Print Assumptions C12_published_clock.

(** Waiting for a time returns the first clock value read that reached the target, never an earlier
    one. Finding: a target equal to the clock is not recognised as reached by the first load. *)
Theorem C12_wait_until_exact :
  forall target first rest v,
    wait_until target (first :: rest) = Some v <->
    (target < first /\ v = first) \/
    (first <= target /\
     exists p q, rest = p ++ v :: q /\ Forall (fun x => x < target) p /\ target <= v).
Proof. exact wait_until_spec. Qed.
Print Assumptions C12_wait_until_exact.

(** A concrete stream: L = 16, M = 2, two antennas, 12 blocks of two samples with jittering time
    stamps, so the ring has wrapped. *)
Definition ex_cfg : cfg := {| cL := 16; cM := 2; cant := 2; cpre := 3; cper := 4 |}.
Definition ex_block (jit : Z) (i : nat) : block Z :=
  {| btime := 2 * Z.of_nat i + jit; blen := 2;
     bdata := [[2 * Z.of_nat i; 2 * Z.of_nat i + 1];
               [100 + 2 * Z.of_nat i; 100 + 2 * Z.of_nat i + 1]] |}.
Definition ex_blocks : list (block Z) :=
  map (fun i => ex_block (if Nat.even i then 1 else 0) i) (seq 0 12).
Example C12_nonvacuous :
  Forall (block_ok ex_cfg) ex_blocks /\
  exists st, init ex_cfg (-1) = Ok st /\
    match run ex_cfg st ex_blocks with
    | Ok st' => rxt st' = 24 /\ read ex_cfg st' 1 9 = Some 109 /\ read ex_cfg st' 0 23 = Some 23
    | _ => False
    end.
Proof.
  split.
  - unfold ex_blocks. apply Forall_forall. intros b Hb. apply in_map_iff in Hb.
    destruct Hb as (i & <- & Hi). unfold block_ok, ex_block; cbn.
    repeat split; try lia.
    + repeat constructor.
    + destruct (Nat.even i); lia.
  - eexists. split; [reflexivity|]. vm_compute. auto.
Qed.

(** An odd block length makes the block straddle the end of the ring. *)
Example C12_straddling_block :
  exists st, init {| cL := 17; cM := 2; cant := 1; cpre := 0; cper := 1 |} (-1) = Ok st /\
    match run {| cL := 17; cM := 2; cant := 1; cpre := 0; cper := 1 |} st
            (map (fun i => {| btime := 2 * Z.of_nat i; blen := 2;
                              bdata := [[2 * Z.of_nat i; 2 * Z.of_nat i + 1]] |})
                 (seq 0 9)) with
    | Ok st' => mem st' = [[17; 1; 2; 3; 4; 5; 6; 7; 8; 9; 10; 11; 12; 13; 14; 15; 16; 17; -1]]
    | _ => False
    end.
Proof. eexists. split; [reflexivity|]. vm_compute. reflexivity. Qed.

(** Finding: after a time jump the samples of the jumping block itself are not at their positions:
    they were written relative to the old time, but are published with the new one. *)
Theorem C12_jump_block_misplaced_refuted :
  exists (c : cfg) st0 (b1 b2 : block Z) st,
    init c 0 = Ok st0 /\ Forall (block_ok c) [b1; b2] /\
    run c st0 [b1; b2] = Ok st /\
    rxt st = btime b2 + Z.of_nat (blen b2) /\
    nth_error (nth 0 (bdata b2) []) 0 = Some 7 /\
    read c st 0 (btime b2) = Some 0.
Proof.
  exists {| cL := 16; cM := 2; cant := 1; cpre := 0; cper := 1 |}.
  eexists. exists {| btime := 0; blen := 2; bdata := [[5; 6]] |}.
  exists {| btime := 9; blen := 2; bdata := [[7; 8]] |}. eexists.
  split; [reflexivity|]. split.
  - repeat constructor; cbn; lia.
  - vm_compute. auto.
Qed.
Print Assumptions C12_jump_block_misplaced_refuted.

(** Finding: waiting for exactly the current time keeps waiting. *)
Theorem C12_wait_for_now_blocks_refuted :
  exists now, wait_until now [now] = None.
Proof. exists 5. reflexivity. Qed.
Print Assumptions C12_wait_for_now_blocks_refuted.
