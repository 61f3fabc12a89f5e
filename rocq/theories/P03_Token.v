(** Property C05: the firmware is called by one thread at a time and sees each pool's jobs in order. *)
From Verif Require Import Base Token TokenSpec TokenFacts.

(** C05. Up to four pools share one firmware; any number of workers per pool, any schedule of pushes,
    shutdown and worker steps: no assertion fires, at most one thread is inside the firmware, and for each
    pool the in-order calls made so far are exactly the first few pushed jobs, in push order, numbered
    0, 1, 2, ... Holds across shutdown as well. *)
Theorem C05_firmware_calls_in_order : forall (A : Type) n ws acts (s0 : sys A),
  n <= max_pools -> Forall (fun p => p < n) ws ->
  Forall (pools_below n) acts -> Forall (fun o => is_start o = false) acts ->
  sys_new n ws true = Ok s0 ->
  exists s, prun s0 acts = Ok s /\ nof_in_firmware s <= 1 /\
    forall p, p < n -> is_prefix (calls_of p (calls s)) (numbered 0 (pushed true p acts)).
Proof. exact @firmware_calls_in_order. Qed.
Print Assumptions C05_firmware_calls_in_order.

(** C05. No deadlock and no lost job before shutdown: from every reachable state the workers can make only
    finitely many steps, and when none of them can move any more every pushed job of every pool that has a
    worker has been delivered to the firmware. *)
Theorem C05_every_job_reaches_firmware : forall (A : Type) n ws acts (s0 s : sys A),
  n <= max_pools -> Forall (fun p => p < n) ws ->
  Forall (pools_below n) acts -> Forall (fun o => is_start o = false) acts ->
  Forall (fun o => no_stop o = true) acts ->
  sys_new n ws true = Ok s0 -> prun s0 acts = Ok s ->
  (exists bound, forall os, Forall (fun o => is_worker_action o = true) os -> all_enabled s os -> length os <= bound) /\
  (quiescent s -> forall p, In p ws -> calls_of p (calls s) = numbered 0 (pushed true p acts)).
Proof. exact @every_job_reaches_firmware. Qed.
Print Assumptions C05_every_job_reaches_firmware.

(** C05 including start-up, for the usual configuration of one pool per firmware: jobs offered before
    work_start are dropped, later ones are delivered in order; the start never finds the token taken. *)
Theorem C05_single_pool_with_start : forall (A : Type) ws acts (s0 : sys A),
  Forall (fun p => p < 1) ws -> Forall (pools_below 1) acts ->
  sys_new 1 ws false = Ok s0 ->
  exists s, prun s0 acts = Ok s /\ nof_in_firmware s <= 1 /\
    is_prefix (calls_of 0 (calls s)) (numbered 0 (pushed false 0 acts)).
Proof. exact @single_pool_in_order. Qed.
Print Assumptions C05_single_pool_with_start.

(** Finding: with two pools sharing one firmware the start-up sequence can abort. Pool 0 starts, receives a
    job and a worker is inside the firmware when the last sync worker of pool 1 registers: the try_lock of
    baton.cpp 78 fails and the assert fires. *)
Theorem C05_two_pools_start_refuted : exists s0 : sys nat,
  sys_new 2 [0; 1] false = Ok s0 /\
  prun s0 [AStart 0; APush 0 7; ATake 0; ACheck 0; ALock 0; AStart 1] = Abort.
Proof. eexists. split; [vm_compute; reflexivity|]. vm_compute. reflexivity. Qed.
Print Assumptions C05_two_pools_start_refuted.

(** Two workers overtaking each other: worker 1 holds job 1 but must wait until worker 0 delivered job 0. *)
Example C05_nonvacuous :
  let acts := [APush 0 7; APush 0 8; ATake 0; ATake 1; ACheck 1; ALock 1; ACheck 0; ALock 0; ACheck 1;
               AUnlock 0 true; ALockPdc 0; ACheck 1; AUnlockPdc 0; ACheck 1; ALock 1; AUnlock 1 false] in
  exists s0 s : sys nat, sys_new 2 [0; 0; 1] true = Ok s0 /\ prun s0 acts = Ok s /\
    Forall (pools_below 2) acts /\ Forall (fun o => is_start o = false) acts /\
    Forall (fun o => no_stop o = true) acts /\
    calls s = [(0, (0%Z, 7)); (0, (1%Z, 8))].
Proof.
  cbn zeta. eexists. eexists. split; [vm_compute; reflexivity|]. split; [vm_compute; reflexivity|].
  repeat split; try (repeat constructor; fail).
Qed.
