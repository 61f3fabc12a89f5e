(** Properties C06, C07, C46: the synchronisation workers behave like one sequential scan. *)
From Verif Require Import Base Sync SyncSpec SyncFacts.
Open Scope Z_scope.

(** C06/C07. For every number n of workers, chunk length, number of bufferable packets, uniqueness limit,
    regular period, common start time (a multiple of n chunks) and every schedule of worker steps: no
    assertion fires, the finished chunks are chunk 0, 1, ..., K-1 in order, chunk k done by worker k mod n, the
    baton is at worker K mod n, and the jobs enqueued so far are exactly those of a sequential scan over
    chunks 0..K-1 and over the first few detections of chunk K.
    The last hypothesis excludes a detection at the very last search step of a chunk when there are several
    workers; without it the statement is false, see C07_detection_at_chunk_end_refuted. *)
Theorem C07_workers_refine_sequential_scan : forall det len maxbuf n limit period T,
  (0 < n)%nat -> 0 < len -> 0 <= T -> T mod (len * Z.of_nat n) = 0 ->
  (n = 1%nat \/ forall start, snd (det start) = false) ->
  forall acts, exists s K p r,
    srun det len maxbuf (ssys_new det len n limit period T) acts = Ok s /\
    s_fin s = tiling T len n K /\ b_holder (s_baton s) = (K mod n)%nat /\
    fst (det (chunk_at T len K)) = p ++ r /\
    s_jobs s = sc_jobs (fold_left (scan_packet limit) p (scan det len limit period T K)).
Proof. exact sync_refines_scan. Qed.
Print Assumptions C07_workers_refine_sequential_scan.

(** C07. Every time covered so far lies in exactly one finished chunk of one worker. *)
Theorem C07_each_time_in_one_chunk : forall det len maxbuf n limit period T,
  (0 < n)%nat -> 0 < len -> 0 <= T -> T mod (len * Z.of_nat n) = 0 ->
  (n = 1%nat \/ forall start, snd (det start) = false) ->
  forall acts s t, srun det len maxbuf (ssys_new det len n limit period T) acts = Ok s ->
  T <= t < T + len * Z.of_nat (length (s_fin s)) ->
  exists k i start, nth_error (s_fin s) k = Some (i, start) /\ start <= t <= start + (len - 1) /\ (i < n)%nat /\
    forall k' i' start', nth_error (s_fin s) k' = Some (i', start') -> start' <= t <= start' + (len - 1) -> k' = k.
Proof. exact finished_cover. Qed.
Print Assumptions C07_each_time_in_one_chunk.

(** C06. In any state whatsoever, only a step of the holder that finishes its chunk moves the baton, and it
    moves to the cyclically next worker. *)
Theorem C06_only_holder_passes_on : forall det len maxbuf s a s',
  sstep det len maxbuf s a = Ok (Some s') ->
  b_holder (s_baton s') = b_holder (s_baton s) \/
  (a = SStepA (b_holder (s_baton s)) /\ b_holder (s_baton s') = ((b_holder (s_baton s) + 1) mod b_n (s_baton s))%nat).
Proof. exact step_holder. Qed.
Print Assumptions C06_only_holder_passes_on.

(** C06. Before shutdown the baton never gets stuck: from every reachable state steps of the holder alone
    finish one more chunk and pass the baton on. *)
Theorem C06_baton_never_stuck : forall det len maxbuf n limit period T,
  (0 < n)%nat -> 0 < len -> 0 <= T -> T mod (len * Z.of_nat n) = 0 ->
  (n = 1%nat \/ forall start, snd (det start) = false) ->
  forall acts s, Forall (fun a => is_quit a = false) acts ->
  srun det len maxbuf (ssys_new det len n limit period T) acts = Ok s ->
  exists more s', Forall (acts_of (b_holder (s_baton s))) more /\ srun det len maxbuf s more = Ok s' /\
    length (s_fin s') = S (length (s_fin s)) /\ b_holder (s_baton s') = ((b_holder (s_baton s) + 1) mod n)%nat.
Proof. exact chunk_progress. Qed.
Print Assumptions C06_baton_never_stuck.

(** C06. Consecutive reported packets are more than the limit apart, whatever is detected. *)
Theorem C06_reported_packets_spaced : forall det len maxbuf n limit period T,
  (0 < n)%nat -> 0 < len -> 0 <= T -> T mod (len * Z.of_nat n) = 0 ->
  (n = 1%nat \/ forall start, snd (det start) = false) ->
  forall acts s, srun det len maxbuf (ssys_new det len n limit period T) acts = Ok s ->
  spaced limit (packet_times (s_jobs s)).
Proof. exact jobs_spaced. Qed.
Print Assumptions C06_reported_packets_spaced.

(** C06. Registration: all n workers obtain the same start time, it is the latest proposal, still a multiple
    of the buffer length, and exactly the last one to register calls work_start. *)
Theorem C06_registration_agrees : forall n T0 buflen nows,
  length nows = n -> (0 < n)%nat -> Forall (fun x => T0 < x /\ x mod buflen = 0) nows ->
  exists pre, snd (register_all n 0 T0 nows) = pre ++ [true] /\ Forall (fun b => b = false) pre /\
  In (worker_start n nows T0) nows /\ Forall (fun x => x <= worker_start n nows T0) nows /\
  worker_start n nows T0 mod buflen = 0.
Proof. exact registration_agrees. Qed.
Print Assumptions C06_registration_agrees.

(** C46. The guarantee documented in regular_report.hpp 46-56: every packet enqueued after a regular report
    is later than the report's barrier time, provided the search of a chunk never yields a fine peak before
    the chunk's first sample. *)
Theorem C46_regular_report_is_barrier : forall det len maxbuf n limit period T,
  (0 < n)%nat -> 0 < len -> 0 <= T -> T mod (len * Z.of_nat n) = 0 ->
  (n = 1%nat \/ forall start, snd (det start) = false) ->
  forall acts s, 0 <= limit ->
  (forall k t, In t (fst (det (chunk_at T len k))) -> chunk_at T len k <= t) ->
  srun det len maxbuf (ssys_new det len n limit period T) acts = Ok s ->
  forall before e l after, s_jobs s = before ++ JRegular e l :: after ->
  forall t, In t (packet_times after) -> barrier_time e l < t.
Proof. exact jobs_barrier. Qed.
Print Assumptions C46_regular_report_is_barrier.

(** Finding: two workers; worker 1 finds a packet at the very last step of its chunk while worker 0 still
    holds the baton. The first loop calls search() again, which jumps to worker 1's next chunk; when worker 1
    is handed the baton the continuity assert (worker_sync.cpp 200-207) fires. *)
Definition late_oracle : oracle := fun start => if start =? 10 then ([15], true) else ([], false).
Theorem C07_detection_at_chunk_end_refuted :
  srun late_oracle 10 10 (ssys_new late_oracle 10 2 3 2 0)
    [SSearchA 1; SSearchA 1; SSearchA 0; SAcquireA 0; SStepA 0; SAcquireA 1; SStepA 1] = Abort.
Proof. vm_compute. reflexivity. Qed.
Print Assumptions C07_detection_at_chunk_end_refuted.

(** Three workers; worker 1 buffers a packet early, a duplicate at a chunk border is dropped, a regular job
    follows every second chunk. *)
Definition demo_oracle : oracle := fun start =>
  if start =? 30 then ([34; 39], false) else if start =? 40 then ([41; 47], false) else ([], false).
Example C07_nonvacuous :
  let acts := [SSearchA 1; SSearchA 0; SSearchA 1; SSearchA 1; SAcquireA 0; SStepA 0; SStepA 0; SStepA 0;
               SAcquireA 1; SStepA 1; SSearchA 2; SAcquireA 2; SStepA 2] in
  exists s, srun demo_oracle 10 10 (ssys_new demo_oracle 10 3 3 2 30) acts = Ok s /\
    s_fin s = [(0%nat, 30); (1%nat, 40); (2%nat, 50)] /\
    s_jobs s = [JPacket 34; JPacket 39; JPacket 47; JRegular 49 47] /\
    Forall (fun a => is_quit a = false) acts /\
    30 mod (10 * Z.of_nat 3) = 0 /\ (forall start, snd (demo_oracle start) = false) /\
    (forall k t, In t (fst (demo_oracle (chunk_at 30 10 k))) -> chunk_at 30 10 k <= t).
Proof.
  cbv zeta. eexists. split; [vm_compute; reflexivity|]. split; [reflexivity|]. split; [reflexivity|].
  split; [repeat constructor|]. split; [reflexivity|]. split.
  - intros start. unfold demo_oracle. destruct (start =? 30); [reflexivity|]. destruct (start =? 40); reflexivity.
  - intros k t. unfold demo_oracle. destruct (Z.eqb_spec (chunk_at 30 10 k) 30) as [->|].
    + intros [<-|[<-|[]]]; lia.
    + destruct (Z.eqb_spec (chunk_at 30 10 k) 40) as [->|]; [|intros []]. intros [<-|[<-|[]]]; lia.
Qed.

Example C06_registration_nonvacuous :
  Forall (fun x => -1 < x /\ x mod 30 = 0) [60; 90; 90; 30] /\
  register_all 4 0 (-1) [60; 90; 90; 30] = (4%nat, 90, [false; false; false; true]).
Proof. split; [repeat constructor|reflexivity]. Qed.
