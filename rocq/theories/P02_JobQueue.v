(** Properties C03 and C04: the job queue between producers and PHY workers. *)
From Verif Require Import Base JobQueue JobQueueSpec JobQueueFacts.

(** C03. Every history of calls behaves as a numbered bounded FIFO behind a gate; in particular no slot is
    read before it was written, no index leaves the array and the worker's wait loop never spins on a
    non-zero counter over an empty ring ([Throw]). With the default build switch ([fatal] = true) the only
    abort is an enqueue into a full queue. *)
Theorem C03_job_queue_refines_fifo : forall (A : Type) cap fatal (ops : list (jop A)),
  0 < cap ->
  match spec_run (cap - 1) fatal {| sp_open := false; sp_next := 0; sp_pending := [] |} ops with
  | Ok (_, outs) => exists q, jrun fatal (jq_new cap) ops = Ok (q, outs)
  | Abort => jrun fatal (jq_new cap) ops = Abort
  | Throw | Oob => False
  end.
Proof. exact @jobqueue_refines_fifo. Qed.
Print Assumptions C03_job_queue_refines_fifo.

(** C03, seen from outside: the jobs handed to workers are the accepted jobs in acceptance order, numbered
    0, 1, 2, ... without gap, and at most cap-1 accepted jobs are still pending. *)
Theorem C03_job_queue_order : forall (A : Type) cap fatal (ops : list (jop A)) q outs,
  0 < cap -> jrun fatal (jq_new cap) ops = Ok (q, outs) ->
  exists pending,
    number_from 0 (accepted false ops outs) = handed_out outs ++ pending /\
    length pending <= cap - 1.
Proof. exact @jobqueue_order. Qed.
Print Assumptions C03_job_queue_order.

Example C03_nonvacuous :
  let ops := [JEnqueue 9; JPermeable true; JEnqueue 5; JEnqueue 6; JEnqueue 7; JWait; JEnqueue 8; JWait; JWait; JWait] in
  exists q, jrun false (jq_new 3) ops =
    Ok (q, [REnqueue true; RPermeable; REnqueue true; REnqueue true; REnqueue false;
            RWait (Some {| fifo_cnt_of := 0; content := 5 |}); REnqueue true;
            RWait (Some {| fifo_cnt_of := 1; content := 6 |});
            RWait (Some {| fifo_cnt_of := 2; content := 8 |}); RWait None]).
Proof. cbn zeta. eexists. vm_compute. reflexivity. Qed.

(** C04. After set_impermeable (and before any set_permeable, as in a fresh queue), an enqueue reports
    success, changes nothing at all and cannot abort even when the queue is full. *)
Theorem C04_impermeable_drops : forall (A : Type) cap fatal (ops : list (jop A)) q outs a,
  jrun fatal (jq_new cap) ops = Ok (q, outs) -> last_gate false ops = false ->
  jstep fatal q (JEnqueue a) = Ok (q, REnqueue true).
Proof. exact @closed_gate_drops. Qed.
Print Assumptions C04_impermeable_drops.

(** C04. Jobs accepted before the gate closed are still handed out: workers that keep waiting receive all
    of them, in order, and afterwards only timeouts. *)
Theorem C04_pending_jobs_still_drain : forall (A : Type) cap fatal (ops : list (jop A)) q outs n,
  0 < cap -> jrun fatal (jq_new cap) ops = Ok (q, outs) ->
  length (accepted false ops outs) <= length (handed_out outs) + n ->
  exists q', jrun fatal q (repeat JWait n) =
    Ok (q', map (fun j => RWait (Some j))
                (skipn (length (handed_out outs)) (number_from 0 (accepted false ops outs))) ++
            repeat (RWait None) (n - (length (accepted false ops outs) - length (handed_out outs)))).
Proof. exact @jobqueue_drain. Qed.
Print Assumptions C04_pending_jobs_still_drain.

Example C04_nonvacuous :
  let ops := [JPermeable true; JEnqueue 5; JEnqueue 6; JPermeable false; JEnqueue 7] in
  exists q, jrun true (jq_new 3) ops =
      Ok (q, [RPermeable; REnqueue true; REnqueue true; RPermeable; REnqueue true]) /\
    last_gate false ops = false /\
    accepted false ops [RPermeable; REnqueue true; REnqueue true; RPermeable; REnqueue true] = [5; 6] /\
    exists q', jrun true q [JWait; JWait; JWait] =
      Ok (q', [RWait (Some {| fifo_cnt_of := 0; content := 5 |});
               RWait (Some {| fifo_cnt_of := 1; content := 6 |}); RWait None]).
Proof.
  cbn zeta. eexists. split; [vm_compute; reflexivity|]. split; [reflexivity|]. split; [reflexivity|].
  eexists. vm_compute. reflexivity.
Qed.

(** Finding: the per-slot statistics are attributed to the wrong slot. After one accepted enqueue and one
    hand-over on a fresh queue, slot 0 (which carried the job) reports 0/0 and slot 1 reports 1/1. *)
Theorem C03_slot_statistics_off_by_one : exists q outs,
  jrun true (jq_new 4) [JPermeable true; JEnqueue tt; JWait] = Ok (q, outs) /\
  map (fun s => (filled s, processed s)) (job_slot_vec q) = [(0,0); (1,1); (0,0); (0,0)].
Proof. eexists. eexists. split; vm_compute; reflexivity. Qed.
Print Assumptions C03_slot_statistics_off_by_one.
