(** Properties C01 and C02: the application datagram queue. *)
From Verif Require Import Base DatagramQueue DatagramQueueSpec DatagramQueueFacts.

(** C01. Any history of calls on a queue of valid size produces exactly the outputs of a bounded FIFO
    holding at most N_datagram-1 datagrams; it aborts exactly when the FIFO specification does
    (oversized write into a non-full queue, level request above 8) and never touches memory out of
    bounds. *)
Theorem C01_queue_refines_fifo : forall sz fill ops,
  queue_size_is_valid sz = true -> Forall op_wf ops ->
  match spec_run (N_datagram sz - 1) (N_datagram_max_byte sz) [] ops with
  | Ok (_, outs) => exists q, run (queue_new sz fill) ops = Ok (q, outs)
  | Abort => run (queue_new sz fill) ops = Abort
  | Throw | Oob => False
  end.
Proof. exact queue_refines_fifo. Qed.
Print Assumptions C01_queue_refines_fifo.

(** C01, as seen from outside: after construction or after a clear, the accepted datagrams are the
    delivered ones, in order and byte for byte, followed by at most N_datagram-1 undelivered ones. *)
Theorem C01_queue_fifo_order : forall sz fill ops0 ops q outs0 outs,
  queue_size_is_valid sz = true ->
  Forall op_wf ops0 -> Forall op_plain ops ->
  length outs0 = length ops0 ->
  run (queue_new sz fill) (ops0 ++ OClear :: ops) = Ok (q, outs0 ++ RClear :: outs) ->
  exists pending,
    accepted ops outs = delivered outs ++ pending /\ length pending <= N_datagram sz - 1.
Proof. exact queue_fifo_order. Qed.
Print Assumptions C01_queue_fifo_order.

(** The hypotheses are met by a history that wraps the ring. *)
Example C01_nonvacuous :
  let sz := {| N_datagram := 3; N_datagram_max_byte := 4 |} in
  let w x := OWrite [x; x]%N 2 true in
  let ops := [w 1%N; w 2%N; w 3%N; ORead true true; w 4%N; ORead true true; ORead true true; ORead true true] in
  queue_size_is_valid sz = true /\ Forall op_wf ops /\ Forall op_plain ops /\
  exists q, run (queue_new sz 0%N) ops =
    Ok (q, [RWrite 2; RWrite 2; RWrite 0; RRead 2 [1;1]%N; RWrite 2; RRead 2 [2;2]%N; RRead 2 [4;4]%N; RRead 0 []]).
Proof.
  cbn zeta. split; [reflexivity|]. split; [repeat constructor|]. split; [repeat constructor|].
  eexists. vm_compute. reflexivity.
Qed.


(** C01, boundary behaviour: an empty datagram is accepted although its write returns 0 (the same value
    as a refusal), so the next write into a two-slot queue is refused; a one-slot queue accepts nothing
    at all. *)
Theorem C01_zero_length_write_enqueues : exists q1 q2 q3,
  step (queue_new {| N_datagram := 2; N_datagram_max_byte := 4 |} 0%N) (OWrite [] 0 true) = Ok (q1, RWrite 0) /\
  step q1 (OWrite [7%N] 1 true) = Ok (q2, RWrite 0) /\
  step (queue_new {| N_datagram := 2; N_datagram_max_byte := 4 |} 0%N) (OWrite [7%N] 1 true) = Ok (q3, RWrite 1).
Proof. exact zero_length_write_enqueues. Qed.
Print Assumptions C01_zero_length_write_enqueues.

Theorem C01_one_slot_queue_rejects : forall maxb fill ops q outs inp n,
  queue_size_is_valid {| N_datagram := 1; N_datagram_max_byte := maxb |} = true ->
  Forall op_wf ops -> n <= length inp ->
  run (queue_new {| N_datagram := 1; N_datagram_max_byte := maxb |} fill) ops = Ok (q, outs) ->
  step q (OWrite inp n true) = Ok (q, RWrite 0).
Proof. exact one_slot_queue_rejects. Qed.
Print Assumptions C01_one_slot_queue_rejects.

(** C02. In every reachable state a queue level report leaves the queue unchanged and lists the lengths
    of the next pending datagrams: reading that many datagrams afterwards returns exactly these lengths,
    and a report shorter than requested means nothing else is pending. *)
Theorem C02_level_announces_reads : forall sz fill ops q outs n q1 l,
  queue_size_is_valid sz = true -> Forall op_wf ops ->
  run (queue_new sz fill) ops = Ok (q, outs) ->
  step q (OLevel n true) = Ok (q1, RLevel l) ->
  q1 = q /\ length l <= n /\
  exists q2 rs, run q (repeat (ORead true true) (length l)) = Ok (q2, rs) /\
    map read_len rs = map (fun x => Some (x, x)) l /\
    (length l < n -> step q2 (OLevel 1 true) = Ok (q2, RLevel [])).
Proof. exact level_announces_reads. Qed.
Print Assumptions C02_level_announces_reads.

(** C02. A report of up to 8 levels is always available. *)
Theorem C02_level_defined : forall sz fill ops q outs n,
  queue_size_is_valid sz = true -> Forall op_wf ops ->
  run (queue_new sz fill) ops = Ok (q, outs) -> n <= 8 ->
  exists l, step q (OLevel n true) = Ok (q, RLevel l).
Proof. exact level_defined. Qed.
Print Assumptions C02_level_defined.

Example C02_nonvacuous :
  let sz := {| N_datagram := 3; N_datagram_max_byte := 4 |} in
  let ops := [OWrite [1]%N 1 true; ORead true true; OWrite [2; 2]%N 2 true; OWrite [3; 3; 3]%N 3 true] in
  exists q outs, run (queue_new sz 0%N) ops = Ok (q, outs) /\ step q (OLevel 4 true) = Ok (q, RLevel [2; 3]).
Proof. do 2 eexists. vm_compute. split; reflexivity. Qed.
