(** Property C08: pending irregular callbacks are delivered once each, earliest first, never early. *)
From Verif Require Import Base IrregularQueue IrregularQueueSpec IrregularQueueFacts.
Open Scope Z_scope.

(** C08. Every history of push, pop, get_next_time and the sync worker's due check behaves like a bag of at
    most eight pending callbacks: pop and the due check deliver an earliest one, get_next_time announces its
    time, the due check delivers exactly when the earliest time has passed. The only assertion failures are
    pushing an infinite time, pushing a ninth callback and popping from an empty queue. *)
Theorem C08_queue_is_a_bag_earliest_first : forall ops,
  match irun irq_new ops with
  | Ok (_, outs) => exists pending, spec_run [] ops pending outs
  | Abort => exists pre o rest outs pending, ops = pre ++ o :: rest /\ spec_run [] pre pending outs /\ refused pending o
  | _ => False
  end.
Proof. exact irregular_queue_refines. Qed.
Print Assumptions C08_queue_is_a_bag_earliest_first.

(** C08. Whatever was pushed is either delivered once or still pending. *)
Theorem C08_each_callback_delivered_once : forall ops q outs, irun irq_new ops = Ok (q, outs) ->
  exists pending, Permutation (pushed_of ops) (popped_of outs ++ pending) /\
    (length pending <= max_irregular_callback_pending)%nat.
Proof. exact irregular_each_once. Qed.
Print Assumptions C08_each_callback_delivered_once.

(** Callbacks with equal times are not delivered in push order: the slot decides. *)
Theorem C08_ties_not_in_push_order :
  let r h := {| call_after := 5; handle := h |} in
  exists q, irun irq_new [IPush {| call_after := 1; handle := 0 |}; IPush (r 1%N); IPop; IPush (r 2%N); IPush (r 3%N); IPop; IPop; IPop]
    = Ok (q, [RPush; RPush; RPop {| call_after := 1; handle := 0 |}; RPush; RPush; RPop (r 1%N); RPop (r 2%N); RPop (r 3%N)]) /\
  exists q, irun irq_new [IPush {| call_after := 1; handle := 0 |}; IPush {| call_after := 2; handle := 0 |}; IPush (r 1%N); IPop; IPush (r 2%N); IPop; IPop; IPop]
    = Ok (q, [RPush; RPush; RPush; RPop {| call_after := 1; handle := 0 |}; RPush; RPop {| call_after := 2; handle := 0 |}; RPop (r 2%N); RPop (r 1%N)]).
Proof. cbv zeta. eexists. split; [vm_compute; reflexivity|]. eexists. vm_compute. reflexivity. Qed.
Print Assumptions C08_ties_not_in_push_order.

Example C08_nonvacuous :
  let r t h := {| call_after := t; handle := h |} in
  exists q, irun irq_new
    [IPush (r 30 1%N); IPush (r 10 2%N); INext; IDue true 9; IDue false 50; IPush (r 20 3%N); IDue true 50; INext; IPop; IPop; INext]
  = Ok (q, [RPush; RPush; RNext 10; RDue None; RDue None; RPush; RDue (Some (r 10 2%N)); RNext 20;
            RPop (r 20 3%N); RPop (r 30 1%N); RNext undefined_late]).
Proof. cbv zeta. eexists. vm_compute. reflexivity. Qed.

Example C08_abort_cases :
  irun irq_new [IPop] = Abort /\
  irun irq_new (repeat (IPush {| call_after := 4; handle := 0 |}) 9) = Abort /\
  is_ok (irun irq_new (repeat (IPush {| call_after := 4; handle := 0 |}) 8)) = true.
Proof. repeat split; vm_compute; reflexivity. Qed.
