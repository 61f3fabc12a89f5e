(** Model of the mutex-protected job queue between producers and PHY workers.
    lib/src/phy/pool/job_queue_naive.cpp, lib/include/dectnrp/phy/pool/job_queue_base.hpp,
    lib/include/dectnrp/phy/pool/job.hpp *)
From Verif Require Import Base.

Section JobQueue.
  (** job.hpp: the content variant (regular, irregular, sync or application report) is opaque here. *)
  Context {A : Type}.

  (** job.hpp: job_t, content plus the position assigned by the queue (int64_t; a machine enqueueing
      10^6 jobs/s would need 290000 years to wrap it, so Z without wrap). *)
  Record job := { fifo_cnt_of : Z; content : A }.

  (** job_queue_naive.hpp: job_slot_t with its statistics. *)
  Record job_slot := { slot_job : option job; filled : nat; processed : nat }.

  (** job_queue_base.hpp 60-95 and job_queue_naive.hpp members. *)
  Record jqueue := {
    capacity : nat;
    permeable : bool;
    next_fifo_cnt : Z;
    job_slot_vec : list job_slot;
    job_slot_vec_cnt : Z;
    enqueue_ptr : nat;
    dequeue_ptr : nat
  }.

  Definition slot_empty : job_slot := {| slot_job := None; filled := 0; processed := 0 |}.

  (** job_queue_naive.cpp 32-42: constructor; job_queue_base.hpp 78: permeable starts false. *)
  Definition jq_new (cap : nat) : jqueue :=
    {| capacity := cap; permeable := false; next_fifo_cnt := 0;
       job_slot_vec := repeat slot_empty cap; job_slot_vec_cnt := 0;
       enqueue_ptr := 0; dequeue_ptr := 0 |}.

  (** job_queue_base.hpp 68-69 *)
  Definition set_perm (b : bool) (q : jqueue) : jqueue :=
    {| capacity := capacity q; permeable := b; next_fifo_cnt := next_fifo_cnt q;
       job_slot_vec := job_slot_vec q; job_slot_vec_cnt := job_slot_vec_cnt q;
       enqueue_ptr := enqueue_ptr q; dequeue_ptr := dequeue_ptr q |}.

  (** job_queue_naive.cpp 196-204 *)
  Definition jq_get_free (q : jqueue) : nat :=
    if enqueue_ptr q <? dequeue_ptr q then dequeue_ptr q - enqueue_ptr q - 1
    else dequeue_ptr q + capacity q - enqueue_ptr q - 1.

  (** job_queue_naive.cpp 206-212 *)
  Definition jq_get_used (q : jqueue) : nat :=
    if dequeue_ptr q <=? enqueue_ptr q then enqueue_ptr q - dequeue_ptr q
    else enqueue_ptr q + capacity q - dequeue_ptr q.

  Definition bump_filled (s : job_slot) : job_slot :=
    {| slot_job := slot_job s; filled := S (filled s); processed := processed s |}.
  Definition bump_processed (s : job_slot) : job_slot :=
    {| slot_job := slot_job s; filled := filled s; processed := S (processed s) |}.
  Definition put_job (s : job_slot) (j : job) : job_slot :=
    {| slot_job := Some j; filled := filled s; processed := processed s |}.

  (** job_queue_naive.cpp 157-177: enqueue_under_lock. [fatal] tells whether
      PHY_POOL_JOB_QUEUE_JOB_SLOT_UNAVAILABILITY_FATAL_OR_DISCARD is defined (it is, by default,
      job_queue_base.hpp 42). *)
  Definition enqueue_under_lock (fatal : bool) (q : jqueue) (a : A) : res (jqueue * bool) :=
    if jq_get_free q =? 0 then (if fatal then Abort else Ok (q, false))
    else
      let j := {| fifo_cnt_of := next_fifo_cnt q; content := a |} in
      do s <- rd (job_slot_vec q) (enqueue_ptr q) ;
      let v := upd (job_slot_vec q) (enqueue_ptr q) (put_job s j) in
      let p := (enqueue_ptr q + 1) mod capacity q in
      do s' <- rd v p ;
      Ok ({| capacity := capacity q; permeable := permeable q;
             next_fifo_cnt := next_fifo_cnt q + 1;
             job_slot_vec := upd v p (bump_filled s');
             job_slot_vec_cnt := job_slot_vec_cnt q + 1;
             enqueue_ptr := p; dequeue_ptr := dequeue_ptr q |}, true).

  (** job_queue_naive.cpp 44-62: enqueue_nto. *)
  Definition enqueue_nto (fatal : bool) (q : jqueue) (a : A) : res (jqueue * bool) :=
    if negb (permeable q) then Ok (q, true) else enqueue_under_lock fatal q a.

  (** job_queue_naive.cpp 179-194: dequeue_under_lock. *)
  Definition dequeue_under_lock (q : jqueue) : res (jqueue * option job) :=
    if jq_get_used q =? 0 then Ok (q, None)
    else
      do s <- rd (job_slot_vec q) (dequeue_ptr q) ;
      let p := (dequeue_ptr q + 1) mod capacity q in
      do s' <- rd (job_slot_vec q) p ;
      match slot_job s with
      | None => Oob (* a slot that was never written: reading a default-constructed job *)
      | Some j =>
          Ok ({| capacity := capacity q; permeable := permeable q;
                 next_fifo_cnt := next_fifo_cnt q;
                 job_slot_vec := upd (job_slot_vec q) p (bump_processed s');
                 job_slot_vec_cnt := job_slot_vec_cnt q - 1;
                 enqueue_ptr := enqueue_ptr q; dequeue_ptr := p |}, Some j)
      end.

  (** job_queue_naive.cpp 96-155: wait_for_new_job_to, both variants, seen at the moment it returns: it
      returns false (timeout) only after the atomic counter was read as zero, otherwise it keeps calling
      dequeue_under_lock until that yields a job. One loop iteration is modelled; a positive counter
      with an empty ring would make the C++ loop spin and is reported as [Throw], to be proved
      unreachable. *)
  Definition wait_for_new_job_to (q : jqueue) : res (jqueue * option job) :=
    if (job_slot_vec_cnt q =? 0)%Z then Ok (q, None)
    else
      do r <- dequeue_under_lock q ;
      match snd r with
      | Some _ => Ok r
      | None => Throw
      end.

  Inductive jop :=
  | JPermeable (b : bool)
  | JEnqueue (a : A)
  | JWait.

  Inductive jout :=
  | RPermeable
  | REnqueue (accepted : bool)
  | RWait (j : option job).

  (** Every member function body runs under lockv, so an execution is a sequence of calls. *)
  Definition jstep (fatal : bool) (q : jqueue) (o : jop) : res (jqueue * jout) :=
    match o with
    | JPermeable b => Ok (set_perm b q, RPermeable)
    | JEnqueue a => do r <- enqueue_nto fatal q a ; Ok (fst r, REnqueue (snd r))
    | JWait => do r <- wait_for_new_job_to q ; Ok (fst r, RWait (snd r))
    end.

  Fixpoint jrun (fatal : bool) (q : jqueue) (ops : list jop) : res (jqueue * list jout) :=
    match ops with
    | [] => Ok (q, [])
    | o :: os =>
        do qr <- jstep fatal q o ;
        do qrs <- jrun fatal (fst qr) os ;
        Ok (fst qrs, snd qr :: snd qrs)
    end.
End JobQueue.
Arguments job : clear implicits.
Arguments job_slot : clear implicits.
Arguments jqueue : clear implicits.
Arguments jop : clear implicits.
Arguments jout : clear implicits.
