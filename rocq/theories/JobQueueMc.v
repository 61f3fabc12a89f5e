(** Model of the job queue of the default build, at the granularity of single accesses to shared data.
    lib/src/phy/pool/job_queue_mc.cpp, lib/include/dectnrp/phy/pool/job_queue_mc.hpp, lib/include/dectnrp/phy/pool/job_queue_base.hpp
    job_queue.hpp 22-30: PHY_POOL_JOB_QUEUE_MOODYCAMEL_OR_NAIVE is defined, so this variant is built.

    The third-party moodycamel::BlockingConcurrentQueue is taken as its documentation describes it for a single producer token: a FIFO
    list; try_enqueue adds an element (or fails, at its own discretion, leaving the list as it is) and then raises a semaphore;
    wait_dequeue_timed lowers the semaphore or times out, and then takes the oldest element. *)
From Verif Require Import Base JobQueue.

Section JobQueueMc.
  Context {A : Type}.

  (** job_queue_mc.cpp 38-64: where a producer is in enqueue_nto. *)
  Inductive ppc :=
  | PIdle
  | PCheck (a : A)              (* line 39 *)
  | PLock (a : A)               (* line 44 *)
  | PNumber (a : A)             (* line 46 *)
  | PPush (j : job A)           (* line 48, the element *)
  | PSignal                     (* line 48, the semaphore *)
  | PCount                      (* line 50 *)
  | PFatal                      (* line 57-59 *)
  | PUnlock (r : bool)          (* lines 52 and 61 *)
  | PReturn (r : bool).         (* lines 40, 54 and 63 *)

  (** job_queue_mc.cpp 87-89: a worker waits, or has lowered the semaphore and is about to take an element. *)
  Inductive cpc := CWait | CTake.

  (** job_queue_base.hpp 68-80 and job_queue_mc.hpp: members *)
  Record mcq := {
    mc_gate : bool;                 (* permeable *)
    mc_cnt : Z;                     (* fifo_cnt; int64_t, taken as unbounded *)
    mc_fifo : list (job A);         (* elements of job_vec *)
    mc_sem : nat;                   (* semaphore of job_vec *)
    mc_holder : option nat;         (* owner of lockv *)
    mc_prods : list ppc;
    mc_cons : list cpc
  }.

  (** What is observed. *)
  Inductive mcev :=
  | ECall (p : nat) (a : A)         (* enqueue_nto called *)
  | EClosed (p : nat)               (* the gate was read as closed *)
  | EPush (p : nat) (j : job A)     (* the job entered the queue *)
  | EFull (p : nat)                 (* try_enqueue refused the job *)
  | EReturn (p : nat) (r : bool)
  | EHand (c : nat) (j : job A)     (* wait_for_new_job_to returned the job *)
  | ETimeout (c : nat)
  | EGate (b : bool).

  (** What the scheduler picks. [ok]: whether try_enqueue would find room, should the step be one. *)
  Inductive mcact :=
  | ACall (p : nat) (a : A)
  | AProd (p : nat) (ok : bool)
  | ACons (c : nat)
  | ATimeout (c : nat)
  | AGate (b : bool).

  (** job_queue_base.hpp 78-80: initial values, with [np] producers and [nc] workers *)
  Definition mc_new (np nc : nat) : mcq :=
    {| mc_gate := false; mc_cnt := 0; mc_fifo := []; mc_sem := 0; mc_holder := None;
       mc_prods := repeat PIdle np; mc_cons := repeat CWait nc |}.

  Definition set_prod (q : mcq) (p : nat) (x : ppc) : mcq :=
    {| mc_gate := mc_gate q; mc_cnt := mc_cnt q; mc_fifo := mc_fifo q; mc_sem := mc_sem q; mc_holder := mc_holder q;
       mc_prods := upd (mc_prods q) p x; mc_cons := mc_cons q |}.
  Definition set_holder (q : mcq) (h : option nat) : mcq :=
    {| mc_gate := mc_gate q; mc_cnt := mc_cnt q; mc_fifo := mc_fifo q; mc_sem := mc_sem q; mc_holder := h;
       mc_prods := mc_prods q; mc_cons := mc_cons q |}.
  Definition set_cnt (q : mcq) (n : Z) : mcq :=
    {| mc_gate := mc_gate q; mc_cnt := n; mc_fifo := mc_fifo q; mc_sem := mc_sem q; mc_holder := mc_holder q;
       mc_prods := mc_prods q; mc_cons := mc_cons q |}.
  Definition set_queue (q : mcq) (l : list (job A)) (n : nat) : mcq :=
    {| mc_gate := mc_gate q; mc_cnt := mc_cnt q; mc_fifo := l; mc_sem := n; mc_holder := mc_holder q;
       mc_prods := mc_prods q; mc_cons := mc_cons q |}.
  Definition set_con (q : mcq) (c : nat) (x : cpc) : mcq :=
    {| mc_gate := mc_gate q; mc_cnt := mc_cnt q; mc_fifo := mc_fifo q; mc_sem := mc_sem q; mc_holder := mc_holder q;
       mc_prods := mc_prods q; mc_cons := upd (mc_cons q) c x |}.
  (** job_queue_base.hpp 68-69: set_permeable, set_impermeable *)
  Definition set_gate (q : mcq) (b : bool) : mcq :=
    {| mc_gate := b; mc_cnt := mc_cnt q; mc_fifo := mc_fifo q; mc_sem := mc_sem q; mc_holder := mc_holder q;
       mc_prods := mc_prods q; mc_cons := mc_cons q |}.

  (** job_queue_mc.cpp 38-64: one step of a producer. None: the step cannot be taken now. [fatal] tells whether
      PHY_POOL_JOB_QUEUE_JOB_SLOT_UNAVAILABILITY_FATAL_OR_DISCARD is defined, as it is by default. *)
  Definition prod_step (fatal : bool) (q : mcq) (p : nat) (ok : bool) : res (option (mcq * list mcev)) :=
    match nth p (mc_prods q) PIdle with
    | PIdle => Ok None
    | PCheck a => Ok (if mc_gate q then Some (set_prod q p (PLock a), []) else Some (set_prod q p (PReturn true), [EClosed p]))
    | PLock a => Ok (match mc_holder q with None => Some (set_holder (set_prod q p (PNumber a)) (Some p), []) | Some _ => None end)
    | PNumber a => Ok (Some (set_prod q p (PPush {| fifo_cnt_of := mc_cnt q; content := a |}), []))
    | PPush j => Ok (if ok then Some (set_queue (set_prod q p PSignal) (mc_fifo q ++ [j]) (mc_sem q), [EPush p j])
                     else Some (set_prod q p PFatal, [EFull p]))
    | PSignal => Ok (Some (set_queue (set_prod q p PCount) (mc_fifo q) (S (mc_sem q)), []))
    | PCount => Ok (Some (set_cnt (set_prod q p (PUnlock true)) (mc_cnt q + 1), []))
    | PFatal => if fatal then Abort else Ok (Some (set_prod q p (PUnlock false), []))
    | PUnlock r => Ok (Some (set_holder (set_prod q p (PReturn r)) None, []))
    | PReturn r => Ok (Some (set_prod q p PIdle, [EReturn p r]))
    end.

  (** job_queue_mc.cpp 87-89: one step of a worker. A worker that finds no element after lowering the semaphore would
      spin; this is reported as Throw, to be proved unreachable. *)
  Definition cons_step (q : mcq) (c : nat) : res (option (mcq * list mcev)) :=
    match nth c (mc_cons q) CWait with
    | CWait => Ok (match mc_sem q with O => None | S n => Some (set_queue (set_con q c CTake) (mc_fifo q) n, []) end)
    | CTake => match mc_fifo q with
               | [] => Throw
               | j :: l => Ok (Some (set_queue (set_con q c CWait) l (mc_sem q), [EHand c j]))
               end
    end.

  Definition mcstep (fatal : bool) (q : mcq) (x : mcact) : res (option (mcq * list mcev)) :=
    match x with
    | ACall p a => Ok (if p <? length (mc_prods q) then
                         match nth p (mc_prods q) PIdle with PIdle => Some (set_prod q p (PCheck a), [ECall p a]) | _ => None end
                       else None)
    | AProd p ok => if p <? length (mc_prods q) then prod_step fatal q p ok else Ok None
    | ACons c => if c <? length (mc_cons q) then cons_step q c else Ok None
    | ATimeout c => Ok (if c <? length (mc_cons q) then
                          match nth c (mc_cons q) CWait, mc_sem q with CWait, O => Some (q, [ETimeout c]) | _, _ => None end
                        else None)
    | AGate b => Ok (Some (set_gate q b, [EGate b]))
    end.

  (** A schedule; picks that cannot be taken are skipped. *)
  Fixpoint mcrun (fatal : bool) (q : mcq) (xs : list mcact) : res (mcq * list mcev) :=
    match xs with
    | [] => Ok (q, [])
    | x :: xs =>
        do r <- mcstep fatal q x ;
        match r with
        | None => mcrun fatal q xs
        | Some (q', e) => do r' <- mcrun fatal q' xs ; Ok (fst r', e ++ snd r')
        end
    end.
End JobQueueMc.
Arguments ppc : clear implicits.
Arguments mcq : clear implicits.
Arguments mcev : clear implicits.
Arguments mcact : clear implicits.
