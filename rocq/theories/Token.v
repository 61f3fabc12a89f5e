(** Model of the firmware token and of the worker threads that call the firmware under it.
    lib/src/phy/pool/token.cpp, lib/include/dectnrp/phy/pool/token.hpp,
    lib/src/phy/pool/worker_tx_rx.cpp 34-253, lib/src/phy/pool/baton.cpp 62-97 *)
From Verif Require Import Base.

(** limits.hpp 53: max_nof_radio_phy_pairs_one_tpoint *)
Definition max_pools : nat := 4.

(** token.hpp members: the mutex lockv, id_holder (max_pools = nobody) and the next job number allowed
    per pool. Counters are int64_t; no wrap (see JobQueue.v). *)
Record token := { tk_locked : bool; tk_holder : nat; tk_cnt : list Z }.

(** INT64_MAX *)
Definition int64_max : Z := 9223372036854775807.

(** token.cpp 35-44: constructor; the assert on n_pools is the first line. *)
Definition token_new (n_pools : nat) : res token :=
  guard (n_pools <=? max_pools)
    (Ok {| tk_locked := false; tk_holder := max_pools;
           tk_cnt := repeat 0%Z n_pools ++ repeat int64_max (max_pools - n_pools) |}).

(** token.cpp 46-62: the wait part of lock_fifo_to, one evaluation of its predicate under lockv.
    Ok true: leave the loop; Ok false: keep waiting (or time out and be called again by
    TOKEN_LOCK_FIFO_OR_RETURN, worker_tx_rx.cpp 34-39, which re-evaluates the assert). *)
Definition fifo_check (t : token) (id : nat) (c : Z) : res bool :=
  do x <- rd (tk_cnt t) id ;
  guard (x <=? c)%Z (Ok (x =? c)%Z).

(** token.cpp 103-110: lock, once lockv could be acquired. *)
Definition token_lock (t : token) (id : nat) : res token :=
  guard (max_pools <=? tk_holder t)
    (Ok {| tk_locked := true; tk_holder := id; tk_cnt := tk_cnt t |}).

(** token.cpp 125-130: unlock. *)
Definition token_unlock (t : token) : token :=
  {| tk_locked := false; tk_holder := max_pools; tk_cnt := tk_cnt t |}.

(** token.cpp 86-101: unlock_fifo. *)
Definition token_unlock_fifo (t : token) : res token :=
  guard (tk_holder t <? max_pools)
    (do x <- rd (tk_cnt t) (tk_holder t) ;
     Ok (token_unlock {| tk_locked := tk_locked t; tk_holder := tk_holder t;
                         tk_cnt := upd (tk_cnt t) (tk_holder t) (x + 1)%Z |})).

Section Pool.
  Context {A : Type}.

  (** Where a worker_tx_rx thread is inside work(), worker_tx_rx.cpp 69-253. *)
  Inductive pc :=
  | Idle                      (* 76-84: about to take a job *)
  | Wants (c : Z) (a : A)     (* inside TOKEN_LOCK_FIFO_OR_RETURN, predicate not yet seen true *)
  | Admitted (c : Z) (a : A)  (* left the wait loop of lock_fifo_to, not yet in lock(): token.cpp 62-81 *)
  | InFifo (c : Z) (a : A)    (* firmware call for job number c is running *)
  | WantsPdc                  (* 183-193: decoding the PDC, then blocked in token->lock *)
  | InPdc                     (* 194-200: work_pdc or work_pdc_error is running *)
  | Draining                  (* 249-252: after shutdown, discards jobs *)
  | Gone.                     (* returned *)

  (** One pool: its job queue (proved in C03 to be a numbered FIFO) and whether the pool was started,
      i.e. work_start was called and the queue made permeable (worker_sync.cpp 96-114). [accepted] is a
      ghost list of all contents accepted so far. *)
  Record pool := { started : bool; pending : list (Z * A); accepted : list A }.

  (** [calls] is a ghost log of the in-order firmware calls (pool, job number, content). *)
  Record sys := {
    tok : token;
    pools : nat -> pool;
    workers : list (nat * pc);
    stop : bool;
    calls : list (nat * (Z * A))
  }.

  Inductive action :=
  | AStart (p : nat)            (* last sync worker of pool p registers: baton.cpp 76-85 *)
  | APush (p : nat) (a : A)     (* a producer calls enqueue_nto on pool p *)
  | AStop                       (* keep_running becomes false *)
  | ATake (w : nat)             (* worker w obtains a job *)
  | ACheck (w : nat)            (* worker w evaluates the wait predicate *)
  | ALock (w : nat)             (* worker w acquires lockv in lock() *)
  | AUnlock (w : nat) (pdc : bool) (* unlock_fifo; pdc: the job continues with the PDC *)
  | ALockPdc (w : nat)
  | AUnlockPdc (w : nat)
  | AQuit (w : nat).            (* the thread notices keep_running = false *)

  Definition set_worker (s : sys) (w : nat) (p : nat) (x : pc) : list (nat * pc) :=
    upd (workers s) w (p, x).

  Definition set_pool (f : nat -> pool) (p : nat) (x : pool) : nat -> pool :=
    fun q => if q =? p then x else f q.

  (** One atomic step. [Ok None]: the action is not enabled (the thread is elsewhere, blocked on the
      mutex or still waiting). Granularity: every member of token_t runs under lockv, the queue under its
      own mutex; work_start runs inside one lockv critical section and is taken as one step. *)
  Definition pstep (s : sys) (o : action) : res (option sys) :=
    match o with
    | AStart p =>
        if started (pools s p) then Ok None
        else if tk_locked (tok s) then Abort (* baton.cpp 78-80: try_lock failed *)
        else
          do t <- token_lock (tok s) 0 ;
          Ok (Some {| tok := token_unlock t;
                      pools := set_pool (pools s) p
                        {| started := true; pending := pending (pools s p);
                           accepted := accepted (pools s p) |};
                      workers := workers s; stop := stop s; calls := calls s |})
    | APush p a =>
        if started (pools s p)
        then Ok (Some {| tok := tok s;
                   pools := set_pool (pools s) p
                     {| started := true;
                        pending := pending (pools s p) ++ [(Z.of_nat (length (accepted (pools s p))), a)];
                        accepted := accepted (pools s p) ++ [a] |};
                   workers := workers s; stop := stop s; calls := calls s |})
        else Ok None
    | AStop => Ok (Some {| tok := tok s; pools := pools s; workers := workers s; stop := true; calls := calls s |})
    | ATake w =>
        match nth_error (workers s) w with
        | Some (p, x) =>
            match x, pending (pools s p) with
            | Idle, (c, a) :: l | Draining, (c, a) :: l =>
                let ps := set_pool (pools s) p
                            {| started := started (pools s p); pending := l; accepted := accepted (pools s p) |} in
                let x' := match x with Idle => Wants c a | _ => Draining end in
                Ok (Some {| tok := tok s; pools := ps; workers := set_worker s w p x';
                            stop := stop s; calls := calls s |})
            | _, _ => Ok None
            end
        | None => Ok None
        end
    | ACheck w =>
        match nth_error (workers s) w with
        | Some (p, Wants c a) =>
            if tk_locked (tok s) then Ok None
            else
              do b <- fifo_check (tok s) p c ;
              if b then Ok (Some {| tok := tok s; pools := pools s; workers := set_worker s w p (Admitted c a);
                                    stop := stop s; calls := calls s |})
              else Ok None
        | _ => Ok None
        end
    | ALock w =>
        match nth_error (workers s) w with
        | Some (p, Admitted c a) =>
            if tk_locked (tok s) then Ok None
            else
              do t <- token_lock (tok s) p ;
              Ok (Some {| tok := t; pools := pools s; workers := set_worker s w p (InFifo c a);
                          stop := stop s; calls := calls s ++ [(p, (c, a))] |})
        | _ => Ok None
        end
    | AUnlock w pdc =>
        match nth_error (workers s) w with
        | Some (p, InFifo c a) =>
            do t <- token_unlock_fifo (tok s) ;
            Ok (Some {| tok := t; pools := pools s;
                        workers := set_worker s w p (if pdc then WantsPdc else Idle);
                        stop := stop s; calls := calls s |})
        | _ => Ok None
        end
    | ALockPdc w =>
        match nth_error (workers s) w with
        | Some (p, WantsPdc) =>
            if tk_locked (tok s) then Ok None
            else
              do t <- token_lock (tok s) p ;
              Ok (Some {| tok := t; pools := pools s; workers := set_worker s w p InPdc;
                          stop := stop s; calls := calls s |})
        | _ => Ok None
        end
    | AUnlockPdc w =>
        match nth_error (workers s) w with
        | Some (p, InPdc) =>
            Ok (Some {| tok := token_unlock (tok s); pools := pools s; workers := set_worker s w p Idle;
                        stop := stop s; calls := calls s |})
        | _ => Ok None
        end
    | AQuit w =>
        if stop s then
          match nth_error (workers s) w with
          | Some (p, Idle) => (* 76, 248-252 *)
              Ok (Some {| tok := tok s; pools := pools s; workers := set_worker s w p Draining;
                          stop := stop s; calls := calls s |})
          | Some (p, Wants _ _) | Some (p, Draining) => (* 36-38: return, the job is dropped *)
              Ok (Some {| tok := tok s; pools := pools s; workers := set_worker s w p Gone;
                          stop := stop s; calls := calls s |})
          | _ => Ok None
          end
        else Ok None
    end.

  (** A schedule; actions that are not enabled are skipped. *)
  Fixpoint prun (s : sys) (os : list action) : res sys :=
    match os with
    | [] => Ok s
    | o :: os' =>
        do r <- pstep s o ;
        prun (match r with Some s' => s' | None => s end) os'
    end.

  (** Start state: [n] pools sharing one firmware, workers given by the pool they serve. *)
  Definition sys_new (n : nat) (ws : list nat) (already_started : bool) : res sys :=
    do t <- token_new n ;
    Ok {| tok := t;
          pools := fun _ => {| started := already_started; pending := []; accepted := [] |};
          workers := map (fun p => (p, Idle)) ws;
          stop := false; calls := [] |}.
End Pool.
Arguments pc : clear implicits.
Arguments pool : clear implicits.
Arguments sys : clear implicits.
Arguments action : clear implicits.
