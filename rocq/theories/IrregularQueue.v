(** Model of the queue of pending irregular firmware callbacks.
    lib/src/phy/pool/irregular_queue.cpp, lib/include/dectnrp/phy/rx/sync/irregular_report.hpp,
    lib/src/phy/pool/worker_sync.cpp 293-317 *)
From Verif Require Import Base.
Open Scope Z_scope.

(** irregular_report.hpp 38: undefined_late = INT64_MAX *)
Definition undefined_late : Z := 9223372036854775807.

(** limits.hpp: max_irregular_callback_pending *)
Definition max_irregular_callback_pending : nat := 8.

(** irregular_report.hpp 30-63; time_of_recognition is an output of [enqueue_if_due]. *)
Record report := { call_after : Z; handle : N }.

Definition report_default : report := {| call_after := undefined_late; handle := 0 |}.

(** irregular_report.hpp 40-42 *)
Definition has_finite_time (r : report) : bool := call_after r <? undefined_late.

(** irregular_report.cpp 27-34 *)
Definition same_with_time_increment (r : report) (inc : Z) : res report :=
  guard (has_finite_time r) (guard (0 <? inc) (guard (inc <? undefined_late)
    (Ok {| call_after := call_after r + inc; handle := handle r |}))).

(** irregular_queue.hpp 52-60: the iterator it_next is a position or nullptr. *)
Record irq := { next_time : Z; arr : list report; it_next : option nat }.

(** irregular_queue.cpp 30-35 and the member initialisers *)
Definition irq_new : irq :=
  {| next_time := undefined_late; arr := repeat report_default max_irregular_callback_pending; it_next := None |}.

(** std::find_if: first position satisfying f, or the end. *)
Fixpoint find_pos (f : report -> bool) (l : list report) : option nat :=
  match l with
  | [] => None
  | x :: t => if f x then Some O else option_map S (find_pos f t)
  end.

(** std::min_element with the comparison of 90-93: first position holding the smallest time. *)
Fixpoint min_pos (l : list report) : option (nat * report) :=
  match l with
  | [] => None
  | x :: t =>
      match min_pos t with
      | None => Some (O, x)
      | Some (i, m) => if call_after m <? call_after x then Some (S i, m) else Some (O, x)
      end
  end.

(** irregular_queue.cpp 37-63 *)
Definition push (q : irq) (r : report) : res irq :=
  guard (has_finite_time r)
    match find_pos (fun e => negb (has_finite_time e)) (arr q) with
    | None => Abort
    | Some i =>
        let a := upd (arr q) i r in
        if call_after r <? next_time q
        then Ok {| next_time := call_after r; arr := a; it_next := Some i |}
        else Ok {| next_time := next_time q; arr := a; it_next := it_next q |}
    end.

(** irregular_queue.cpp 65-73 *)
Definition get_next_time (q : irq) : Z :=
  if next_time q <? undefined_late then next_time q else undefined_late.

(** irregular_queue.cpp 75-106 *)
Definition pop (q : irq) : res (irq * report) :=
  match it_next q with
  | None => Abort
  | Some i =>
      guard (i <? length (arr q))%nat
        (do ret <- rd (arr q) i ;
         let a := upd (arr q) i report_default in
         match min_pos a with
         | None => Oob (* dereferencing end(); the array is never empty *)
         | Some (j, m) =>
             if has_finite_time m
             then Ok ({| next_time := call_after m; arr := a; it_next := Some j |}, ret)
             else Ok ({| next_time := undefined_late; arr := a; it_next := None |}, ret)
         end)
  end.

(** worker_sync.cpp 293-317: enqueue_irregular_job_if_due. [holder]: does the caller hold the baton. Only the
    baton holder pops, so get_next_time and pop are taken as one step. The result is the report put into the
    job queue; its time_of_recognition is [now]. *)
Definition enqueue_if_due (q : irq) (holder : bool) (now : Z) : res (irq * option report) :=
  if negb holder then Ok (q, None)
  else if get_next_time q =? undefined_late then Ok (q, None)
  else if now <? get_next_time q then Ok (q, None)
  else
    do r <- pop q ;
    guard (0 <=? now - call_after (snd r)) (Ok (fst r, Some (snd r))).

Inductive iop := IPush (r : report) | IPop | INext | IDue (holder : bool) (now : Z).
Inductive iout := RPush | RPop (r : report) | RNext (t : Z) | RDue (r : option report).

(** push and pop run under lockv, so an execution is a sequence of calls. *)
Definition istep (q : irq) (o : iop) : res (irq * iout) :=
  match o with
  | IPush r => do q' <- push q r ; Ok (q', RPush)
  | IPop => do qr <- pop q ; Ok (fst qr, RPop (snd qr))
  | INext => Ok (q, RNext (get_next_time q))
  | IDue h now => do qr <- enqueue_if_due q h now ; Ok (fst qr, RDue (snd qr))
  end.

Fixpoint irun (q : irq) (ops : list iop) : res (irq * list iout) :=
  match ops with
  | [] => Ok (q, [])
  | o :: os =>
      do qr <- istep q o ;
      do qrs <- irun (fst qr) os ;
      Ok (fst qrs, snd qr :: snd qrs)
  end.
