(** What "one at a time and in order" means for the firmware, in terms of the call log only. *)
From Verif Require Import Base Token.

Section Spec.
  Context {A : Type}.

  (** The contents accepted by one pool's queue, numbered from 0. *)
  Fixpoint numbered (z : Z) (l : list A) : list (Z * A) :=
    match l with [] => [] | a :: l' => (z, a) :: numbered (z + 1) l' end.

  (** In-order firmware calls of one pool. *)
  Definition calls_of (p : nat) (log : list (nat * (Z * A))) : list (Z * A) :=
    map snd (filter (fun e => fst e =? p) log).

  Definition is_prefix {X} (l m : list X) : Prop := exists r, m = l ++ r.

  (** Contents offered to pool [p] while it was started, in order. *)
  Fixpoint pushed (st : bool) (p : nat) (acts : list (action A)) : list A :=
    match acts with
    | AStart q :: r => pushed (st || (q =? p)) p r
    | APush q a :: r => if (q =? p) && st then a :: pushed st p r else pushed st p r
    | _ :: r => pushed st p r
    | [] => []
    end.

  Definition pools_below (n : nat) (o : action A) : Prop :=
    match o with AStart p | APush p _ => p < n | _ => True end.

  (** Is this thread executing firmware code? *)
  Definition in_firmware (x : nat * pc A) : bool :=
    match snd x with InFifo _ _ | InPdc => true | _ => false end.

  Definition nof_in_firmware (s : sys A) : nat := length (filter in_firmware (workers s)).

  (** Actions taken by the worker threads themselves. *)
  Definition is_worker_action (o : action A) : bool :=
    match o with AStart _ | APush _ _ | AStop => false | _ => true end.

  Definition is_start (o : action A) : bool := match o with AStart _ => true | _ => false end.

  (** No worker can move. *)
  Definition quiescent (s : sys A) : Prop :=
    forall o, is_worker_action o = true -> pstep s o = Ok None.
End Spec.
