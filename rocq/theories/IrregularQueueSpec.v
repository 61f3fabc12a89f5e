(** Specification of the irregular callback queue: a bag of pending callbacks. *)
From Verif Require Import Base IrregularQueue.
From Coq Require Export Permutation.
Open Scope Z_scope.

(** [x] is an earliest element of the bag [l] and [l'] is what remains without it. *)
Definition takes_earliest (l : list report) (x : report) (l' : list report) : Prop :=
  Permutation l (x :: l') /\ Forall (fun y => call_after x <= call_after y) l.

(** One call on the bag [l]: new bag and result. *)
Inductive spec_step (l : list report) : iop -> list report -> iout -> Prop :=
| SP_push r : has_finite_time r = true -> (length l < max_irregular_callback_pending)%nat ->
    spec_step l (IPush r) (r :: l) RPush
| SP_pop x l' : takes_earliest l x l' -> spec_step l IPop l' (RPop x)
| SP_next_none : l = [] -> spec_step l INext l (RNext undefined_late)
| SP_next x l' : takes_earliest l x l' -> spec_step l INext l (RNext (call_after x))
| SP_due x l' now : takes_earliest l x l' -> call_after x <= now -> spec_step l (IDue true now) l' (RDue (Some x))
| SP_not_due h now : (h = true -> Forall (fun y => now < call_after y) l) -> spec_step l (IDue h now) l (RDue None).

Inductive spec_run : list report -> list iop -> list report -> list iout -> Prop :=
| SR_nil l : spec_run l [] l []
| SR_cons l o l1 r os l2 rs : spec_step l o l1 r -> spec_run l1 os l2 rs -> spec_run l (o :: os) l2 (r :: rs).

(** Calls the queue refuses with an assertion. *)
Definition refused (l : list report) (o : iop) : Prop :=
  match o with
  | IPush r => has_finite_time r = false \/ length l = max_irregular_callback_pending
  | IPop => l = []
  | _ => False
  end.

Definition pushed_of (ops : list iop) : list report :=
  flat_map (fun o => match o with IPush r => [r] | _ => [] end) ops.
Definition popped_of (outs : list iout) : list report :=
  flat_map (fun o => match o with RPop r | RDue (Some r) => [r] | _ => [] end) outs.
