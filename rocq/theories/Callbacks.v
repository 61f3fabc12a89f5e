(** Model of the timer callbacks.
    lib/include/dectnrp/common/adt/callbacks.hpp, template class callbacks_t. *)
From Verif Require Import Base.
Open Scope Z_scope.

(** What a callback does with the two references it receives (callbacks.hpp 44-46): from now_64 and
    its current next_64 and period_64 it computes their new values. Everything else a callback does
    is invisible to callbacks_t: calling a modifier from a callback aborts (is_in_callback, 51, 73,
    79, 85, 91, 96), so a callback can only change its own entry. *)
Definition beh := Z -> Z -> Z -> Z * Z.

(** callback_entry_t, callbacks.hpp 157-161. [cb = None] is a null std::function. *)
Record entry := { cb : option beh; next : Z; period : Z }.

Definition int64_max : Z := 9223372036854775807.

Definition empty_entry : entry := {| cb := None; next := int64_max; period := 0 |}.

(** callbacks (163) and it_next (166), [None] for the initial null iterator. *)
Record cbs := { ents : list entry; it : option nat }.

(** [n] = limits::max_callbacks *)
Definition init (n : nat) : cbs := {| ents := repeat empty_entry n; it := None |}.

(** std::min_element with lhs.next_64 < rhs.next_64: the first of the smallest entries.
    callbacks.hpp 169-174. *)
Fixpoint min_from (best : nat) (bestv : Z) (i : nat) (l : list entry) : nat :=
  match l with
  | [] => best
  | e :: r => if next e <? bestv then min_from i (next e) (S i) r
              else min_from best bestv (S i) r
  end.
Definition min_element (l : list entry) : nat :=
  match l with
  | [] => 0%nat
  | e :: r => min_from 0 (next e) 1 r
  end.

Definition set_it_next (l : list entry) : cbs := {| ents := l; it := Some (min_element l) |}.

(** std::find_if of the first null callback, callbacks.hpp 53-55. *)
Fixpoint find_free (i : nat) (l : list entry) : option nat :=
  match l with
  | [] => None
  | e :: r => match cb e with None => Some i | Some _ => find_free (S i) r end
  end.

(** add_callback, callbacks.hpp 48-68 *)
Definition add_callback (st : cbs) (b : beh) (n p : Z) : cbs * option nat :=
  match find_free 0 (ents st) with
  | None => (st, None)
  | Some i => (set_it_next (upd (ents st) i {| cb := Some b; next := n; period := p |}), Some i)
  end.

(** rm_callback (71-75) assigns a callback_entry_t to a std::function; it does not compile when it
    is instantiated, no code calls it, and it is not modelled. *)

(** update_next 77-81, adjust_next 83-87: array::at throws for an index beyond the array.
    The size_t arguments are taken as the int64_t they are converted to. *)
Definition update_next (st : cbs) (i : nat) (n : Z) : res cbs :=
  match nth_error (ents st) i with
  | None => Throw
  | Some e => Ok (set_it_next (upd (ents st) i {| cb := cb e; next := n; period := period e |}))
  end.
Definition adjust_next (st : cbs) (i : nat) (d : Z) : res cbs :=
  match nth_error (ents st) i with
  | None => Throw
  | Some e => Ok (set_it_next (upd (ents st) i {| cb := cb e; next := next e + d; period := period e |}))
  end.

(** update_period 89-92, adjust_period 94-97 *)
Definition update_period (st : cbs) (i : nat) (p : Z) : res cbs :=
  match nth_error (ents st) i with
  | None => Throw
  | Some e => Ok {| ents := upd (ents st) i {| cb := cb e; next := next e; period := p |}; it := it st |}
  end.
Definition adjust_period (st : cbs) (i : nat) (d : Z) : res cbs :=
  match nth_error (ents st) i with
  | None => Throw
  | Some e => Ok {| ents := upd (ents st) i {| cb := cb e; next := next e; period := period e + d |};
                    it := it st |}
  end.

(** A call made by run(): at time [cnow] the callback in slot [cidx] for its due time [cdue]. *)
Record call := { cnow : Z; cidx : nat; cdue : Z }.

(** The while loop of run(), callbacks.hpp 104-122 and 134-152 (the two overloads only differ in
    keeping the last return value). A null callback throws std::bad_function_call.
    Outer [None]: fuel exhausted. *)
Fixpoint loop (fuel : nat) (now : Z) (st : cbs) (acc : list call) : option (res (cbs * list call)) :=
  match fuel with
  | O => None
  | S f =>
      match it st with
      | None => Some Oob
      | Some i =>
          match nth_error (ents st) i with
          | None => Some Oob
          | Some e =>
              if negb (next e <=? now) then Some (Ok (st, acc))
              else if negb (now <? next e + period e) then Some Abort           (* 105 *)
              else match cb e with
              | None => Some Throw
              | Some b =>
                  let '(n, p) := b now (next e) (period e) in                   (* 107-111 *)
                  if negb (0 <? n) then Some Abort                              (* 113 *)
                  else if negb (0 <? p) then Some Abort                         (* 114 *)
                  else if negb (now <? n + p) then Some Abort                   (* 116-118 *)
                  else loop f now
                         (set_it_next (upd (ents st) i
                            {| cb := cb e; next := n + p; period := p |}))
                         (acc ++ [{| cnow := now; cidx := i; cdue := next e |}])
              end
          end
      end
  end.

(** run(now_64), callbacks.hpp 99-126, 128-156. A run of the loop ends after at most one call per
    slot (proved: [CallbacksFacts.loop_total]). *)
Definition run (st : cbs) (now : Z) : res (cbs * list call) :=
  match loop (S (length (ents st))) now st [] with
  | Some r => r
  | None => Throw
  end.

Inductive op :=
| Add (b : beh) (n p : Z)
| UpdNext (i : nat) (n : Z)
| AdjNext (i : nat) (d : Z)
| UpdPeriod (i : nat) (p : Z)
| AdjPeriod (i : nat) (d : Z)
| Run (now : Z).

Definition step (st : cbs) (o : op) : res (cbs * list call) :=
  match o with
  | Add b n p => Ok (fst (add_callback st b n p), [])
  | UpdNext i n => do s <- update_next st i n; Ok (s, [])
  | AdjNext i n => do s <- adjust_next st i n; Ok (s, [])
  | UpdPeriod i n => do s <- update_period st i n; Ok (s, [])
  | AdjPeriod i n => do s <- adjust_period st i n; Ok (s, [])
  | Run now => run st now
  end.

Fixpoint exec (st : cbs) (os : list op) : res (cbs * list call) :=
  match os with
  | [] => Ok (st, [])
  | o :: r =>
      do x <- step st o;
      do y <- exec (fst x) r;
      Ok (fst y, snd x ++ snd y)
  end.
