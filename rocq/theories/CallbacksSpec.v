(** When timer callbacks are due, independent of how callbacks_t finds them. *)
From Coq Require Import Sorting.Sorted.
From Verif Require Import Base Callbacks.
Open Scope Z_scope.

(** Earlier due time first, for equal due times the lower slot first. *)
Definition before (x y : call) : Prop :=
  cdue x < cdue y \/ (cdue x = cdue y /\ (cidx x < cidx y)%nat).

(** The calls of one run at [now]: every slot that is due, each once, in order. *)
Definition due_calls (es : list entry) (now : Z) (cs : list call) : Prop :=
  StronglySorted before cs /\
  forall c, In c cs <->
    cnow c = now /\ cdue c <= now /\
    exists e, nth_error es (cidx c) = Some e /\ next e = cdue c.

(** The caller kept the rules for a slot that is due: it has a callback, less than one period has
    passed, and the callback leaves positive values and a due time in the future. *)
Definition fire_ok (now : Z) (e : entry) : Prop :=
  now < next e + period e /\
  match cb e with
  | None => False
  | Some b => let '(n, p) := b now (next e) (period e) in 0 < n /\ 0 < p /\ now < n + p
  end.

(** A slot after a run at [now]. *)
Definition after (now : Z) (e : entry) : entry :=
  if next e <=? now then
    match cb e with
    | None => e
    | Some b => let '(n, p) := b now (next e) (period e) in
                {| cb := cb e; next := n + p; period := p |}
    end
  else e.

(** A callback that leaves its timer alone. *)
Definition plain : beh := fun _ n p => (n, p).

Definition run_times (os : list op) : list Z :=
  flat_map (fun o => match o with Run t => [t] | _ => [] end) os.

(** Modifications aimed at slot [i]. *)
Definition touches (i : nat) (o : op) : Prop :=
  match o with
  | UpdNext j _ | AdjNext j _ | UpdPeriod j _ | AdjPeriod j _ => i = j
  | _ => False
  end.

(** Every slot that is due keeps the rules. *)
Definition all_fire_ok (now : Z) (l : list entry) : Prop :=
  forall i e, nth_error l i = Some e -> next e <= now -> fire_ok now e.

(** n, n + p, n + 2p, ... : the first [k] due times of a periodic timer. *)
Fixpoint ticks (n p : Z) (k : nat) : list Z :=
  match k with O => [] | S j => n :: ticks (n + p) p j end.

(** The calls made for slot [i]. *)
Definition of_slot (i : nat) (cs : list call) : list call :=
  filter (fun c => Nat.eqb (cidx c) i) cs.

(** States a user can have after at least one callback was added. *)
Definition reachable (n : nat) (st : cbs) : Prop :=
  exists os cs, exec (init n) os = Ok (st, cs) /\ exists b x p, In (Add b x p) os.
