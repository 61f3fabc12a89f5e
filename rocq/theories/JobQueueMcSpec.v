(** What the job queue of the default build promises, in terms of observed events. *)
From Verif Require Import Base JobQueue JobQueueSpec JobQueueMc.

Section Spec.
  Context {A : Type}.

  (** The jobs that entered the queue and those handed to workers, in order. *)
  Fixpoint entered (es : list (mcev A)) : list (job A) :=
    match es with [] => [] | EPush _ j :: es => j :: entered es | _ :: es => entered es end.
  Fixpoint handed (es : list (mcev A)) : list (job A) :=
    match es with [] => [] | EHand _ j :: es => j :: handed es | _ :: es => handed es end.

  (** A call of enqueue_nto: not called; called with [a], [o] telling whether the gate has been open at some time since; decided. *)
  Inductive call := Idle | Called (a : A) (o : bool) | Decided (r : bool).
  Definition opened (c : call) : call := match c with Called a _ => Called a true | c => c end.

  (** The calls of producer [p] in a history that starts with gate [g]: each is decided exactly once between call and return and returns
      what was decided: true if its own job, unchanged, entered the queue, and then the gate was open at some time during the call; true if the gate was
      closed at some time during the call; false if the queue refused the job, and then also the gate was open. *)
  Fixpoint calls_ok (p : nat) (g : bool) (c : call) (es : list (mcev A)) : Prop :=
    match es with
    | [] => True
    | EGate b :: es => calls_ok p b (if b then opened c else c) es
    | ECall p' a :: es => if p' =? p then c = Idle /\ calls_ok p g (Called a g) es else calls_ok p g c es
    | EClosed p' :: es => if p' =? p then g = false /\ (exists a o, c = Called a o) /\ calls_ok p g (Decided true) es else calls_ok p g c es
    | EPush p' j :: es => if p' =? p then c = Called (content j) true /\ calls_ok p g (Decided true) es else calls_ok p g c es
    | EFull p' :: es => if p' =? p then (exists a, c = Called a true) /\ calls_ok p g (Decided false) es else calls_ok p g c es
    | EReturn p' r :: es => if p' =? p then c = Decided r /\ calls_ok p g Idle es else calls_ok p g c es
    | EHand _ _ :: es | ETimeout _ :: es => calls_ok p g c es
    end.

  (** Producers that have passed the gate but whose job has not entered yet. *)
  Definition in_flight (x : ppc A) : bool := match x with PLock _ | PNumber _ | PPush _ => true | _ => false end.
  Definition never_opens (xs : list (mcact A)) : Prop := ~ In (AGate true) xs.
  Definition count {B} (f : B -> bool) (l : list B) : nat := length (filter f l).
  (** Producers between lock and unlock. *)
  Definition crit (x : ppc A) : bool :=
    match x with PNumber _ | PPush _ | PSignal | PCount | PFatal | PUnlock _ => true | _ => false end.
  (** Workers that are about to take a job. *)
  Definition taking (x : cpc) : bool := match x with CTake => true | CWait => false end.
End Spec.
