(** Specification of the job queue: a numbered bounded FIFO behind a gate. No ring, no slots. *)
From Verif Require Import Base JobQueue.

Section Spec.
  Context {A : Type}.

  (** Gate open?, number the next accepted job gets, pending jobs oldest first. *)
  Record jspec := { sp_open : bool; sp_next : Z; sp_pending : list (Z * A) }.

  Definition pair_of (j : job A) : Z * A := (fifo_cnt_of j, content j).
  Definition job_of (p : Z * A) : job A := {| fifo_cnt_of := fst p; content := snd p |}.

  Definition spec_step (cap : nat) (fatal : bool) (s : jspec) (o : jop A) : res (jspec * jout A) :=
    match o with
    | JPermeable b => Ok ({| sp_open := b; sp_next := sp_next s; sp_pending := sp_pending s |}, RPermeable)
    | JEnqueue a =>
        if negb (sp_open s) then Ok (s, REnqueue true)
        else if cap <=? length (sp_pending s)
        then (if fatal then Abort else Ok (s, REnqueue false))
        else Ok ({| sp_open := sp_open s; sp_next := sp_next s + 1;
                    sp_pending := sp_pending s ++ [(sp_next s, a)] |}, REnqueue true)
    | JWait =>
        match sp_pending s with
        | [] => Ok (s, RWait None)
        | p :: l => Ok ({| sp_open := sp_open s; sp_next := sp_next s; sp_pending := l |},
                        RWait (Some (job_of p)))
        end
    end.

  Fixpoint spec_run (cap : nat) (fatal : bool) (s : jspec) (ops : list (jop A)) : res (jspec * list (jout A)) :=
    match ops with
    | [] => Ok (s, [])
    | o :: os =>
        do sr <- spec_step cap fatal s o ;
        do srs <- spec_run cap fatal (fst sr) os ;
        Ok (fst srs, snd sr :: snd srs)
    end.

  (** Observer functions on a history. [acc] lists the contents whose enqueue returned true while the
      gate was open; the gate state is recomputed from the calls alone. *)
  Fixpoint accepted (gate : bool) (ops : list (jop A)) (outs : list (jout A)) : list A :=
    match ops, outs with
    | JPermeable b :: os, _ :: rs => accepted b os rs
    | JEnqueue a :: os, REnqueue true :: rs =>
        if gate then a :: accepted gate os rs else accepted gate os rs
    | _ :: os, _ :: rs => accepted gate os rs
    | _, _ => []
    end.

  (** The jobs handed to workers, in order. *)
  Fixpoint handed_out (outs : list (jout A)) : list (job A) :=
    match outs with
    | RWait (Some j) :: rs => j :: handed_out rs
    | _ :: rs => handed_out rs
    | [] => []
    end.
  (** 0, 1, 2, ... attached to a list. *)
  Fixpoint number_from (z : Z) (l : list A) : list (job A) :=
    match l with
    | [] => []
    | a :: l' => {| fifo_cnt_of := z; content := a |} :: number_from (z + 1) l'
    end.
End Spec.
