(** C13: the callback scheduler. *)
From Coq Require Import Sorting.Sorted.
From Verif Require Import Base Callbacks CallbacksSpec CallbacksFacts.
Open Scope Z_scope.

(** One run: it returns exactly when every due slot keeps the rules, calls exactly the due slots,
    each once, in order of due time, and only reschedules those. *)
Theorem C13_run_exact :
  forall n st now, (0 < n)%nat -> reachable n st ->
    (all_fire_ok now (ents st) ->
       exists st' cs, run st now = Ok (st', cs) /\
         ents st' = map (after now) (ents st) /\ due_calls (ents st) now cs) /\
    (~ all_fire_ok now (ents st) -> is_ok (run st now) = false).
Proof. exact run_exact. Qed.
Print Assumptions C13_run_exact.

(** After a run every due time lies strictly in the future, whatever the callbacks did. *)
Theorem C13_next_due_in_future :
  forall n st now st' cs, (0 < n)%nat -> reachable n st ->
    run st now = Ok (st', cs) -> forall i e, nth_error (ents st') i = Some e -> now < next e.
Proof. exact run_future_reach. Qed.
Print Assumptions C13_next_due_in_future.

(** A periodic callback over a whole history of runs, additions and changes of other slots: its due
    times are nx, nx + p, nx + 2p, ... without gap or repetition, each is served by the first run
    that reaches it, and the next one is later than every run so far. *)
Theorem C13_periodic_exactly_once :
  forall n st os st' cs i nx p, (0 < n)%nat -> reachable n st ->
    nth_error (ents st) i = Some {| cb := Some plain; next := nx; period := p |} ->
    Forall (fun o => ~ touches i o) os -> exec st os = Ok (st', cs) ->
    exists k,
      map cdue (of_slot i cs) = ticks nx p k /\
      nth_error (ents st') i = Some {| cb := Some plain; next := nx + Z.of_nat k * p; period := p |} /\
      Forall (fun t => t < nx + Z.of_nat k * p) (run_times os) /\
      Forall (fun c => find (fun t => cdue c <=? t) (run_times os) = Some (cnow c)) (of_slot i cs).
Proof. exact periodic_reach. Qed.
Print Assumptions C13_periodic_exactly_once.

(** Adding uses a free slot and disturbs no other; it is refused only when all are taken. *)
Theorem C13_add_uses_free_slot :
  forall st b n p,
    match snd (add_callback st b n p) with
    | None => Forall (fun e => cb e <> None) (ents st) /\ fst (add_callback st b n p) = st
    | Some i =>
        (exists e, nth_error (ents st) i = Some e /\ cb e = None) /\
        nth_error (ents (fst (add_callback st b n p))) i =
          Some {| cb := Some b; next := n; period := p |} /\
        forall j, j <> i -> nth_error (ents (fst (add_callback st b n p))) j = nth_error (ents st) j
    end.
Proof. exact add_spec. Qed.
Print Assumptions C13_add_uses_free_slot.

(** The run loop ends: no more calls than slots. *)
Theorem C13_run_terminates :
  forall n st now, (0 < n)%nat -> reachable n st ->
    loop (S (length (ents st))) now st [] <> None.
Proof. exact (fun n st now Hn Hr => loop_total st now (reachable_good n st Hn Hr)). Qed.
Print Assumptions C13_run_terminates.

(** Finding: run() before the first add_callback follows a null iterator. *)
Theorem C13_run_before_add_refuted : forall n now, run (init n) now = Oob.
Proof. exact run_before_add. Qed.
Print Assumptions C13_run_before_add_refuted.

(** Two periodic timers, a third that changes its own period, and runs at irregular times. *)
Definition ex_hist : list op :=
  [Add plain 10 5; Add plain 8 7; Run 9; Add (fun _ n p => (n, p + 1)) 16 4; Run 12; Run 16; Run 20].
Definition ex_result : res (cbs * list call) := exec (init 4) ex_hist.
Example C13_nonvacuous :
  match ex_result with
  | Ok (st, cs) =>
      map (fun c => (cnow c, cidx c, cdue c)) cs =
        [(9, 1%nat, 8); (12, 0%nat, 10); (16, 0%nat, 15); (16, 1%nat, 15); (16, 2%nat, 16); (20, 0%nat, 20)]
  | _ => False
  end.
Proof. vm_compute. reflexivity. Qed.
Example C13_nonvacuous_reachable : exists st, reachable 4 st.
Proof.
  destruct ex_result as [[st cs]| | |] eqn:E; unfold ex_result in E.
  - exists st, ex_hist, cs. split; [exact E|]. do 3 eexists. left. reflexivity.
  - exfalso. pose proof C13_nonvacuous as H. unfold ex_result in H. rewrite E in H. exact H.
  - exfalso. pose proof C13_nonvacuous as H. unfold ex_result in H. rewrite E in H. exact H.
  - exfalso. pose proof C13_nonvacuous as H. unfold ex_result in H. rewrite E in H. exact H.
Qed.

(** A jump over a whole period is refused. *)
Example C13_skipped_period :
  is_ok (exec (init 4) [Add plain 10 5; Run 15]) = false.
Proof. vm_compute. reflexivity. Qed.
