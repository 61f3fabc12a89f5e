(** C66: the job queue of the default build, under every interleaving of producers and workers. *)
From Verif Require Import Base JobQueue JobQueueSpec JobQueueMc JobQueueMcSpec JobQueueMcFacts.
From Coq Require Import Lia.

(** A schedule that the examples use: two producers in the lock's queue, two workers, a refused job. *)
Definition sched : list (mcact nat) :=
  [AGate true; ACall 0 7; AProd 0 true; ACall 1 8; AProd 1 true; AProd 1 true; AProd 0 true; AProd 1 true; AProd 1 true; AProd 1 true;
   ACons 0; AProd 1 true; AProd 1 true; AProd 0 true; AProd 0 true; AProd 0 false; ATimeout 1; ACons 0; AProd 0 true; AProd 0 true;
   AProd 0 true; AProd 1 true; ACall 0 9; AProd 0 true; AGate false; AProd 0 true; ACall 1 5; AProd 1 true; AProd 1 true; AProd 0 true; AProd 0 true; AProd 0 true; ACons 1].
Example sched_runs : exists q, mcrun false (mc_new 2 2) sched =
  Ok (q, [EGate true; ECall 0 7; ECall 1 8; EPush 1 {| fifo_cnt_of := 0; content := 8 |}; EFull 0; ETimeout 1;
          EHand 0 {| fifo_cnt_of := 0; content := 8 |}; EReturn 0 false; EReturn 1 true; ECall 0 9; EGate false; ECall 1 5; EClosed 1; EReturn 1 true;
          EPush 0 {| fifo_cnt_of := 1; content := 9 |}]).
Proof. eexists. vm_compute. reflexivity. Qed.

(** The jobs that entered are numbered 0, 1, 2, ... without a gap, a refused job uses up no number, and the jobs handed out are the first ones that
    entered, each once and in order; the others are still in the queue. *)
Theorem C66_order : forall A fatal np nc (xs : list (mcact A)) q es, mcrun fatal (mc_new np nc) xs = Ok (q, es) ->
  entered es = number_from 0 (map content (entered es)) /\ entered es = handed es ++ mc_fifo q.
Proof.
  intros A fatal np nc xs q es R. pose proof (run_inv fatal xs _ _ _ (@inv_new A np nc)) as I0. rewrite R in I0.
  split; [exact (i_num _ _ _ I0)|exact (i_split _ _ _ I0)].
Qed.

(** Every call is decided once, by its own job entering, by a closed gate or by a full queue, and returns what was decided. *)
Theorem C66_calls : forall A fatal np nc (xs : list (mcact A)) q es p, mcrun fatal (mc_new np nc) xs = Ok (q, es) ->
  calls_ok p false Idle es.
Proof.
  intros A fatal np nc xs q es p R. apply (run_calls fatal p xs (mc_new np nc) Idle q es); [|exact R].
  cbn [mc_new mc_prods]. rewrite nth_repeat. reflexivity.
Qed.

(** No schedule makes a worker that was promised a job find none; and the program aborts only if a full queue is set to be fatal and
    try_enqueue refused a job. *)
Theorem C66_safe : forall A fatal np nc (xs : list (mcact A)),
  match mcrun fatal (mc_new np nc) xs with Ok _ => True | Abort => fatal = true | Throw | Oob => False end.
Proof.
  intros A fatal np nc xs. pose proof (run_inv fatal xs _ _ _ (@inv_new A np nc)) as I0.
  destruct (mcrun fatal (mc_new np nc) xs) as [[]| | |]; trivial.
Qed.
Section Room.
  Context {A : Type}.
  Lemma room_step q (x : mcact A) : (forall p, nth p (mc_prods q) PIdle <> PFatal) -> (forall p, x <> AProd p false) ->
    match mcstep true q x with
    | Abort => False
    | Ok (Some (q', _)) => forall p, nth p (mc_prods q') PIdle <> PFatal
    | _ => True
    end.
  Proof.
    intros F X. destruct x as [p a|p ok|c|c|b]; cbn [mcstep].
    - destruct (Nat.ltb_spec p (length (mc_prods q))); [|exact I]. destruct (nth p (mc_prods q) PIdle); try exact I.
      intros p'. cbn [set_prod mc_prods]. rewrite nth_upd by assumption. destruct (p' =? p); [discriminate|apply F].
    - destruct ok; [|exfalso; exact (X p eq_refl)]. destruct (Nat.ltb_spec p (length (mc_prods q))); [|exact I]. unfold prod_step.
      destruct (nth p (mc_prods q) PIdle) eqn:E; try exact I; try (exfalso; exact (F p E));
        repeat match goal with |- context [if mc_gate q then _ else _] => destruct (mc_gate q)
               | |- context [match mc_holder q with _ => _ end] => destruct (mc_holder q); [exact I|] end;
        intros p'; cbn [set_prod set_holder set_queue set_cnt mc_prods]; rewrite nth_upd by assumption; (destruct (p' =? p); [discriminate|apply F]).
    - destruct (c <? length (mc_cons q)); [|exact I]. unfold cons_step. destruct (nth c (mc_cons q) CWait).
      + destruct (mc_sem q); [exact I|]. exact F.
      + destruct (mc_fifo q); [exact I|]. exact F.
    - destruct (c <? length (mc_cons q)); [|exact I]. destruct (nth c (mc_cons q) CWait); [|exact I]. destruct (mc_sem q); [|exact I]. exact F.
    - exact F.
  Qed.
  Lemma room_run : forall xs q, (forall p, nth p (mc_prods q) PIdle <> PFatal) -> (forall p, ~ In (AProd p false) xs) ->
    mcrun true q xs <> @Abort (mcq A * list (mcev A)).
  Proof.
    induction xs as [|x xs IH]; intros q F N; cbn [mcrun]; [discriminate|].
    assert (N' : forall p, ~ In (AProd p false) xs) by (intros p K; apply (N p); right; exact K).
    assert (X : forall p, x <> AProd p false) by (intros p ->; apply (N p); left; reflexivity).
    pose proof (room_step q x F X) as S. destruct (mcstep true q x) as [[[q1 e]|]| | |]; cbn [bind]; try discriminate; try contradiction.
    - specialize (IH q1 S N'). destruct (mcrun true q1 xs); cbn [bind]; congruence.
    - exact (IH q F N').
  Qed.
End Room.
Theorem C66_room : forall A np nc (xs : list (mcact A)), (forall p, ~ In (AProd p false) xs) ->
  exists q es, mcrun true (mc_new np nc) xs = Ok (q, es).
Proof.
  intros A np nc xs N. pose proof (C66_safe A true np nc xs) as S.
  assert (K : mcrun true (mc_new np nc) xs <> Abort).
  { apply room_run; [|exact N]. intros p. cbn [mc_new mc_prods]. rewrite nth_repeat. discriminate. }
  destruct (mcrun true (mc_new np nc) xs) as [[q es]| | |]; try contradiction. exists q, es. reflexivity.
Qed.
(** With the default setting a refused job ends the program. *)
Theorem C66_full_fatal : exists xs, mcrun true (@mc_new nat 1 1) xs = Abort.
Proof. exists [AGate true; ACall 0 7; AProd 0 true; AProd 0 true; AProd 0 true; AProd 0 false; AProd 0 true]. vm_compute. reflexivity. Qed.

(** A worker times out only while every job in the queue is claimed by another worker, except for one still being announced. *)
Theorem C66_timeout : forall A fatal np nc (xs : list (mcact A)) q es c, mcrun fatal (mc_new np nc) xs = Ok (q, es) ->
  mcstep fatal q (ATimeout c) = Ok (Some (q, [ETimeout c])) ->
  count taking (mc_cons q) <= length (mc_fifo q) <= S (count taking (mc_cons q)) /\
  (mc_holder q = None -> length (mc_fifo q) = count taking (mc_cons q)).
Proof.
  intros A fatal np nc xs q es c R T. pose proof (run_inv fatal xs _ _ _ (@inv_new A np nc)) as I0. rewrite R in I0.
  pose proof (i_sem _ _ _ I0) as Se. cbn [mcstep] in T. destruct (c <? length (mc_cons q)); [|discriminate].
  destruct (nth c (mc_cons q) CWait); [|discriminate]. destruct (mc_sem q); [|discriminate].
  assert (U : unsignalled (hpc q) <= 1) by (destruct (hpc q); cbn; lia). split; [lia|].
  intros Hn. unfold hpc in Se. rewrite Hn in Se. cbn [unsignalled] in Se. lia.
Qed.

(** Two producers are never between lock and unlock at once. *)
Theorem C66_mutex : forall A fatal np nc (xs : list (mcact A)) q es p p', mcrun fatal (mc_new np nc) xs = Ok (q, es) ->
  crit (nth p (mc_prods q) PIdle) = true -> crit (nth p' (mc_prods q) PIdle) = true -> p = p'.
Proof.
  intros A fatal np nc xs q es p p' R C C'. pose proof (run_inv fatal xs _ _ _ (@inv_new A np nc)) as I0. rewrite R in I0.
  apply (i_lock _ _ _ I0) in C. apply (i_lock _ _ _ I0) in C'. congruence.
Qed.

(** The producer in the lock leaves it by its own steps alone, five at the most, whatever the workers do; if try_enqueue refuses the job, this
    needs a full queue not to be fatal. *)
Definition leaves (A : Type) (fatal : bool) (q : mcq A) (p : nat) (oks : list bool) : Prop :=
  exists q' es, mcrun fatal q (map (AProd p) oks) = Ok (q', es) /\ mc_holder q' = None /\ mc_gate q' = mc_gate q.
Section Leave.
  Context {A : Type}.
  Lemma prun fatal (q q1 : mcq A) p o e os : p < length (mc_prods q) -> prod_step fatal q p o = Ok (Some (q1, e)) ->
    mc_gate q1 = mc_gate q -> leaves A fatal q1 p os -> leaves A fatal q p (o :: os).
  Proof.
    intros L S G (q' & es & R & H & G'). exists q', (e ++ es). cbn [map mcrun mcstep].
    apply Nat.ltb_lt in L. rewrite L, S. cbn [bind]. rewrite R. cbn [bind fst snd]. repeat split; congruence.
  Qed.
  Lemma pdone fatal (q : mcq A) p os : p < length (mc_prods q) -> mc_holder q = None -> nth p (mc_prods q) PIdle = PIdle -> leaves A fatal q p os.
  Proof.
    intros L H E. exists q, []. split; [|split; [exact H|reflexivity]]. induction os as [|o os IH]; [reflexivity|].
    cbn [map mcrun mcstep]. apply Nat.ltb_lt in L. rewrite L. unfold prod_step. rewrite E. cbn [bind]. exact IH.
  Qed.
  Ltac st := match goal with L : ?p < length (mc_prods _) |- leaves _ _ ?q ?p (_ :: _) =>
    eapply prun; [cbn [mc_prods set_prod set_queue set_cnt set_holder]; rewrite ?upd_length; exact L
                 |unfold prod_step; cbn [mc_prods set_prod set_queue set_cnt set_holder];
                  rewrite ?nth_upd_same by (rewrite ?upd_length; exact L);
                  match goal with E : nth p _ PIdle = _ |- _ => rewrite ?E | _ => idtac end; reflexivity
                 |reflexivity|] end.
  Ltac fin := match goal with L : ?p < _ |- leaves _ _ ?q ?p _ =>
    apply pdone; [cbn [mc_prods set_prod set_queue set_cnt set_holder]; rewrite ?upd_length; exact L | reflexivity || assumption |
      cbn [mc_prods set_prod set_queue set_cnt set_holder]; apply nth_upd_same; rewrite ?upd_length; exact L] end.
  Ltac last := match goal with L : ?p < _ |- leaves _ _ ?q ?p [] =>
    exists q, []; repeat split end.
  Lemma leaves5 (fatal : bool) (q : mcq A) p (oks : list bool) : p < length (mc_prods q) -> crit (nth p (mc_prods q) PIdle) = true ->
    length oks = 5 -> fatal = false \/ (nth p (mc_prods q) PIdle <> PFatal /\ ~ In false oks) -> leaves A fatal q p oks.
  Proof.
    intros L C N F. destruct oks as [|o1 [|o2 [|o3 [|o4 [|o5 [|o6 oks]]]]]]; try discriminate N.
    assert (O : fatal = false \/ (o1 = true /\ o2 = true)).
    { destruct F as [F|[_ F]]; [left; exact F|right]. split; [destruct o1|destruct o2]; try reflexivity; exfalso; apply F; cbn; tauto. }
    destruct (nth p (mc_prods q) PIdle) as [|a|a|a|j| | | |r|r] eqn:E; try discriminate C.
    - st. destruct o2.
      + do 4 st. last.
      + destruct O as [->|[_ O]]; [|discriminate O]. do 4 st. last.
    - destruct o1.
      + do 5 st. last.
      + destruct O as [->|[O _]]; [|discriminate O]. do 4 st. fin.
    - do 4 st. fin.
    - do 3 st. fin.
    - destruct F as [->|[F _]]; [|exfalso; apply F; reflexivity]. do 3 st. fin.
    - do 2 st. fin.
  Qed.
End Leave.
Theorem C66_lock_released : forall A fatal np nc (xs : list (mcact A)) q es p oks, mcrun fatal (mc_new np nc) xs = Ok (q, es) ->
  mc_holder q = Some p -> length oks = 5 -> fatal = false \/ (nth p (mc_prods q) PIdle <> PFatal /\ ~ In false oks) ->
  leaves A fatal q p oks.
Proof.
  intros A fatal np nc xs q es p oks R Hh N F. pose proof (run_inv fatal xs _ _ _ (@inv_new A np nc)) as I0. rewrite R in I0.
  assert (C : crit (nth p (mc_prods q) PIdle) = true) by (apply (i_lock _ _ _ I0); exact Hh).
  apply leaves5; try assumption. destruct (Nat.lt_ge_cases p (length (mc_prods q))) as [|K]; [assumption|].
  rewrite nth_overflow in C by exact K. discriminate.
Qed.
Example C66_lock_released_nonvacuous : exists q es, mcrun true (@mc_new nat 2 0) [AGate true; ACall 1 7; AProd 1 true; AProd 1 true] = Ok (q, es) /\
  mc_holder q = Some 1 /\ nth 1 (mc_prods q) PIdle <> PFatal.
Proof. eexists _, _. split; [vm_compute; reflexivity|]. split; [reflexivity|discriminate]. Qed.

(** Jobs can only be late by as many as were past the gate when it was closed: after that none enters until it is opened again. *)
Theorem C66_gate : forall A fatal (q : mcq A) xs q' es, mc_gate q = false -> never_opens xs -> mcrun fatal q xs = Ok (q', es) ->
  length (entered es) <= count in_flight (mc_prods q).
Proof. intros A fatal q xs q' es G N R. pose proof (run_closed fatal xs q q' es G N R). lia. Qed.
Example C66_gate_nonvacuous : exists q es, mcrun true (@mc_new nat 3 1)
    [AGate true; ACall 0 7; AProd 0 true; ACall 1 8; AProd 1 true; ACall 2 9; AProd 0 true; AGate false] = Ok (q, es) /\
  mc_gate q = false /\ count in_flight (mc_prods q) = 2 /\ never_opens (repeat (@AProd nat 0 true) 3 ++ repeat (AProd 2 true) 5).
Proof. eexists _, _. split; [vm_compute; reflexivity|]. split; [reflexivity|]. split; [reflexivity|]. intros K. cbn in K. intuition discriminate. Qed.
(** But set_impermeable does not wait for those: a job can enter after it has returned. *)
Theorem C66_gate_refuted : exists xs ys q es q' es',
  mcrun true (@mc_new nat 1 1) (xs ++ [AGate false]) = Ok (q, es) /\ mc_gate q = false /\ mc_fifo q = [] /\
  never_opens ys /\ mcrun true q ys = Ok (q', es') /\ entered es' = [{| fifo_cnt_of := 0; content := 7 |}].
Proof.
  exists [AGate true; ACall 0 7; AProd 0 true], [AProd 0 true; AProd 0 true; AProd 0 true]. do 4 eexists.
  split; [vm_compute; reflexivity|]. split; [reflexivity|]. split; [reflexivity|]. split; [intros K; cbn in K; intuition discriminate|].
  split; [vm_compute; reflexivity|]. reflexivity.
Qed.

(** Once no producer is in the lock and all workers wait, any one worker that keeps asking gets all pending jobs in order, and then times out. *)
Theorem C66_drain : forall A fatal np nc (xs : list (mcact A)) q es c, mcrun fatal (mc_new np nc) xs = Ok (q, es) ->
  mc_holder q = None -> count taking (mc_cons q) = 0 -> c < length (mc_cons q) ->
  exists q', mcrun fatal q (repeat (ACons c) (2 * length (mc_fifo q)) ++ [ATimeout c]) = Ok (q', map (EHand c) (mc_fifo q) ++ [ETimeout c]) /\
             mc_fifo q' = [].
Proof.
  intros A fatal np nc xs q es c R Hn T L. pose proof (run_inv fatal xs _ _ _ (@inv_new A np nc)) as I0. rewrite R in I0.
  pose proof (i_sem _ _ _ I0) as Se. unfold hpc in Se. rewrite Hn in Se. cbn [unsignalled] in Se.
  assert (W : nth c (mc_cons q) CWait = CWait).
  { pose proof (count_upd taking CWait CWait (mc_cons q) c L) as U. destruct (nth c (mc_cons q) CWait); [reflexivity|]. cbn [taking b2n] in U. lia. }
  assert (Sq : mc_sem q = length (mc_fifo q)) by lia. clear - L W Sq. apply Nat.ltb_lt in L.
  remember (mc_fifo q) as l eqn:E. symmetry in E. revert q L W E Sq. induction l as [|j l IH]; intros q L W E Sq.
  - exists q. change (2 * length (@nil (job A))) with 0. cbn [repeat map app mcrun mcstep]. rewrite L, W. cbn [length] in Sq. rewrite Sq. cbn. split; [reflexivity|exact E].
  - replace (2 * length (j :: l)) with (S (S (2 * length l))) by (cbn [length]; lia). cbn [repeat map app mcrun].
    cbn [mcstep]. rewrite L. unfold cons_step at 1. rewrite W. cbn [length] in Sq. rewrite Sq. cbn [bind fst snd].
    set (q1 := set_queue (set_con q c CTake) (mc_fifo q) (length l)).
    assert (L1 : (c <? length (mc_cons q1)) = true) by (cbn [q1 set_queue set_con mc_cons]; rewrite upd_length; exact L).
    rewrite L1. unfold cons_step at 1.
    assert (W1 : nth c (mc_cons q1) CWait = CTake) by (cbn [q1 set_queue set_con mc_cons]; apply nth_upd_same, Nat.ltb_lt, L).
    rewrite W1. replace (mc_fifo q1) with (j :: l) by (symmetry; exact E). cbn [bind fst snd].
    set (q2 := set_queue (set_con q1 c CWait) l (mc_sem q1)).
    destruct (IH q2) as (q' & R & F).
    + cbn [q2 set_queue set_con mc_cons]. rewrite upd_length. exact L1.
    + cbn [q2 set_queue set_con mc_cons]. apply nth_upd_same, Nat.ltb_lt, L1.
    + reflexivity.
    + reflexivity.
    + exists q'. rewrite R. cbn [bind fst snd app]. split; [reflexivity|exact F].
Qed.
Example C66_drain_nonvacuous : exists xs q es, mcrun false (@mc_new nat 2 2) xs = Ok (q, es) /\ mc_holder q = None /\
  count taking (mc_cons q) = 0 /\ length (mc_fifo q) = 2.
Proof.
  exists (AGate true :: ACall 0 7 :: ACall 1 8 :: repeat (AProd 1 true) 8 ++ repeat (AProd 0 true) 8). do 2 eexists.
  split; [vm_compute; reflexivity|]. repeat split.
Qed.

Print Assumptions C66_order.
Print Assumptions C66_calls.
Print Assumptions C66_safe.
Print Assumptions C66_room.
Print Assumptions C66_full_fatal.
Print Assumptions C66_timeout.
Print Assumptions C66_mutex.
Print Assumptions C66_lock_released.
Print Assumptions C66_gate.
Print Assumptions C66_gate_refuted.
Print Assumptions C66_drain.
