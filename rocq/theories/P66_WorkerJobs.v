(** C73: A worker carries out every answer of the firmware once, in order, before it calls the firmware again. *)
From Verif Require Import Base WorkerJobs WorkerJobsSpec WorkerJobsFacts.

(** All jobs of a worker, for every firmware and whatever the other threads do to the pools of buffers: everything asked for is done, also whenever the
    firmware is called in between; the HARQ process of every accepted packet is finished once; every job passes its ticket on once, and the firmware is only
    called with the token held, never while the worker works. *)
Theorem C73_worker : forall (W : Type) (firmware : W -> call -> W * answer) firmware_pcc take_buffer nof_hw js w w' t,
  (nof_hw < 2 ^ 64)%Z -> do_jobs W firmware firmware_pcc take_buffer nof_hw true js w = (w', t, inl tt) ->
  carried_out t /\ (forall t1 c a t2, t = t1 ++ ECall c a :: t2 -> carried_out t1) /\
  accepted t = finished t /\ tickets t = map j_fifo js /\ token_run Free t = Some Free.
Proof.
  intros W firmware firmware_pcc take_buffer nof_hw js w w' t Hhw H. apply do_jobs_done in H; [|exact Hhw]. destruct H as (ts & -> & F).
  change (forall t1 c a t2, concat ts = t1 ++ ECall c a :: t2 -> carried_out t1) with (served_before (concat ts)).
  induction F as [|j t js ts Hj F IH].
  - repeat split; try reflexivity; try (intros t1 c a t2 E; destruct t1; discriminate E).
    all: exfalso; match goal with E : concat [] = ?t1 ++ _ |- _ => destruct t1; discriminate E end.
  - destruct IH as (I1 & I2 & I3 & I4 & I5). destruct (job_proj j t Hj) as (J1 & J2 & J3 & J4 & J5 & _). cbn [concat].
    split; [apply carried_app; assumption|]. split; [apply before_app; assumption|]. split; [|split].
    + rewrite accepted_app, finished_app. f_equal; assumption.
    + rewrite tickets_app, J4, I4. reflexivity.
    + rewrite token_app, J5. exact I5.
Qed.

(** One job: which callbacks it leads to, and that its HARQ process learns the CRC of this packet. *)
Theorem C73_job : forall (W : Type) (firmware : W -> call -> W * answer) firmware_pcc take_buffer nof_hw j w w' t,
  (nof_hw < 2 ^ 64)%Z -> do_job W firmware firmware_pcc take_buffer nof_hw true j w = (w', t, inl tt) -> job_calls j t.
Proof.
  intros W firmware firmware_pcc take_buffer nof_hw j w w' t Hhw H. apply do_job_done in H; [|exact Hhw]. apply (job_proj j t H).
Qed.

(** If the firmware only uses the associated hardware and decides about a HARQ process exactly when it wants the packet, and there is always a buffer, no job
    makes the worker fail. *)
Theorem C73_completes : forall (W : Type) (firmware : W -> call -> W * answer) firmware_pcc take_buffer nof_hw asserts js w,
  (forall w c d, In d (a_tx (snd (firmware w c))) -> (d_hw d <= -1)%Z) -> (forall w, snd (take_buffer w None) = true) ->
  (forall w, l_continue (snd (firmware_pcc w)) = match l_hp (snd (firmware_pcc w)) with Some _ => true | None => false end) ->
  Forall (fun j => j_content j <> CNone) js ->
  exists w' t, do_jobs W firmware firmware_pcc take_buffer nof_hw asserts js w = (w', t, inl tt).
Proof.
  intros W firmware firmware_pcc take_buffer nof_hw asserts js w H1 H2 H3 F.
  destruct (do_jobs_total firmware firmware_pcc take_buffer nof_hw asserts (conj H1 (conj H2 H3)) js F w) as (w' & t & [] & E). eauto.
Qed.

(** A concrete firmware: a counter of its calls. Packets in every answer, a measurement after regular calls, an irregular call after a measurement. *)
Definition ex_firmware (w : nat) (c : call) : nat * answer :=
  (S w, match c with
        | WRegular => mkAnswer [mkDesc w 1 (-1); mkDesc w 2 (-1)] None (Some 9)
        | WChannel _ => mkAnswer [mkDesc w 3 (-5)] (Some 100%Z) None
        | _ => mkAnswer [mkDesc w 4 (-1)] (Some 50%Z) None
        end).
Definition ex_pcc (w : nat) : nat * low := (S w, if Nat.even w then mkLow true (Some w) else mkLow false None).
Definition ex_take (w : nat) (_ : option Z) : nat * bool := (w, true).
Definition ex_jobs : list job :=
  [mkJob 0 CRegular; mkJob 3 (CSync true true); mkJob 4 (CSync true false); mkJob 6 (CSync false false); mkJob 7 CApplication].
Example C73_nonvacuous : exists w' t, do_jobs nat ex_firmware ex_pcc ex_take 2 true ex_jobs 0 = (w', t, inl tt) /\
  length (packets t) = 6 /\ scans t = [9] /\ irregulars t = [100; 50; 50; 50]%Z /\ finished t = [2; 4] /\ tickets t = [0; 3; 4; 6; 7]%Z /\
  calls t = [WRegular; WChannel 9; WPdc; WPdcError; WApplication].
Proof. eexists _, _. split; [reflexivity|]. vm_compute. repeat split. Qed.

(** A packet for another hardware (tx_descriptor.hpp 70-78) is never generated: the exception ends the process. *)
Theorem C73_other_hw_refuted :
  ~ (forall (W : Type) (firmware : W -> call -> W * answer) firmware_pcc take_buffer nof_hw js w,
       (forall w c d, In d (a_tx (snd (firmware w c))) -> (-1 <= d_hw d < nof_hw)%Z) -> (0 < nof_hw < 2 ^ 64)%Z -> (forall w h, snd (take_buffer w h) = true) ->
       (forall w, l_continue (snd (firmware_pcc w)) = match l_hp (snd (firmware_pcc w)) with Some _ => true | None => false end) ->
       Forall (fun j => j_content j <> CNone) js ->
       exists w' t, do_jobs W firmware firmware_pcc take_buffer nof_hw true js w = (w', t, inl tt)).
Proof.
  intros H. destruct (H nat (fun w _ => (w, mkAnswer [mkDesc 0 0 1] None None)) (fun w => (w, mkLow false None)) ex_take 2%Z [mkJob 0 CRegular] 0) as (w' & t & E).
  - intros w c d [<-|[]]. cbn. lia.
  - lia.
  - reflexivity.
  - reflexivity.
  - constructor; [discriminate|constructor].
  - vm_compute in E. discriminate E.
Qed.

(** Without assertions, a packet for which there is no TX buffer is dropped, and its HARQ process is never given back. *)
Theorem C73_no_buffer_refuted :
  ~ (forall (W : Type) (firmware : W -> call -> W * answer) firmware_pcc take_buffer nof_hw js w w' t,
       (nof_hw < 2 ^ 64)%Z -> do_jobs W firmware firmware_pcc take_buffer nof_hw false js w = (w', t, inl tt) ->
       released t = flat_map (fun ca => map d_hp (a_tx (snd ca))) (answers t)).
Proof.
  intros H. specialize (H nat ex_firmware ex_pcc (fun w _ => (w, false)) 2%Z [mkJob 0 CApplication] 0 _ _ eq_refl eq_refl). vm_compute in H. discriminate H.
Qed.

(** A measurement asked for in the answer to a measurement is not made. *)
Theorem C73_nested_scan_refuted :
  ~ (forall (W : Type) (firmware : W -> call -> W * answer) firmware_pcc take_buffer nof_hw js w w' t,
       (nof_hw < 2 ^ 64)%Z -> do_jobs W firmware firmware_pcc take_buffer nof_hw true js w = (w', t, inl tt) ->
       scans t = flat_map (fun ca => opt (a_scan (snd ca))) (answers t)).
Proof.
  intros H. specialize (H nat (fun w _ => (S w, mkAnswer [] None (Some w))) ex_pcc ex_take 2%Z [mkJob 0 CRegular] 0 _ _ eq_refl eq_refl). vm_compute in H. discriminate H.
Qed.

Print Assumptions C73_worker.
Print Assumptions C73_job.
Print Assumptions C73_completes.
Print Assumptions C73_other_hw_refuted.
Print Assumptions C73_no_buffer_refuted.
Print Assumptions C73_nested_scan_refuted.
