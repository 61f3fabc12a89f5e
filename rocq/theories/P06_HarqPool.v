(** Properties C09 and C10: the HARQ process pool. *)
From Verif Require Import Base HarqPool HarqPoolSpec HarqPoolFacts.
Open Scope nat_scope.

(** C10. For every history that respects the usage rules, the pool and its processes behave as specified: a
    process is idle, handed out, parked with its redundancy version and soft buffer, or being given back.
    Assertion failures and exceptions occur exactly where the specification has them. *)
Theorem C10_pool_refines_spec : forall n cmax tb ops,
  match srun (spool_new n cmax tb) ops with
  | SROk _ outs => exists q, hrun (hpool_new n cmax tb) ops = Ok (q, outs)
  | SRAbort => hrun (hpool_new n cmax tb) ops = Abort
  | SRThrow => hrun (hpool_new n cmax tb) ops = Throw
  | SRMisuse => True
  end.
Proof. exact harq_pool_refines. Qed.
Print Assumptions C10_pool_refines_spec.

(** C10. No process has two users: hand-outs (fresh or by id) and finalisations of a process alternate. *)
Theorem C10_one_user_per_process : forall n cmax tb ops q outs i,
  srun (spool_new n cmax tb) ops <> SRMisuse ->
  hrun (hpool_new n cmax tb) ops = Ok (q, outs) ->
  let tr := combine ops outs in
  count (given_back i) tr <= count (handed i) tr <= S (count (given_back i) tr).
Proof. exact pool_exclusive. Qed.
Print Assumptions C10_one_user_per_process.

(** C10. Asked with no other thread in between, the pool returns the first process not in use, and null exactly
    when all are in use. *)
Theorem C10_null_iff_all_in_use : forall n cmax tb ops q outs r i,
  srun (spool_new n cmax tb) ops <> SRMisuse ->
  hrun (hpool_new n cmax tb) ops = Ok (q, outs) -> scan q = None -> valid_request r tb cmax -> i <= n ->
  let tr := combine ops outs in
  (forall j, j < i -> in_use j tr) ->
  (i < n -> ~ in_use i tr ->
     exists q', hrun q (HGet r :: repeat HProbe (S i)) = Ok (q', RScan :: repeat RBusy i ++ [RGot i])) /\
  (i = n -> exists q', hrun q (HGet r :: repeat HProbe (S i)) = Ok (q', RScan :: repeat RBusy i ++ [RNull])).
Proof. exact quiet_pool_answers. Qed.
Print Assumptions C10_null_iff_all_in_use.

(** C10. The holder sees in the soft buffer exactly what was combined into this process since it was obtained
    from the pool: nothing of an earlier user, and nothing lost while it was parked. *)
Theorem C10_soft_buffer_contents : forall n cmax tb ops q outs i v net C sf q',
  srun (spool_new n cmax tb) ops <> SRMisuse ->
  hrun (hpool_new n cmax tb) ops = Ok (q, outs) -> hstep q (HInfo i) = Ok (q', RInfo v net C sf) ->
  length sf = cmax /\ forall cb, nth cb sf [] = written i cb (combine ops outs).
Proof. exact soft_contents. Qed.
Print Assumptions C10_soft_buffer_contents.

(** C09. In a TX pool the version a holder transmits after k increases is entry k mod 4 of 0, 2, 3, 1, and no
    ninth transmission is ever reached. *)
Theorem C09_redundancy_version_cycle : forall n cmax tb ops q outs i v net C sf q',
  srun (spool_new n cmax tb) ops <> SRMisuse -> Forall tx_op ops ->
  hrun (hpool_new n cmax tb) ops = Ok (q, outs) ->
  hstep q (HInfo i) = Ok (q', RInfo v net C sf) ->
  let k := t_incs (track i (combine ops outs)) in k <= 7 /\ v = nth (k mod 4) rv_cycle 0%N.
Proof. exact tx_version. Qed.
Print Assumptions C09_redundancy_version_cycle.

(** C09. The first seven increases succeed, the eighth aborts. *)
Theorem C09_eighth_increase_aborts : forall n cmax tb ops q outs i crc,
  srun (spool_new n cmax tb) ops <> SRMisuse -> Forall tx_op ops ->
  hrun (hpool_new n cmax tb) ops = Ok (q, outs) ->
  let c := track i (combine ops outs) in
  count (handed i) (combine ops outs) = S (count (given_back i) (combine ops outs)) -> t_pol c = PInc ->
  (t_incs c < 7 -> exists q', hstep q (HFinalize i crc) = Ok (q', RDone)) /\
  (t_incs c = 7 -> hstep q (HFinalize i crc) = Abort).
Proof. exact tx_eighth_increase. Qed.
Print Assumptions C09_eighth_increase_aborts.

(** Without the usage rule: asking for a running process while another thread is between unlock_inner and
    unlock_outer of reset_and_terminate succeeds, the holder sees a cleared process, and the terminating thread
    runs into an assertion. *)
Theorem C10_running_request_races_with_termination :
  let r := {| r_plcf := 1; r_net := 7; r_sizes := Some (10%N, 2); r_rv := None; r_pol := PReset |} in
  let pre := [HGet r; HProbe; HFinalize 0 true; HRunning 0 PKeep None] in
  (exists q, hrun (hpool_new 1 2 100) pre = Ok (q, [RScan; RGot 0; RDone; RRun true])) /\
  hrun (hpool_new 1 2 100) (pre ++ [HRelease 0]) = Abort.
Proof. cbv zeta. split; [eexists|]; vm_compute; reflexivity. Qed.
Print Assumptions C10_running_request_races_with_termination.

Definition demo_req (p : policy) : request :=
  {| r_plcf := 2; r_net := 9; r_sizes := Some (40%N, 2); r_rv := None; r_pol := p |}.
Definition demo_ops : list hop :=
  [HGet (demo_req PInc); HProbe; HCode 0 1 5; HFinalize 0 false; HGet (demo_req PReset); HProbe; HProbe;
   HRunning 0 PInc None; HCode 0 1 6; HFinalize 0 false; HRunning 0 PKeep None; HGet (demo_req PReset); HProbe; HProbe; HProbe].

Example C09_C10_nonvacuous :
  srun (spool_new 2 3 100) demo_ops <> SRMisuse /\ Forall tx_op demo_ops /\
  (exists q, hrun (hpool_new 2 3 100) demo_ops =
     Ok (q, [RScan; RGot 0; RDone; RDone; RScan; RBusy; RGot 1; RRun true; RDone; RDone; RRun true; RScan; RBusy; RBusy; RNull]) /\
     scan q = None /\ valid_request (demo_req PReset) 100 3 /\
     hstep q (HInfo 0) = Ok (q, RInfo 3 9 2 [[]; [5; 6]; []]%N)).
Proof.
  split; [vm_compute; discriminate|]. split; [repeat constructor|].
  eexists. split; [vm_compute; reflexivity|]. repeat split; [right; reflexivity|].
  exists 40%N, 2. repeat split; [vm_compute; discriminate|lia].
Qed.

Example C09_abort_case :
  hrun (hpool_new 1 1 100) ([HGet {| r_plcf := 1; r_net := 9; r_sizes := Some (40%N, 1); r_rv := None; r_pol := PInc |}; HProbe] ++
     concat (repeat [HFinalize 0 false; HRunning 0 PInc None] 7) ++ [HFinalize 0 false]) = Abort.
Proof. vm_compute. reflexivity. Qed.
