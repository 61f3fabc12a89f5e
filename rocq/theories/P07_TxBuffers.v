(** Property C11: TX buffers are exclusive and leave in order. *)
From Coq Require Import Permutation.
From Verif Require Import Base TxBuffers TxBuffersSpec TxBuffersFacts.
Open Scope nat_scope.

(** C11. Under every interleaving of any number of PHY threads and the transmit thread, what has been sent is,
    packet for packet with all its samples, something a PHY thread declared transmittable, and nothing is sent
    twice. *)
Theorem C11_sent_packets_were_announced : forall mems max n sim acts s,
  Forall (fun m => length m = max) mems -> Forall (act_ok (valid_job max)) acts ->
  brun (sys_new mems max n sim) acts = Ok s ->
  exists pending, Permutation (map (fun j => (j_meta j, j_samples j)) (announced s)) (sent s ++ pending).
Proof. exact tx_sent_is_announced. Qed.
Print Assumptions C11_sent_packets_were_announced.

(** C11. Packets leave in the order of their ids, none skipped, unless a packet itself overrides its successor.
    For the simulator this needs that no packet does (see the refutation below). *)
Theorem C11_sent_in_order : forall mems max n sim acts s,
  Forall (fun m => length m = max) mems -> Forall (act_ok (valid_job max)) acts ->
  sim = false \/ Forall (act_ok no_override) acts ->
  brun (sys_new mems max n sim) acts = Ok s -> in_order 0 (map fst (sent s)).
Proof. exact tx_in_order. Qed.
Print Assumptions C11_sent_in_order.

(** C11. A buffer has at most one PHY thread filling it, and is not being sent before it is transmittable. *)
Theorem C11_buffers_exclusive : forall mems max n sim acts s,
  Forall (fun m => length m = max) mems -> Forall (act_ok (valid_job max)) acts ->
  brun (sys_new mems max n sim) acts = Ok s ->
  (forall i f1 f2 st1 st2, nth_error (fillers s) f1 = Some st1 -> nth_error (fillers s) f2 = Some st2 ->
     holds st1 i -> holds st2 i -> f1 = f2) /\
  (forall i f st, nth_error (fillers s) f = Some st -> not_yet_transmittable st i -> ~ sending (tx s) i).
Proof. exact tx_exclusive. Qed.
Print Assumptions C11_buffers_exclusive.

(** C11. No assertion about lock states, lengths or counters fires and no memory outside a buffer is touched: the
    only failure is a PHY thread that found every buffer in use. *)
Theorem C11_only_starvation_fails : forall mems max n sim acts,
  Forall (fun m => length m = max) mems -> Forall (act_ok (valid_job max)) acts ->
  match brun (sys_new mems max n sim) acts with
  | Ok _ => True
  | Abort => exists pre f rest s i j, acts = pre ++ AFill f :: rest /\ brun (sys_new mems max n sim) pre = Ok s /\
      nth_error (fillers s) f = Some (FScan i j) /\ length mems <= i
  | _ => False
  end.
Proof. exact tx_only_starvation. Qed.
Print Assumptions C11_only_starvation_fails.

Definition pk (o nx : Z) (l : list N) (pre post : list nat) : job :=
  {| j_meta := {| tx_order_id := o; tx_order_id_expect_next := nx; tx_time := 100 * o |}; j_samples := l;
     j_pre := pre; j_post := post |}.

(** The simulator reads the successor id after it released the buffer (hw_simulator.cpp 478 and 486). A PHY
    thread can refill the buffer in between; its override is then taken for that of the sent packet, and
    packet 1 is skipped. *)
Definition race_acts : list act :=
  [AStart 0 (pk 0 (-1) [1; 2]%N [2] [])] ++ repeat (AFill 0) 5 ++ [ATx 9; ATx 9; ATx 9] ++
  [AStart 0 (pk 1 5 [3; 4]%N [2] [])] ++ repeat (AFill 0) 4 ++ [ATx 0] ++ repeat (AFill 0) 1 ++
  [AStart 0 (pk 5 (-1) [5; 6]%N [2] [])] ++ repeat (AFill 0) 6 ++ repeat (ATx 9) 4.
Theorem C11_simulator_override_race_refuted : exists mems max n acts s,
  Forall (fun m => length m = max) mems /\ Forall (act_ok (valid_job max)) acts /\
  brun (sys_new mems max n true) acts = Ok s /\ map (fun p => tx_order_id (fst p)) (sent s) = [0; 5]%Z /\
  ~ in_order 0 (map fst (sent s)).
Proof.
  exists [[0; 0; 0]%N; [0; 0; 0]%N], 3, 1, race_acts. eexists.
  split; [repeat constructor|]. split.
  { unfold race_acts. cbn [repeat app]. repeat apply Forall_cons; try exact I; try (split; [cbn; lia|exists []; split; [reflexivity|constructor]]). constructor. }
  split; [vm_compute; reflexivity|]. split; [reflexivity|]. cbn. intros (_ & H & _). discriminate H.
Qed.
Print Assumptions C11_simulator_override_race_refuted.

(** Two PHY threads, one of them with backpressure; packet 1 is ready before packet 0. *)
Definition demo_acts : list act :=
  [AStart 0 (pk 1 (-1) [7; 8; 9]%N [] [1; 2; 3]); AStart 1 (pk 0 (-1) [4; 5]%N [2] [])] ++
  repeat (AFill 0) 4 ++ [ATx 0; ATx 0; AFill 0] ++ repeat (AFill 1) 6 ++
  repeat (ATx 0) 12 ++ [AFill 0; AFill 0] ++ repeat (ATx 0) 6.
Example C11_nonvacuous :
  Forall (fun m => length m = 4) [[0; 0; 0; 0]; [9; 9; 9; 9]]%N /\ Forall (act_ok (valid_job 4)) demo_acts /\
  Forall (act_ok no_override) demo_acts /\
  exists s, brun (sys_new [[0; 0; 0; 0]; [9; 9; 9; 9]]%N 4 2 false) demo_acts = Ok s /\
    sent s = [(j_meta (pk 0 (-1) [] [] []), [4; 5]%N); (j_meta (pk 1 (-1) [] [] []), [7; 8; 9]%N)].
Proof.
  split; [repeat constructor|]. unfold demo_acts; cbn [repeat app]; split; [|split].
  - constructor; [cbn; split; [cbn; lia|exists [1; 2]; split; [reflexivity|repeat constructor; cbn; lia]]|].
    constructor; [cbn; split; [cbn; lia|exists []; split; [reflexivity|constructor]]|]. repeat constructor.
  - repeat apply Forall_cons; try exact I; try (unfold act_ok, no_override; cbn; lia). constructor.
  - eexists. split; vm_compute; reflexivity.
Qed.

Example C11_starvation_case :
  brun (sys_new [[0]]%N 1 2 false) ([AStart 0 (pk 0 (-1) [4]%N [1] []); AStart 1 (pk 1 (-1) [4]%N [1] [])] ++ [AFill 0; AFill 1; AFill 1]) = Abort.
Proof. reflexivity. Qed.
