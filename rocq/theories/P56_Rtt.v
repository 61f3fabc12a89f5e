(** C63: the round-trip time measurement. *)
From Verif Require Import Base Rtt RttSpec RttFacts.
From Verif Require PacketSizes.
Open Scope N_scope.

(** The packet of the firmware holds every question of the smallest size and fits in the buffers, for every numerology and
    bandwidth: [configured] is what the constructor establishes. *)
Theorem C63_size u b Z q : In u [1; 2; 4; 8] -> In b [1; 2; 4; 8; 12; 16] -> In Z [2048; 6144] ->
  PacketSizes.get_packet_sizes (PacketSizes.mkPsdef u b 0 2 0 2 Z) = Ok (Some q) ->
  min_byte <= PacketSizes.q_N_TB_byte q <= max_byte.
Proof.
  intros U B ZZ.
  set (ok := fun d => match PacketSizes.get_packet_sizes d with Ok (Some q) => (min_byte <=? PacketSizes.q_N_TB_byte q) && (PacketSizes.q_N_TB_byte q <=? max_byte) | _ => true end).
  assert (A : forallb (fun u => forallb (fun b => forallb (fun Z => ok (PacketSizes.mkPsdef u b 0 2 0 2 Z)) [2048; 6144]) [1; 2; 4; 8; 12; 16]) [1; 2; 4; 8] = true) by (vm_compute; reflexivity).
  rewrite forallb_forall in A. specialize (A u U). rewrite forallb_forall in A. specialize (A b B). rewrite forallb_forall in A. specialize (A Z ZZ).
  intros E. unfold ok in A. rewrite E in A. lia.
Qed.

(** As long as questions fit, packets arrive intact or not at all, and a measurement is given up only when nothing of it is left:
    nothing fails, every measurement that ends with an answer ends with the answer to its own question, and the time it reports is
    the time from the start of the watch for this question to its stop, or -1 if the question has not the size of a packet.
    Without an answer it reports a timeout. *)
Theorem C63_measurement cf cp es : configured cf cp -> fair_run cf cp sys_new es ->
  exists s os, run cf cp sys_new es = Ok (s, os) /\
    forall pre q a r post, os = pre ++ Result q a r :: post ->
      match a with
      | None => r = mkResult 0 (-1)
      | Some a => len a = c_tb cf /\ firstn 8 a = firstn 8 q /\
          exists t t', watch_since pre [] = [Started t; Stopped t'] /\
            r = if len q =? c_tb cf then mkResult (c_tb cf) (t' - t) else mkResult (c_tb cf) (-1)
      end.
Proof.
  intros C F. destruct (run_ok cf cp C es sys_new [] (inv_new cf) F) as (s & os & E & G).
  exists s, os. split; [exact E|]. intros pre q a r post S. specialize (G pre q a r post S). destruct a as [a|]; exact G.
Qed.

(** The statistics the FT logs, after any history at all: how often the watch was started, how many packets were received, the
    least and the greatest time between, since they were logged before. *)
Theorem C63_statistics cf cp es s os pre tx rx mn mx post : c_ft cf = true ->
  run cf cp sys_new es = Ok (s, os) -> os = pre ++ Printed tx rx mn mx :: post ->
  let t := tally_of pre in
  tx = t_started t mod 2 ^ 32 /\ rx = len (t_times t) mod 2 ^ 32 /\
  (t_times t = [] -> mn = (2 ^ 60)%Z /\ mx = (- 2 ^ 60)%Z) /\
  (t_times t <> [] -> Forall (fun x => - 2 ^ 60 <= x <= 2 ^ 60)%Z (t_times t) -> least mn (t_times t) /\ greatest mx (t_times t)).
Proof.
  intros FF R S. assert (I : stats_ok (y_ft sys_new) (mkTally 0 0 [])) by (repeat split).
  pose proof (stats_run cf cp es FF _ _ _ _ R I _ _ _ S) as G. cbn [good_print] in G. fold (tally_of pre) in G.
  destruct G as (G1 & G2 & G3 & G4). cbv zeta. split; [exact G1|]. split; [exact G2|]. rewrite G3, G4. split.
  - intros ->. split; reflexivity.
  - intros NE B. change (- UNDEFINED_EARLY_64)%Z with (2 ^ 60)%Z. change UNDEFINED_EARLY_64 with (- 2 ^ 60)%Z.
    split; [apply fold_least|apply fold_greatest]; auto; eapply Forall_impl; try exact B; cbv beta; lia.
Qed.

(** After any history at all, each side has numbered its packets from 0 on without a gap, and starts none before the end of the one
    before. *)
Theorem C63_transmissions cf cp es s os : c_ft cf = true -> c_ft cp = false -> run cf cp sys_new es = Ok (s, os) ->
  in_turn (c_length cf) 0 (- 2 ^ 60) (packets_of true os) /\ in_turn (c_length cp) 0 (- 2 ^ 60) (packets_of false os).
Proof. intros FF FP R. exact (turn_run cf cp es FF FP _ _ _ R). Qed.

(** A packet is transmitted only when a job is processed or a packet was received, by the side concerned, with the size
    of a transport block and not before the turnaround time. *)
Theorem C63_when cf cp s e s' o b p : c_ft cf = true -> c_ft cp = false -> step cf cp s e = Ok (s', o) -> In (Sent b p) o ->
  match e with
  | Job _ _ now => b = true /\ (now + c_turnaround cf <= k_time p)%Z /\ len (k_data p) = c_tb cf
  | Hear_pt _ _ _ _ now => b = false /\ (now + c_turnaround cp <= k_time p)%Z /\ len (k_data p) = c_tb cp
  | _ => False
  end.
Proof. intros FF FP E I. destruct (turn_step _ _ _ _ _ _ FF FP E) as (_ & _ & X). exact (X b p I). Qed.

(** A question shorter than a packet is followed by what the buffer of the HARQ process held before. *)
Theorem C63_padding_refuted cf a clock now s d ds : c_ft cf = true -> c_tb cf <= len a -> f_data s = d :: ds -> len d <= c_tb cf ->
  exists s' t, work_application cf 0 (Some a) clock now s =
    Ok (s', Some (mkPacket (f_order s) t (d ++ firstn (N.to_nat (c_tb cf - len d)) (skipn (length d) a)))).
Proof.
  intros FF A D L. unfold work_application. rewrite FF. change (0 =? 1) with false. cbv iota zeta. unfold generate_packet_asap.
  replace (c_tb cf <=? len a) with true by lia. cbn [guard f_data]. rewrite FF, D. replace (len d <=? c_tb cf) with true by lia. cbn [guard].
  rewrite copy_to_0 by lia. cbn [bind set_data]. rewrite copy_from_0 by (rewrite over_len; lia). cbn [bind f_order].
  eexists _, _. do 3 f_equal. f_equal. rewrite firstn_app. unfold len. rewrite Nat2N.id. f_equal.
  - apply firstn_all2. unfold len in L. lia.
  - f_equal. lia.
Qed.

(** A packet that holds more than 2000 bytes, as received by either side: at the PT it is written past the end of the stage,
    at the FT it is read from past the end. *)
Theorem C63_big_packet_refuted c a n harq clock now s : len (f_stage s) = max_byte -> max_byte < n -> n <= len a ->
  work_pdc_internal c a n harq clock now s = Oob.
Proof.
  intros ST L A. change max_byte with 2000 in *. unfold work_pdc_internal. destruct (c_ft c).
  - change verify_byte with 8. rewrite copy_from_0 by lia. cbn [bind].
    assert (X : len (firstn (N.to_nat 8) a) = 8) by (unfold len in *; rewrite firstn_length; lia).
    rewrite copy_to_0 by (rewrite X; lia). cbn [bind]. rewrite copy_to_ok.
    2:{ rewrite over_len by (rewrite X; lia). unfold len at 1. rewrite bytes_len. lia. }
    cbn [bind]. unfold copy_from at 1. rewrite copy_len.
    2:{ rewrite over_len by (rewrite X; lia). unfold len at 1. rewrite bytes_len. lia. }
    rewrite over_len by (rewrite X; lia). replace (0 + n <=? len (f_stage s)) with false by lia. reflexivity.
  - rewrite copy_from_0 by lia. cbn [bind]. unfold copy_to.
    assert (X : len (firstn (N.to_nat n) a) = n) by (unfold len in *; rewrite firstn_length; lia).
    rewrite X. replace (0 + n <=? len (f_stage s)) with false by lia. reflexivity.
Qed.
(** Such packets exist: the size follows from the header received, not from the configuration. *)
Example C63_big_packet_exists :
  match PacketSizes.get_packet_sizes (PacketSizes.mkPsdef 1 1 1 16 0 4 2048) with Ok (Some q) => max_byte < PacketSizes.q_N_TB_byte q | _ => False end.
Proof. vm_compute. reflexivity. Qed.

(** A question that does not fit ends the program of the FT, with or without the others. *)
Theorem C63_long_datagram_refuted cf cp d a clock now : c_ft cf = true -> min_byte <= c_tb cf < len d -> len d <= max_byte -> c_tb cf <= len a ->
  run cf cp sys_new [Ask d true; Job (Some a) clock now] = Abort.
Proof.
  intros FF L M A. cbn [run step sys_new]. replace (min_byte <=? len d) with true by lia. replace (len d <=? max_byte) with true by lia.
  cbn [andb guard f_data fw_new]. change (arrives d []) with (Some [d]). cbn [bind app step]. unfold work_application. rewrite FF.
  change (0 =? 1) with false. cbv iota zeta. unfold generate_packet_asap. replace (c_tb cf <=? len a) with true by lia.
  cbn [guard f_data set_data app]. rewrite ?FF. replace (len d <=? c_tb cf) with false by lia. reflexivity.
Qed.

(** *** Witnesses *)
Definition ex_ft := mkCfg true 20 10 100.
Definition ex_pt := mkCfg false 20 10 100.
Definition ex_q (b : N) := repeat b 20.
Definition ex_h := repeat 0 24.
(** Two complete measurements, one whose answer is lost, the statistics. *)
Definition ex_fair : list ev :=
  [Ask (ex_q 1) true; Job (Some ex_h) 1000 0; Hear_pt None [7] (Some ex_h) 0 50; Hear_ft None [8; 9] 1700 90; Answer;
   Ask (repeat 5 16) true; Job (Some ex_h) 2000 100; Hear_pt None [] (Some ex_h) 0 150; Hear_ft None [] 2300 190; Answer;
   Ask (ex_q 2) true; Job (Some ex_h) 3000 200; Hear_pt None [] (Some ex_h) 0 250; Lose_down; Timeout;
   Print true; Job (Some ex_h) 4000 300].
(** [fair_run] can be computed. *)
Definition none {A} (l : list A) : bool := match l with [] => true | _ => false end.
Definition quietb (s : sys) : bool :=
  none (f_data (y_ft s)) && forallb (fun c => negb (c =? 0)) (y_jobs s) && none (y_up s) && none (y_down s) && none (y_socket s).
Definition fairb (cf : cfg) (s : sys) (e : ev) : bool :=
  let process (h : option (list N)) := match h with Some a => c_tb cf <=? len a | None => false end in
  let clock t := ((- 2 ^ 62 <=? t) && (t <? 2 ^ 62))%Z in
  match e with
  | Ask d job => job && (min_byte <=? len d) && (len d <=? c_tb cf)
  | Print job => job
  | Job h t _ => process h && clock t
  | Hear_pt None _ h _ _ => process h
  | Hear_ft None _ t _ => clock t
  | Timeout => quietb s
  | Hear_pt _ _ _ _ _ | Hear_ft _ _ _ _ => false
  | _ => true
  end.
Fixpoint fair_runb (cf cp : cfg) (s : sys) (es : list ev) : bool :=
  match es with
  | [] => true
  | e :: es => fairb cf s e && match step cf cp s e with Ok (s', _) => fair_runb cf cp s' es | _ => false end
  end.
Lemma fair_run_checked cf cp es : forall s, fair_runb cf cp s es = true -> fair_run cf cp s es.
Proof.
  assert (N0 : forall A (l : list A), none l = true -> l = []) by (intros A [|? ?]; [reflexivity|discriminate]).
  induction es as [|e es IH]; intros s; cbn [fair_runb fair_run]; [auto|]. intros H. apply andb_prop in H as [F H]. split.
  - destruct e; cbn [fairb fair] in *; unfold clock_ok; try destruct garbled; try destruct harq; try discriminate; try exact I; try (subst; reflexivity);
      repeat (apply andb_prop in F as [F ?]); repeat split; auto; try lia.
    intros IN. match goal with X : forallb _ _ = true |- _ => rewrite forallb_forall in X; specialize (X 0 IN); discriminate end.
  - intros s' o E. rewrite E in H. apply IH, H.
Qed.
Example C63_hypotheses_met : configured ex_ft ex_pt /\ fair_run ex_ft ex_pt sys_new ex_fair /\
  exists s os a a', run ex_ft ex_pt sys_new ex_fair = Ok (s, os) /\
    filter (fun o => match o with Result _ _ _ | Printed _ _ _ _ => true | _ => false end) os =
      [Result (ex_q 1) (Some a) (mkResult 20 700); Result (repeat 5 16) (Some a') (mkResult 20 (-1)); Result (ex_q 2) None (mkResult 0 (-1)); Printed 3 2 300 700].
Proof.
  split; [repeat split; discriminate|]. split.
  - apply fair_run_checked. vm_compute. reflexivity.
  - eexists _, _, _, _. split; vm_compute; reflexivity.
Qed.
Example C63_long_hypotheses_met : exists d : list N, min_byte <= c_tb ex_ft < len d /\ len d <= max_byte /\ c_tb ex_ft <= len ex_h.
Proof. exists (repeat 1 21). vm_compute. repeat split; discriminate. Qed.

(** Only the last condition of [fair] is dropped: a measurement may time out while its answer is under way. The next one then
    takes that answer for its own and reports a time, here before its question was transmitted; from there on every answer is that
    to the question before. *)
Theorem C63_late_answer_refuted : exists es s os q1 q2 q3 a b v v',
  Forall (fun e => e = Timeout \/ forall s, fair ex_ft s e) es /\ run ex_ft ex_pt sys_new es = Ok (s, os) /\
  filter (fun o => match o with Result _ _ _ => true | _ => false end) os =
    [Result q1 None (mkResult 0 (-1)); Result q2 (Some a) (mkResult 20 v); Result q3 (Some b) (mkResult 20 v')] /\
  (0 < v)%Z /\ (0 < v')%Z /\ firstn 8 a = firstn 8 q1 /\ firstn 8 a <> firstn 8 q2 /\ firstn 8 b = firstn 8 q2 /\ firstn 8 b <> firstn 8 q3.
Proof.
  exists [Ask (ex_q 1) true; Job (Some ex_h) 1000 0; Hear_pt None [] (Some ex_h) 0 50; Timeout;
    Ask (ex_q 2) true; Hear_ft None [] 1700 90; Answer;
    Ask (ex_q 3) true; Job (Some ex_h) 2000 100; Hear_pt None [] (Some ex_h) 0 150; Hear_ft None [] 2300 190; Answer].
  eexists _, _, (ex_q 1), (ex_q 2), (ex_q 3), _, _, _, _. split.
  { repeat (apply Forall_cons; [first [left; reflexivity | right; intros s; vm_compute; repeat split; discriminate]|]); apply Forall_nil. }
  split; [vm_compute; reflexivity|]. split; [vm_compute; reflexivity|]. repeat split; vm_compute; try reflexivity; discriminate.
Qed.
(** A job that is lost, or processed when no HARQ process is free, leaves its question in the queue: again every later answer is that to
    the question before, although each measurement ended before the next. The FT counts the second one as transmitted. *)
Theorem C63_lost_job_refuted lost : lost = [Ask (ex_q 1) false; Timeout] \/ lost = [Ask (ex_q 1) true; Job None 500 0; Timeout] ->
  exists es s os q2 q3 a b v v',
  Forall (fun e => forall s, fair ex_ft s e) es /\ run ex_ft ex_pt sys_new (lost ++ es) = Ok (s, os) /\
  filter (fun o => match o with Result _ _ _ => true | _ => false end) os =
    [Result (ex_q 1) None (mkResult 0 (-1)); Result q2 (Some a) (mkResult 20 v); Result q3 (Some b) (mkResult 20 v')] /\
  (0 < v)%Z /\ (0 < v')%Z /\ firstn 8 a = firstn 8 (ex_q 1) /\ firstn 8 a <> firstn 8 q2 /\ firstn 8 b = firstn 8 q2 /\ firstn 8 b <> firstn 8 q3.
Proof.
  intros L.
  exists [Ask (ex_q 2) true; Job (Some ex_h) 1000 0; Hear_pt None [] (Some ex_h) 0 50; Hear_ft None [] 1700 90; Answer;
    Ask (ex_q 3) true; Job (Some ex_h) 2000 100; Hear_pt None [] (Some ex_h) 0 150; Hear_ft None [] 2300 190; Answer].
  destruct L as [-> | ->].
  - eexists _, _, (ex_q 2), (ex_q 3), _, _, _, _. split;
      [repeat (apply Forall_cons; [intros s; vm_compute; repeat split; discriminate|]); apply Forall_nil|].
    split; [vm_compute; reflexivity|]. split; [vm_compute; reflexivity|]. repeat split; vm_compute; try reflexivity; discriminate.
  - eexists _, _, (ex_q 2), (ex_q 3), _, _, _, _. split;
      [repeat (apply Forall_cons; [intros s; vm_compute; repeat split; discriminate|]); apply Forall_nil|].
    split; [vm_compute; reflexivity|]. split; [vm_compute; reflexivity|]. repeat split; vm_compute; try reflexivity; discriminate.
Qed.
(** The packet that was not transmitted for want of a HARQ process counts as transmitted. *)
Theorem C63_count_refuted : exists s os, run ex_ft ex_pt sys_new [Ask (ex_q 1) true; Job None 500 0; Timeout; Print true; Job None 600 0] = Ok (s, os) /\
  In (Printed 1 0 (2 ^ 60) (- 2 ^ 60)) os /\ packets_of true os = [].
Proof. eexists _, _. split; [vm_compute; reflexivity|]. split; [vm_compute; auto|reflexivity]. Qed.

Print Assumptions C63_size.
Print Assumptions C63_measurement.
Print Assumptions C63_statistics.
Print Assumptions C63_transmissions.
Print Assumptions C63_when.
Print Assumptions C63_padding_refuted.
Print Assumptions C63_big_packet_refuted.
Print Assumptions C63_long_datagram_refuted.
Print Assumptions C63_late_answer_refuted.
Print Assumptions C63_lost_job_refuted.
Print Assumptions C63_count_refuted.
