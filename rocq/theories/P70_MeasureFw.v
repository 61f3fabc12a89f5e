(** C77: The measuring firmwares measure what they say: the scanner every frequency equally often and in order, with the
    extremes of exactly its own results; the delay firmware against its latest packet; the gain firmware moves every gain
    and takes it back, with the set gap between the two packets. *)
From Coq Require Import QArith.
From Verif Require Import Base MeasureFw MeasureFwSpec MeasureFwFacts.
Open Scope nat_scope.

(** After any results [l], the next result [r] belongs to the frequency the hardware is tuned to, which goes round. A
    line is reported with every N-th result, for that frequency, with the extremes of the last N results. *)
Theorem C77_scan c start l r s' rep t : 0 < n_measurement c -> 0 < length (freqs c) -> Forall plausible (l ++ [r]) ->
  scan_channel c (scan_after c start l) r = (s', rep, t) ->
  let f := nth ((length l / n_measurement c) mod length (freqs c)) (freqs c) 0%Z in
  tuned (scan_after c start l) = f /\
  ((length l + 1) mod n_measurement c <> 0 -> rep = None) /\
  ((length l + 1) mod n_measurement c = 0 ->
     exists lo hi, rep = Some (f, lo, hi) /\ extremes (skipn (length l + 1 - n_measurement c) (l ++ [r])) lo hi).
Proof.
  intros N F P E f. pose proof (scan_after_ok c start N F l (proj1 (proj1 (Forall_app _ _ _) P))) as V.
  destruct (scan_channel_ok c start N F l _ r s' rep t P V E) as (_ & _ & A & B).
  split; [exact (v_tuned _ _ _ _ V)|]. split; [exact A|exact B].
Qed.

(** The time asked for after result number k (from 0): a period for each result, a longer break after each frequency. A
    call before the time asked for fails, any later one measures up to the time of the call. *)
Theorem C77_scan_times c start l r s' rep t : 0 < n_measurement c -> 0 < length (freqs c) -> Forall plausible (l ++ [r]) ->
  scan_channel c (scan_after c start l) r = (s', rep, t) ->
  let k := length l + 1 in
  t = (start + scan_first c + Z.of_nat (k - k / n_measurement c) * scan_period c
       + Z.of_nat (k / n_measurement c) * scan_spacing c)%Z /\
  (forall now, scan_irregular s' now = if (t <? now)%Z then Ok now else Abort).
Proof.
  intros N F P E k. pose proof (scan_after_ok c start N F l (proj1 (proj1 (Forall_app _ _ _) P))) as V.
  destruct (scan_channel_ok c start N F l _ r s' rep t P V E) as (V' & T & _ & _). split.
  - rewrite T, (v_next _ _ _ _ V'), app_length. reflexivity.
  - intros now. unfold scan_irregular, guard. now rewrite <- T.
Qed.

Definition scan_example : scan_cfg := mkScan [100; 200; 300]%Z 2 50 29 100.
Example C77_scan_nonvacuous :
  let '(s, rep, t) := scan_channel scan_example (scan_after scan_example 1000 [1 # 10; 3 # 10; 2 # 10]) (1 # 100) in
  rep = Some (200%Z, 1 # 100, 2 # 10) /\ tuned s = 300%Z /\ t = 1308%Z.
Proof. repeat split; reflexivity. Qed.

(** Packets of the delay firmware are numbered from 0 and never overlap; it is called in equal distances whatever
    happens; every line of the log is the difference to the packet of the latest call. *)
Theorem C77_delay spacing turn start l s os : delay_run spacing turn (delay_start spacing start) l = Ok (s, os) ->
  in_line 0 UNDEFINED_EARLY (sent os) /\
  (forall i t, nth_error (requests os) i = Some t -> t = (start + Z.of_nat (i + 2) * spacing)%Z) /\
  (forall a b tx rx d, os = a ++ DLog tx rx d :: b -> tx = latest UNDEFINED_EARLY a /\ d = (rx - tx)%Z).
Proof.
  intros E. destruct (delay_facts _ _ _ _ _ _ E) as (A & B & C). split; [exact A|]. split; [|exact C].
  intros i t X. apply B in X. cbn in X. lia.
Qed.

(** One packet for each call with a HARQ process, of that length and not before the turnaround time has passed. *)
Theorem C77_delay_calls spacing turn start l s os : delay_run spacing turn (delay_start spacing start) l = Ok (s, os) ->
  Forall2 (fun e o => match e, o with
                      | DCall now (Some len), DSent (Some p) _ => (now + turn <= tx_time p)%Z /\ tx_length p = len
                      | DCall _ None, DSent None _ => True
                      | DHeard rx, DLog _ rx' _ => rx' = rx
                      | _, _ => False
                      end) l os.
Proof. apply delay_calls. Qed.

Example C77_delay_nonvacuous :
  exists s os, delay_run 100 5 (delay_start 100 0) [DCall 101 (Some 7%Z); DHeard 130; DCall 201 None; DCall 301 (Some 7%Z); DHeard 340] = Ok (s, os) /\
  os = [DSent (Some (mkPacket 0 106 7)) 200; DLog 106 130 24; DSent None 300; DSent (Some (mkPacket 1 306 7)) 400; DLog 306 340 34].
Proof. eexists _, _. split; reflexivity. Qed.

(** After m measurements every gain is where it was if m is even; otherwise exactly the chosen antennas are off by the
    change. In front timing this needs a HARQ process for every front packet. *)
Theorem C77_gain c start l s ps a : agc_run c (agc_start c start) l = Ok (s, ps) ->
  a_timing c = AFree \/ Forall (fun e => hp_front e <> None) l ->
  tx_moved s a = (if changes_tx c then offset c (meas_cnt s) a else 0%Z) /\
  rx_moved s a = (if changes_rx c then offset c (meas_cnt s) a else 0%Z).
Proof.
  intros E H. apply (agc_run_gain c l (agc_start c start) s ps); auto; [|apply at_offset_start].
  apply Forall_forall. intros e He. unfold front_ok. destruct H as [H|H]; [now left|right]. rewrite Forall_forall in H. auto.
Qed.

(** Every measurement takes one call in front timing and two otherwise, and measurements are in equal distances. *)
Theorem C77_agc_calls c start l s ps : agc_run c (agc_start c start) l = Ok (s, ps) ->
  meas_cnt s = match a_timing c with AFront => length l | AFree => length l / 2 end /\
  (snd (asked s) = 0 -> fst (asked s) = (start + Z.of_nat (meas_cnt s + 1) * a_spacing c)%Z) /\
  (snd (asked s) <> 0 -> asked s = ((S0 s + L0 s + a_p0 c)%Z, 1) /\ Nat.odd (length l) = true) /\
  numbered_from 0 (concat ps).
Proof.
  intros E. pose proof (agc_run_inv c start l _ 0 _ _ (agc_start_inv c start) E) as [G1 G2 G3]. cbn [Nat.add] in G3.
  split; [|split; [|split]].
  - destruct (a_timing c); [tauto|]. destruct G2 as [[X _]|[_ X]]; rewrite X in G3; cbn [snd] in G3;
      [apply Nat.div_unique with (r := 0)|apply Nat.div_unique with (r := 1)]; lia.
  - intros X. destruct G2 as [[_ Y]|[_ Y]]; [congruence|]. rewrite Y in X. discriminate.
  - intros X. destruct G2 as [[Y _]|[T Y]]; [congruence|]. split; [exact Y|]. rewrite T, Y in G3. cbn [snd] in G3.
    rewrite <- G3. rewrite Nat.add_comm, Nat.odd_add_mul_2. reflexivity.
  - exact (agc_run_num c l _ _ _ E).
Qed.

(** If both packets of a measurement are sent, the back packet starts the set gap after the end of the front packet,
    and the front packet is sent the turnaround time after the call. *)
Theorem C77_gap c start l e1 e2 s ps p q : a_timing c = AFree ->
  agc_run c (agc_start c start) (l ++ [e1; e2]) = Ok (s, ps) -> Nat.even (length l) = true ->
  nth_error ps (length l) = Some [p] -> nth_error ps (length l + 1) = Some [q] ->
  (tx_time q = tx_time p + tx_length p + a_p01 c)%Z /\ (tx_time p = c_now e1 + a_turn c)%Z.
Proof.
  intros T E Ev N1 N2. destruct (agc_run_app c _ _ _ _ _ E) as (s1 & p1 & p2 & A & B & C & D). subst ps.
  pose proof (agc_run_inv c start l _ 0 _ _ (agc_start_inv c start) A) as [_ G2 G3]. rewrite T in G3. cbn [Nat.add] in G3.
  assert (H0 : snd (asked s1) = 0).
  { destruct G2 as [[X _]|[_ X]]; auto. rewrite X in G3. cbn [snd] in G3. rewrite <- G3, Nat.add_comm, Nat.even_add_mul_2 in Ev. discriminate. }
  cbn [agc_run] in B. destruct (agc_step c s1 e1) as [[s2 r1]| | |] eqn:S1; try discriminate. cbn [bind] in B.
  destruct (agc_step c s2 e2) as [[s3 r2]| | |] eqn:S2; try discriminate. cbn [bind] in B. injection B as <- <-.
  rewrite nth_error_app2, D, Nat.sub_diag in N1 by lia. rewrite nth_error_app2, D in N2 by lia.
  replace (length l + 1 - length l) with 1 in N2 by lia. cbn in N1, N2. injection N1 as ->. injection N2 as ->.
  exact (agc_pair c s1 e1 s2 e2 s3 p q T H0 S1 S2).
Qed.
Theorem C77_gap_front c start l e s ps p q :
  agc_run c (agc_start c start) (l ++ [e]) = Ok (s, ps) -> nth_error ps (length l) = Some [p; q] ->
  (tx_time q = tx_time p + tx_length p + a_p01 c)%Z /\ (tx_time p = c_now e + a_turn c)%Z.
Proof.
  intros E N1. destruct (agc_run_app c _ _ _ _ _ E) as (s1 & p1 & p2 & A & B & C & D). subst ps.
  cbn [agc_run] in B. destruct (agc_step c s1 e) as [[s2 r1]| | |] eqn:S1; try discriminate. cbn [bind] in B. injection B as <- <-.
  rewrite nth_error_app2, D, Nat.sub_diag in N1 by lia. cbn in N1. injection N1 as ->. exact (agc_both c s1 e s2 p q S1).
Qed.

Lemma run_witness c start l (P : agc_fw -> list (list packet) -> Prop) :
  match agc_run c (agc_start c start) l with Ok (s, ps) => P s ps | _ => False end ->
  exists s ps, agc_run c (agc_start c start) l = Ok (s, ps) /\ P s ps.
Proof. destruct (agc_run c (agc_start c start) l) as [[s ps]| | |]; try tauto. intros H. exists s, ps. auto. Qed.

Definition agc_example (t : agc_timing) : agc_cfg := mkAgc 100 0 50 1 10 1 4 ARx t.
Example C77_agc_nonvacuous :
  exists s ps, agc_run (agc_example AFree) (agc_start (agc_example AFree) 0)
    [mkCall 101 (Some 10%Z) None; mkCall 113 None (Some 10%Z); mkCall 201 (Some 10%Z) None; mkCall 213 None (Some 10%Z);
     mkCall 301 (Some 10%Z) None; mkCall 313 None (Some 10%Z)] = Ok (s, ps) /\
  map (rx_moved s) [0; 1; 2; 3] = [0; 10; 0; 0]%Z /\ map (tx_moved s) [0; 1; 2; 3] = [0; 0; 0; 0]%Z /\
  concat ps = [mkPacket 0 102 10; mkPacket 1 162 10; mkPacket 2 202 10; mkPacket 3 262 10; mkPacket 4 302 10; mkPacket 5 362 10].
Proof. apply run_witness. vm_compute. repeat split; reflexivity. Qed.

(** "After two measurements the gains are as before": false in front timing if a front packet finds no HARQ process, as
    the changes are lost with it and its opposite is made nevertheless. *)
Theorem C77_drift_refuted : exists s ps,
  agc_run (agc_example AFront) (agc_start (agc_example AFront) 0)
    [mkCall 101 None None; mkCall 201 (Some 10%Z) (Some 10%Z)] = Ok (s, ps) /\ meas_cnt s = 2 /\ rx_moved s 0 = (-10)%Z.
Proof. apply run_witness. vm_compute. split; reflexivity. Qed.

(** "A packet is requested for a time that is still to come": false for the back packet, its time does not depend on when
    the firmware is called. *)
Theorem C77_back_late_refuted : exists s ps,
  agc_run (agc_example AFree) (agc_start (agc_example AFree) 0)
    [mkCall 101 (Some 10%Z) None; mkCall 163 None (Some 10%Z)] = Ok (s, ps) /\
  exists q, nth_error ps 1 = Some [q] /\ (tx_time q < 163)%Z.
Proof. apply run_witness. vm_compute. eexists. split; reflexivity. Qed.

(** "Packets do not overlap on the air": false if calls are late. The next front packet is sent as soon as possible, also
    if the back packet before is still to be sent; the end of that is noted but never used. *)
Theorem C77_overlap_refuted : exists s ps,
  agc_run (agc_example AFree) (agc_start (agc_example AFree) 0)
    [mkCall 1000 (Some 10%Z) None; mkCall 1012 None (Some 10%Z); mkCall 1013 (Some 10%Z) None] = Ok (s, ps) /\
  exists p q, nth_error (concat ps) 1 = Some p /\ nth_error (concat ps) 2 = Some q /\ (tx_time q < tx_time p)%Z.
Proof. apply run_witness. vm_compute. eexists _, _. split; [reflexivity|]. split; reflexivity. Qed.

Print Assumptions C77_scan.
Print Assumptions C77_scan_times.
Print Assumptions C77_delay.
Print Assumptions C77_delay_calls.
Print Assumptions C77_gain.
Print Assumptions C77_agc_calls.
Print Assumptions C77_gap.
Print Assumptions C77_gap_front.
Print Assumptions C77_drift_refuted.
Print Assumptions C77_back_late_refuted.
Print Assumptions C77_overlap_refuted.
