(** C75: A loopback measurement takes every combination of parameter and SNR exactly once, in order, with the set
    number of experiments, and stores the share of experiments that failed. *)
From Coq Require Import QArith Sorted.
From Verif Require Import Base Cells Loopback LoopbackSpec LoopbackFacts LoopbackRunFacts.
Open Scope nat_scope.

(** Whatever happens and whenever, the calls follow the plan step by step; after its end nothing is done. *)
Theorem C75_plan c t0 l s tr : sound c -> run c t0 l = Ok (s, tr) ->
  exists ca ci, calls tr = ca ++ ci /\ Forall2 (fits c) ca (firstn (length ca) (plan c)) /\
    Forall (fun o => snd (fst o) = Idle /\ snd o = None) ci /\ (ci <> [] -> length ca = length (plan c)) /\
    length (plan c) = length (params c) * (length (snrs c) * (2 * n_exp c + 3)).
Proof.
  intros sd E. pose proof (run_hist c t0 sd l s tr E) as H.
  destruct (h_plan c t0 s tr H) as (ca & ci & don & C1 & C2 & C3 & C4 & C5).
  exists ca, ci. split; [exact C1|]. pose proof (Forall2_length _ _ _ C3) as L. split; [|split; [exact C4|split]].
  - rewrite C2, L, firstn_app, Nat.sub_diag, firstn_all, app_nil_r. exact C3.
  - intros N. rewrite C2. unfold rest. rewrite (C5 N), app_nil_r. exact L.
  - apply plan_len.
Qed.

(** Every call asks for exactly one more, until the plan is done; only then files are written. *)
Theorem C75_progress c t0 l s tr : sound c -> run c t0 l = Ok (s, tr) ->
  (pending (Some (t0 + x_to_A c)%Z) tr = None <-> length (plan c) <= length (calls tr)) /\
  (work_stop s <> None <-> length (plan c) <= length (calls tr)).
Proof.
  intros sd E. pose proof (run_hist c t0 sd l s tr E) as H.
  rewrite (h_pend c t0 s tr H). rewrite <- (ended_iff c t0 s tr H). unfold request, work_stop.
  destruct (ph s); split; split; congruence.
Qed.

(** Nothing goes wrong unless the firmware is called before the requested time (then the assertion says so), or a
    packet is decoded after the last combination. *)
Theorem C75_safe c t0 l : sound c ->
  (exists s tr, run c t0 l = Ok (s, tr)) \/
  (exists l1 e l2 s tr, l = l1 ++ e :: l2 /\ run c t0 l1 = Ok (s, tr) /\
     (run c t0 l = Abort /\ premature (pending (Some (t0 + x_to_A c)%Z) tr) e \/
      run c t0 l = Throw /\ length (plan c) <= length (calls tr) /\ exists x, e = Pdc x)).
Proof.
  intros sd. destruct (run_total c t0 sd l) as [H|(l1 & e & l2 & s & tr & E1 & E2 & B)]; [now left|]. right.
  exists l1, e, l2, s, tr. split; [exact E1|]. split; [exact E2|]. destruct B as [B|(B & D & X)]; [now left|].
  right. split; [exact B|]. split; [|exact X]. apply (ended_iff c t0 s tr (run_hist c t0 sd l1 s tr E2)), D.
Qed.

(** The stored results: [b] is what happened between the setting of the SNR and the storing of cell [i], [j]. *)
Theorem C75_rates c t0 l s tr a o b st d i j : sound c -> run c t0 l = Ok (s, tr) ->
  tr = a ++ o :: b ++ st :: d -> tunes o = true -> forallb (fun o => negb (tunes o)) b = true ->
  stores i j st = true -> forallb (fun o => negb (stores i j o)) d = true ->
  count tries b = n_exp c /\
  element (t_pcc (res_of s)) i j = Some (lost (count hears b) (n_exp c)) /\
  element (t_plcf (res_of s)) i j = Some (lost (count hears_ours b) (n_exp c)) /\
  element (t_pdc (res_of s)) i j = Some (lost (count decodes b) (n_exp c)) /\
  forall p x, In p b -> snd (fst p) = Decoded x ->
    exists lo hi, element (t_min (res_of s)) i j = Some lo /\ element (t_max (res_of s)) i j = Some hi /\
                  (lo <= x)%Q /\ (x <= hi)%Q.
Proof.
  intros sd E Et T B St D. pose proof (run_hist c t0 sd l s tr E) as H.
  assert (G : segment tr i j b) by (exists a, o, st, d; auto).
  destruct (h_rates c t0 s tr H i j b G) as (_ & _ & (A1 & A2 & A3) & A4 & A5).
  repeat split; auto.
Qed.

(** A finished series has such a piece, hence a result, for every combination; a combination without result holds -1. *)
Theorem C75_complete c t0 l s tr i j : sound c -> run c t0 l = Ok (s, tr) ->
  i < length (params c) -> j < length (snrs c) ->
  (length (plan c) <= length (calls tr) ->
   exists a o b st d, tr = a ++ o :: b ++ st :: d /\ tunes o = true /\
     forallb (fun o => negb (tunes o)) b = true /\ stores i j st = true /\
     forallb (fun o => negb (stores i j o)) d = true) /\
  (forallb (fun o => negb (stores i j o)) tr = true ->
   element (t_pcc (res_of s)) i j = Some (-1)%Q /\ element (t_plcf (res_of s)) i j = Some (-1)%Q /\
   element (t_pdc (res_of s)) i j = Some (-1)%Q).
Proof.
  intros sd E Hi Hj. pose proof (run_hist c t0 sd l s tr E) as H. split.
  - intros L. apply (ended_iff c t0 s tr H) in L.
    destruct (finished_segment c t0 s tr i j sd H (run_kinds c t0 l s tr E) L Hi Hj) as (b & a & o & st & d & G).
    exists a, o, b, st, d. exact G.
  - apply (h_empty c t0 s tr H); assumption.
Qed.

(** The packets of a series are numbered in the order they are sent and never overlap on the air. *)
Theorem C75_packets c t0 l s tr : sound c -> run c t0 l = Ok (s, tr) ->
  map k_order (all_sent tr) = seq 0 (length (all_sent tr)) /\
  (roomy c -> StronglySorted (fun k k' => (k_time k + plen c <= k_time k')%Z) (all_sent tr)).
Proof.
  intros sd E. split; [exact (h_orders c t0 s tr (run_hist c t0 sd l s tr E))|]. intros R. exact (proj1 (run_aired c t0 sd l s tr R E)).
Qed.

(** A rate lies between 0 and 1 exactly if not more headers (packets) were received than experiments made. *)
Lemma lost_range k n : 1 <= n -> ((0 <= lost k n /\ lost k n <= 1)%Q <-> k <= n).
Proof.
  intros Hn. unfold lost. assert (P : (0 < inject_Z (Z.of_nat n))%Q).
  { replace 0%Q with (inject_Z 0) by reflexivity. rewrite <- Zlt_Qlt. lia. }
  assert (K : (0 <= inject_Z (Z.of_nat k))%Q).
  { replace 0%Q with (inject_Z 0) by reflexivity. rewrite <- Zle_Qle. lia. }
  split.
  - intros (A & _). assert (A' : (inject_Z (Z.of_nat k) / inject_Z (Z.of_nat n) <= 1)%Q).
    { setoid_replace (inject_Z (Z.of_nat k) / inject_Z (Z.of_nat n))%Q with (1 - (1 - inject_Z (Z.of_nat k) / inject_Z (Z.of_nat n)))%Q by ring.
      apply Qplus_le_compat with (x := 1%Q) (y := 1%Q) in A; [|apply Qle_refl].
      apply (Qplus_le_l _ _ (1 - inject_Z (Z.of_nat k) / inject_Z (Z.of_nat n))%Q).
      ring_simplify. ring_simplify in A. exact A. }
    assert (B : (inject_Z (Z.of_nat k) <= 1 * inject_Z (Z.of_nat n))%Q).
    { apply (Qmult_le_compat_r _ _ (inject_Z (Z.of_nat n))) in A'; [|now apply Qlt_le_weak].
      rewrite Qmult_comm, Qmult_div_r in A'; [exact A'|]. intros Z. rewrite Z in P. now apply Qlt_irrefl in P. }
    rewrite Qmult_1_l, <- Zle_Qle in B. lia.
  - intros L. assert (A : (inject_Z (Z.of_nat k) / inject_Z (Z.of_nat n) <= 1)%Q).
    { apply Qle_shift_div_r; [exact P|]. rewrite Qmult_1_l, <- Zle_Qle. lia. }
    assert (B : (0 <= inject_Z (Z.of_nat k) / inject_Z (Z.of_nat n))%Q).
    { apply Qle_shift_div_l; [exact P|]. now rewrite Qmult_0_l. }
    split; [now apply (proj1 (Qle_minus_iff _ _)) in A|].
    apply Qle_minus_iff. setoid_replace (1 + - (1 - inject_Z (Z.of_nat k) / inject_Z (Z.of_nat n)))%Q with (inject_Z (Z.of_nat k) / inject_Z (Z.of_nat n))%Q by ring.
    exact B.
Qed.
Theorem C75_range c t0 l s tr a o b st d i j : sound c -> run c t0 l = Ok (s, tr) ->
  tr = a ++ o :: b ++ st :: d -> tunes o = true -> forallb (fun o => negb (tunes o)) b = true ->
  stores i j st = true -> forallb (fun o => negb (stores i j o)) d = true ->
  exists r1 r2 r3, element (t_pcc (res_of s)) i j = Some r1 /\ element (t_plcf (res_of s)) i j = Some r2 /\
    element (t_pdc (res_of s)) i j = Some r3 /\
    ((0 <= r1 /\ r1 <= 1)%Q <-> count hears b <= n_exp c) /\
    ((0 <= r2 /\ r2 <= 1)%Q <-> count hears_ours b <= n_exp c) /\
    ((0 <= r3 /\ r3 <= 1)%Q <-> count decodes b <= n_exp c).
Proof.
  intros sd E Et T B St D. destruct (C75_rates c t0 l s tr a o b st d i j sd E Et T B St D) as (_ & A1 & A2 & A3 & _).
  destruct sd as (_ & _ & N & _). do 3 eexists. split; [exact A1|]. split; [exact A2|]. split; [exact A3|].
  repeat split; try apply lost_range; auto; try (apply (lost_range _ _ N); assumption).
Qed.

(** ** Concrete series *)
Definition example (k : kind) : config :=
  {| kd := k; params := [30; 40]%Z; snrs := [0; 5; 10]%Z; n_exp := 2; x_to_A := 20; A_to_B := 5; B_to_C := 5;
     C_to_B := 15; C_to_D := 15; turn := 2; jit := 1; plen := 1; id_a := 1000; id_b := 1234 |}.
(** One combination: 2 experiments, received is what [heard] says. *)
Definition one (t : Z) (heard : list event) : list event :=
  [Call t 0 true true; Call (t + 5) 0 true true; Call (t + 10) 7 true true] ++ heard ++
  [Call (t + 25) 0 true true; Call (t + 30) 0 true true] ++ heard ++ [Call (t + 45) 0 true true; Call (t + 46) 0 true true].
Definition good : list event := [Pcc (Some (0, 1000)%N); Pdc 3].
Definition series : list event := one 20 good ++ one 70 [] ++ one 120 good ++ one 170 good ++ one 220 good ++ one 270 good.
Example C75_nonvacuous : sound (example Snr) /\ roomy (example Snr) /\
  exists s tr, run (example Snr) 0 series = Ok (s, tr) /\ length (plan (example Snr)) <= length (calls tr) /\
    map (map Qred) (t_pdc (res_of s)) = [[0; 1; 0]; [0; 0; 0]]%Q /\ length (all_sent tr) = 12 /\
    map k_mcs (all_sent tr) = repeat 30%Z 6 ++ repeat 40%Z 6.
Proof.
  split; [repeat split; cbn; try discriminate; lia|]. split; [repeat split; cbn; lia|].
  do 2 eexists. split; [vm_compute; reflexivity|]. repeat split; vm_compute; try reflexivity.
Qed.
(** Claim that fails: error rates are between 0 and 1 if every packet received was sent. The power ratio firmware
    sends two packets per experiment, counts the headers of both, and divides by the number of experiments. *)
Theorem C75_ratio_refuted : exists l s tr, run (example Ratio) 0 l = Ok (s, tr) /\
  count hears tr = length (all_sent tr) /\ option_map Qred (element (t_pcc (res_of s)) 0 0) = Some (-1)%Q /\
  option_map Qred (element (t_plcf (res_of s)) 0 0) = Some 0%Q /\ stores 0 0 (last tr (Pcc None, Idle, None)) = true.
Proof.
  set (both := [Pcc (Some (0, 1000)%N); Pcc (Some (0, 1234)%N); Pdc 3]).
  exists (firstn 12 (one 20 both)). do 2 eexists. split; [vm_compute; reflexivity|].
  repeat split; vm_compute; reflexivity.
Qed.
(** Claim that fails: the stored rate is the share of sent packets that got lost. A packet that was never sent,
    because no HARQ process was free, counts as lost. *)
Theorem C75_unsent_refuted : exists l s tr, run (example Snr) 0 l = Ok (s, tr) /\ all_sent tr = [] /\
  option_map Qred (element (t_pcc (res_of s)) 0 0) = Some 1%Q /\ stores 0 0 (last tr (Pcc None, Idle, None)) = true.
Proof.
  exists [Call 20 0 true true; Call 25 0 true true; Call 30 0 false false; Call 45 0 true true; Call 50 0 false false;
          Call 65 0 true true]. do 2 eexists. split; [vm_compute; reflexivity|]. repeat split; vm_compute; reflexivity.
Qed.
(** Claim that fails: a packet may be received at any time. One that is decoded after the last combination raises
    an exception nobody catches. *)
Theorem C75_late_refuted : (exists s tr, run (example Mmie) 0 series = Ok (s, tr)) /\
  run (example Mmie) 0 (series ++ [Pdc 3]) = Throw.
Proof. split; [do 2 eexists; vm_compute; reflexivity|vm_compute; reflexivity]. Qed.

Print Assumptions C75_plan.
Print Assumptions C75_progress.
Print Assumptions C75_safe.
Print Assumptions C75_rates.
Print Assumptions C75_complete.
Print Assumptions C75_packets.
Print Assumptions C75_range.
Print Assumptions C75_nonvacuous.
Print Assumptions C75_ratio_refuted.
Print Assumptions C75_unsent_refuted.
Print Assumptions C75_late_refuted.
