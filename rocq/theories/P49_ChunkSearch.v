(** C56. The search within a chunk reports exactly the packets the samples show, whatever the pace of the samples. *)
From Verif Require Import Base MovSum MovSumSpec ChunkSearch ChunkSearchSpec ChunkSearchFacts.

(** However many samples beyond those asked for each call of the pacer delivers, and whatever state the chunk before
    left: no assertion fails, no sample is read that has not been delivered, the local buffer is not asked for more
    than its length, every loop ends, and the packets reported are exactly those of the specification. *)
Theorem C56_chunk : forall c sg extra d, good_cfg c -> good_sig sg -> good_dst c d ->
  exists ev, chunk c sg extra d = Ok ev /\ reported ev = packets c sg.
Proof. intros c sg extra d G S D. destruct (chunk_ok c sg G S extra d D) as (ev & hi & E & _ & R). exists ev. split; assumption. Qed.
Print Assumptions C56_chunk.

(** The index of a peak is the last one among the largest. *)
Theorem C56_last_max : forall f b n, 0 < n ->
  b <= last_max f b n < b + n /\
  forall j, b <= j < b + n -> (f j <= f (last_max f b n))%Z /\ (last_max f b n < j -> (f j < f (last_max f b n))%Z).
Proof. intros f b n N. split; [apply last_max_range; exact N|]. apply last_max_is. Qed.
Print Assumptions C56_last_max.

(** Nothing is missed: every examined position with a detection and a valid peak yields a packet, unless it is
    earlier than two STFs after the beginning of another reported packet. *)
Theorem C56_nothing_missed : forall c sg r a m s, In r (positions c) -> stf c + 16 * gbos c <= r ->
  detects c sg r = Some (a, m) -> coarse c sg r m = Some s ->
  In (r, s) (packets c sg) \/ exists r' s', In (r', s') (packets c sg) /\ r < s' + 2 * stf c.
Proof.
  intros c sg r a m s IN GE D C. unfold packets.
  assert (G : forall pos ign, In r pos -> In (r, s) (scan c sg pos ign) \/ r < ign \/ exists r' s', In (r', s') (scan c sg pos ign) /\ r < s' + 2 * stf c).
  { induction pos as [|x pos IH]; intros ign H; [destruct H|]. cbn [scan]. destruct H as [->|H].
    - destruct (Nat.leb_spec ign r) as [L|L]; [|right; left; exact L]. rewrite D, C. left. left. reflexivity.
    - destruct (if Nat.leb ign x then detects c sg x else None) as [[a' m']|]; [|apply IH; exact H].
      destruct (coarse c sg x m') as [s'|]; [|apply IH; exact H].
      destruct (IH (s' + 2 * stf c) H) as [I|[I|(r' & s2 & I & J)]].
      + left. right. exact I.
      + right. right. exists x, s'. split; [left; reflexivity|exact I].
      + right. right. exists r', s2. split; [right; exact I|exact J]. }
  destruct (G (positions c) (stf c + 16 * gbos c) IN) as [I|[I|I]]; [left; exact I|lia|right; exact I].
Qed.
Print Assumptions C56_nothing_missed.

Lemma start_eq c : gstart c = stf c + 16 * gbos c.
Proof. unfold gstart, gjump, gP. rewrite stf_eq. lia. Qed.

(** Where a packet begins relative to its detection, and how far two consecutive packets of a chunk are apart: more
    than an STF minus 15 samples of a pattern of 16. *)
Theorem C56_times : forall c sg, good_cfg c -> good_sig sg ->
  (forall r s, In (r, s) (packets c sg) ->
     In r (positions c) /\ stf c + 16 * gbos c <= r /\ s + 17 * gbos c <= r /\ r < s + stf c + 15 * gbos c) /\
  (forall l1 r1 s1 r2 s2 l2, packets c sg = l1 ++ (r1, s1) :: (r2, s2) :: l2 ->
     s1 + 2 * stf c <= r2 /\ s1 + stf c - 15 * gbos c < s2).
Proof.
  intros c sg G S. pose proof (start_eq c) as SE. split.
  - intros r s H. destruct (scan_in c sg G S (positions c) _ r s H ltac:(lia)) as (I1 & I2 & a & m & _ & C).
    destruct (coarse_range c sg G S r I2 m s C). split; [exact I1|]. lia.
  - intros l1 r1 s1 r2 s2 l2 H. destruct (scan_apart c sg G S (positions c) (stf c + 16 * gbos c) ltac:(lia) _ _ _ _ _ _ H). pose proof (stf_bos c G). lia.
Qed.
Print Assumptions C56_times.

(** In time of the hardware, which samples faster by rL/rM: with the fine search anywhere in its range, two
    consecutive packets of a chunk are so far apart that the second one is never mistaken for the first one
    detected twice (baton_t::is_sync_time_unique, C07). *)
Theorem C56_unique : forall c sg rs t0 f1 f2 l1 r1 s1 r2 s2 l2, good_cfg c -> good_sig sg -> (0 < rM rs <= rL rs)%Z ->
  (0 <= f1 <= 2 * search_l c rs)%Z -> (0 <= f2 <= 2 * search_l c rs)%Z ->
  packets c sg = l1 ++ (r1, s1) :: (r2, s2) :: l2 ->
  (unique_limit c < fine_time c rs t0 s2 f2 - fine_time c rs t0 s1 f1)%Z.
Proof.
  intros c sg rs t0 f1 f2 l1 r1 s1 r2 s2 l2 G S R F1 F2 H.
  destruct (proj2 (C56_times c sg G S) _ _ _ _ _ _ H) as [_ A]. pose proof (stf_bos c G) as SB. pose proof (bos_pos c G) as BP.
  unfold fine_time, unique_limit, to_global, round_div, gP, search_l in *.
  set (bo := Z.of_nat (gbos c)) in *. assert (D : (Z.of_nat s1 + 97 * bo < Z.of_nat s2)%Z) by (unfold bo; lia).
  replace (Z.of_nat (16 * gbos c)) with (16 * bo)%Z by (unfold bo; lia). assert (B0 : (0 < bo)%Z) by (unfold bo; lia).
  set (L := rL rs) in *. set (M := rM rs) in *. set (x := Z.of_nat s1) in *. set (y := Z.of_nat s2) in *. clearbody bo L M x y. clear -D R F1 F2 B0.
  set (q := (16 * bo * L / M)%Z) in *.
  assert (Q : (M * q <= 16 * bo * L)%Z) by (apply Z.mul_div_le; lia).
  set (u := ((2 * (x * L) + M) / (2 * M))%Z). set (v := ((2 * (y * L) + M) / (2 * M))%Z).
  assert (U : (2 * M * u <= 2 * (x * L) + M)%Z) by (apply Z.mul_div_le; lia).
  assert (V : (2 * (y * L) + M < 2 * M * (v + 1))%Z) by (pose proof (Z.mul_succ_div_gt (2 * (y * L) + M) (2 * M) ltac:(lia)); lia).
  clearbody q u v.
  assert (P1 : ((x + 97 * bo + 1) * L <= y * L)%Z) by nia.
  assert (P2 : (2 * M * (v - u) > 2 * (97 * bo + 1) * L - 2 * M)%Z) by nia.
  assert (P3 : (2 * M * (v - u - 2 * q) > 2 * (65 * bo + 1) * L - 2 * M)%Z) by nia.
  assert (P4 : (M * (65 * bo + 1) <= (65 * bo + 1) * L)%Z) by nia.
  assert (P5 : (M * (v - u - 2 * q) > M * (65 * bo))%Z) by nia.
  assert (P6 : (v - u - 2 * q > 65 * bo)%Z) by nia. lia.
Qed.
Print Assumptions C56_unique.

(** The requirement that a peak must not be earlier than 0.3 STFs before the detection (the second one of the two
    in post_processing_validity) never rejects a peak. *)
Theorem C56_distance_never_rejects : forall c sg r a, good_cfg c -> good_sig sg -> stf c + 16 * gbos c <= r ->
  (Z.of_nat r - Z.of_nat (gback c) < Z.of_nat (snd (peak_of c sg r a)))%Z.
Proof.
  intros c sg r a G S R. destruct (peak_range c sg G S r a) as (_ & _ & L & _). pose proof (stf_bos c G) as SB. pose proof (bos_pos c G).
  destruct G as (_ & _ & GB & _). rewrite stf_eq in GB. lia.
Qed.
Print Assumptions C56_distance_never_rejects.

(** The callback with which irregular jobs are started claims that no packet earlier than the given time follows. What
    holds: packets that follow are detected later, and begin at most an STF and 15/16 of a pattern earlier. *)
Theorem C56_callback : forall c sg extra d ev l1 t l2 r s, good_cfg c -> good_sig sg -> good_dst c d ->
  chunk c sg extra d = Ok ev -> ev = l1 ++ Callback t :: l2 -> In (Packet r s) l2 ->
  t < r /\ t + 1 < s + stf c + 15 * gbos c.
Proof.
  intros c sg extra d ev l1 t l2 r s G S D E -> H.
  destruct (chunk_ok c sg G S extra d D) as (ev' & hi & E' & W & R). rewrite E in E'. injection E' as <-.
  assert (T : t < r).
  { clear -W H. revert W. generalize (16 * gbos c). induction l1 as [|e l1 IH]; intros lo W; cbn [app] in W; inversion W; subst.
    - assert (A : forall l lo hi, within lo l hi -> In (Packet r s) l -> lo < r).
      { clear. induction l as [|e l IH]; intros lo hi W H; [destruct H|]. inversion W; subst. destruct H as [->|H]; [cbn [etime] in *; lia|].
        specialize (IH _ _ H5 H). lia. }
      eapply A; [|exact H]. cbn [etime] in *. eassumption.
    - eapply IH; eassumption. }
  assert (P : In (r, s) (packets c sg)).
  { rewrite <- R. unfold reported. apply in_flat_map. exists (Packet r s). split; [apply in_or_app; right; right; exact H|left; reflexivity]. }
  destruct (proj1 (C56_times c sg G S) r s P). lia.
Qed.
Print Assumptions C56_callback.

(** A chunk with two packets, two antennas; the first one is seen by both antennas, a detection in between is too weak to
    yield a peak. *)
Definition ex_c : scfg := Scfg 7 1 200 33 (-25) 18 150 2.
Definition ex_sig : sig :=
  Sig (fun r a => if Nat.eqb r 200 && Nat.eqb a 1 || Nat.eqb r 480 then Some 50%Z else if Nat.eqb r 420 then Some 140%Z else Some 3%Z)
      (fun a i => if Nat.eqb i 250 || Nat.eqb a 1 && Nat.eqb i 530 then 90%Z else 5%Z).
Definition ex_d : dst := Dst 0 0 (repeat (Streak 0 7) 2).

Example good_ex : good_cfg ex_c /\ good_sig ex_sig /\ good_dst ex_c ex_d.
Proof.
  split; [|split].
  - split; [left; reflexivity|]. cbn. repeat split; lia.
  - intros a i. cbn. destruct (_ || _); lia.
  - reflexivity.
Qed.

Example ex_packets : packets ex_c ex_sig = [(200, 140); (480, 420)]. Proof. vm_compute. reflexivity. Qed.
Example ex_missed : existsb (Nat.eqb 420) (positions ex_c) = true /\ detects ex_c ex_sig 420 = Some (0, 140%Z) /\ coarse ex_c ex_sig 420 140 = None.
Proof. vm_compute. auto. Qed.
Example ex_run : chunk ex_c ex_sig (fun i => 7 * i) ex_d =
  Ok [Callback 24; Callback 40; Callback 64; Callback 96; Callback 132; Callback 176; Packet 200 140;
      Callback 308; Callback 388; Callback 420; Packet 480 420; Callback 588; Callback 648].
Proof. vm_compute. reflexivity. Qed.

(** Finding: the claim "no packet earlier than this time follows" is wrong. After the callback with 176, a packet that
    began at 140 is reported. An irregular job due between the two is thus processed before that packet. *)
Theorem C56_callback_claim_refuted :
  ~ (forall c sg extra d ev l1 t l2 r s, good_cfg c -> good_sig sg -> good_dst c d ->
       chunk c sg extra d = Ok ev -> ev = l1 ++ Callback t :: l2 -> In (Packet r s) l2 -> t <= s).
Proof.
  intros H. destruct good_ex as (G & S & D).
  pose proof (H ex_c ex_sig (fun i => 7 * i) ex_d _ [Callback 24; Callback 40; Callback 64; Callback 96; Callback 132] 176
    [Packet 200 140; Callback 308; Callback 388; Callback 420; Packet 480 420; Callback 588; Callback 648] 200 140 G S D ex_run eq_refl (or_introl eq_refl)). lia.
Qed.
Print Assumptions C56_callback_claim_refuted.

(** The bounds of [C56_times] on the beginning of a packet are met. *)
Example bounds_met :
  coarse ex_c (Sig (fun _ _ => None) (fun _ i => if Nat.eqb i 184 then 90%Z else 0%Z)) 200 50 = Some (200 + 1 - 112 - 15) /\
  coarse ex_c (Sig (fun _ _ => None) (fun _ _ => 90%Z)) 200 50 = Some (200 - 17).
Proof. vm_compute. auto. Qed.
