(** C36: the resource plan of the p2p firmware is conflict-free. C47: beacons of an FT are one period apart. *)
From Verif Require Import Base IntHelpers IntHelpersSpec IntHelpersFacts Duration DurationSpec P21_Duration Allocation AllocationSpec AllocationFacts.
Open Scope Z_scope.

(** Samples per slot. *)
Definition slot_samples (sr : N) : Z := Z.of_N (sr / 2400).
(** A resource of two slots beginning with slot [s]. *)
Definition two_slots (sr : N) (s : N) (r : resource) : Prop :=
  first r = slot_samples sr * Z.of_N s /\ last_plus_one r = slot_samples sr * (Z.of_N s + 2).
(** Resource [i] of terminal [id]: uplink in slots 2 + 4 * (id + N_pt * i) and the next, downlink in the two after that. *)
Definition ul_slot (N_pt id i : N) : N := (2 + 4 * (id + N_pt * i))%N.
Definition dl_slot (N_pt id i : N) : N := (ul_slot N_pt id i + 2)%N.

Definition plan_dur (sr m : N) : duration := mkDur sr slot001 m (sr / 2400 * m).
Definition plan_res (sr off stride : N) (i : N) : resource := mkRes (plan_dur sr (off + stride * i)) (plan_dur sr 2).
Definition plan_vec (sr off stride : N) (n : nat) : list resource := map (fun i => plan_res sr off stride (N.of_nat i)) (seq 0 n).

Definition rate_ok (sr : N) : Prop := (0 < sr)%N /\ (2400 | sr)%N.
Lemma plan_dur_new sr m : rate_ok sr -> (0 < m)%N -> (sr / 2400 * m < 2 ^ 31)%N -> duration_new sr slot001 m = Ok (plan_dur sr m).
Proof.
  intros (S1 & S2) M B. change (2 ^ 31)%N with 2147483648%N in B. rewrite duration_val; [reflexivity|auto|auto| |cbn [samp_rate_divisor]; lia].
  cbn [samp_rate_divisor]. apply N.mod_divide; [lia|auto].
Qed.
Lemma rate_pos sr : rate_ok sr -> (1 <= sr / 2400)%N.
Proof. intros (S1 & (k & ->)). rewrite N.div_mul by lia. lia. Qed.

Lemma add_from_plan sr off stride d (Rate : rate_ok sr) : d <> both -> (0 < off)%N -> (2 <= stride)%N ->
  forall n i a, lut_rate (pa_lut a) = sr -> pt_ok a -> (du_N (pa_period a) < 2 ^ 31)%N ->
  of_direction a d = plan_vec sr off stride i -> (i + n <= 8)%nat ->
  (n <> 0%nat -> sr / 2400 * (off + stride * (N.of_nat (i + n) - 1) + 2) <= du_N (pa_period a))%N ->
  exists b, add_from a d off 2 stride slot001 (N.of_nat i) n = Ok b /\ pt_ok b /\ same_setup a b /\ of_direction b d = plan_vec sr off stride (i + n) /\
    forall e, e <> d -> of_direction b e = of_direction a e.
Proof.
  intros D Off Str. pose proof (rate_pos sr Rate) as SP. set (S := (sr / 2400)%N) in *. change (2 ^ 31)%N with 2147483648%N in *.
  induction n as [|n IH]; intros i a L O P V Le Fit.
  - exists a. cbn [add_from]. rewrite Nat.add_0_r. repeat split; auto; apply O.
  - cbn [add_from]. rewrite L. specialize (Fit ltac:(discriminate)).
    assert (B1 : (stride * N.of_nat i <= stride * (N.of_nat (i + Datatypes.S n) - 1))%N) by (apply N.mul_le_mono_l; lia).
    set (top := (stride * (N.of_nat (i + Datatypes.S n) - 1))%N) in *.
    assert (B2 : (off + top + 2 <= du_N (pa_period a))%N) by nia.
    assert (U1 : u32 (stride * N.of_nat i) = (stride * N.of_nat i)%N) by (unfold u32; apply N.mod_small; change (2 ^ 32)%N with 4294967296%N; lia).
    assert (U2 : u32 (off + stride * N.of_nat i) = (off + stride * N.of_nat i)%N) by (unfold u32; apply N.mod_small; change (2 ^ 32)%N with 4294967296%N; lia).
    rewrite U1, U2. set (o := (off + stride * N.of_nat i)%N) in *.
    assert (B3 : (S * (o + 2) <= du_N (pa_period a))%N) by (etransitivity; [|exact Fit]; apply N.mul_le_mono_l; lia).
    rewrite !plan_dur_new by (auto; try lia; fold S; change (2 ^ 31)%N with 2147483648%N; nia). cbn [bind].
    set (r := mkRes (plan_dur sr o) (plan_dur sr 2)).
    assert (So : small (plan_dur sr o)) by (unfold small; cbn [plan_dur du_N]; fold S; change (2 ^ 32)%N with 4294967296%N; nia).
    assert (Sl : small (plan_dur sr 2)) by (unfold small; cbn [plan_dur du_N]; fold S; change (2 ^ 32)%N with 4294967296%N; nia).
    assert (Acc : acceptable a d r).
    { split; [auto|]. split; [|split].
      - unfold inside, last_plus_one, first. cbn [r rs_offset rs_length plan_dur du_N]. fold S. nia.
      - rewrite V. intros q Q. unfold plan_vec in Q. apply in_map_iff in Q. destruct Q as (j & <- & J). apply in_seq in J.
        intros s ((A1 & A2) & (A3 & A4)). revert A1 A2 A3 A4. unfold last_plus_one, first. cbn [r plan_res rs_offset rs_length plan_dur du_N]. fold S.
        assert ((stride * N.of_nat j + stride <= stride * N.of_nat i)%N) by nia. unfold o.
        assert (K : (S * (off + stride * N.of_nat j) + S * 2 <= S * (off + stride * N.of_nat i))%N) by nia. lia.
      - rewrite V. unfold plan_vec. rewrite map_length, seq_length. lia. }
    rewrite (add_resource_yes a d _ _ So Sl O Acc). cbn [bind].
    assert (V' : of_direction (with_vec a d (of_direction a d ++ [r])) d = plan_vec sr off stride (Datatypes.S i)).
    { rewrite of_with by auto. unfold plan_vec. rewrite seq_S, map_app, V. cbn [map]. destruct d; try congruence; reflexivity. }
    destruct (period_with a d (of_direction a d ++ [r])) as (W1 & W2).
    destruct (IH (Datatypes.S i) (with_vec a d (of_direction a d ++ [r]))) as (b & E & Ob & Sb & Vb & Eb); auto.
    + rewrite W2. auto.
    + apply add_keeps; auto.
    + rewrite W1. auto.
    + lia.
    + rewrite W1. intros _. replace (Datatypes.S i + n)%nat with (i + Datatypes.S n)%nat by lia. exact Fit.
    + exists b. replace (N.of_nat i + 1)%N with (N.of_nat (Datatypes.S i)) by lia. split; [exact E|]. split; [auto|]. split.
      { eapply same_trans; [|exact Sb]. destruct d; repeat split. }
      split; [rewrite Vb; f_equal; lia|]. intros e NE. rewrite Eb by auto. rewrite of_with by auto. destruct d, e; congruence.
Qed.

Definition fits (sr N_pt N_res id : N) (per : duration) : Prop :=
  (du_N per < 2 ^ 31)%N /\ (N_res <> 0 -> sr / 2400 * (dl_slot N_pt id (N_res - 1) + 2) <= du_N per)%N.

Lemma plan_exact lut per tt N_pt N_res id : rate_ok (lut_rate lut) -> (1000 | lut_rate lut)%N -> (lut_rate lut / 1000 * 16 < 2 ^ 31)%N ->
  (N_res <= 8)%N -> (id < N_pt < 2 ^ 28)%N -> fits (lut_rate lut) N_pt N_res id per ->
  exists a, init_allocation_pt lut per tt N_pt N_res id = Ok a /\ pt_ok a /\ pa_period a = per /\ pa_turnaround a = tt /\
    pa_ul a = plan_vec (lut_rate lut) (2 + 4 * id) (4 * N_pt) (N.to_nat N_res) /\
    pa_dl a = plan_vec (lut_rate lut) (2 + 4 * id + 2) (4 * N_pt) (N.to_nat N_res).
Proof.
  intros Rate Div Ms NR Id (P31 & Fit). set (sr := lut_rate lut) in *. unfold init_allocation_pt. fold sr.
  pose proof Rate as (R0 & R1). change (2 ^ 31)%N with 2147483648%N in *. change (2 ^ 28)%N with 268435456%N in *.
  assert (M : forall k, (0 < k <= 16)%N -> exists d, duration_new sr ms001 k = Ok d).
  { intros k K. rewrite duration_val; eauto; [lia|cbn [samp_rate_divisor]; apply N.mod_divide; [lia|auto]|cbn [samp_rate_divisor]; nia]. }
  destruct (M 16%N) as (v & ->); [lia|]. destruct (M 11%N) as (w & ->); [lia|]. cbn [bind].
  replace (N_pt <=? id)%N with false by lia.
  assert (U1 : u32 (4 * N_pt) = (4 * N_pt)%N) by (unfold u32; apply N.mod_small; change (2 ^ 32)%N with 4294967296%N; lia).
  assert (U2 : u32 (2 + u32 (id * 4)) = (2 + 4 * id)%N) by (unfold u32; change (2 ^ 32)%N with 4294967296%N; rewrite (N.mod_small (id * 4)) by lia; rewrite N.mod_small by lia; lia).
  assert (U3 : u32 (2 + 4 * id + 2) = (2 + 4 * id + 2)%N) by (unfold u32; apply N.mod_small; change (2 ^ 32)%N with 4294967296%N; lia).
  rewrite U1, U2, U3. unfold add_resource_regular.
  assert (S32 : small per) by (unfold small; change (2 ^ 32)%N with 4294967296%N; lia).
  pose proof (pt_ok_new lut per v w tt S32) as O0.
  assert (Top : forall x, (x <= 2 -> N_res <> 0 -> sr / 2400 * (2 + 4 * id + x + 4 * N_pt * (N_res - 1) + 2) <= du_N per)%N).
  { intros x X NZ. etransitivity; [|apply Fit, NZ]. apply N.mul_le_mono_l. unfold dl_slot, ul_slot. nia. }
  destruct (add_from_plan sr (2 + 4 * id) (4 * N_pt) ul Rate ltac:(discriminate) ltac:(lia) ltac:(lia) (N.to_nat N_res) 0 (allocation_pt_new lut per v w tt))
    as (a & AE & Oa & (Sa1 & Sa2 & _ & _ & Sa5) & Va & Ea); auto; [lia| |].
  { cbn [pa_period allocation_pt_new]. intros NZ. specialize (Top 0%N). rewrite N.add_0_r in Top. cbn [Nat.add]. rewrite N2Nat.id. apply Top; lia. }
  change (N.of_nat 0) with 0%N in AE. rewrite AE. clear AE. cbn [bind]. cbn [allocation_pt_new pa_lut pa_period pa_turnaround] in *.
  destruct (add_from_plan sr (2 + 4 * id + 2) (4 * N_pt) dl Rate ltac:(discriminate) ltac:(lia) ltac:(lia) (N.to_nat N_res) 0 a)
    as (b & AE & Ob & (Sb1 & Sb2 & _ & _ & Sb5) & Vb & Eb); auto.
  { rewrite Sa1. reflexivity. }
  { rewrite Sa2. exact P31. }
  { rewrite (Ea dl) by discriminate. reflexivity. }
  { lia. }
  { rewrite Sa2. intros NZ. cbn [Nat.add]. rewrite N2Nat.id. apply Top; lia. }
  change (N.of_nat 0) with 0%N in AE. rewrite AE. exists b. split; [reflexivity|]. split; [auto|]. split; [congruence|]. split; [congruence|]. split.
  - specialize (Eb ul ltac:(discriminate)). cbn [of_direction] in *. rewrite Eb. exact Va.
  - exact Vb.
Qed.

Lemma plan_slots sr off stride i : two_slots sr (off + stride * i) (plan_res sr off stride i).
Proof. unfold two_slots, last_plus_one, first, slot_samples, plan_res, plan_dur. cbn [rs_offset rs_length du_N]. lia. Qed.

(** If the plan of a terminal fits the beacon period, building it succeeds and gives exactly the announced slots, in
    ascending order, so that (C34) transmit opportunities are the earliest ones. *)
Theorem C36_plan_exact : forall lut per tt N_pt N_res id,
  is_ok (lut_new (lut_rate lut)) = true -> (lut_rate lut / 1000 * 16 < 2 ^ 31)%N -> (N_res <= 8)%N -> (id < N_pt < 2 ^ 28)%N ->
  fits (lut_rate lut) N_pt N_res id per ->
  exists a, init_allocation_pt lut per tt N_pt N_res id = Ok a /\ pa_period a = per /\
    length (pa_ul a) = N.to_nat N_res /\ length (pa_dl a) = N.to_nat N_res /\
    (forall i r, nth_error (pa_ul a) i = Some r -> two_slots (lut_rate lut) (ul_slot N_pt id (N.of_nat i)) r) /\
    (forall i r, nth_error (pa_dl a) i = Some r -> two_slots (lut_rate lut) (dl_slot N_pt id (N.of_nat i)) r) /\
    ascending (pa_ul a) /\ ascending (pa_dl a).
Proof.
  intros lut per tt N_pt N_res id L M NR Id Fit.
  destruct (C33_lookup_table (lut_rate lut)) as (_ & Neg).
  assert (G : (0 < lut_rate lut < 2 ^ 31)%N /\ (192000 | lut_rate lut)%N).
  { destruct (N.ltb_spec 0 (lut_rate lut)) as [A|A]; [|rewrite Neg in L by (intros (? & _); lia); discriminate].
    destruct (N.ltb_spec (lut_rate lut) (2 ^ 31)) as [B|B]; [|rewrite Neg in L by (intros (? & _); lia); discriminate].
    destruct (N.eq_dec (lut_rate lut mod 192000) 0) as [C|C]; [apply N.mod_divide in C; [auto|lia]|].
    rewrite Neg in L; [discriminate|]. intros (_ & D). apply C. apply N.mod_divide; [lia|exact D]. }
  destruct G as ((G1 & G2) & (k & G3)).
  assert (Rate : rate_ok (lut_rate lut)) by (split; [auto|exists (k * 80)%N; lia]).
  destruct (plan_exact lut per tt N_pt N_res id Rate) as (a & -> & _ & P & _ & U & D); auto; [exists (k * 192)%N; lia|].
  assert (NT : forall off n i r, nth_error (plan_vec (lut_rate lut) off (4 * N_pt) n) i = Some r -> r = plan_res (lut_rate lut) off (4 * N_pt) (N.of_nat i)).
  { intros off n i r E. unfold plan_vec in E. rewrite nth_error_map in E. destruct (nth_error (seq 0 n) i) as [x|] eqn:X; [|discriminate].
    cbn in E. injection E as <-. pose proof X as X'. apply nth_error_nth with (d := 0%nat) in X. assert ((i < length (seq 0 n))%nat) by (apply nth_error_Some; congruence).
    rewrite seq_length in H. rewrite seq_nth in X by auto. cbn in X. now subst x. }
  assert (AS : forall off n m, ascending (map (fun i => plan_res (lut_rate lut) off (4 * N_pt) (N.of_nat i)) (seq m n))).
  { intros off n. induction n as [|n IH]; intros m; [exact I|]. specialize (IH (S m)). cbn [seq map]. destruct n as [|n]; [exact I|].
    cbn [seq map] in *. split; [|exact IH]. unfold first, plan_res, plan_dur. cbn [rs_offset du_N].
    pose proof (rate_pos _ Rate). apply N2Z.inj_lt. apply N.mul_lt_mono_pos_l; [lia|]. apply N.add_lt_mono_l. apply N.mul_lt_mono_pos_l; lia. }
  exists a. split; [reflexivity|]. split; [exact P|]. rewrite U, D. unfold plan_vec at 1 2. rewrite !map_length, !seq_length.
  split; [reflexivity|]. split; [reflexivity|]. split; [|split; [|split; apply AS]].
  - intros i r E. rewrite (NT _ _ _ _ E). replace (ul_slot N_pt id (N.of_nat i)) with (2 + 4 * id + 4 * N_pt * N.of_nat i)%N by (unfold ul_slot; lia). apply plan_slots.
  - intros i r E. rewrite (NT _ _ _ _ E). replace (dl_slot N_pt id (N.of_nat i)) with (2 + 4 * id + 2 + 4 * N_pt * N.of_nat i)%N by (unfold dl_slot, ul_slot; lia). apply plan_slots.
Qed.

Lemma slots_apart sr s t r q : two_slots sr s r -> two_slots sr t q -> (s + 2 <= t \/ t + 2 <= s)%N -> disjoint r q.
Proof.
  unfold two_slots, disjoint, covers. intros (A & B) (C & D) E x ((F1 & F2) & (F3 & F4)). rewrite A, B, C, D in *.
  assert (0 <= slot_samples sr) by (unfold slot_samples; lia). destruct E as [E|E]; nia.
Qed.

(** Resources of different terminals never overlap, in either direction; neither do uplink and downlink of one
    terminal; no resource overlaps the two slots of the beacon. *)
Theorem C36_conflict_free : forall lut per per' tt tt' N_pt N_res id id' a b,
  is_ok (lut_new (lut_rate lut)) = true -> (lut_rate lut / 1000 * 16 < 2 ^ 31)%N -> (N_res <= 8)%N -> (id < N_pt < 2 ^ 28)%N -> (id' < N_pt)%N ->
  fits (lut_rate lut) N_pt N_res id per -> fits (lut_rate lut) N_pt N_res id' per' ->
  init_allocation_pt lut per tt N_pt N_res id = Ok a -> init_allocation_pt lut per' tt' N_pt N_res id' = Ok b ->
  (id <> id' -> forall r q, In r (pa_ul a ++ pa_dl a) -> In q (pa_ul b ++ pa_dl b) -> disjoint r q) /\
  (forall r q, In r (pa_ul a) -> In q (pa_dl a) -> disjoint r q) /\
  (forall r, In r (pa_ul a ++ pa_dl a) -> 2 * slot_samples (lut_rate lut) <= first r).
Proof.
  intros lut per per' tt tt' N_pt N_res id id' a b L M NR Id Id' F F' A B.
  destruct (C36_plan_exact lut per tt N_pt N_res id L M NR Id F) as (x & X & _ & _ & _ & XU & XD & _).
  rewrite A in X. injection X as <-.
  destruct (C36_plan_exact lut per' tt' N_pt N_res id' L M NR ltac:(lia) F') as (y & Y & _ & _ & _ & YU & YD & _).
  rewrite B in Y. injection Y as <-. set (sr := lut_rate lut) in *.
  assert (S : forall r, In r (pa_ul a ++ pa_dl a) -> exists i, two_slots sr (ul_slot N_pt id i) r \/ two_slots sr (dl_slot N_pt id i) r).
  { intros r I. apply in_app_or in I. destruct I as [I|I]; apply In_nth_error in I; destruct I as (i & I); exists (N.of_nat i); eauto. }
  assert (T : forall r, In r (pa_ul b ++ pa_dl b) -> exists i, two_slots sr (ul_slot N_pt id' i) r \/ two_slots sr (dl_slot N_pt id' i) r).
  { intros r I. apply in_app_or in I. destruct I as [I|I]; apply In_nth_error in I; destruct I as (i & I); exists (N.of_nat i); eauto. }
  split; [|split].
  - intros NE r q Ir Iq. destruct (S r Ir) as (i & Hi). destruct (T q Iq) as (j & Hj).
    assert (K : (id + N_pt * i + 1 <= id' + N_pt * j \/ id' + N_pt * j + 1 <= id + N_pt * i)%N).
    { assert (id + N_pt * i <> id' + N_pt * j)%N; [|lia]. intros E.
      apply NE. assert (id = (id + N_pt * i) mod N_pt)%N as -> by (rewrite N.mul_comm, N.mod_add by lia; symmetry; apply N.mod_small; lia).
      rewrite E. rewrite N.mul_comm, N.mod_add by lia. apply N.mod_small. lia. }
    destruct Hi as [Hi|Hi], Hj as [Hj|Hj]; eapply slots_apart; eauto; unfold dl_slot, ul_slot; lia.
  - intros r q Ir Iq. apply In_nth_error in Ir, Iq. destruct Ir as (i & Ir), Iq as (j & Iq). apply XU in Ir. apply XD in Iq.
    eapply slots_apart; eauto. unfold dl_slot, ul_slot.
    destruct (N.lt_trichotomy (N.of_nat i) (N.of_nat j)) as [K|[K|K]]; [|rewrite K; lia|]; nia.
  - intros r I. destruct (S r I) as (i & [(E & _)|(E & _)]); rewrite E; assert (0 <= slot_samples sr) by (unfold slot_samples; lia); unfold dl_slot, ul_slot; nia.
Qed.
(** The two shipped configurations, one terminal with four and two terminals with two resources, fit 10 ms. *)
Theorem C36_shipped_fits : forall sr per, rate_ok sr -> du_N per = (sr / 100)%N -> (sr / 100 < 2 ^ 31)%N ->
  fits sr 1 4 0 per /\ fits sr 2 2 0 per /\ fits sr 2 2 1 per.
Proof.
  intros sr per (S0 & (k & ->)) E B. unfold fits. rewrite E. replace (k * 2400 / 2400)%N with k by (symmetry; apply N.div_mul; lia).
  replace (k * 2400 / 100)%N with (k * 24)%N in * by (rewrite <- (N.div_mul (k * 24) 100) by lia; f_equal; lia).
  unfold dl_slot, ul_slot. repeat split; auto; intros _; lia.
Qed.

(** *** C47 *)
Fixpoint transmit (a : allocation_ft) (n : nat) : res allocation_ft :=
  match n with O => Ok a | S n => do a <- transmit a n ; set_beacon_time_next a end.
(** After the first beacon was scheduled at time [t], beacon number n (from 0) is scheduled at t + n periods, exactly
    one period after the previous transmission, and the counter is the number of beacons sent. *)
Theorem C47_one_period_apart : forall lut per prep a t n, allocation_ft_new lut per prep = Ok a ->
  0 <= t -> t + (Z.of_nat n + 1) * Z.of_N (du_N per) < 2 ^ 63 -> (N.of_nat n < 2 ^ 64)%N ->
  exists b, transmit (set_beacon_time_scheduled a t) n = Ok b /\
    fa_scheduled b = t + Z.of_nat n * Z.of_N (du_N per) /\ fa_cnt b = N.of_nat n /\ fa_per_second b = fa_per_second a /\
    (n <> 0%nat -> fa_transmitted b = fa_scheduled b - Z.of_N (du_N per)) /\ fa_period b = per /\ fa_prepare b = prep.
Proof.
  intros lut per prep a t n A T. unfold allocation_ft_new in A. apply bind_ok_inv in A. destruct A as (k & K & A). injection A as <-.
  change (2 ^ 63) with 9223372036854775808. change (2 ^ 64)%N with 18446744073709551616%N. set (P := Z.of_N (du_N per)).
  assert (P0 : 0 <= P) by (unfold P; lia).
  induction n as [|n IH]; intros B C; cbn [transmit].
  - eexists. split; [reflexivity|]. cbn. repeat split; try lia; congruence.
  - destruct IH as (b & -> & S & Cn & Ps & _ & Pe & Pr); [nia|lia|]. cbn [bind]. unfold set_beacon_time_next. rewrite Pe. fold P. rewrite S.
    rewrite sgn_ok by (apply in_signed_iff; change (2 ^ (Z.of_N 64 - 1)) with 9223372036854775808; nia). cbn [bind].
    eexists. split; [reflexivity|]. cbn [fa_scheduled fa_cnt fa_per_second fa_transmitted fa_period fa_prepare] in *. rewrite Cn.
    split; [nia|]. split; [change (2 ^ 64)%N with 18446744073709551616%N; rewrite N.mod_small by lia; lia|]. repeat split; auto; try congruence. intros _. nia.
Qed.
(** The once-per-second test of the counter selects exactly the beacons scheduled whole seconds after the first. *)
Theorem C47_once_per_second : forall lut per prep a t n b, allocation_ft_new lut per prep = Ok a -> (0 < lut_rate lut)%N ->
  0 <= t -> t + (Z.of_nat n + 1) * Z.of_N (du_N per) < 2 ^ 63 -> (N.of_nat n < 2 ^ 64)%N ->
  transmit (set_beacon_time_scheduled a t) n = Ok b ->
  ((fa_cnt b mod fa_per_second b = 0)%N <-> (Z.of_N (lut_rate lut) | fa_scheduled b - t)).
Proof.
  intros lut per prep a t n b A R T B C E. destruct (C47_one_period_apart lut per prep a t n A T B C) as (b' & E' & S & Cn & Ps & _).
  rewrite E in E'. injection E' as <-. rewrite S, Cn, Ps. clear E S Cn Ps.
  unfold allocation_ft_new in A. apply bind_ok_inv in A. destruct A as (k & K & A). injection A as <-. cbn [fa_per_second].
  unfold get_N_duration_in_second in K. destruct (N.eqb_spec (du_N per) 0) as [|NZ]; [discriminate|].
  destruct (N.eqb_spec (lut_rate lut mod du_N per) 0) as [M|M]; [|discriminate]. cbn [guard] in K. injection K as <-.
  apply N.div_exact in M; [|auto]. set (q := (lut_rate lut / du_N per)%N) in *.
  assert (Q0 : (q <> 0)%N) by (intros ->; lia).
  replace (t + Z.of_nat n * Z.of_N (du_N per) - t) with (Z.of_nat n * Z.of_N (du_N per)) by lia. rewrite M. rewrite N.mod_divide by auto. split.
  - intros (c & H). exists (Z.of_N c). replace (Z.of_nat n) with (Z.of_N (N.of_nat n)) by lia. rewrite H. lia.
  - intros (c & H). exists (Z.to_N c). assert (Z.of_nat n = c * Z.of_N q) by nia. assert (0 <= c) by nia. nia.
Qed.
(** The time at which the preparation of the n-th beacon starts lies exactly the preparation duration before it. *)
Theorem C47_prepared_before : forall lut per prep a t n, allocation_ft_new lut per prep = Ok a ->
  0 <= t -> t + (Z.of_nat n + 1) * Z.of_N (du_N per) < 2 ^ 63 -> (N.of_nat n < 2 ^ 64)%N -> Z.of_N (du_N prep) < 2 ^ 63 ->
  exists b, transmit (set_beacon_time_scheduled a t) n = Ok b /\
    get_beacon_time_scheduled_minus_prepare_duration b = Ok (t + Z.of_nat n * Z.of_N (du_N per) - Z.of_N (du_N prep)).
Proof.
  intros lut per prep a t n A T B C D. destruct (C47_one_period_apart lut per prep a t n A T B C) as (b & E & S & _ & _ & _ & _ & Pr).
  exists b. split; [exact E|]. unfold get_beacon_time_scheduled_minus_prepare_duration. rewrite Pr, S. apply sgn_ok. apply in_signed_iff.
  change (2 ^ (Z.of_N 64 - 1)) with 9223372036854775808. change (2 ^ 63) with 9223372036854775808 in *. assert (0 <= Z.of_nat n * Z.of_N (du_N per)) by nia. lia.
Qed.
(** Before the first beacon is scheduled both times are the largest int64: announcing a transmission overflows. *)
Theorem C47_unscheduled_refuted : exists lut per prep a, allocation_ft_new lut per prep = Ok a /\ set_beacon_time_next a = Oob.
Proof. exists (mkLut 100 (fun _ => 1)), (mkDur 100 ms001 1 10), (mkDur 100 ms001 1 2). eexists. split; [reflexivity|]. vm_compute. reflexivity. Qed.

Print Assumptions C36_plan_exact.
Print Assumptions C36_conflict_free.
Print Assumptions C36_shipped_fits.
Print Assumptions C47_one_period_apart.
Print Assumptions C47_once_per_second.
Print Assumptions C47_prepared_before.
Print Assumptions C47_unscheduled_refuted.

Definition demo_rate : N := 1920000%N.
Definition demo_lut : duration_lut := mkLut demo_rate (lut_entry demo_rate).
Definition ten_ms : duration := mkDur demo_rate ms001 10 19200.
Example demo_plan : is_ok (lut_new demo_rate) = true /\ fits demo_rate 2 2 1 ten_ms /\
  (do a <- init_allocation_pt demo_lut ten_ms 100 2 2 1 ; Ok (map first (pa_ul a), map first (pa_dl a))) = Ok ([4800; 11200], [6400; 12800]).
Proof. split; [vm_compute; reflexivity|]. split; [vm_compute; intuition discriminate|]. vm_compute. reflexivity. Qed.
Example demo_too_many : init_allocation_pt demo_lut ten_ms 100 4 2 1 = Abort.
Proof. vm_compute. reflexivity. Qed.
Example demo_beacons : (do a <- allocation_ft_new demo_lut ten_ms ten_ms ; do b <- transmit (set_beacon_time_scheduled a 5000) 100 ;
   Ok (fa_transmitted b, fa_scheduled b, fa_cnt b, fa_per_second b)) = Ok (5000 + 99 * 19200, 5000 + 1920000, 100%N, 100%N).
Proof. vm_compute. reflexivity. Qed.
