(** C79: the times of the datagrams of a stream. *)
From Coq Require Import QArith Qround Qabs Lqa.
From Verif Require Import Base Stream StreamSpec StreamFacts.
Open Scope nat_scope.

Lemma schedule_inv : forall p o r sec n l, schedule p o r sec n = Ok l ->
  accepted p o r /\ l = map (time p o r sec) (seq 0 (n + 1)) /\ (forall i, i <= n -> (within p o (i mod r) < mega)%Z).
Proof.
  intros p o r sec n l H. assert (A : accepted p o r).
  { unfold schedule in H. destruct (make p o r) eqn:E; cbn [bind] in H; try discriminate. apply make_inv in E. apply E. }
  split; [exact A|]. rewrite (schedule_nexts _ _ _ _ _ A) in H. assert (Hr : 1 <= r) by apply A.
  assert (W : forall i, i <= n -> (within p o (i mod r) < mega)%Z).
  { intros i Hi. destruct (Z_lt_le_dec (within p o (i mod r)) mega) as [L|L]; [exact L|].
    rewrite (nexts_abort _ p o r sec 0 i Hr) in H by (lia || exact L). discriminate. }
  split; [|exact W]. rewrite nexts_state in H by (exact Hr || (intros i Hi; apply W; lia)). cbn [bind] in H.
  injection H as <-. reflexivity.
Qed.

(** Every time is the exact one rounded to a microsecond, so no error adds up, and lies in its second: each second has
    exactly the set number of datagrams. *)
Theorem C79_times : forall period offset reps sec n l, schedule period offset reps sec n = Ok l ->
  length l = n + 1 /\
  forall k t, nth_error l k = Some t ->
    (Qabs (inject_Z t - due period offset reps sec k) <= 1 # 2)%Q /\
    ((sec + Z.of_nat (k / reps)) * 1000000 <= t < (sec + Z.of_nat (k / reps) + 1) * 1000000)%Z.
Proof.
  intros p o r sec n l H. destruct (schedule_inv _ _ _ _ _ _ H) as [[A1 [A2 [A3 [A4 A5]]]] [-> W]].
  split; [rewrite map_length, seq_length; reflexivity|].
  intros k t E. assert (Hk : k < n + 1).
  { assert (Q : nth_error (map (time p o r sec) (seq 0 (n + 1))) k <> None) by congruence.
    apply nth_error_Some in Q. rewrite map_length, seq_length in Q. exact Q. }
  rewrite (nth_error_nth' _ 0%Z) in E by (rewrite map_length, seq_length; exact Hk). injection E as <-.
  rewrite (nth_indep _ 0%Z (time p o r sec 0)) by (rewrite map_length, seq_length; exact Hk).
  rewrite map_nth, seq_nth by exact Hk. cbn [Nat.add]. split.
  - destruct (time_due p o r sec k ltac:(lra) A2) as [L U]. apply Qabs_Qle_condition. split; lra.
  - assert (W' := W k ltac:(lia)). unfold time. change mega with 1000000%Z in *.
    assert (N : (0 <= within p o (k mod r))%Z).
    { apply cround_nonneg. assert (M0 : (0 <= Qn (k mod r) * p)%Q) by (apply Qmult_le_0_compat; [apply Qn_nonneg|lra]).
      change (inject_Z mega) with 1000000%Q. lra. }
    lia.
Qed.

(** The times increase; within a second they are 999 microseconds apart or more. *)
Theorem C79_spacing : forall period offset reps sec n l k t t', schedule period offset reps sec n = Ok l ->
  nth_error l k = Some t -> nth_error l (k + 1) = Some t' ->
  (t < t')%Z /\ ((k + 1) mod reps <> 0 -> (999 <= t' - t)%Z).
Proof.
  intros p o r sec n l k t t' H E E'. destruct (C79_times _ _ _ _ _ _ H) as [_ T].
  destruct (T _ _ E) as [_ B]. destruct (T _ _ E') as [_ B'].
  destruct (schedule_inv _ _ _ _ _ _ H) as [[A1 [A2 [A3 [A4 A5]]]] [-> W]].
  assert (D := Nat.div_mod k r ltac:(lia)). assert (M := Nat.mod_upper_bound k r ltac:(lia)).
  rewrite nth_error_map in E, E'.
  assert (Ek : forall j x, option_map (time p o r sec) (nth_error (seq 0 (n + 1)) j) = Some x -> x = time p o r sec j).
  { intros j x Q. destruct (nth_error (seq 0 (n + 1)) j) as [y|] eqn:Ey; [|discriminate]. injection Q as <-.
    assert (Hj : j < n + 1) by (rewrite <- (seq_length (n + 1) 0); apply nth_error_Some; congruence).
    apply (nth_error_nth _ _ 0) in Ey. rewrite seq_nth in Ey by exact Hj. cbn in Ey. subst y. reflexivity. }
  apply Ek in E, E'. subst t t'. clear Ek T.
  destruct (Nat.eq_dec (k mod r + 1) r) as [Q|Q].
  - assert (E1 : (k + 1) / r = k / r + 1) by (symmetry; apply (Nat.div_unique _ _ _ 0); lia).
    assert (E2 : (k + 1) mod r = 0) by (symmetry; apply (Nat.mod_unique _ _ (k / r + 1)); lia).
    rewrite E1 in B'. split; [lia|]. intros Z. contradiction.
  - assert (E1 : (k + 1) / r = k / r) by (symmetry; apply (Nat.div_unique _ _ _ (k mod r + 1)); lia).
    assert (E2 : (k + 1) mod r = k mod r + 1) by (symmetry; apply (Nat.mod_unique _ _ (k / r)); lia).
    assert (G : (999 <= time p o r sec (k + 1) - time p o r sec k)%Z).
    { unfold time. rewrite E1, E2, Nat.add_1_r.
      assert (X : (within p o (k mod r) + 999 <= within p o (S (k mod r)))%Z); [|lia].
      unfold within. assert (N := Qn_nonneg (k mod r)). change (inject_Z mega) with 1000000%Q.
      assert (M0 : (0 <= Qn (k mod r) * p)%Q) by (apply Qmult_le_0_compat; [exact N|lra]).
      assert (M1 : (Qn (S (k mod r)) * p == Qn (k mod r) * p + p)%Q) by (rewrite Qn_S; ring).
      change (inject_Z mega) with 1000000%Q. apply cround_shift; [lra| |lia].
      rewrite M1. change (inject_Z 999) with 999%Q. lra. }
    split; [lia|]. intros _. exact G.
Qed.

(** Which streams run: the arguments must be accepted, and the last datagram of a second must not be rounded up to the
    next one; otherwise the program ends in the first second. *)
Theorem C79_runs : forall period offset reps sec n,
  (accepted period offset reps -> (offset + period * inject_Z (Z.of_nat (reps - 1)) < 1 - (1 # 2000000))%Q ->
   exists l, schedule period offset reps sec n = Ok l) /\
  (accepted period offset reps -> (1 - (1 # 2000000) <= offset + period * inject_Z (Z.of_nat (reps - 1)))%Q ->
   reps <= n + 1 -> schedule period offset reps sec n = Abort) /\
  (~ accepted period offset reps -> schedule period offset reps sec n = Abort).
Proof.
  intros p o r sec n. split; [|split].
  - intros A H. rewrite (schedule_nexts _ _ _ _ _ A). assert (A' := A). destruct A' as [A1 [A2 [A3 [A4 A5]]]].
    rewrite nexts_state; [eexists; reflexivity|exact A4|]. intros i _.
    assert (M := Nat.mod_upper_bound i r ltac:(lia)).
    apply (Z.le_lt_trans _ (within p o (r - 1))); [apply within_mono; lra || lia|].
    unfold within. fold (Qn (r - 1)) in H.
    assert (M0 : (0 <= Qn (r - 1) * p)%Q) by (apply Qmult_le_0_compat; [apply Qn_nonneg|lra]).
    assert (N : (0 <= (o + Qn (r - 1) * p) * inject_Z mega)%Q) by (change (inject_Z mega) with 1000000%Q; lra).
    destruct (cround_near _ N) as [L _]. rewrite Zlt_Qlt. change (inject_Z mega) with 1000000%Q in *.
    assert (C : (p * Qn (r - 1) == Qn (r - 1) * p)%Q) by ring. rewrite C in H. lra.
  - intros A H Hn. rewrite (schedule_nexts _ _ _ _ _ A). assert (A' := A). destruct A' as [A1 [A2 [A3 [A4 A5]]]].
    rewrite (nexts_abort _ p o r sec 0 (r - 1)); [reflexivity|exact A4|lia|].
    rewrite Nat.mod_small by lia. unfold within. fold (Qn (r - 1)) in H.
    assert (M0 : (0 <= Qn (r - 1) * p)%Q) by (apply Qmult_le_0_compat; [apply Qn_nonneg|lra]).
    assert (C : (p * Qn (r - 1) == Qn (r - 1) * p)%Q) by ring. rewrite C in H.
    unfold cround. rewrite (proj2 (Qle_bool_iff _ _)) by (change (inject_Z mega) with 1000000%Q; lra).
    change mega with (Qfloor 1000000) at 1. apply Qfloor_resp_le. change (inject_Z mega) with 1000000%Q. lra.
  - intros A. unfold schedule. destruct (make p o r) as [s| | |] eqn:E; cbn [bind].
    + apply make_inv in E. tauto.
    + reflexivity.
    + exfalso. unfold make, guard in E. repeat match type of E with (if ?b then _ else _) = _ => destruct b end; discriminate.
    + exfalso. unfold make, guard in E. repeat match type of E with (if ?b then _ else _) = _ => destruct b end; discriminate.
Qed.

Lemma some_accepted : accepted (1 # 100) (1 # 3) 50.
Proof. unfold accepted. cbn [Nat.sub Z.of_nat]. repeat split; try lia; cbn; lra. Qed.

(** A stream with a period of 10 ms, from a third of a second on, 50 times per second. *)
Example C79_nonvacuous : accepted (1 # 100) (1 # 3) 50 /\
  schedule (1 # 100) (1 # 3) 50 7 3 = Ok [7333333; 7343333; 7353333; 7363333]%Z.
Proof. split; [exact some_accepted|vm_compute; reflexivity]. Qed.

(** It is false that every accepted stream runs: with a period of 0.4999998 s from 0.4999998 s on, twice per second,
    the second time is rounded up to a full second. *)
Theorem C79_late_refuted : ~ (forall period offset reps sec n, accepted period offset reps ->
  exists l, schedule period offset reps sec n = Ok l).
Proof.
  intros H. destruct (H (4999998 # 10000000) (4999998 # 10000000) 2 0%Z 1) as [l E].
  - unfold accepted. cbn [Nat.sub Z.of_nat]. repeat split; try lia; cbn; lra.
  - vm_compute in E. discriminate E.
Qed.

(** It is false that all times are 999 microseconds apart or more: from one second to the next it can be one. *)
Theorem C79_seam_refuted : ~ (forall period offset reps sec n l k t t', schedule period offset reps sec n = Ok l ->
  nth_error l k = Some t -> nth_error l (k + 1) = Some t' -> (999 <= t' - t)%Z).
Proof.
  intros H. assert (Q := H (333333 # 1000000)%Q 0%Q 4 0%Z 4 [0; 333333; 666666; 999999; 1000000]%Z 3 999999%Z 1000000%Z).
  assert (X : (999 <= 1000000 - 999999)%Z) by (apply Q; vm_compute; reflexivity). lia.
Qed.

(** It is false that a stream started again begins with its first time of the second: it goes on where it was. *)
Theorem C79_restart_refuted : ~ (forall period offset reps sec s t sec' s' t',
  accepted period offset reps ->
  set_start_full_sec (mkStream period offset reps 0 0) sec = Ok (s, t) -> set_start_full_sec s sec' = Ok (s', t') ->
  (Qabs (inject_Z t' - due period offset reps sec' 0) <= 1 # 2)%Q).
Proof.
  intros H.
  assert (Q := H (1 # 100)%Q (1 # 3)%Q 50 7%Z (mkStream (1 # 100) (1 # 3) 50 1 7) 7333333%Z 9%Z
                 (mkStream (1 # 100) (1 # 3) 50 2 9) 9343333%Z some_accepted ltac:(vm_compute; reflexivity) ltac:(vm_compute; reflexivity)).
  vm_compute in Q. apply Q. reflexivity.
Qed.

Print Assumptions C79_times.
Print Assumptions C79_spacing.
Print Assumptions C79_runs.
Print Assumptions C79_nonvacuous.
Print Assumptions C79_late_refuted.
Print Assumptions C79_seam_refuted.
Print Assumptions C79_restart_refuted.
