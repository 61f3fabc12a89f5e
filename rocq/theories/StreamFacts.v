(** Facts about the streams of datagrams. *)
From Coq Require Import QArith Qround Lqa.
From Verif Require Import Base Stream StreamSpec.
Open Scope nat_scope.

Lemma make_ok : forall p o r, accepted p o r -> make p o r = Ok (mkStream p o r 0 0).
Proof.
  intros p o r [H1 [H2 [H3 [H4 H5]]]]. unfold make, guard, Qltb, Qn.
  rewrite (proj2 (Qle_bool_iff _ _) H1), (proj2 (Qle_bool_iff _ _) H2).
  rewrite (proj2 (Qle_bool_iff o (1 - p))) by lra. rewrite (proj2 (Nat.leb_le _ _) H4).
  destruct (Qle_bool 1 _) eqn:E; [|reflexivity]. apply Qle_bool_iff in E. lra.
Qed.

Lemma make_inv : forall p o r s, make p o r = Ok s -> accepted p o r /\ s = mkStream p o r 0 0.
Proof.
  intros p o r s H. unfold make, guard, Qltb, Qn in H.
  destruct (Qle_bool (999 # 1000000) p) eqn:E1; [|discriminate]. destruct (Qle_bool 0 o) eqn:E2; [|discriminate].
  destruct (Qle_bool o (1 - p)) eqn:E3; [|discriminate]. destruct (Nat.leb_spec 1 r) as [E4|]; [|discriminate].
  destruct (Qle_bool 1 (o + p * inject_Z (Z.of_nat (r - 1)))) eqn:E5; [discriminate|]. injection H as <-.
  apply Qle_bool_iff in E1, E2, E3. repeat split; try assumption; try lra.
  apply Qnot_le_lt. intros Q. apply Qle_bool_iff in Q. congruence.
Qed.

Lemma Qn_nonneg : forall n, (0 <= Qn n)%Q.
Proof. intros n. unfold Qn. change 0%Q with (inject_Z 0). rewrite <- Zle_Qle. lia. Qed.
Lemma Qn_le : forall n m, n <= m -> (Qn n <= Qn m)%Q.
Proof. intros n m H. unfold Qn. rewrite <- Zle_Qle. lia. Qed.
Lemma Qn_S : forall n, (Qn (S n) == Qn n + 1)%Q.
Proof. intros n. unfold Qn. rewrite Nat2Z.inj_succ, <- Z.add_1_r, inject_Z_plus. reflexivity. Qed.

Lemma cround_near : forall x, (0 <= x)%Q -> (inject_Z (cround x) - (1 # 2) <= x < inject_Z (cround x) + (1 # 2))%Q.
Proof.
  intros x H. unfold cround. rewrite (proj2 (Qle_bool_iff _ _) H).
  assert (L := Qfloor_le (x + (1 # 2))). assert (U := Qlt_floor (x + (1 # 2))).
  rewrite inject_Z_plus in U. change (inject_Z 1) with 1%Q in U. split; lra.
Qed.

Lemma cround_mono : forall x y, (0 <= x)%Q -> (x <= y)%Q -> (cround x <= cround y)%Z.
Proof.
  intros x y Hx H. unfold cround. rewrite (proj2 (Qle_bool_iff 0 x) Hx), (proj2 (Qle_bool_iff 0 y)) by lra.
  apply Qfloor_resp_le. lra.
Qed.

Lemma cround_nonneg : forall x, (0 <= x)%Q -> (0 <= cround x)%Z.
Proof. intros x H. change 0%Z with (cround 0). apply cround_mono; [apply Qle_refl|exact H]. Qed.

Lemma cround_shift : forall x y n, (0 <= x)%Q -> (x + inject_Z n <= y)%Q -> (0 <= n)%Z -> (cround x + n <= cround y)%Z.
Proof.
  intros x y n Hx H Hn. assert (Hn' : (0 <= inject_Z n)%Q) by (change 0%Q with (inject_Z 0); rewrite <- Zle_Qle; exact Hn).
  destruct (cround_near x Hx) as [A1 A2]. destruct (cround_near y ltac:(lra)) as [B1 B2].
  assert (inject_Z (cround x + n) < inject_Z (cround y + 1))%Q.
  { rewrite !inject_Z_plus. change (inject_Z 1) with 1%Q. lra. }
  rewrite <- Zlt_Qlt in H0. lia.
Qed.

(** Time of datagram [k] in microseconds within its second. *)
Definition within (p o : Q) (j : nat) : Z := cround ((o + Qn j * p) * inject_Z mega).
Definition time (p o : Q) (r : nat) (sec : Z) (k : nat) : Z :=
  ((sec + Z.of_nat (k / r)) * mega + within p o (k mod r))%Z.
Definition state (p o : Q) (r : nat) (sec : Z) (k : nat) : stream :=
  mkStream p o r (k mod r) (sec + Z.of_nat (k / r)).

Lemma step_state : forall p o r sec k, 1 <= r ->
  get_next_us (state p o r sec k) =
  guard (within p o (k mod r) <? mega)%Z (Ok (state p o r sec (k + 1), time p o r sec k)).
Proof.
  intros p o r sec k Hr. unfold get_next_us, guard. cbn [state repetitions_cnt offset_sec period_sec full_sec_cnt repetitions].
  change (cround ((o + Qn (k mod r) * p) * inject_Z mega)) with (within p o (k mod r)).
  replace ((sec + Z.of_nat (k / r)) * mega + within p o (k mod r) <? (sec + Z.of_nat (k / r) + 1) * mega)%Z
    with (within p o (k mod r) <? mega)%Z
    by (destruct (Z.ltb_spec (within p o (k mod r)) mega);
        destruct (Z.ltb_spec ((sec + Z.of_nat (k / r)) * mega + within p o (k mod r)) ((sec + Z.of_nat (k / r) + 1) * mega)); lia).
  destruct (within p o (k mod r) <? mega)%Z; [|reflexivity]. unfold state, time.
  assert (D := Nat.div_mod k r ltac:(lia)). assert (M := Nat.mod_upper_bound k r ltac:(lia)).
  destruct (Nat.eqb_spec (k mod r + 1) r) as [E|E].
  - assert (E1 : (k + 1) / r = k / r + 1) by (symmetry; apply (Nat.div_unique _ _ _ 0); lia).
    assert (E2 : (k + 1) mod r = 0) by (symmetry; apply (Nat.mod_unique _ _ (k / r + 1)); lia).
    rewrite E1, E2. do 3 f_equal. lia.
  - assert (E1 : (k + 1) / r = k / r) by (symmetry; apply (Nat.div_unique _ _ _ (k mod r + 1)); lia).
    assert (E2 : (k + 1) mod r = k mod r + 1) by (symmetry; apply (Nat.mod_unique _ _ (k / r)); lia).
    rewrite E1, E2. reflexivity.
Qed.

Lemma within_mono : forall p o i j, (0 <= p)%Q -> (0 <= o)%Q -> i <= j -> (within p o i <= within p o j)%Z.
Proof.
  intros p o i j Hp Ho H. unfold within. assert (A := Qn_nonneg i). assert (B := Qn_le _ _ H).
  assert (M : (Qn i * p <= Qn j * p)%Q) by (apply Qmult_le_compat_r; assumption).
  assert (M0 : (0 <= Qn i * p)%Q) by (apply Qmult_le_0_compat; assumption).
  change (inject_Z mega) with 1000000%Q. apply cround_mono; lra.
Qed.

Lemma nexts_state : forall n p o r sec k, 1 <= r ->
  (forall i, k <= i < k + n -> (within p o (i mod r) < mega)%Z) ->
  nexts (state p o r sec k) n = Ok (state p o r sec (k + n), map (time p o r sec) (seq k n)).
Proof.
  induction n as [|n IH]; intros p o r sec k Hr H; cbn [nexts seq map].
  - rewrite Nat.add_0_r. reflexivity.
  - rewrite step_state by exact Hr. unfold guard. rewrite (proj2 (Z.ltb_lt _ _)) by (apply H; lia). cbn [bind].
    rewrite IH; [|exact Hr|intros i Hi; apply H; lia]. cbn [bind].
    replace (k + 1 + n) with (k + S n) by lia. replace (k + 1) with (S k) by lia. reflexivity.
Qed.

Lemma nexts_abort : forall n p o r sec k i, 1 <= r -> k <= i < k + n -> (mega <= within p o (i mod r))%Z ->
  nexts (state p o r sec k) n = Abort.
Proof.
  induction n as [|n IH]; intros p o r sec k i Hr Hi H; [lia|]. cbn [nexts]. rewrite step_state by exact Hr. unfold guard.
  destruct (Z.ltb_spec (within p o (k mod r)) mega) as [L|L]; [|reflexivity]. cbn [bind].
  rewrite (IH p o r sec (k + 1) i); [reflexivity|exact Hr| |exact H].
  assert (i <> k) by (intros ->; lia). lia.
Qed.

Lemma schedule_nexts : forall p o r sec n, accepted p o r ->
  schedule p o r sec n = do (s, l) <- nexts (state p o r sec 0) (n + 1) ; Ok l.
Proof.
  intros p o r sec n H. unfold schedule. rewrite (make_ok _ _ _ H). cbn [bind]. unfold set_start_full_sec.
  cbn [period_sec offset_sec repetitions repetitions_cnt].
  destruct H as [_ [_ [_ [Hr _]]]].
  replace (mkStream p o r 0 sec) with (state p o r sec 0)
    by (unfold state; rewrite Nat.mod_0_l, Nat.div_0_l by lia; f_equal; lia).
  rewrite Nat.add_1_r. cbn [nexts].
  destruct (get_next_us (state p o r sec 0)) as [[s1 t]| | |]; cbn [bind]; try reflexivity.
  destruct (nexts s1 n) as [[s2 l]| | |]; cbn [bind]; reflexivity.
Qed.

Lemma time_due : forall p o r sec k, (0 <= p)%Q -> (0 <= o)%Q -> 
  (- (1 # 2) < inject_Z (time p o r sec k) - due p o r sec k <= 1 # 2)%Q.
Proof.
  intros p o r sec k Hp Ho. unfold time, due. assert (A := Qn_nonneg (k mod r)).
  assert (M0 : (0 <= Qn (k mod r) * p)%Q) by (apply Qmult_le_0_compat; assumption).
  assert (N : (0 <= (o + Qn (k mod r) * p) * inject_Z mega)%Q) by (change (inject_Z mega) with 1000000%Q; lra).
  destruct (cround_near _ N) as [L U]. fold (within p o (k mod r)) in L, U.
  rewrite inject_Z_plus, inject_Z_mult. change (inject_Z mega) with 1000000%Q in *. fold (Qn (k mod r)).
  set (S := inject_Z (sec + Z.of_nat (k / r))) in *. split; lra.
Qed.
