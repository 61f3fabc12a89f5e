(** C81: the estimate of the signal-to-noise ratio. *)
From Coq Require Import QArith Lqa Permutation.
From Verif Require Import Base SnrEst SnrEstSpec SnrEstFacts.
Open Scope nat_scope.

Definition noise (n : nat) (h : list ev) : Q := (qsum (roughness n) (stf_vecs h) + qsum (roughness n) (drs_vecs h))%Q.

Lemma Qn_pos : forall n, 1 <= n -> (0 < inject_Z (Z.of_nat n))%Q.
Proof. intros n H. change 0%Q with (inject_Z 0). rewrite <- Zlt_Qlt. lia. Qed.

(** The estimate is the energy without the noise, over the noise, where a quarter of the boosted STF counts, both per
    pilot and pair of pilots; without any noise it is 0 dB. *)
Theorem C81_closed : forall b h e, 1 <= b -> run (reset b) h = Ok e ->
  let n := b * 14 in
  ((noise n h == 0)%Q -> (estimate e == 1)%Q) /\
  (~ (noise n h == 0)%Q ->
   (estimate e == ((qsum (energy n) (stf_vecs h) - qsum (roughness n) (stf_vecs h)) * (1 # 4)
                   + qsum (energy n) (drs_vecs h) - qsum (roughness n) (drs_vecs h)) / noise n h
                  * (inject_Z (Z.of_nat (n - 1)) / inject_Z (Z.of_nat n)))%Q).
Proof.
  intros b h e Hb H n. destruct (run_holds _ _ _ Hb H) as [_ [H1 [H2 [H3 H4]]]]. fold n in H1, H2, H3, H4.
  assert (Hn : 14 <= n) by (unfold n; lia). clearbody n.
  unfold estimate. set (a := snr_acc e) in *.
  assert (A1 := qsum_nonneg _ (energy n) (stf_vecs h) (energy_nonneg n)).
  assert (A2 := qsum_nonneg _ (energy n) (drs_vecs h) (energy_nonneg n)).
  assert (A3 := qsum_nonneg _ (roughness n) (stf_vecs h) (roughness_nonneg n)).
  assert (A4 := qsum_nonneg _ (roughness n) (drs_vecs h) (roughness_nonneg n)).
  assert (A5 : (qsum (roughness n) (drs_vecs h) <= 2 * qsum (energy n) (drs_vecs h))%Q).
  { rewrite <- qsum_scale. apply qsum_le. apply rough_le. }
  unfold noise, total_S, total_R, count in *. split.
  - intros Z. replace (Qle_bool (N_sum a) 0) with true.
    + rewrite Bool.orb_true_r. reflexivity.
    + symmetry. apply Qle_bool_iff. rewrite H3, Z. lra.
  - intros Z. assert (P : (0 < qsum (roughness n) (stf_vecs h) + qsum (roughness n) (drs_vecs h))%Q).
    { destruct (Qlt_le_dec 0 (qsum (roughness n) (stf_vecs h) + qsum (roughness n) (drs_vecs h))) as [L|L]; [exact L|].
      exfalso. apply Z. lra. }
    assert (K : 1 <= length (stf_vecs h) + length (drs_vecs h)).
    { destruct (stf_vecs h); [|cbn [length]; lia]. destruct (drs_vecs h); [|cbn [length]; lia]. exfalso. apply Z. reflexivity. }
    replace (Qle_bool (S_plus_N_sum a) 0) with false.
    2: { symmetry. destruct (Qle_bool (S_plus_N_sum a) 0) eqn:E; [|reflexivity]. apply Qle_bool_iff in E. rewrite H1 in E. lra. }
    replace (Qle_bool (N_sum a) 0) with false.
    2: { symmetry. destruct (Qle_bool (N_sum a) 0) eqn:E; [|reflexivity]. apply Qle_bool_iff in E. rewrite H3 in E. lra. }
    cbn [orb]. rewrite H1, H2, H3, H4, !Nat2Z.inj_mul, !inject_Z_mult.
    assert (P1 := Qn_pos _ K). assert (P2 := Qn_pos n ltac:(lia)). assert (P3 := Qn_pos (n - 1) ltac:(lia)).
    set (k := inject_Z (Z.of_nat (length (stf_vecs h) + length (drs_vecs h)))) in *.
    set (x := inject_Z (Z.of_nat n)) in *. set (y := inject_Z (Z.of_nat (n - 1))) in *.
    set (r := qsum (roughness n) (stf_vecs h)) in *. set (s := qsum (roughness n) (drs_vecs h)) in *.
    field. repeat split; intros Q; lra.
Qed.

(** The STF is accepted if and only if nothing was received since the reset. *)
Theorem C81_stf_first : forall b h e ants, 1 <= b -> run (reset b) h = Ok e ->
  (stf_vecs h = [] /\ drs_vecs h = [] -> exists e', run (reset b) (h ++ [Stf ants]) = Ok e') /\
  (stf_vecs h <> [] \/ drs_vecs h <> [] -> run (reset b) (h ++ [Stf ants]) = Abort).
Proof.
  intros b h e ants Hb H. rewrite run_snoc, H. cbn [bind step]. destruct (run_holds _ _ _ Hb H) as [_ [_ [H2 [_ H4]]]].
  unfold process_stf, guard, count in *. split.
  - intros [E1 E2]. rewrite H2, H4, E1, E2. cbn [length Nat.add Nat.mul Nat.eqb]. eexists. reflexivity.
  - intros D. assert (1 <= length (stf_vecs h) + length (drs_vecs h)).
    { destruct D as [D|D]; [destruct (stf_vecs h)|destruct (drs_vecs h)]; try contradiction; cbn [length]; lia. }
    destruct (Nat.eqb_spec (S_plus_N_cnt (snr_acc e)) 0) as [Q|Q]; [|reflexivity]. rewrite H2 in Q.
    apply Nat.eq_mul_0 in Q. lia.
Qed.

(** The order of antennas, streams and symbols does not matter. *)
Theorem C81_order : forall b h h' e e', 1 <= b -> run (reset b) h = Ok e -> run (reset b) h' = Ok e' ->
  Permutation (stf_vecs h) (stf_vecs h') -> Permutation (drs_vecs h) (drs_vecs h') -> (estimate e == estimate e')%Q.
Proof.
  intros b h h' e e' Hb H H' P1 P2. destruct (C81_closed _ _ _ Hb H) as [A B]. destruct (C81_closed _ _ _ Hb H') as [A' B'].
  set (n := b * 14) in *.
  assert (E : (noise n h == noise n h')%Q) by (unfold noise; rewrite (qsum_perm _ _ _ _ P1), (qsum_perm _ _ _ _ P2); reflexivity).
  destruct (Qeq_dec (noise n h) 0) as [Z|Z].
  - rewrite A, A'; [reflexivity|rewrite <- E; exact Z|exact Z].
  - rewrite B, B'; [|rewrite <- E; exact Z|exact Z]. rewrite E, !(qsum_perm _ _ _ _ P1), !(qsum_perm _ _ _ _ P2). reflexivity.
Qed.

Lemma mag_cmul : forall c z, (mag (cmul c z) == mag c * mag z)%Q.
Proof. intros c z. unfold mag, cmul. cbn [fst snd]. ring. Qed.
Lemma energy_cmul : forall n c v, (energy n (fun i => cmul c (v i)) == mag c * energy n v)%Q.
Proof. intros. unfold energy. rewrite <- qsum_scale. apply qsum_ext. intros i _. apply mag_cmul. Qed.
Lemma roughness_cmul : forall n c v, (roughness n (fun i => cmul c (v i)) == mag c * roughness n v)%Q.
Proof.
  intros. unfold roughness.
  rewrite (qsum_ext _ _ (fun i => mag c * mag ((fst (v (S i)) - fst (v i))%Q, (snd (v (S i)) - snd (v i))%Q))%Q).
  - rewrite qsum_scale. ring.
  - intros i _. unfold mag, cmul. cbn [fst snd]. ring.
Qed.
Lemma stf_scaled : forall c h, stf_vecs (scaled c h) = map (fun (v : vec) i => cmul c (v i)) (stf_vecs h).
Proof.
  intros c h. induction h as [|x h IH]; [reflexivity|]. unfold stf_vecs, scaled in *. cbn [map flat_map]. rewrite IH, map_app.
  f_equal. destruct x; [|reflexivity]. rewrite !map_map. reflexivity.
Qed.
Lemma drs_scaled : forall c h, drs_vecs (scaled c h) = map (fun (v : vec) i => cmul c (v i)) (drs_vecs h).
Proof.
  intros c h. induction h as [|x h IH]; [reflexivity|]. unfold drs_vecs, scaled in *. cbn [map flat_map]. rewrite IH, map_app.
  f_equal. destruct x as [|ants f l]; [reflexivity|]. induction ants as [|a ants IHa]; [reflexivity|].
  cbn [map flat_map]. rewrite IHa, map_app. f_equal. rewrite map_map. reflexivity.
Qed.
Lemma qsum_energy : forall n c l, (qsum (energy n) (map (fun (v : vec) i => cmul c (v i)) l) == mag c * qsum (energy n) l)%Q.
Proof. intros. rewrite qsum_map, <- qsum_scale. apply qsum_ext. intros v _. apply energy_cmul. Qed.
Lemma qsum_roughness : forall n c l, (qsum (roughness n) (map (fun (v : vec) i => cmul c (v i)) l) == mag c * qsum (roughness n) l)%Q.
Proof. intros. rewrite qsum_map, <- qsum_scale. apply qsum_ext. intros v _. apply roughness_cmul. Qed.

Lemma scaled_runs : forall c b h e, 1 <= b -> run (reset b) h = Ok e -> exists e', run (reset b) (scaled c h) = Ok e'.
Proof.
  intros c b h. induction h as [|x h IH] using rev_ind; intros e Hb H; [eexists; reflexivity|].
  rewrite run_snoc in H. destruct (run (reset b) h) as [e1| | |] eqn:E1; cbn [bind] in H; try discriminate.
  destruct (IH e1 Hb eq_refl) as [e1' E1']. unfold scaled. rewrite map_app. cbn [map]. fold (scaled c h).
  destruct x as [ants|ants f l].
  - destruct (C81_stf_first b h e1 ants Hb E1) as [_ N]. rewrite run_snoc, E1 in N. cbn [bind] in N. rewrite H in N.
    apply (C81_stf_first b (scaled c h) e1' _ Hb E1'). rewrite stf_scaled, drs_scaled.
    destruct (stf_vecs h); [|discriminate N; left; discriminate]. destruct (drs_vecs h); [|discriminate N; right; discriminate].
    split; reflexivity.
  - rewrite run_snoc, E1'. eexists. reflexivity.
Qed.

(** The gain and the phase of the receiver do not matter: all values may be multiplied by any complex number but 0. *)
Theorem C81_scale : forall b h e c, 1 <= b -> run (reset b) h = Ok e -> ~ (mag c == 0)%Q ->
  exists e', run (reset b) (scaled c h) = Ok e' /\ (estimate e' == estimate e)%Q.
Proof.
  intros b h e c Hb H Hc. destruct (scaled_runs c b h e Hb H) as [e' H']. exists e'. split; [exact H'|].
  destruct (C81_closed _ _ _ Hb H) as [A B]. destruct (C81_closed _ _ _ Hb H') as [A' B']. set (n := b * 14) in *.
  assert (E : (noise n (scaled c h) == mag c * noise n h)%Q).
  { unfold noise. rewrite stf_scaled, drs_scaled, !qsum_roughness. ring. }
  destruct (Qeq_dec (noise n h) 0) as [Z|Z].
  - rewrite A, A'; [reflexivity|rewrite E, Z; ring|exact Z].
  - rewrite B'; [rewrite B by exact Z|rewrite E; intros Q; apply Qmult_integral in Q; tauto].
    rewrite E, stf_scaled, drs_scaled, !qsum_roughness, !qsum_energy.
    assert (P : (0 < inject_Z (Z.of_nat n))%Q) by (apply Qn_pos; unfold n; lia).
    field. repeat split; try assumption. intros Q. lra.
Qed.

(** More energy for the same noise gives a higher estimate. *)
Theorem C81_monotone : forall b h h' e e', 1 <= b -> run (reset b) h = Ok e -> run (reset b) h' = Ok e' ->
  stf_vecs h = [] -> stf_vecs h' = [] -> let n := b * 14 in
  (0 < noise n h)%Q -> (noise n h == noise n h')%Q -> (qsum (energy n) (drs_vecs h) < qsum (energy n) (drs_vecs h'))%Q ->
  (estimate e < estimate e')%Q.
Proof.
  intros b h h' e e' Hb H H' S1 S2 n P E L. destruct (C81_closed _ _ _ Hb H) as [_ B]. destruct (C81_closed _ _ _ Hb H') as [_ B'].
  fold n in B, B'. rewrite B by (intros Q; lra). rewrite B' by (intros Q; lra). rewrite <- E.
  assert (P1 := Qn_pos (n - 1) ltac:(unfold n; lia)). assert (P2 := Qn_pos n ltac:(unfold n; lia)).
  unfold noise in *. rewrite S1, S2, qsum_nil in *.
  apply Qmult_lt_r; [unfold Qdiv; apply Qmult_lt_0_compat; [exact P1|apply Qinv_lt_0_compat; exact P2]|].
  unfold Qdiv. apply Qmult_lt_r; [apply Qinv_lt_0_compat; exact P|]. lra.
Qed.

(** A channel without any noise and the same for all pilots is reported with 0 dB, however strong it is. *)
Theorem C81_flat : forall b h e, 1 <= b -> run (reset b) h = Ok e ->
  (forall v, In v (stf_vecs h) \/ In v (drs_vecs h) -> flat (b * 14) v) -> (estimate e == 1)%Q.
Proof.
  intros b h e Hb H F. apply (C81_closed _ _ _ Hb H). set (n := b * 14) in *.
  assert (R : forall v, flat n v -> (roughness n v == 0)%Q).
  { intros v Hv. unfold roughness. rewrite (qsum_ext _ _ (fun _ => 0 * 0)%Q).
    - rewrite qsum_scale. ring.
    - intros i Hi. apply in_seq in Hi. destruct (Hv i ltac:(lia)) as [X1 X2]. destruct (Hv (S i) ltac:(lia)) as [Y1 Y2].
      unfold mag. cbn [fst snd]. rewrite X1, X2, Y1, Y2. ring. }
  assert (Z : forall l, (forall v, In v l -> flat n v) -> (qsum (roughness n) l == 0)%Q).
  { intros l Hl. rewrite (qsum_ext _ _ (fun _ => 0 * 0)%Q); [rewrite qsum_scale; ring|].
    intros v Hv. rewrite (R v (Hl v Hv)). reflexivity. }
  unfold noise. rewrite !Z; [ring| |]; intros v Hv; apply F; tauto.
Qed.

Definition some_antenna : antenna := fun ts i => (inject_Z (Z.of_nat (10 + i mod 2)), inject_Z (Z.of_nat ts)).
Definition some_history : list ev := [Stf [some_antenna; some_antenna]; Drs [some_antenna; some_antenna] 0 3].
Definition zigzag : antenna := fun _ i => (if i mod 2 =? 0 then 1%Q else (- (1))%Q, 0%Q).

Example C81_nonvacuous :
  (exists e, run (reset 1) some_history = Ok e /\ (150 < estimate e)%Q) /\
  (0 < noise 14 some_history)%Q /\ length (stf_vecs some_history) = 2 /\ length (drs_vecs some_history) = 8.
Proof.
  split; [|split; [vm_compute; reflexivity|split; reflexivity]].
  destruct (run (reset 1) some_history) as [e| | |] eqn:E; try (vm_compute in E; discriminate E).
  exists e. split; [reflexivity|]. vm_compute in E. injection E as <-. vm_compute. reflexivity.
Qed.

(** It is false that there always is an estimate in decibels: a channel that changes its sign from pilot to pilot gives
    a negative ratio. *)
Theorem C81_decibels_refuted : ~ (forall b h e, 1 <= b -> run (reset b) h = Ok e -> (0 < estimate e)%Q).
Proof.
  intros H. destruct (run (reset 1) [Drs [zigzag] 0 0]) as [e| | |] eqn:E; try (vm_compute in E; discriminate E).
  assert (Q := H 1 _ e ltac:(lia) E). vm_compute in E. injection E as <-. vm_compute in Q. discriminate Q.
Qed.

Print Assumptions C81_closed.
Print Assumptions C81_stf_first.
Print Assumptions C81_order.
Print Assumptions C81_scale.
Print Assumptions C81_monotone.
Print Assumptions C81_flat.
Print Assumptions C81_nonvacuous.
Print Assumptions C81_decibels_refuted.
