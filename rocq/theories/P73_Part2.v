(** C80: reports and tables of part 2. *)
From Coq Require Import QArith Qround Lqa.
From Verif Require Import Base Part2 Part2Spec Part2Facts.
Open Scope Z_scope.

(** A level is reported with the value whose range of levels it lies in, and with no other. *)
Theorem C80_rssi : forall x, (- inject_Z (2 ^ 30) <= x)%Q ->
  exists v, rssi_report (Fin x) = Ok v /\ rssi_means v x /\ forall w, rssi_means w x -> w = v.
Proof.
  intros x H. destruct (rssi_ok x H) as [v [E M]]. exists v. split; [exact E|]. split; [exact M|].
  intros w Hw. assert (A := rssi_means_mono _ _ _ _ M Hw (Qle_refl x)). assert (B := rssi_means_mono _ _ _ _ Hw M (Qle_refl x)). lia.
Qed.

(** A weaker signal never gets a smaller report. *)
Theorem C80_rssi_monotone : forall x y v w, (- inject_Z (2 ^ 30) <= x)%Q -> (x <= y)%Q ->
  rssi_report (Fin x) = Ok v -> rssi_report (Fin y) = Ok w -> 1 <= w <= v /\ v <= 182.
Proof.
  intros x y v w Hx H Ev Ew. destruct (rssi_ok x Hx) as [v' [E M]]. rewrite Ev in E. injection E as <-.
  destruct (rssi_ok y ltac:(lra)) as [w' [E' M']]. rewrite Ew in E'. injection E' as <-.
  assert (A := rssi_means_mono _ _ _ _ M M' H). unfold rssi_means in *. intuition lia.
Qed.

Theorem C80_snr : forall x, (x <= inject_Z (2 ^ 29))%Q ->
  exists v, snr_report (Fin x) = Ok v /\ snr_means v x /\ forall w, snr_means w x -> w = v.
Proof.
  intros x H. destruct (snr_ok x H) as [v [E M]]. exists v. split; [exact E|]. split; [exact M|].
  intros w Hw. assert (A := snr_means_mono _ _ _ _ M Hw (Qle_refl x)). assert (B := snr_means_mono _ _ _ _ Hw M (Qle_refl x)). lia.
Qed.

(** A better ratio never gets a smaller report. *)
Theorem C80_snr_monotone : forall x y v w, (y <= inject_Z (2 ^ 29))%Q -> (x <= y)%Q ->
  snr_report (Fin x) = Ok v -> snr_report (Fin y) = Ok w -> 1 <= v <= w /\ w <= 201.
Proof.
  intros x y v w Hy H Ev Ew. destruct (snr_ok x ltac:(lra)) as [v' [E M]]. rewrite Ev in E. injection E as <-.
  destruct (snr_ok y Hy) as [w' [E' M']]. rewrite Ew in E'. injection E' as <-.
  assert (A := snr_means_mono _ _ _ _ M M' H). unfold snr_means in *. intuition lia.
Qed.

(** Small numbers, for the tables. *)
Lemma cases17 : forall (P : Z -> Prop), P 1 -> P 2 -> P 3 -> P 4 -> P 5 -> P 6 -> P 7 -> P 8 -> P 9 -> P 10 -> P 11 -> P 12 ->
  P 13 -> P 14 -> P 15 -> P 16 -> P 17 -> forall n, 1 <= n <= 17 -> P n.
Proof.
  intros P ? ? ? ? ? ? ? ? ? ? ? ? ? ? ? ? ? n Hn.
  assert (n = 1 \/ n = 2 \/ n = 3 \/ n = 4 \/ n = 5 \/ n = 6 \/ n = 7 \/ n = 8 \/ n = 9 \/ n = 10 \/ n = 11 \/ n = 12 \/
          n = 13 \/ n = 14 \/ n = 15 \/ n = 16 \/ n = 17) as Q by lia.
  repeat (destruct Q as [->|Q]; [assumption|]). subst n. assumption.
Qed.

(** Bands 1 to 17, in Hz; other numbers are refused. *)
Theorem C80_bands : forall n,
  match get_operating_band n with
  | Ok (lo, hi) => 1 <= n <= 17 /\ lo < hi /\
      exists a b, List.nth_error bands (Z.to_nat (n - 1)) = Some (a, b) /\ lo = a * 100000 /\ hi = b * 100000
  | r => r = Abort /\ ~ 1 <= n <= 17
  end.
Proof.
  intros n. destruct (Z_le_gt_dec 1 n) as [A|A]; [destruct (Z_le_gt_dec n 17) as [B|B]|].
  - revert n A B. assert (Q : forall n, 1 <= n <= 17 -> match get_operating_band n with
      | Ok (lo, hi) => 1 <= n <= 17 /\ lo < hi /\
          exists a b, List.nth_error bands (Z.to_nat (n - 1)) = Some (a, b) /\ lo = a * 100000 /\ hi = b * 100000
      | r => r = Abort /\ ~ 1 <= n <= 17 end); [|intros n A B; apply Q; lia].
    apply cases17; (split; [lia|]; split; [lia|]; eexists; eexists; split; [reflexivity|]; split; reflexivity).
  - unfold get_operating_band, guard. replace ((1 <=? n) && (n <=? 17)) with false
      by (symmetry; rewrite (proj2 (Z.leb_gt n 17)) by lia; apply Bool.andb_false_r). split; [reflexivity|lia].
  - unfold get_operating_band, guard. rewrite (proj2 (Z.leb_gt 1 n)) by lia. split; [reflexivity|lia].
Qed.

(** The power is measured over seven eighths of the channel; 23, 19 or 10 dBm; everything else is refused. *)
Theorem C80_power : forall bandwidth power_class,
  match get_maximum_output_power bandwidth power_class with
  | Ok (m, p, tol) =>
      (exists i, 0 <= i <= 2 /\ bandwidth = 1728000 * 2 ^ i) /\ 8 * m = 7 * bandwidth /\ tol = 2 /\
      ((power_class = 1 /\ p = 23) \/ (power_class = 2 /\ p = 19) \/ (power_class = 3 /\ p = 10))
  | r => r = Abort /\ ((forall i, 0 <= i <= 2 -> bandwidth <> 1728000 * 2 ^ i) \/ ~ 1 <= power_class <= 3)
  end.
Proof.
  intros b c. unfold get_maximum_output_power, guard.
  destruct (Z.eqb_spec b 1728000) as [E1|E1]; [|destruct (Z.eqb_spec b 3456000) as [E2|E2]; [|destruct (Z.eqb_spec b 6912000) as [E3|E3]]];
    cbn [orb].
  4: { split; [reflexivity|]. left. intros i Hi. assert (i = 0 \/ i = 1 \/ i = 2) as [->|[->| ->]] by lia; cbn; lia. }
  all: destruct (Z.eqb_spec c 1) as [F1|F1]; [|destruct (Z.eqb_spec c 2) as [F2|F2]; [|destruct (Z.eqb_spec c 3) as [F3|F3]]]; cbn [orb];
    [subst b c|subst b c|subst b c|split; [reflexivity|right; lia]];
    (split; [|repeat split; tauto]).
  1-3: exists 0; cbn; lia.
  1-3: exists 1; cbn; lia.
  all: exists 2; cbn; lia.
Qed.

(** The bandwidths have the right proportions: doubling with the index, seven eighths of them used. *)
Theorem C80_bandwidth : forall i,
  match get_channel_bandwidth i with
  | Ok (nominal, used) => 1 <= i <= 3 /\ nominal = 864000000 * 2 ^ i /\ 8 * used = 7 * nominal
  | r => r = Abort /\ ~ 1 <= i <= 3
  end.
Proof.
  intros i. unfold get_channel_bandwidth, guard.
  destruct (Z.eqb_spec i 1) as [->|E1]; [cbn; lia|]. destruct (Z.eqb_spec i 2) as [->|E2]; [cbn; lia|].
  destruct (Z.eqb_spec i 3) as [->|E3]; [cbn; lia|]. cbn [orb]. split; [reflexivity|lia].
Qed.

Example C80_nonvacuous : rssi_report (Fin (- 85)) = Ok 131 /\ rssi_means 131 (- 85) /\
  snr_report (Fin (31 # 2)) = Ok 83 /\ snr_means 83 (31 # 2) /\
  get_operating_band 9 = Ok (1910000000, 1930000000) /\ get_maximum_output_power 3456000 2 = Ok (3024000, 19, 2).
Proof.
  split; [vm_compute; reflexivity|]. split; [right; left; split; [lia|]; split; vm_compute; congruence|].
  split; [vm_compute; reflexivity|]. split; [right; left; split; [lia|]; split; vm_compute; congruence|].
  split; reflexivity.
Qed.

(** It is false that the bandwidth of a channel is in Hz: no bandwidth that is returned is accepted as one in Hz. *)
Theorem C80_bandwidth_refuted : forall i nominal used power_class, get_channel_bandwidth i = Ok (nominal, used) ->
  nominal = 1000 * (864000 * 2 ^ i) /\ get_maximum_output_power nominal power_class = Abort.
Proof.
  intros i m u c H. assert (A := C80_bandwidth i). rewrite H in A. destruct A as [A [-> _]]. split; [lia|].
  assert (i = 1 \/ i = 2 \/ i = 3) as [->|[->| ->]] by lia; reflexivity.
Qed.

(** It is false that every level can be reported: no signal at all is undefined behaviour. *)
Theorem C80_silence_refuted : rssi_report MinusInf = Oob.
Proof. reflexivity. Qed.

(** It is false that weaker signals never get smaller reports if no limit is set: the sum wraps. *)
Theorem C80_wrap_refuted : ~ (forall x y v w, (x <= y)%Q ->
  rssi_report (Fin x) = Ok v -> rssi_report (Fin y) = Ok w -> w <= v).
Proof.
  intros H. assert (Q := H (- (41 # 2) - (4294967295 # 2))%Q (- 85)%Q 1 131).
  assert (X : 131 <= 1) by (apply Q; vm_compute; congruence). lia.
Qed.

Print Assumptions C80_rssi.
Print Assumptions C80_rssi_monotone.
Print Assumptions C80_snr.
Print Assumptions C80_snr_monotone.
Print Assumptions C80_bands.
Print Assumptions C80_power.
Print Assumptions C80_bandwidth.
Print Assumptions C80_nonvacuous.
Print Assumptions C80_bandwidth_refuted.
Print Assumptions C80_silence_refuted.
Print Assumptions C80_wrap_refuted.
