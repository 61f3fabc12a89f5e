(** Every event keeps the invariant of the p2p firmware or fails in one of the known ways. *)
From Coq Require Zquot.
From Verif Require Import Base IntHelpers IntHelpersSpec IntHelpersFacts Duration DurationSpec P21_Duration Allocation AllocationSpec
  AllocationFacts P24_Allocation P25_P2pPlan IrregularQueue P2p P2pSpec P2pFacts P2pInvFacts.
Open Scope Z_scope.

Lemma finite t h : t < 2 ^ 60 + 2 ^ 60 -> has_finite_time (report_at t h) = true.
Proof. unfold has_finite_time, report_at, undefined_late. cbn [call_after]. big. lia. Qed.
Lemma queued_one t h : t < 2 ^ 60 + 2 ^ 60 -> queued (report_at t h) = [report_at t h].
Proof. intros H. unfold queued. rewrite finite by exact H. reflexivity. Qed.
Lemma shutting_mono f i k k' : (k <= k')%nat -> shutting f i k = true -> shutting f i k' = true.
Proof.
  unfold shutting. destruct (f_shut f); [reflexivity|]. cbn [orb]. destruct (hit i) as [h|]; [|discriminate]. intros L H.
  apply Nat.leb_le in H. apply Nat.leb_le. lia.
Qed.
Lemma shutting_stored f i k : shutting f i k = true -> f_shut (stored f i) = true.
Proof. unfold shutting, stored. cbn [with_shut f_shut]. destruct (f_shut f); [reflexivity|]. cbn [orb]. destruct (hit i); auto. Qed.
Lemma shutting_known f i k : f_shut f = true -> shutting f i k = true.
Proof. unfold shutting. now intros ->. Qed.

Lemma dissociation_enter sr f now : lut_new sr = Ok (f_lut f) -> near now ->
  exists t, dissociation_entry f true now = Ok (report_at t (handle_dissociation (f_role f))) /\ - 2 ^ 59 <= t <= 2 ^ 59.
Proof.
  intros Lu N. unfold dissociation_entry. cbn [guard]. destruct (samples sr (f_lut f) ms001 100 Lu ltac:(lia)) as (d & -> & D). cbn [bind].
  unfold near in N. rewrite sgn_ok by (big; in64). cbn [bind]. eexists. split; [reflexivity|]. big. lia.
Qed.
Lemma steady_enter r sr f now pp : base r sr f -> near now -> near pp ->
  exists a t, steady_entry f now pp = Ok (with_ft f a, report_at t 0) /\ fa_period a = fa_period (f_ft f) /\ fa_prepare a = fa_prepare (f_ft f) /\
    fa_transmitted a = fa_transmitted (f_ft f) /\ - 2 ^ 60 <= t <= 2 ^ 59 + 2 ^ 34 /\
    (r = FT -> t = fa_scheduled a - beacon_prepare sr /\ - 2 ^ 59 <= fa_scheduled a <= 2 ^ 59 + 2 ^ 33).
Proof.
  intros B N Np. unfold steady_entry. rewrite (b_role _ _ _ B). pose proof (base_sizes r sr f B) as (Z1 & Z2 & Z3).
  pose proof (b_lut _ _ _ B) as Lu. destruct (lut_rate_ok _ _ Lu) as (((R1 & R2) & _) & R). unfold near in *. destruct r.
  - unfold get_N_samples_at_next_full_second, multiple_geq. rewrite R.
    rewrite mult_leq_val by (try (big; in64); lia). cbn [bind].
    assert (A : exists A, (if Z.quot now (Z.of_N sr) * Z.of_N sr <? now then sgn 64 (Z.quot now (Z.of_N sr) * Z.of_N sr + Z.of_N sr)
                           else Ok (Z.quot now (Z.of_N sr) * Z.of_N sr)) = Ok A /\ now <= A <= Z.max 0 now + Z.of_N sr).
    { set (m := Z.of_N sr) in *. assert (Hm : 0 < m) by (unfold m; lia). assert (M31 : m < 2147483648) by (unfold m; big; lia).
      pose proof (Z.quot_rem' now m) as Q. rewrite (Z.mul_comm m) in Q. set (q := Z.quot now m * m) in *.
      destruct (Z.lt_ge_cases now 0) as [Ng|Ng].
      - pose proof (Zquot.Zrem_lt_neg_pos now m ltac:(lia) ltac:(lia)) as Rb.
        replace (q <? now) with false by lia. exists q. split; [reflexivity|].
        assert (q <= 0) by (unfold q; assert (Z.quot now m <= 0) by (apply Z.quot_le_upper_bound; lia); nia). lia.
      - pose proof (Z.rem_bound_pos now m Ng ltac:(lia)) as Rb. destruct (Z.ltb_spec q now) as [K|K].
        + exists (q + m). rewrite sgn_ok by (big; in64). split; [reflexivity|lia].
        + exists q. split; [reflexivity|lia]. }
    destruct A as (A & -> & A1). cbn [bind].
    destruct (C33_conversion_exact sr (f_lut f) s001 1 Lu ltac:(reflexivity)) as (n & -> & Ln). unfold lasts, per_second in Ln. cbn [bind].
    big. rewrite sgn_ok by in64. cbn [bind]. rewrite sgn_ok by in64. cbn [bind].
    unfold get_beacon_time_scheduled_minus_prepare_duration. cbn [set_beacon_time_scheduled fa_scheduled fa_prepare]. rewrite (b_prep _ _ _ B).
    rewrite sgn_ok by in64. cbn [bind]. eexists. eexists. split; [reflexivity|]. cbn [set_beacon_time_scheduled fa_scheduled fa_prepare fa_period fa_transmitted].
    do 3 (split; [reflexivity|]). split; [lia|]. intros _. split; [reflexivity|lia].
  - rewrite (b_per _ _ _ B). big. rewrite sgn_ok by in64. cbn [bind]. exists (f_ft f). eexists.
    split; [f_equal; f_equal; destruct f; reflexivity|]. do 3 (split; [reflexivity|]). split; [lia|discriminate].
Qed.

Lemma base_stored r sr f i : base r sr f -> base r sr (stored f i).
Proof. intros B. eapply base_same; try exact B; reflexivity. Qed.
Lemma base_stage r sr f g : base r sr f -> base r sr (with_stage f g).
Proof. intros B. eapply base_same; try exact B; reflexivity. Qed.
Lemma base_sent r sr f g : base r sr f -> same_but_sent f g -> base r sr g.
Proof. intros B S. destruct (sbs_fields f g S) as (F1 & F2 & _ & _ & _ & _ & F7 & F8). eapply base_same; try exact B; rewrite ?F7; congruence. Qed.

Lemma life_sent sr f g p : same_but_sent f g -> life sr f p -> life sr g p.
Proof.
  intros S H. destruct (sbs_fields f g S) as (F1 & F2 & F3 & F4 & F5 & F6 & F7 & F8). unfold life in *. rewrite F3, F1, F4, F5, F7. exact H.
Qed.
Lemma life_stored sr f i p : life sr f p -> life sr (stored f i) p.
Proof.
  intros H. unfold life, stored in *. cbn [with_shut f_stage f_role f_released f_shut f_ft].
  destruct (f_stage f); auto.
  - destruct H as (t & A & B & C & ->). exists t. auto.
  - destruct H as (A & B & ->). auto.
Qed.
Lemma sbs_earliest_parts r sr f g i l : parts r sr g l -> same_but_sent f g -> parts r sr (stored g i) l.
Proof. intros Pa _. eapply parts_same; try exact Pa; auto. Qed.

(** A call that sends unicast packets. *)
Definition sending (s : sys) (f : fw) (i : inp) (t : list tx) : sys := mkSys (stored f i) true (s_pending s) (s_txs s ++ t) (s_calls s).
Lemma sending_inv r sr s i f t : inv r sr s -> s_started s = true -> f_stage (s_fw s) = Steady -> same_but_sent (s_fw s) f ->
  f_order f = Z.of_nat (length (s_txs s ++ t)) -> chain (beacon_length sr) 0 low (s_txs s ++ t) -> parts r sr f (s_txs s ++ t) -> beacons t = [] ->
  inv r sr (sending s f i t) /\ moves s (sending s f i t).
Proof.
  intros [B O C Pa Fi Li] St Sg Sb O' C' Pa' Be. destruct (sbs_fields _ _ Sb) as (F1 & F2 & F3 & F4 & F5 & F6 & F7 & F8). rewrite St in Li. split.
  - split; cbn [sending s_fw s_txs s_started s_pending].
    + apply base_stored. eapply base_sent; eauto.
    + exact O'.
    + exact C'.
    + eapply sbs_earliest_parts; eauto.
    + cbn [stored with_shut f_stage]. congruence.
    + apply life_stored. eapply life_sent; eauto.
  - split; cbn [sending s_fw s_txs s_started s_calls stored with_shut f_role f_shut f_stage]; auto.
    + rewrite F4. now intros ->.
    + exists t. split; [reflexivity|]. split; [congruence|auto].
Qed.
(** A call that does nothing. *)
Lemma idle_inv r sr s i : inv r sr s -> s_started s = true -> inv r sr (sending s (s_fw s) i []) /\ moves s (sending s (s_fw s) i []).
Proof.
  intros [B O C Pa Fi Li] St. rewrite St in Li. unfold sending. rewrite app_nil_r. split.
  - split; cbn [s_fw s_txs s_started s_pending]; auto.
    + apply base_stored, B.
    + apply life_stored, Li.
  - split; cbn [s_fw s_txs s_started s_calls stored with_shut f_role f_shut f_stage]; auto.
    + now intros ->.
    + exists []. rewrite app_nil_r. auto.
Qed.

(** From the second stage to the third. *)
Lemma transition_steady r sr s i k : inv r sr s -> s_started s = true -> near_inp i -> f_stage (s_fw s) = Steady ->
  shutting (s_fw s) i k = true ->
  exists f' q, state_transitions (s_fw s) i k = Ok (f', q) /\
  (forall p, inv r sr (mkSys (stored f' i) true (queued q) (s_txs s) p)) /\ f_role f' = f_role (s_fw s) /\ f_shut f' = f_shut (s_fw s) /\
  f_stage f' = Dissociation.
Proof.
  intros [B O C Pa Fi Li] St (Ck & Np) Sg Sh. rewrite St in Li. unfold life in Li. rewrite Sg in Li. destruct Li as (u & _ & _ & Rl & _).
  unfold state_transitions. rewrite Sg, Sh.
  destruct (dissociation_enter sr (s_fw s) (clock i 0) (b_lut _ _ _ B) (Ck 0%nat)) as (t & D & T). rewrite D. cbn [bind].
  eexists. eexists. split; [reflexivity|]. split; [intros p|auto]. split; cbn [s_fw s_txs s_started s_pending].
  - apply base_stored, base_stage, B.
  - exact O.
  - exact C.
  - eapply parts_same; try exact Pa; [reflexivity|reflexivity|discriminate].
  - discriminate.
  - rewrite queued_one by (big; lia). unfold life. cbn [stored with_shut with_stage f_stage f_role f_released]. exists t. split; [reflexivity|]. split; [exact T|].
    split; [exact Rl|]. apply (shutting_stored (with_stage (s_fw s) Dissociation) i k). exact Sh.
Qed.
(** From the first stage to the second or third. *)
Lemma transition_first r sr s i : inv r sr s -> s_started s = true -> near_inp i -> f_stage (s_fw s) = First ->
  exists f' q, state_transitions (s_fw s) i 0 = Ok (f', q) /\
  (forall p, inv r sr (mkSys (stored f' i) true (queued q) (s_txs s) p)) /\ f_role f' = f_role (s_fw s) /\ f_shut f' = f_shut (s_fw s) /\
  f_stage f' = (if shutting (s_fw s) i 0 then Dissociation else Steady).
Proof.
  intros [B O C Pa Fi Li] St (Ck & Np) Sg. rewrite St in Li. unfold life in Li. rewrite Sg in Li. destruct Li as (u & _ & _ & Rl).
  specialize (Fi Sg). unfold state_transitions. rewrite Sg.
  destruct (steady_enter r sr (s_fw s) (clock i 0) (pps i) B (Ck 0%nat) Np) as (a & t & -> & A1 & A2 & A3 & T & A4). cbn [bind].
  set (f1 := with_stage (with_ft (s_fw s) a) Steady).
  assert (B1 : base r sr f1) by (eapply base_same; try exact B; auto).
  assert (Pa1 : parts r sr f1 (s_txs s)).
  { destruct r; cbn [parts] in *.
    - destruct Pa as [(E & Ea & Tr & _)|(b & Bb & _ & _ & _ & _ & _ & _ & _ & (j & m & J) & _)].
      + left. cbn [f1 with_stage with_ft f_earliest f_ft]. split; [exact E|]. split; [exact Ea|]. split; [congruence|]. intros _. apply A4. reflexivity.
      + rewrite Fi in J. destruct j; discriminate.
    - exact Pa. }
  replace (shutting f1 i 0) with (shutting (s_fw s) i 0) by reflexivity.
  destruct (shutting (s_fw s) i 0) eqn:Sh.
  - assert (Sh1 : shutting f1 i (0 + 1) = true) by (apply (shutting_mono f1 i 0); [lia|exact Sh]). rewrite Sh1.
    destruct (dissociation_enter sr f1 (clock i 1) (b_lut _ _ _ B1) (Ck 1%nat)) as (v & D & V). rewrite D. cbn [bind].
    eexists. eexists. split; [reflexivity|]. split; [intros p|auto]. split; cbn [s_fw s_txs s_started s_pending].
    + apply base_stored, base_stage, B1.
    + exact O.
    + exact C.
    + eapply parts_same; try exact Pa1; [reflexivity|reflexivity|discriminate].
    + discriminate.
    + rewrite queued_one by (big; lia). unfold life. cbn [stored with_shut with_stage f_stage f_role f_released]. exists v. split; [reflexivity|]. split; [exact V|].
      split; [exact Rl|]. apply (shutting_stored f1 i 0). exact Sh.
  - eexists. eexists. split; [reflexivity|]. split; [intros p|auto]. split; cbn [s_fw s_txs s_started s_pending].
    + apply base_stored, B1.
    + exact O.
    + exact C.
    + eapply parts_same; try exact Pa1; auto.
    + discriminate.
    + rewrite queued_one by (big; lia). apply life_stored. unfold life. cbn [f1 with_stage with_ft f_stage f_role f_released f_ft].
      exists t. split; [reflexivity|]. split; [exact T|]. split; [exact Rl|]. rewrite (b_role _ _ _ B). intros ->. apply A4. reflexivity.
Qed.

(** The beacon of an FT. *)
Lemma beacon_sent sr s i : inv FT sr s -> f_stage (s_fw s) = Steady -> beacon_harq i = true -> fa_scheduled (f_ft (s_fw s)) <= 2 ^ 58 + 2 ^ 31 ->
  exists g b, tx_beacon (s_fw s) i = Ok (g, [b]) /\ base FT sr g /\ f_order g = Z.of_nat (length (s_txs s ++ [b])) /\
    chain (beacon_length sr) 0 low (s_txs s ++ [b]) /\ ft_part sr g (s_txs s ++ [b]) /\
    f_role g = FT /\ f_stage g = Steady /\ f_shut g = f_shut (s_fw s) /\ f_released g = f_released (s_fw s) /\
    fa_scheduled (f_ft g) = fa_scheduled (f_ft (s_fw s)) + beacon_period sr /\ - 2 ^ 59 <= fa_scheduled (f_ft (s_fw s)).
Proof.
  intros [B O C Pa Fi Li] Sg Hq Up. pose proof (base_sizes FT sr _ B) as (Z1 & Z2 & Z3). pose proof (b_per _ _ _ B) as Per.
  cbn [parts] in Pa. unfold tx_beacon. rewrite Hq. cbn [guard]. unfold set_beacon_time_next. rewrite Per.
  set (b := fa_scheduled (f_ft (s_fw s))) in *.
  assert (Lo : - 2 ^ 59 <= b).
  { destruct Pa as [(_ & _ & _ & K)|(c & Bb & T & S & Nb & _)]; [apply K; exact Sg|]. fold b in S. lia. }
  big. rewrite sgn_ok by in64. cbn [bind]. eexists. eexists. split; [reflexivity|]. split; [eapply base_same; try exact B; reflexivity|].
  cbn [with_ft with_sent f_order f_role f_stage f_shut f_released f_ft fa_scheduled]. rewrite O, app_length.
  change (length [Beacon_tx (Z.of_nat (length (s_txs s))) b]) with 1%nat. split; [lia|].
  assert (Le : last_end (beacon_length sr) low (s_txs s) <= b).
  { destruct Pa as [(-> & _)|(c & Bb & T & S & Nb & Ea & La & _)]; unfold low in *; [cbn [last_end]; big; lia|]. fold b in S. lia. }
  split; [|split; [|repeat split; auto; apply (b_role _ _ _ B)]].
  { apply chain_app. split; [exact C|]. cbn [chain tx_id tx_begin tx_end]. rewrite Z.add_0_l. split; [reflexivity|]. split; [exact Le|]. split; [lia|exact I]. }
  right. unfold low in *.
  assert (exists Bb, spaced (beacon_period sr) Bb (s_txs s) /\ b = Bb + Z.of_nat (length (beacons (s_txs s))) * beacon_period sr /\
    follows (beacon_length sr) (beacon_period sr) (s_txs s)) as (Bb & Sp & Sc & Fo).
  { destruct Pa as [(-> & _)|(c & Bb & T & S & Nb & Ea & La & Sp & Sc & J & Fo)].
    - exists b. split; [intros [|]; discriminate|]. split; [cbn; lia|]. intros [|]; discriminate.
    - exists Bb. auto. }
  exists b, Bb. unfold low. cbn [with_ft with_sent f_ft fa_transmitted fa_scheduled f_earliest]. split; [reflexivity|]. split; [reflexivity|]. split; [big; lia|]. split; [big; lia|].
  split; [rewrite last_app; cbn [last_end tx_end]; lia|]. split; [rewrite Sc; apply spaced_snoc; exact Sp|].
  split; [rewrite beacons_app, app_length; change (length (beacons [_])) with 1%nat; lia|].
  split; [exists (length (s_txs s)), (Z.of_nat (length (s_txs s))); rewrite nth_error_app2, Nat.sub_diag by lia; reflexivity|].
  apply follows_snoc. exact Fo.
Qed.

(** *** One event *)
Lemma calls_one s n rec r : calls_back s n rec = Some r -> forall p, s_pending s = [p] -> n = 0%nat /\ r = p /\ call_after r <= rec /\ s_started s = true.
Proof.
  unfold calls_back. destruct (s_started s); [|discriminate]. intros E p P. rewrite P in E.
  destruct n as [|n]; [|destruct n; discriminate]. cbn [nth_error] in E. destruct (Z.leb_spec (call_after p) rec); [|discriminate].
  injection E as <-. auto.
Qed.
Lemma step_refl r sr s e : step s e = Ok s -> inv r sr s -> (exists s', step s e = Ok s' /\ inv r sr s' /\ moves s s') \/ fails s e.
Proof.
  intros E I. left. exists s. split; [exact E|]. split; [exact I|]. split; auto. exists []. rewrite app_nil_r. auto.
Qed.

Lemma step_start r sr s t : inv r sr s -> near t -> (exists s', step s (Start t) = Ok s' /\ inv r sr s' /\ moves s s') \/ fails s (Start t).
Proof.
  intros I Nt. destruct (s_started s) eqn:St; [apply (step_refl r); [cbn [step]; now rewrite St|exact I]|]. left.
  destruct I as [B O C Pa Fi Li]. rewrite St in Li. destruct Li as (Sg & Pe & Tx & Rl). cbn [step]. rewrite St. unfold work_start, first_entry.
  cbn [with_start f_role f_lut f_start]. pose proof (b_lut _ _ _ B) as Lu. unfold near in Nt.
  set (x := match f_role (s_fw s) with FT => _ | PT => _ end).
  assert (X : exists u, x = Ok (report_at u (first_handle (f_role (s_fw s)))) /\ - 2 ^ 59 <= u <= 2 ^ 59).
  { unfold x. destruct (f_role (s_fw s)).
    - destruct (samples sr _ ms001 500 Lu ltac:(lia)) as (d & -> & D). cbn [bind]. rewrite sgn_ok by (big; in64). cbn [bind]. eexists. split; [reflexivity|]. big. lia.
    - destruct (samples sr _ ms001 100 Lu ltac:(lia)) as (d & -> & D). cbn [bind]. rewrite sgn_ok by (big; in64). cbn [bind]. eexists. split; [reflexivity|]. big. lia. }
  destruct X as (u & -> & U). cbn [bind]. rewrite queued_one by (big; lia). eexists. split; [reflexivity|]. split.
  - split; cbn [s_fw s_txs s_started s_pending with_start f_order f_stage]; auto.
    + eapply base_same; try exact B; reflexivity.
    + unfold life. cbn [with_start f_stage f_role f_released]. rewrite Sg. eauto.
  - split; cbn [s_fw s_txs s_started s_calls with_start f_role f_shut f_stage]; auto. exists []. rewrite app_nil_r. auto.
Qed.
Lemma step_shut r sr s : inv r sr s -> (exists s', step s Shut = Ok s' /\ inv r sr s' /\ moves s s') \/ fails s Shut.
Proof.
  intros [B O C Pa Fi Li]. left. eexists. split; [reflexivity|]. split.
  - split; cbn [s_fw s_txs s_started s_pending with_shut f_order f_stage]; auto.
    + eapply base_same; try exact B; reflexivity.
    + destruct (s_started s); [|exact Li]. unfold life in *. cbn [with_shut f_stage f_role f_released f_shut f_ft] in *.
      destruct (f_stage (s_fw s)); auto; [destruct Li as (u & ? & ? & ? & _); eauto|tauto].
  - split; cbn [s_fw s_txs s_started s_calls with_shut f_role f_shut f_stage]; auto. exists []. rewrite app_nil_r. auto.
Qed.
Lemma step_header r sr s t : inv r sr s -> near t -> (exists s', step s (Beacon_header t) = Ok s' /\ inv r sr s' /\ moves s s') \/ fails s (Beacon_header t).
Proof.
  intros I Nt. destruct (s_started s) eqn:St; [|apply (step_refl r); [cbn [step]; now rewrite St|exact I]]. left.
  destruct I as [B O C Pa Fi Li]. rewrite St in Li. cbn [step]. rewrite St. eexists. split; [reflexivity|].
  assert (W : work_pcc_beacon (s_fw s) t = s_fw s \/ work_pcc_beacon (s_fw s) t = with_contacts (s_fw s) (map (fun a => set_beacon_time_last_known a t) (f_contacts (s_fw s)))).
  { unfold work_pcc_beacon. destruct (f_stage (s_fw s)), (f_role (s_fw s)); auto. }
  destruct W as [-> | ->].
  - split; [split; auto|]. split; auto. exists []. rewrite app_nil_r. auto.
  - split.
    + split; cbn [s_fw s_txs s_started s_pending with_contacts f_order f_stage]; auto.
      * destruct B as [B1 B2 B3 B4 B5 B6 B7]. split; auto; cbn [with_contacts f_contacts f_ft].
        -- apply Forall_map. eapply Forall_impl; [|exact B5]. intros a. apply contact_beacon.
        -- destruct (f_contacts (s_fw s)); [congruence|discriminate].
        -- apply Forall_map. apply Forall_forall. intros a _. cbn [set_beacon_time_last_known pa_beacon]. unfold time_ok, near in *. big. lia.
    + split; cbn [s_fw s_txs s_started s_calls with_contacts f_role f_shut f_stage]; auto. exists []. rewrite app_nil_r. auto.
Qed.
(** A call in which unicast packets may be sent. *)
Lemma unicasts_ft_empty sr s i : inv FT sr s -> near_inp i -> f_stage (s_fw s) = Steady -> s_txs s = [] -> consecutive (s_fw s) i = Oob.
Proof.
  intros [B O C Pa Fi Li] (Ck & _) Sg Tx. cbn [parts] in Pa. destruct Pa as [(_ & Ea & Tr & _)|(b & Bb & _ & _ & _ & _ & _ & _ & _ & (j & m & J) & _)];
    [|rewrite Tx in J; destruct j; discriminate].
  pose proof (base_sizes FT sr _ B) as (Z1 & Z2 & Z3). pose proof (b_per _ _ _ B) as Per. pose proof (b_contacts _ _ _ B) as Fc.
  unfold consecutive. rewrite (b_role _ _ _ B). destruct (f_contacts (s_fw s)) as [|a l] eqn:Cs; [destruct (b_ne _ _ _ B Cs)|].
  inversion Fc as [|? ? Ha _]; subst. destruct Ha as [_ Hp Ht _]. change max_tx with (S 7). cbn [ft_consecutive]. rewrite Cs. cbn [ft_round].
  unfold get_tx_opportunity. cbn [set_beacon_time_last_known pa_turnaround pa_beacon pa_period]. specialize (Ck 0%nat). unfold near in Ck. rewrite Tr, Hp, Per.
  rewrite sgn_ok by (big; in64). cbn [bind]. unfold sgn at 1. replace (in_signed 64 (2 ^ 63 - 1 + beacon_period sr)) with false; [reflexivity|].
  symmetry. unfold in_signed. change (2 ^ 63) with 9223372036854775808. change (Z.of_N (64 - 1)) with 63. change (2 ^ 63) with 9223372036854775808.
  apply andb_false_iff. right. lia.
Qed.
Lemma consecutive_inv r sr s i : inv r sr s -> near_inp i -> s_started s = true -> f_stage (s_fw s) = Steady ->
  (exists f t, consecutive (s_fw s) i = Ok (f, t) /\ inv r sr (sending s f i t) /\ moves s (sending s f i t)) \/
  (consecutive (s_fw s) i = Abort /\ r = PT /\ exists k a, In a (f_contacts (s_fw s)) /\ clock i k < pa_beacon a) \/
  (consecutive (s_fw s) i = Oob /\ r = FT /\ s_txs s = []).
Proof.
  intros I Ni St Sg. pose proof I as [B O C Pa Fi Li]. destruct r; cbn [parts] in Pa.
  - destruct (s_txs s) as [|x l] eqn:Tx.
    + right. right. split; [eapply unicasts_ft_empty; eauto|auto].
    + rewrite <- Tx in *. destruct (ft_unicasts sr (s_fw s) (s_txs s) i B Ni O C Pa) as (g & t & -> & Sb & O' & C' & Pa' & Be); [congruence|].
      left. exists g, t. split; [reflexivity|]. apply sending_inv; auto.
  - destruct (pt_unicasts sr (s_fw s) (s_txs s) i B Ni O C Pa) as [(k & a & Ia & K & ->)|(g & t & -> & Sb & O' & C' & Pa' & Be)].
    + right. left. split; [reflexivity|]. split; [reflexivity|]. eauto.
    + left. exists g, t. split; [reflexivity|]. apply sending_inv; auto.
Qed.
Lemma step_application r sr s i : inv r sr s -> near_inp i -> (exists s', step s (Application i) = Ok s' /\ inv r sr s' /\ moves s s') \/ fails s (Application i).
Proof.
  intros I Ni. destruct (s_started s) eqn:St; [|apply (step_refl r); [cbn [step]; now rewrite St|exact I]].
  pose proof (b_role _ _ _ (i_base _ _ _ I)) as Ro.
  destruct (f_stage (s_fw s)) eqn:Sg; try (left; exists (sending s (s_fw s) i []); split;
    [cbn [step]; rewrite St; unfold work_application; rewrite Sg; reflexivity|apply idle_inv; auto]).
  destruct (consecutive_inv r sr s i I Ni St Sg) as [(f & t & E & X)|[(E & -> & k & a & Ia & K)|(E & -> & Tx)]].
  - left. exists (sending s f i t). split; [cbn [step]; rewrite St; unfold work_application; rewrite Sg, E; reflexivity|exact X].
  - right. left. split; [cbn [step]; rewrite St; unfold work_application; rewrite Sg, E; reflexivity|]. right. exists i, k, a. auto 10.
  - right. right. split; [cbn [step]; rewrite St; unfold work_application; rewrite Sg, E; reflexivity|]. exists i. auto.
Qed.
Lemma step_data r sr s i : inv r sr s -> near_inp i -> (exists s', step s (Beacon_data i) = Ok s' /\ inv r sr s' /\ moves s s') \/ fails s (Beacon_data i).
Proof.
  intros I Ni. destruct (s_started s) eqn:St; [|apply (step_refl r); [cbn [step]; now rewrite St|exact I]].
  pose proof (b_role _ _ _ (i_base _ _ _ I)) as Ro.
  assert (Idle : work_pdc_beacon (s_fw s) i = Ok (s_fw s, []) -> (exists s', step s (Beacon_data i) = Ok s' /\ inv r sr s' /\ moves s s') \/ fails s (Beacon_data i)).
  { intros E. left. exists (sending s (s_fw s) i []). split; [cbn [step]; rewrite St, E; reflexivity|apply idle_inv; auto]. }
  destruct r; [apply Idle; unfold work_pdc_beacon; rewrite Ro; now destruct (f_stage (s_fw s))|].
  destruct (f_stage (s_fw s)) eqn:Sg; try (apply Idle; unfold work_pdc_beacon; rewrite Sg; reflexivity). clear Idle.
  destruct (consecutive_inv PT sr s i I Ni St Sg) as [(f & t & E & X)|[(E & _ & k & a & Ia & K)|(E & K & _)]]; [| |discriminate].
  - left. exists (sending s f i t). split; [cbn [step]; rewrite St; unfold work_pdc_beacon; rewrite Sg, Ro, E; reflexivity|exact X].
  - right. left. split; [cbn [step]; rewrite St; unfold work_pdc_beacon; rewrite Sg, Ro, E; reflexivity|]. right. exists i, k, a. auto 10.
Qed.
Lemma moves_stage s f i p q l : f_role f = f_role (s_fw s) -> f_shut f = f_shut (s_fw s) -> s_started s = true ->
  (rank (f_stage (s_fw s)) < rank (f_stage f))%nat ->
  (f_shut (s_fw s) = true -> S (left_over (f_stage f)) = left_over (f_stage (s_fw s))) -> l = s_txs s -> q = S (s_calls s) ->
  moves s (mkSys (stored f i) true p l q).
Proof.
  intros R Sh St Ra Le -> ->. split; cbn [s_fw s_txs s_started s_calls stored with_shut f_role f_shut f_stage]; auto.
  - rewrite Sh. now intros ->.
  - exists []. rewrite app_nil_r. auto.
Qed.
Lemma step_irregular r sr s n rec i : inv r sr s -> near rec -> near_inp i ->
  (exists s', step s (Irregular n rec i) = Ok s' /\ inv r sr s' /\ moves s s') \/ fails s (Irregular n rec i).
Proof.
  intros I Nr Ni. destruct (calls_back s n rec) as [p|] eqn:Cb; [|apply (step_refl r); [cbn [step]; now rewrite Cb|exact I]].
  assert (St : s_started s = true) by (unfold calls_back in Cb; destruct (s_started s); [reflexivity|discriminate]).
  pose proof I as [B O C Pa Fi Li]. rewrite St in Li. unfold life in Li. pose proof (b_role _ _ _ B) as Ro.
  cbn [step]. destruct (f_stage (s_fw s)) eqn:Sg.
  - (* First *)
    destruct Li as (t & Pe & T & Rl). destruct (calls_one s n rec p Cb _ Pe) as (-> & -> & Du & _).
    destruct (transition_first r sr s i I St Ni Sg) as (f' & q & E & I' & R' & S' & G').
    left. exists (mkSys (stored f' i) true (queued q) (s_txs s) (S (s_calls s))). split; [|split; [apply I'|]].
    + rewrite Cb, Pe. unfold work_irregular. rewrite Sg. cbn [report_at handle first_handle].
      destruct (f_role (s_fw s)); cbn [first_handle]; rewrite ?N.eqb_refl; cbn [guard]; rewrite E; cbn [bind without app]; rewrite app_nil_r; reflexivity.
    + apply moves_stage; auto; rewrite G', Sg; [destruct (shutting (s_fw s) i 0); cbn; lia|]. intros K. rewrite (shutting_known _ i 0 K). reflexivity.
  - (* Steady *)
    destruct Li as (t & Pe & T & Rl & Tf). destruct (calls_one s n rec p Cb _ Pe) as (-> & -> & Du & _). cbn [report_at call_after] in Du.
    destruct (shutting (s_fw s) i 0) eqn:Sh.
    + destruct (transition_steady r sr s i 1 I St Ni Sg) as (f' & q & E & I' & R' & S' & G'); [apply (shutting_mono _ i 0); [lia|exact Sh]|].
      left. exists (mkSys (stored f' i) true (queued q) (s_txs s) (S (s_calls s))). split; [|split; [apply I'|]].
      * rewrite Cb, Pe. unfold work_irregular. rewrite Sg, Sh. destruct (f_role (s_fw s)); rewrite E; cbn [bind without app]; rewrite app_nil_r; reflexivity.
      * apply moves_stage; auto; rewrite G', Sg; [cbn; lia|reflexivity].
    + assert (Ns : f_shut (s_fw s) = false).
      { destruct (f_shut (s_fw s)) eqn:X; [|reflexivity]. rewrite (shutting_known _ i 0 X) in Sh. discriminate. }
      pose proof (base_sizes r sr _ B) as (Z1 & Z2 & Z3). unfold near in Nr. destruct r.
      * specialize (Tf Ro).
        destruct (Z.eq_dec rec t) as [Er|Er]; [|destruct (beacon_harq i) eqn:Hq].
        -- right. left. split; [|left; exists 0%nat, rec, i, (report_at t 0); rewrite Cb; auto 10].
           cbn [step]. rewrite Cb. unfold work_irregular. rewrite Sg, Ro, Sh. cbn [report_at call_after]. replace (t <? fa_scheduled (f_ft (s_fw s))) with true by lia.
           cbn [guard]. rewrite sgn_ok by (big; in64). cbn [bind]. replace (0 <? rec - t) with false by lia. reflexivity.
        -- left. destruct (beacon_sent sr s i I Sg Hq ltac:(big; lia)) as (g & b & E & B1 & O1 & C1 & P1 & R1 & G1 & H1 & L1 & S1 & Lo).
           destruct (ft_unicasts sr g (s_txs s ++ [b]) i B1 Ni O1 C1 P1) as (h & u & E2 & Sb & O2 & C2 & P2 & Be); [destruct (s_txs s); discriminate|].
           destruct (sbs_fields _ _ Sb) as (F1 & F2 & F3 & F4 & F5 & F6 & F7 & F8). pose proof (b_prep _ _ _ B1) as Pr.
           exists (mkSys (stored h i) true (queued (report_at (fa_scheduled (f_ft h) - beacon_prepare sr) 0)) (s_txs s ++ [b] ++ u) (S (s_calls s))). split; [|split].
           ++ rewrite Cb, Pe. unfold work_irregular. rewrite Sg, Ro, Sh. cbn [report_at call_after]. replace (t <? fa_scheduled (f_ft (s_fw s))) with true by lia.
              cbn [guard]. rewrite sgn_ok by (big; in64). cbn [bind]. replace (0 <? rec - t) with true by lia. cbn [guard]. rewrite E. cbn [bind].
              rewrite E2. cbn [bind]. unfold get_beacon_time_scheduled_minus_prepare_duration. rewrite F7, Pr. rewrite sgn_ok by (big; in64). reflexivity.
           ++ rewrite app_assoc. split; cbn [s_fw s_txs s_started s_pending]; auto.
              ** apply base_stored. eapply base_sent; eauto.
              ** cbn [stored with_shut f_stage]. rewrite F3, G1. discriminate.
              ** rewrite queued_one by (rewrite F7; big; lia). apply life_stored. unfold life. rewrite F3, G1.
                 eexists. split; [reflexivity|]. split; [rewrite F7; big; lia|]. split; [congruence|auto].
           ++ split; cbn [s_fw s_txs s_started s_calls stored with_shut f_role f_shut f_stage]; auto.
              ** congruence.
              ** congruence.
              ** exists ([b] ++ u). split; [reflexivity|]. split; congruence.
              ** left. split; [congruence|]. right. auto.
        -- right. left. split; [|left; exists 0%nat, rec, i, (report_at t 0); rewrite Cb; auto 10].
           cbn [step]. rewrite Cb. unfold work_irregular. rewrite Sg, Ro, Sh. cbn [report_at call_after]. replace (t <? fa_scheduled (f_ft (s_fw s))) with true by lia.
           cbn [guard]. rewrite sgn_ok by (big; in64). cbn [bind]. replace (0 <? rec - t) with true by lia. cbn [guard]. unfold tx_beacon. rewrite Hq. reflexivity.
      * left. exists (mkSys (stored (s_fw s) i) true [report_at (t + beacon_period sr) 0] (s_txs s) (S (s_calls s))).
        pose proof (b_per _ _ _ B) as Per. split; [|split].
        -- rewrite Cb, Pe. unfold work_irregular. rewrite Sg, Ro, Sh. unfold same_with_time_increment. rewrite finite by (big; lia). cbn [guard].
           rewrite Per. replace (0 <? beacon_period sr) with true by lia. cbn [guard]. unfold undefined_late.
           replace (beacon_period sr <? 9223372036854775807) with true by (big; lia). cbn [guard bind without app report_at call_after handle].
           change {| call_after := t + beacon_period sr; handle := 0 |} with (report_at (t + beacon_period sr) 0).
           rewrite queued_one by (big; lia). rewrite app_nil_r. reflexivity.
        -- split; cbn [s_fw s_txs s_started s_pending]; auto.
           ++ apply base_stored, B.
           ++ cbn [stored with_shut f_stage]. rewrite Sg. discriminate.
           ++ apply life_stored. unfold life. rewrite Sg. eexists. split; [reflexivity|]. split; [big; lia|]. split; [exact Rl|congruence].
        -- split; cbn [s_fw s_txs s_started s_calls stored with_shut f_role f_shut f_stage]; auto.
           ++ congruence.
           ++ exists []. rewrite app_nil_r. auto.
           ++ left. split; [congruence|]. right. auto.
  - (* Dissociation *)
    destruct Li as (t & Pe & T & Rl & Sh). destruct (calls_one s n rec p Cb _ Pe) as (-> & -> & Du & _).
    left. exists (mkSys (stored (stop_request_unblock (with_stage (s_fw s) Nop)) i) true [] (s_txs s) (S (s_calls s))). split; [|split].
    + rewrite Cb, Pe. unfold work_irregular. rewrite Sg. cbn [report_at handle]. rewrite N.eqb_refl. unfold state_transitions. rewrite Sg.
      cbn [bind without app]. rewrite app_nil_r. reflexivity.
    + split; cbn [s_fw s_txs s_started s_pending]; auto.
      * eapply base_same; try exact B; reflexivity.
      * eapply parts_same; try exact Pa; [reflexivity|reflexivity|discriminate].
      * discriminate.
      * apply life_stored. unfold life. cbn [stop_request_unblock with_stage f_stage f_released f_shut]. auto.
    + apply moves_stage; auto; rewrite Sg; [cbn; lia|reflexivity].
  - (* Nop *)
    destruct Li as (Pe & _). unfold calls_back in Cb. rewrite St, Pe in Cb. destruct n; discriminate.
Qed.
Lemma step_inv r sr s e : inv r sr s -> near_ev e -> delivered e -> (exists s', step s e = Ok s' /\ inv r sr s' /\ moves s s') \/ fails s e.
Proof.
  intros I Ne De. destruct e; cbn [near_ev delivered] in *.
  - now apply step_start.
  - now apply step_shut.
  - destruct Ne. now apply step_irregular.
  - contradiction.
  - now apply step_application.
  - now apply step_header.
  - now apply step_data.
Qed.

(** *** The beginning *)
Lemma init_reachable lut per tt N_pt N_res id a : small per -> init_allocation_pt lut per tt N_pt N_res id = Ok a ->
  reachable a /\ pa_period a = per /\ pa_turnaround a = tt.
Proof.
  intros Sp E. unfold init_allocation_pt in E. apply bind_ok_inv in E. destruct E as (v & V & E). apply bind_ok_inv in E. destruct E as (w & W & E).
  pose proof (duration_new_small _ _ _ _ V) as Sv. pose proof (duration_new_small _ _ _ _ W) as Sw.
  assert (R : exists ops, Forall op_u32 ops /\ pt_run (allocation_pt_new lut per v w tt) ops = Ok a).
  { destruct (N_pt <=? id)%N.
    - exists []. split; [constructor|exact E].
    - apply bind_ok_inv in E. destruct E as (b & B & E).
      exists [AddRegular ul (u32 (2 + u32 (id * 4))) 2 (u32 (4 * N_pt)) N_res slot001;
              AddRegular dl (u32 (u32 (2 + u32 (id * 4)) + 2)) 2 (u32 (4 * N_pt)) N_res slot001].
      split; [repeat constructor|]. cbn [pt_run pt_step]. rewrite B. cbn [bind]. rewrite E. reflexivity. }
  destruct R as (ops & F & R). split; [exists lut, per, v, w, tt, ops; auto|].
  destruct (pt_run_inv ops _ _ F (pt_ok_new lut per v w tt Sp) R) as (_ & (_ & P & _ & _ & T)). auto.
Qed.
Lemma reach_beacon lut per tt N_pt N_res id a : init_allocation_pt lut per tt N_pt N_res id = Ok a -> pa_beacon a = UNDEFINED_EARLY_64.
Proof.
  assert (A : forall d o l s ec n k a b, add_from a d o l s ec k n = Ok b -> pa_beacon b = pa_beacon a).
  { intros d o l s ec. induction n as [|n IH]; intros k x b E; cbn [add_from] in E; [now injection E as ->|].
    apply bind_ok_inv in E. destruct E as (p & _ & E). apply bind_ok_inv in E. destruct E as (q & _ & E). apply bind_ok_inv in E. destruct E as (c & C & E).
    rewrite (IH _ _ _ E). unfold add_resource in C. clear -C.
    repeat match type of C with
    | guard ?g _ = Ok _ => destruct g; cbn [guard] in C; [|discriminate]
    | bind _ _ = Ok _ => apply bind_ok_inv in C; destruct C as (? & _ & C)
    | match ?d with _ => _ end = Ok _ => destruct d; try discriminate
    end; injection C as <-; reflexivity. }
  intros E. unfold init_allocation_pt in E. apply bind_ok_inv in E. destruct E as (v & _ & E). apply bind_ok_inv in E. destruct E as (w & _ & E).
  destruct (N_pt <=? id)%N; [now injection E as <-|]. apply bind_ok_inv in E. destruct E as (b & B & E). unfold add_resource_regular in *.
  rewrite (A _ _ _ _ _ _ _ _ _ E), (A _ _ _ _ _ _ _ _ _ B). reflexivity.
Qed.
Lemma plan_first sr off stride n L : L <= Z.of_N (sr / 2400 * off) -> Forall (fun r => L <= first r) (plan_vec sr off stride n).
Proof.
  intros H. unfold plan_vec. apply Forall_map, Forall_forall. intros i _. unfold first. cbn [plan_res rs_offset plan_dur du_N].
  etransitivity; [exact H|]. apply N2Z.inj_le, N.mul_le_mono_l. lia.
Qed.
Lemma init_contact sr lut per tt N_pt N_res id a : lut_new sr = Ok lut -> duration_new sr ms001 10 = Ok per -> 0 <= tt <= 2 ^ 32 -> plan N_pt N_res ->
  init_allocation_pt lut per tt N_pt N_res id = Ok a -> contact_ok (beacon_length sr) per a /\ time_ok (pa_beacon a).
Proof.
  intros Lu Pe Tt Pl E. destruct (lut_rate_ok sr lut Lu) as (((R1 & R2) & (k & Rk)) & R). pose proof (duration_new_small _ _ _ _ Pe) as Sp.
  destruct (init_reachable _ _ _ _ _ _ _ Sp E) as (Re & P & T). split; [|rewrite (reach_beacon _ _ _ _ _ _ _ E); unfold time_ok, UNDEFINED_EARLY_64; big; lia].
  assert (Pv : du_N per = (k * 1920)%N /\ (k * 1920 <= 2147483647)%N).
  { revert Pe. unfold duration_new. subst sr. cbn [samp_rate_divisor].
    replace (0 <? k * 192000)%N with true by lia. replace (0 <? 10)%N with true by reflexivity. cbn [guard].
    replace (k * 192000 mod 1000 =? 0)%N with true by lia. cbn [guard]. replace (k * 192000 / 1000)%N with (k * 192)%N by lia.
    destruct (N.ltb_spec 0 (k * 192)%N); [|discriminate]. cbn [guard]. destruct (N.leb_spec (k * 192 * 10) 2147483647)%N as [K|K]; [|discriminate].
    cbn [guard]. intros X. injection X as <-. cbn [du_N]. rewrite N.mod_small by (big; lia). lia. }
  destruct Pv as (Pv & Pk).
  split; auto; [rewrite T; exact Tt|]. destruct (N.leb_spec N_pt id) as [K|K].
  - unfold init_allocation_pt in E. apply bind_ok_inv in E. destruct E as (v & _ & E). apply bind_ok_inv in E. destruct E as (w & _ & E).
    replace (N_pt <=? id)%N with true in E by lia. injection E as <-. constructor.
  - assert (Fit : fits (lut_rate lut) N_pt N_res id per).
    { rewrite R. unfold fits, dl_slot, ul_slot. rewrite Pv, Rk. replace (k * 192000 / 2400)%N with (k * 80)%N by lia. big. split; [lia|]. intros _.
      destruct Pl as [(-> & ->)|(-> & ->)]; [replace id with 0%N by lia; lia|]. assert (D : (id = 0 \/ id = 1)%N) by lia. destruct D as [-> | ->]; lia. }
    destruct (plan_exact lut per tt N_pt N_res id) as (b & Eb & _ & _ & _ & _ & D); auto.
    + rewrite R. split; [lia|]. exists (k * 80)%N. lia.
    + rewrite R. exists (k * 192)%N. lia.
    + rewrite R, Rk. replace (k * 192000 / 1000)%N with (k * 192)%N by lia. big. lia.
    + destruct Pl as [(-> & ->)|(-> & ->)]; lia.
    + destruct Pl as [(-> & ->)|(-> & ->)]; change (2 ^ 28)%N with 268435456%N; lia.
    + rewrite Eb in E. injection E as ->. rewrite D, R. apply plan_first. rewrite Rk. unfold beacon_length.
      replace (k * 192000 / 1200)%N with (k * 160)%N by lia. replace (k * 192000 / 2400)%N with (k * 80)%N by lia. lia.
Qed.
Lemma init_contacts_ok sr lut per tt N_pt N_res : lut_new sr = Ok lut -> duration_new sr ms001 10 = Ok per -> 0 <= tt <= 2 ^ 32 -> plan N_pt N_res ->
  forall n id l, init_contacts lut per tt N_pt N_res id n = Ok l ->
  Forall (contact_ok (beacon_length sr) per) l /\ Forall (fun a => time_ok (pa_beacon a)) l /\ length l = n.
Proof.
  intros Lu Pe Tt Pl. induction n as [|n IH]; intros id l E; cbn [init_contacts] in E.
  - injection E as <-. auto.
  - apply bind_ok_inv in E. destruct E as (a & A & E). apply bind_ok_inv in E. destruct E as (m & M & E). injection E as <-.
    destruct (init_contact sr lut per tt N_pt N_res id a Lu Pe Tt Pl A). destruct (IH _ _ M) as (X & Y & Z). split; [constructor; auto|]. split; [constructor; auto|].
    cbn [length]. congruence.
Qed.
Lemma duration_ms sr m d : rate sr -> duration_new sr ms001 m = Ok d -> du_N d = (sr / 1000 * m)%N.
Proof.
  intros ((R1 & R2) & (k & ->)). unfold duration_new. cbn [samp_rate_divisor]. destruct (0 <? k * 192000)%N; [|discriminate]. destruct (0 <? m)%N; [|discriminate].
  cbn [guard]. destruct (k * 192000 mod 1000 =? 0)%N; [|discriminate]. cbn [guard]. destruct (0 <? k * 192000 / 1000)%N; [|discriminate]. cbn [guard].
  destruct (N.leb_spec (k * 192000 / 1000 * m) 2147483647)%N as [K|K]; [|discriminate]. cbn [guard]. intros E. injection E as <-. cbn [du_N].
  apply N.mod_small. big. lia.
Qed.
Lemma init_inv r sr f : deployed r sr f -> inv r sr (sys_new f).
Proof.
  intros (lut & tt & N_pt & N_res & id & Lu & Tt & Pl & E). destruct (lut_rate_ok sr lut Lu) as (Ra & R). unfold fw_new in E. rewrite R in E.
  apply bind_ok_inv in E. destruct E as (per & Pe & E). apply bind_ok_inv in E. destruct E as (prep & Pr & E).
  apply bind_ok_inv in E. destruct E as (a & A & E). apply bind_ok_inv in E. destruct E as (l & L & E). injection E as <-.
  unfold allocation_ft_new in A. apply bind_ok_inv in A. destruct A as (c & _ & A). injection A as <-.
  assert (X : Forall (contact_ok (beacon_length sr) per) l /\ Forall (fun a => time_ok (pa_beacon a)) l /\ l <> []).
  { destruct r; destruct (init_contacts_ok sr lut per tt N_pt N_res Lu Pe Tt Pl _ _ _ L) as (X & Y & Z); split; auto; split; auto; intros ->; cbn [length] in Z;
      [destruct Pl as [(-> & _)|(-> & _)]; discriminate|discriminate]. }
  destruct X as (X & Y & NE). pose proof (duration_ms _ _ _ Ra Pe) as Vp. pose proof (duration_ms _ _ _ Ra Pr) as Vq. destruct Ra as (_ & (k & Rk)).
  split; cbn [sys_new s_fw s_txs s_started s_pending f_order f_stage f_released chain].
  - split; cbn [f_role f_lut f_ft f_contacts fa_period fa_prepare]; auto.
    + rewrite Vp. unfold beacon_period. rewrite Rk. f_equal. lia.
    + rewrite Vq. unfold beacon_prepare. rewrite Rk. f_equal. lia.
  - reflexivity.
  - exact I.
  - destruct r; cbn [parts].
    + left. cbn [f_earliest f_ft fa_transmitted f_stage]. repeat split; discriminate.
    + split; [cbn [f_earliest]; unfold UNDEFINED_EARLY_64, low; big; lia|]. split; reflexivity.
  - reflexivity.
  - auto.
Qed.

(** *** Histories *)
Lemma run_inv r sr es : forall s s', inv r sr s -> Forall near_ev es -> Forall delivered es -> run s es = Ok s' -> inv r sr s'.
Proof.
  induction es as [|e es IH]; intros s s' I N D E; cbn [run] in E; [now injection E as <-|]. inversion N; inversion D; subst.
  destruct (step_inv r sr s e I) as [(t & T & It & _)|[(F & _)|(F & _)]]; auto; try (rewrite F in E; discriminate).
  rewrite T in E. cbn [bind] in E. eauto.
Qed.
Lemma reached_inv r sr s : reached r sr s -> inv r sr s.
Proof. intros (f & es & D & N & De & E). eapply run_inv; [apply init_inv; exact D|exact N|exact De|exact E]. Qed.

(** What a history does once the stop was requested. *)
Lemma run_stop r sr es : forall s s', inv r sr s -> f_shut (s_fw s) = true -> Forall near_ev es -> Forall delivered es -> run s es = Ok s' ->
  f_shut (s_fw s') = true /\
  (s_calls s' + left_over (f_stage (s_fw s')) = s_calls s + left_over (f_stage (s_fw s)))%nat /\
  exists t, s_txs s' = s_txs s ++ t /\ beacons t = [].
Proof.
  induction es as [|e es IH]; intros s s' I Sh N D E; cbn [run] in E.
  - injection E as <-. split; [exact Sh|]. split; [reflexivity|]. exists []. rewrite app_nil_r. auto.
  - inversion N; inversion D; subst.
    destruct (step_inv r sr s e I) as [(u & T & Iu & M)|[(F & _)|(F & _)]]; auto; try (rewrite F in E; discriminate).
    rewrite T in E. cbn [bind] in E. destruct M as [M1 M2 M3 (t & M4 & _ & M5) M6].
    destruct (IH u s' Iu (M2 Sh) ltac:(assumption) ltac:(assumption) E) as (X & Y & (t' & Z & W)). split; [exact X|]. split.
    + destruct M6 as [(G & [Cc|(_ & _ & K)])|(Cc & _ & L)]; [rewrite G in Y; lia|congruence|specialize (L Sh); lia].
    + exists (t ++ t'). rewrite Z, M4, app_assoc. split; [reflexivity|]. rewrite beacons_app, (M5 Sh), W. reflexivity.
Qed.
Lemma run_quiet r sr es : forall s s', inv r sr s -> (2 <= rank (f_stage (s_fw s)))%nat -> Forall near_ev es -> Forall delivered es -> run s es = Ok s' ->
  (rank (f_stage (s_fw s)) <= rank (f_stage (s_fw s')))%nat /\ s_txs s' = s_txs s.
Proof.
  induction es as [|e es IH]; intros s s' I Ra N D E; cbn [run] in E; [injection E as <-; auto|]. inversion N; inversion D; subst.
  destruct (step_inv r sr s e I) as [(u & T & Iu & M)|[(F & _)|(F & _)]]; auto; try (rewrite F in E; discriminate).
  rewrite T in E. cbn [bind] in E. destruct M as [M1 M2 M3 (t & M4 & M5 & _) M6].
  assert (Ru : (rank (f_stage (s_fw s)) <= rank (f_stage (s_fw u)))%nat) by (destruct M6 as [(-> & _)|(_ & K & _)]; lia).
  destruct (IH u s' Iu ltac:(lia) ltac:(assumption) ltac:(assumption) E) as (X & Y). split; [lia|]. rewrite Y, M4, M5, app_nil_r; [reflexivity|].
  intros K. rewrite K in Ra. cbn in Ra. lia.
Qed.
Lemma run_rank r sr es : forall s s', inv r sr s -> Forall near_ev es -> Forall delivered es -> run s es = Ok s' ->
  (rank (f_stage (s_fw s)) <= rank (f_stage (s_fw s')))%nat.
Proof.
  induction es as [|e es IH]; intros s s' I N D E; cbn [run] in E; [injection E as <-; auto|]. inversion N; inversion D; subst.
  destruct (step_inv r sr s e I) as [(u & T & Iu & M)|[(F & _)|(F & _)]]; auto; try (rewrite F in E; discriminate).
  rewrite T in E. cbn [bind] in E. specialize (IH u s' Iu ltac:(assumption) ltac:(assumption) E).
  destruct M as [_ _ _ _ [(G & _)|(_ & K & _)]]; [rewrite <- G; exact IH|lia].
Qed.

(** Nothing but an irregular call releases the stop request. *)
Lemma unicast_released f ok c o g t : tx_unicast f ok c o = Ok (g, t) -> f_released g = f_released f /\ f_ft g = f_ft f /\ f_contacts g = f_contacts f.
Proof.
  unfold tx_unicast. destruct ok; [|intros E; injection E as <- <-; auto]. intros E. apply bind_ok_inv in E. destruct E as (e & _ & E). injection E as <- <-. auto.
Qed.
Lemma round_released i l : forall f c k g t b, ft_round f i c k l = Ok (g, t, b) -> f_released g = f_released f.
Proof.
  induction l as [|a l IH]; intros f c k g t b E; cbn [ft_round] in E; [now injection E as <- <- <-|].
  apply bind_ok_inv in E. destruct E as (o & _ & E). destruct (op_time o <? 0); [now injection E as <- <- <-|].
  apply bind_ok_inv in E. destruct E as ((f1 & t1) & E1 & E). apply bind_ok_inv in E. destruct E as (((f2 & t2) & b2) & E2 & E). injection E as <- <- <-.
  rewrite (IH _ _ _ _ _ _ E2). apply (unicast_released _ _ _ _ _ _ E1).
Qed.
Lemma ft_released i n : forall f k g t, ft_consecutive n f i k = Ok (g, t) -> f_released g = f_released f.
Proof.
  induction n as [|n IH]; intros f k g t E; cbn [ft_consecutive] in E; [now injection E as <- <-|].
  apply bind_ok_inv in E. destruct E as (((f1 & t1) & b1) & E1 & E). apply round_released in E1. destruct b1; [|now injection E as <- <-].
  apply bind_ok_inv in E. destruct E as ((f2 & t2) & E2 & E). injection E as <- <-. rewrite (IH _ _ _ _ E2). exact E1.
Qed.
Lemma pt_released i n : forall f k g t, pt_consecutive n f i k = Ok (g, t) -> f_released g = f_released f.
Proof.
  induction n as [|n IH]; intros f k g t E; cbn [pt_consecutive] in E; [now injection E as <- <-|]. destruct (f_contacts f) as [|a l]; [discriminate|].
  apply bind_ok_inv in E. destruct E as (o & _ & E). destruct (op_time o <? 0); [now injection E as <- <-|].
  apply bind_ok_inv in E. destruct E as ((f1 & t1) & E1 & E). apply unicast_released in E1. destruct E1 as (E1 & _).
  destruct (sends i k); [|now injection E as <- <-]. apply bind_ok_inv in E. destruct E as ((f2 & t2) & E2 & E). injection E as <- <-.
  rewrite (IH _ _ _ _ E2). exact E1.
Qed.
Lemma consecutive_released f i g t : consecutive f i = Ok (g, t) -> f_released g = f_released f.
Proof. unfold consecutive. destruct (f_role f); [apply ft_released|apply pt_released]. Qed.
Lemma stuck_step s e s' : s_started s = true -> s_pending s = [] -> step s e = Ok s' ->
  s_started s' = true /\ s_pending s' = [] /\ f_released (s_fw s') = f_released (s_fw s) /\ s_calls s' = s_calls s.
Proof.
  intros St Pe E. assert (Cb : forall n rec, calls_back s n rec = None) by (intros n rec; unfold calls_back; rewrite St, Pe; destruct n; reflexivity).
  destruct e; cbn [step] in E; rewrite ?St, ?Cb in E.
  - injection E as <-. auto.
  - injection E as <-. auto.
  - injection E as <-. auto.
  - injection E as <-. auto.
  - apply bind_ok_inv in E. destruct E as ((f & t) & E1 & E). injection E as <-. cbn [s_started s_pending s_fw s_calls stored with_shut f_released]. split; [auto|]. split; [auto|]. split; [|reflexivity].
    unfold work_application in E1. destruct (f_stage (s_fw s)); try (now injection E1 as <- <-). exact (consecutive_released _ _ _ _ E1).
  - injection E as <-. cbn [s_started s_pending s_fw s_calls]. split; [auto|]. split; [auto|]. split; [|reflexivity]. unfold work_pcc_beacon. destruct (f_stage (s_fw s)), (f_role (s_fw s)); reflexivity.
  - apply bind_ok_inv in E. destruct E as ((f & t) & E1 & E). injection E as <-. cbn [s_started s_pending s_fw s_calls stored with_shut f_released]. split; [auto|]. split; [auto|]. split; [|reflexivity].
    unfold work_pdc_beacon in E1. destruct (f_stage (s_fw s)); try (now injection E1 as <- <-). destruct (f_role (s_fw s)); [now injection E1 as <- <-|].
    exact (consecutive_released _ _ _ _ E1).
Qed.
Lemma stuck_run es : forall s s', s_started s = true -> s_pending s = [] -> run s es = Ok s' ->
  s_pending s' = [] /\ f_released (s_fw s') = f_released (s_fw s) /\ s_calls s' = s_calls s.
Proof.
  induction es as [|e es IH]; intros s s' St Pe E; cbn [run] in E; [injection E as <-; auto|].
  apply bind_ok_inv in E. destruct E as (u & U & E). destruct (stuck_step s e u St Pe U) as (A & B & C & D). destruct (IH u s' A B E) as (X & Y & Z).
  split; [exact X|]. split; congruence.
Qed.
