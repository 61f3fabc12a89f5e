(** C64: gain control. *)
From Verif Require Import Base Agc AgcSpec AgcFacts.
Open Scope Z_scope.

(** Whatever is needed, the step is none for small needs, else goes in the right direction, is a multiple of the unit within the
    limits, and the closest such one. *)
Theorem C64_step c c' need : agc_new c = Ok c' -> step_for c need (quantize c need).
Proof. intros N. destruct (agc_new_inv _ _ N) as (_ & _ & M & MI & MA & MM). apply quantize_ok; assumption. Qed.

Lemma rx_new_inv c m target offset g : agc_rx_new c m target offset = Ok g ->
  agc_new c = Ok c /\ g = mkRx c (roundrobin_new (g_antennas c)) m target offset /\ 0 <= offset.
Proof.
  unfold agc_rx_new. intros H. destruct (agc_new c) as [c'| | |] eqn:E; try discriminate. destruct (agc_new_inv _ _ E) as (-> & _).
  cbn [bind] in H. destruct (_ <=? _) in H; [|discriminate]. destruct (target <=? 0) in H; [|discriminate].
  destruct (Z.leb_spec 0 offset); [|discriminate]. destruct (offset <=? _) in H; [|discriminate]. injection H as <-. auto.
Qed.
Lemma map_repeat {A B} (f : A -> B) x n : map f (repeat x n) = repeat (f x) n.
Proof. induction n as [|n IH]; [reflexivity|]. cbn [repeat map]. rewrite IH. reflexivity. Qed.
Lemma robin_of c : agc_new c = Ok c -> robin_ok (roundrobin_new (g_antennas c)) (g_antennas c).
Proof. intros N. destruct (agc_new_inv _ _ N) as (_ & A & _). apply robin_new, A. Qed.
Lemma process_map c (l : list Z) : agc_new c = Ok c -> length l = g_antennas c ->
  process (roundrobin_new (g_antennas c)) (map (quantize c) l) = Ok (map (quantize c) l, roundrobin_new (g_antennas c)).
Proof. intros N L. apply process_all. rewrite map_length, L. apply robin_of, N. Qed.

(** Reception, every antenna by itself: each gets the step for its own need. The gain control itself does not change, so this holds
    after every history. *)
Theorem C64_rx_individual c target offset g powers rms : agc_rx_new c tune_individually target offset = Ok g ->
  length powers = g_antennas c -> length rms = g_antennas c ->
  exists A s, greatest A powers /\ rx_steps g powers rms = Ok (s, g) /\ length s = g_antennas c /\
    forall i, (i < g_antennas c)%nat -> step_for c (rx_wants target offset A (nth i powers 0) (nth i rms None)) (nth i s 0).
Proof.
  intros N LP LR. destruct (rx_new_inv _ _ _ _ _ N) as (NC & -> & _). destruct (agc_new_inv _ _ NC) as (_ & NA & _).
  destruct (get_max_ok powers) as (A & EA & GA); [destruct powers; cbn in *; [lia|discriminate]|].
  unfold rx_steps. cbn [x_config x_mode x_target x_offset x_robin]. rewrite LP, LR, Nat.eqb_refl. cbn [andb guard]. rewrite EA. cbn [bind].
  rewrite process_map by (try exact NC; rewrite map_length, combine_length; lia). cbn [bind].
  eexists A, _. split; [exact GA|]. split; [reflexivity|]. split; [rewrite !map_length, combine_length; lia|]. intros i I.
  rewrite map_map. set (f := fun pr => quantize c (rx_need target A (A - offset) (fst pr) (snd pr))).
  replace (nth i (map f (combine powers rms)) 0) with (nth i (map f (combine powers rms)) (f (0, None)))
    by (apply nth_indep; rewrite map_length, combine_length; lia). rewrite map_nth, combine_nth by lia.
  unfold f. cbn [fst snd]. apply C64_step with (c' := c). exact NC.
Qed.
(** Reception, all antennas at once: all get the step for the need of the one with the greatest RMS. *)
Theorem C64_rx_collective c target offset g powers rms : agc_rx_new c tune_collectively target offset = Ok g ->
  length powers = g_antennas c -> length rms = g_antennas c ->
  exists A s i, greatest A powers /\ strongest i rms /\ rx_steps g powers rms = Ok (repeat s (g_antennas c), g) /\
    step_for c (match nth i rms None with Some r => rx_wants target offset A (nth i powers 0) (Some r) | None => A - offset - nth i powers 0 end) s.
Proof.
  intros N LP LR. destruct (rx_new_inv _ _ _ _ _ N) as (NC & -> & _). destruct (agc_new_inv _ _ NC) as (_ & NA & _).
  destruct (get_max_ok powers) as (A & EA & GA); [destruct powers; cbn in *; [lia|discriminate]|].
  destruct (index_of_max_ok rms) as (i & EI & GI); [destruct rms; cbn in *; [lia|discriminate]|]. pose proof GI as [IL _].
  unfold rx_steps. cbn [x_config x_mode x_target x_offset x_robin]. rewrite LP, LR, Nat.eqb_refl. cbn [andb guard]. rewrite EA. cbn [bind].
  rewrite EI. cbn [bind]. rewrite (rd_ok rms i None), (rd_ok powers i 0) by lia. cbn [bind].
  rewrite process_map by (try exact NC; apply repeat_length). cbn [bind]. rewrite map_repeat.
  eexists A, _, i. split; [exact GA|]. split; [exact GI|]. split; [reflexivity|].
  destruct (nth i rms None); apply C64_step with (c' := c); exact NC.
Qed.

Lemma tx_new_inv c factor target g : agc_tx_new c factor target = Ok g ->
  agc_new c = Ok c /\ g = mkTx c (roundrobin_new (g_antennas c)) factor target.
Proof.
  unfold agc_tx_new. intros H. destruct (agc_new c) as [c'| | |] eqn:E; try discriminate. destruct (agc_new_inv _ _ E) as (-> & _).
  cbn [bind] in H. destruct (_ <=? factor) in H; [|discriminate]. destruct (factor <=? 0) in H; [|discriminate].
  destruct (_ <=? target) in H; [|discriminate]. destruct (target <=? _) in H; [|discriminate]. injection H as <-. auto.
Qed.
(** The powers received where an RMS was measured. *)
Definition received (powers : list Z) (rms : list (option Z)) : list Z :=
  flat_map (fun pr => match snd pr with Some r => [fst pr + r] | None => [] end) (combine powers rms).
Lemma rx_power_max_is powers rms : forall m, length rms = length powers -> rx_power_max m powers rms = max_from m (received powers rms).
Proof.
  revert rms. induction powers as [|p powers IH]; intros [|r rms] m L; cbn in L; try discriminate; [reflexivity|].
  unfold received. cbn [combine flat_map fst snd]. fold (received powers rms). destruct r as [r|]; cbn [rx_power_max app max_from].
  - rewrite IH by lia. f_equal. destruct (Z.ltb_spec m (p + r)); lia.
  - apply IH. lia.
Qed.
(** Transmission: all antennas get the step for what would have brought the greatest received power to the target, applied to the
    greatest transmit power. *)
Theorem C64_tx c factor target g opposite tx_powers rx_powers rms best : agc_tx_new c factor target = Ok g ->
  tx_powers <> [] -> length rx_powers = g_antennas c -> length rms = g_antennas c ->
  greatest best (received rx_powers rms) -> -1000000 * g_dB c <= best ->
  exists A s, greatest A tx_powers /\ tx_steps g opposite tx_powers rx_powers rms = Ok (repeat s (g_antennas c), g) /\
    step_for c ((opposite + (target - best)) - (A + factor)) s.
Proof.
  intros N TP LP LR GB LB. destruct (tx_new_inv _ _ _ _ N) as (NC & ->). destruct (get_max_ok tx_powers TP) as (A & EA & GA).
  unfold tx_steps. cbn [t_config t_robin t_factor t_target]. rewrite LP, LR, Nat.eqb_refl. cbn [andb guard]. rewrite EA. cbn [bind].
  rewrite process_map by (try exact NC; apply repeat_length). cbn [bind]. rewrite map_repeat.
  eexists A, _. split; [exact GA|]. split; [reflexivity|]. rewrite rx_power_max_is by lia.
  replace (max_from _ _) with best; [apply C64_step with (c' := c); exact NC|].
  destruct (max_from_ok (received rx_powers rms) (-1000000 * g_dB c)) as (B1 & B2 & B3). destruct GB as [I F]. rewrite Forall_forall in B2, F.
  specialize (B2 best I). destruct B3 as [B3|B3]; [lia|]. specialize (F _ B3). lia.
Qed.

(** *** Settling *)
(** Reception with one antenna, constant signal: after enough packets the setting is right up to the dead band, or at the end of
    the range, and stays so. *)
Theorem C64_rx_settles c m target offset g lo hi level power n : agc_rx_new c m target offset = Ok g -> g_antennas c = 1%nat ->
  g_multiple c < g_min c -> ~ dead c offset -> lo <= power <= hi -> Z.abs (level - target - power) <= Z.of_nat n * g_min c ->
  forall k, exists p, rx_loop lo hi [level] (n + k) g [power] = Ok [p] /\ lo <= p <= hi /\ settled c lo hi (level - target) p.
Proof.
  intros N A1 MG OD PB KB k.
  assert (H : Z.abs (level - target - power) <= Z.of_nat (n + k) * g_min c).
  { destruct (rx_new_inv _ _ _ _ _ N) as (NC & _ & _). destruct (agc_new_inv _ _ NC) as (_ & _ & M & _). nia. }
  assert (H' : settled c lo hi (level - target) power \/ Z.abs (level - target - power) <= Z.of_nat (n + k) * g_min c) by auto.
  clear H KB. revert power PB H'. generalize (n + k)%nat. clear n k. destruct (rx_new_inv _ _ _ _ _ N) as (NC & -> & O0).
  destruct (agc_new_inv _ _ NC) as (_ & _ & M & _).
  induction n as [|n IH]; intros power PB H.
  - exists power. split; [reflexivity|]. split; [exact PB|]. destruct H as [H|H]; [exact H|]. apply settled_0; auto; lia.
  - cbn [rx_loop combine map fst snd].
    assert (E : exists s, rx_steps (mkRx c (roundrobin_new (g_antennas c)) m target offset) [power] [Some (level - power)] = Ok ([s], mkRx c (roundrobin_new (g_antennas c)) m target offset)
      /\ step_for c (Z.max (level - power - target) (- offset)) s).
    { destruct m.
      - destruct (C64_rx_individual c target offset _ [power] [Some (level - power)] N (eq_sym A1) (eq_sym A1)) as (A & s & GA & E & L & S).
        rewrite A1 in *. specialize (S 0%nat ltac:(lia)). cbn [nth] in S. destruct s as [|s [|? ?]]; try discriminate. exists s. split; [exact E|].
        destruct GA as [[GA|[]] _]. subst A. unfold rx_wants in S. replace (power - offset - power) with (- offset) in S by lia. exact S.
      - destruct (C64_rx_collective c target offset _ [power] [Some (level - power)] N (eq_sym A1) (eq_sym A1)) as (A & s & i & GA & GI & E & S).
        rewrite A1 in *. exists s. split; [exact E|]. destruct GI as [GI _]. cbn [length] in GI. replace i with 0%nat in S by lia. cbn [nth] in S.
        destruct GA as [[GA|[]] _]. subst A. unfold rx_wants in S. replace (power - offset - power) with (- offset) in S by lia. exact S. }
    destruct E as (s & E & S). rewrite E. cbn [bind]. unfold adjust. cbn [combine map fst snd]. fold (moved lo hi power s).
    assert (T : toward c (level - target) power (Z.max (level - power - target) (- offset))).
    { unfold toward. replace (level - target - power) with (level - power - target) by lia. set (e := level - power - target) in *.
      assert (B : (0 <= e /\ Z.max e (- offset) = e) \/ (e < 0 /\ - offset <= e /\ Z.max e (- offset) = e) \/ (e < - offset /\ Z.max e (- offset) = - offset)) by lia.
      destruct B as [(B & ->)|[(B & B' & ->)|(B & ->)]].
      - split; [lia|]. split; [nia|auto].
      - split; [lia|]. split; [nia|auto].
      - split; [lia|]. split; [nia|]. intros D. exfalso. apply OD. unfold dead in *. lia. }
    apply IH; [apply moved_within; lia|]. destruct H as [H|H].
    + left. eapply moved_settled; eauto; lia.
    + replace (Z.of_nat (Datatypes.S n)) with (Z.of_nat n + 1) in H by lia. eapply moved_closer; eauto; lia.
Qed.
(** Transmission with any number of antennas: the same for the greatest transmit power, whatever the other side transmits with and
    however the receiver is set. *)
Theorem C64_tx_settles c factor target g lo hi losses loss packets powers A : agc_tx_new c factor target = Ok g ->
  g_multiple c < g_min c -> length losses = g_antennas c -> smallest loss losses -> length powers = g_antennas c ->
  greatest A powers -> lo <= A <= hi ->
  Forall (fun p => length (snd p) = g_antennas c /\ -1000000 * g_dB c <= fst p - loss) packets ->
  let want := target + loss - factor in
  Z.abs (want - A) <= Z.of_nat (length packets) * g_min c ->
  exists powers' A', tx_loop lo hi losses packets g powers = Ok powers' /\ greatest A' powers' /\ settled c lo hi want A'.
Proof.
  intros N MG LL SL LP GA AB F want KB.
  assert (H : settled c lo hi want A \/ Z.abs (want - A) <= Z.of_nat (length packets) * g_min c) by auto. clear KB.
  destruct (tx_new_inv _ _ _ _ N) as (NC & ->). destruct (agc_new_inv _ _ NC) as (_ & NA & M & _).
  revert powers A LP GA AB H F. induction packets as [|[opposite rxp] packets IH]; intros powers A LP GA AB H F.
  - exists powers, A. split; [reflexivity|]. split; [exact GA|]. destruct H as [H|H]; [exact H|]. cbn in H; apply settled_0; auto; lia.
  - inversion F as [|? ? [F1 F2] F3]; subst. cbn [fst snd] in F1, F2. cbn [tx_loop].
    set (rms := map (fun lp => Some (opposite - fst lp - snd lp)) (combine losses rxp)).
    assert (LR : length rms = g_antennas c) by (unfold rms; rewrite map_length, combine_length; lia).
    assert (R : received rxp rms = map (fun l => opposite - l) losses).
    { unfold rms. clear - LL F1. rewrite <- F1 in LL. clear F1. revert rxp LL. induction losses as [|l losses IH]; intros [|r rxp] L; try discriminate; [reflexivity|].
      unfold received. cbn [combine map flat_map fst snd app]. f_equal; [lia|]. apply IH. cbn in L. lia. }
    assert (GB : greatest (opposite - loss) (received rxp rms)).
    { rewrite R. destruct SL as [I S]. split; [apply in_map_iff; eauto|]. rewrite Forall_forall in *. intros x X. apply in_map_iff in X as (y & <- & Y). specialize (S y Y). lia. }
    destruct (C64_tx c factor target _ opposite powers rxp rms (opposite - loss) N) as (A' & s & GA' & E & S); auto.
    { destruct GA as [I _]. destruct powers; [contradiction|discriminate]. }
    pose proof (greatest_unique _ _ _ GA GA'). subst A'. rewrite E. cbn [bind].
    replace (adjust lo hi powers (repeat s (g_antennas c))) with (map (fun p => moved lo hi p s) powers).
    2:{ unfold adjust. rewrite <- LP. clear. induction powers as [|p powers IH]; [reflexivity|]. cbn [map length repeat combine fst snd]. f_equal. exact IH. }
    replace (opposite + (target - (opposite - loss)) - (A + factor)) with (want - A) in S by (unfold want; lia).
    assert (T : toward c want A (want - A)) by (unfold toward; split; [lia|split; [nia|auto]]).
    assert (LH : lo <= hi) by lia.
    apply IH with (A := moved lo hi A s); auto.
    + rewrite map_length. exact LP.
    + destruct GA as [I G]. split; [apply in_map_iff; eauto|]. rewrite Forall_forall in *. intros x X. apply in_map_iff in X as (y & <- & Y). specialize (G y Y).
      unfold moved, set_power. destruct (s =? 0); lia.
    + apply moved_within; auto.
    + destruct H as [H|H].
      * left. eapply moved_settled; eauto.
      * cbn [length] in H. replace (Z.of_nat (Datatypes.S (length packets))) with (Z.of_nat (length packets) + 1) in H by lia. eapply moved_closer; eauto.
Qed.

(** *** Cases *)
(** lower_ctrl.hpp 58-67: the values in use, in tenths of a dB *)
Definition rx_config n := mkConfig 10 n 10 80 20.
Definition tx_config n := mkConfig 10 n 10 50 20.
Example C64_rx_hypotheses_met : exists g, agc_rx_new (rx_config 1) tune_individually (-200) 150 = Ok g /\ g_multiple (rx_config 1) < g_min (rx_config 1) /\ ~ dead (rx_config 1) 150 /\
  rx_loop (-600) 100 [-733] 20 g [100] = Ok [-533 + 3].
Proof. eexists. split; [reflexivity|]. split; [reflexivity|]. split; [unfold dead; cbn; lia|]. reflexivity. Qed.
Example C64_tx_hypotheses_met : exists g, agc_tx_new (tx_config 2) (-150) (-550) = Ok g /\ smallest 717 [723; 717] /\ greatest (-100) [-100; -130] /\
  tx_loop (-400) 200 [723; 717] (repeat (100, [-300; -400]) 21) g [-100; -130] = Ok [200; 200].
Proof. eexists. split; [reflexivity|]. split; [split; [cbn; auto|repeat constructor; lia]|]. split; [split; [cbn; auto|repeat constructor; lia]|]. reflexivity. Qed.
Example C64_two_antennas : exists g, agc_rx_new (rx_config 2) tune_individually (-200) 150 = Ok g /\
  rx_steps g [-300; -500] [Some (-187); None] = Ok ([0; 80], g) /\ rx_steps g [-300; -440] [Some (-250); Some (-250)] = Ok ([-50; 0], g).
Proof. eexists. split; [reflexivity|]. split; reflexivity. Qed.

(** If the smallest step is the unit, which the constructor allows, the setting need not settle: at half a unit it changes with every
    packet for ever. *)
Theorem C64_half_step_refuted : exists c g, agc_rx_new c tune_individually (-200) 150 = Ok g /\
  forall n, rx_loop (-600) 100 [-505] (2 * n) g [-300] = Ok [-300] /\ rx_loop (-600) 100 [-505] (2 * n + 1) g [-300] = Ok [-310].
Proof.
  exists (mkConfig 10 1 10 80 10). eexists. split; [reflexivity|].
  assert (E : forall n, rx_loop (-600) 100 [-505] (S (S n)) (mkRx (mkConfig 10 1 10 80 10) (roundrobin_new 1) tune_individually (-200) 150) [-300] =
                        rx_loop (-600) 100 [-505] n (mkRx (mkConfig 10 1 10 80 10) (roundrobin_new 1) tune_individually (-200) 150) [-300]) by (intros; reflexivity).
  induction n as [|n [IH1 IH2]]; [split; reflexivity|]. replace (2 * S n)%nat with (S (S (2 * n))) by lia. split; [rewrite E; exact IH1|].
  replace (S (S (2 * n)) + 1)%nat with (S (S (2 * n + 1))) by lia. rewrite E. exact IH2.
Qed.
(** With an offset in the dead band, which the constructor allows, the least sensitive antenna never becomes more sensitive, so nothing weak is
    ever received better. *)
Theorem C64_offset_refuted c m target offset g power rms : agc_rx_new c m target offset = Ok g -> g_antennas c = 1%nat -> dead c offset ->
  exists s, rx_steps g [power] [rms] = Ok ([s], g) /\ 0 <= s.
Proof.
  intros N A1 D. destruct (rx_new_inv _ _ _ _ _ N) as (NC & -> & O0). destruct (agc_new_inv _ _ NC) as (_ & _ & M & _).
  assert (H : forall x s, - offset <= x -> step_for c x s -> 0 <= s).
  { intros x s X (S1 & S2). unfold dead in *. destruct (Z_lt_dec (2 * Z.abs x) (2 * g_min c - g_multiple c)) as [Y|Y]; [rewrite (S1 Y); lia|].
    destruct (S2 Y) as (P & _). assert (0 < x) by lia. nia. }
  destruct m.
  - destruct (C64_rx_individual c target offset _ [power] [rms] N (eq_sym A1) (eq_sym A1)) as (A & s & GA & E & L & S).
    rewrite A1 in *. specialize (S 0%nat ltac:(lia)). cbn [nth] in S. destruct s as [|s [|? ?]]; try discriminate. exists s. split; [exact E|].
    destruct GA as [[GA|[]] _]. subst A. eapply H; [|exact S]. unfold rx_wants. lia.
  - destruct (C64_rx_collective c target offset _ [power] [rms] N (eq_sym A1) (eq_sym A1)) as (A & s & i & GA & GI & E & S).
    rewrite A1 in *. exists s. split; [exact E|]. destruct GI as [GI _]. cbn [length] in GI. replace i with 0%nat in S by lia. cbn [nth] in S.
    destruct GA as [[GA|[]] _]. subst A. eapply H; [|exact S]. unfold rx_wants. destruct rms; lia.
Qed.
Example C64_offset_hypotheses_met : exists g, agc_rx_new (mkConfig 10 1 10 80 20) tune_individually (-200) 10 = Ok g /\ dead (mkConfig 10 1 10 80 20) 10.
Proof. eexists. split; reflexivity. Qed.
(** All antennas at once, settings further apart than the offset: every packet makes the receiver less sensitive, down to the end of the range,
    however weak the signal is. *)
Theorem C64_collective_refuted : exists c g powers levels, agc_rx_new c tune_collectively (-200) 150 = Ok g /\
  Forall (fun x => x < -700) levels /\ powers = [-400; -200] /\ rx_loop (-600) 100 levels 1 g powers = Ok [-350; -150] /\ rx_loop (-600) 100 levels 6 g powers = Ok [-100; 100] /\
  rx_loop (-600) 100 levels 7 g powers = Ok [-50; 100].
Proof. exists (rx_config 2). eexists _, [-400; -200], [-800; -820]. split; [reflexivity|]. split; [repeat constructor; lia|]. repeat split; reflexivity. Qed.
(** Without any RMS, the transmit power is raised by the largest step. *)
Theorem C64_tx_blind_refuted c factor target g opposite tx_powers rx_powers A : agc_tx_new c factor target = Ok g ->
  0 < g_dB c -> greatest A tx_powers -> length rx_powers = g_antennas c -> -100000 * g_dB c <= opposite -> A <= 100000 * g_dB c -> g_max c <= 100000 * g_dB c ->
  exists s, tx_steps g opposite tx_powers rx_powers (repeat None (g_antennas c)) = Ok (repeat s (g_antennas c), g) /\ s = g_max c.
Proof.
  intros N D GA L O AB MB. destruct (tx_new_inv _ _ _ _ N) as (NC & ->).
  assert (TB : -80 * g_dB c <= target /\ factor <= 0 /\ g_multiple c <= 5 * g_dB c).
  { clear - N NC. unfold agc_tx_new in N. rewrite NC in N. cbn [bind] in N. destruct (_ <=? factor) in N; [|discriminate]. destruct (Z.leb_spec factor 0); [|discriminate].
    destruct (Z.leb_spec (-80 * g_dB c) target); [|discriminate]. unfold agc_new in NC. destruct (_ && _) in NC; [|discriminate].
    destruct (_ <=? 2 * _) in NC; [|discriminate]. destruct (Z.leb_spec (g_multiple c) (5 * g_dB c)); [|discriminate]. auto. }
  destruct TB as (T1 & T2 & T3). destruct (agc_new_inv _ _ NC) as (_ & NA & M & (k1 & K1) & _ & MM).
  unfold tx_steps. cbn [t_config t_robin t_factor t_target]. rewrite repeat_length, L, Nat.eqb_refl. cbn [andb guard]. rewrite (get_max_is _ _ GA). cbn [bind].
  rewrite process_map by (try exact NC; apply repeat_length). cbn [bind]. rewrite map_repeat. eexists. split; [reflexivity|].
  assert (R : received rx_powers (repeat None (g_antennas c)) = []).
  { rewrite <- L. clear. induction rx_powers as [|p l IH]; [reflexivity|]. exact IH. }
  rewrite rx_power_max_is by (rewrite repeat_length; lia). rewrite R. cbn [max_from].
  pose proof (C64_step c c (opposite + (target - -1000000 * g_dB c) - (A + factor)) NC) as S. set (x := opposite + _ - _) in *.
  assert (X : 100000 * g_dB c + 10 * g_dB c <= x) by (unfold x; lia). clearbody x. destruct S as [_ S]. destruct S as (P & B & _ & Q).
  { unfold dead. lia. }
  assert (0 < quantize c x) by nia. destruct Q as [Q|(Q & _)]; lia.
Qed.

Print Assumptions C64_step.
Print Assumptions C64_rx_individual.
Print Assumptions C64_rx_collective.
Print Assumptions C64_tx.
Print Assumptions C64_rx_settles.
Print Assumptions C64_tx_settles.
Print Assumptions C64_half_step_refuted.
Print Assumptions C64_offset_refuted.
Print Assumptions C64_collective_refuted.
Print Assumptions C64_tx_blind_refuted.
