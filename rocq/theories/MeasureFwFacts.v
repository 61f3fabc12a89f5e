(** Facts about the measuring firmwares. *)
From Coq Require Import QArith.
From Verif Require Import Base MeasureFw MeasureFwSpec.
Open Scope nat_scope.

Lemma qmin_l a b : (qmin a b <= a)%Q.
Proof. unfold qmin. destruct (Qle_bool a b) eqn:E; [apply Qle_refl|]. apply Qlt_le_weak, Qnot_le_lt. intros X. apply Qle_bool_iff in X. congruence. Qed.
Lemma qmin_r a b : (qmin a b <= b)%Q.
Proof. unfold qmin. destruct (Qle_bool a b) eqn:E; [now apply Qle_bool_iff|apply Qle_refl]. Qed.
Lemma qmax_l a b : (a <= qmax a b)%Q.
Proof. unfold qmax. destruct (Qle_bool b a) eqn:E; [apply Qle_refl|]. apply Qlt_le_weak, Qnot_le_lt. intros X. apply Qle_bool_iff in X. congruence. Qed.
Lemma qmax_r a b : (b <= qmax a b)%Q.
Proof. unfold qmax. destruct (Qle_bool b a) eqn:E; [now apply Qle_bool_iff|apply Qle_refl]. Qed.
Lemma qmin_in a b : qmin a b = a \/ qmin a b = b.
Proof. unfold qmin. destruct (Qle_bool a b); auto. Qed.
Lemma qmax_in a b : qmax a b = a \/ qmax a b = b.
Proof. unfold qmax. destruct (Qle_bool b a); auto. Qed.

Section Scan.
Variable c : scan_cfg.
Variable start : Z.
Hypothesis n_pos : 0 < n_measurement c.
Hypothesis f_pos : 0 < length (freqs c).
Notation N := (n_measurement c).
Notation F := (length (freqs c)).

(** The results since the last change of the frequency. *)
Definition block (l : list Q) : list Q := skipn (length l - length l mod N) l.

Record scan_inv (l : list Q) (s : scanner) : Prop := {
  v_idx : freqs_idx s = (length l / N) mod F;
  v_cnt : n_measurement_cnt s = length l mod N;
  v_next : next_scan s = (start + scan_first c + Z.of_nat (length l - length l / N) * scan_period c
                          + Z.of_nat (length l / N) * scan_spacing c)%Z;
  v_tuned : tuned s = nth ((length l / N) mod F) (freqs c) 0%Z;
  v_ext : length l mod N = 0 /\ rms_min s = 1000000000 # 1 /\ rms_max s = - 1000000000 # 1 \/
          extremes (block l) (rms_min s) (rms_max s)
}.

Lemma div_step k : (k mod N + 1 = N -> (k + 1) / N = k / N + 1 /\ (k + 1) mod N = 0) /\
  (k mod N + 1 <> N -> (k + 1) / N = k / N /\ (k + 1) mod N = k mod N + 1).
Proof.
  pose proof (Nat.div_mod k N ltac:(lia)) as D. pose proof (Nat.mod_upper_bound k N ltac:(lia)) as U. split; intros E.
  - assert (k + 1 = N * (k / N + 1) + 0) by lia. split; symmetry; [apply Nat.div_unique with (r := 0)|apply Nat.mod_unique with (q := k / N + 1)]; lia.
  - split; symmetry; [apply Nat.div_unique with (r := k mod N + 1)|apply Nat.mod_unique with (q := k / N)]; lia.
Qed.
Lemma mod_step i : (if i mod F + 1 =? F then 0 else i mod F + 1) = (i + 1) mod F.
Proof.
  pose proof (Nat.div_mod i F ltac:(lia)) as D. pose proof (Nat.mod_upper_bound i F ltac:(lia)) as U.
  destruct (Nat.eqb_spec (i mod F + 1) F); [apply Nat.mod_unique with (q := i / F + 1)|apply Nat.mod_unique with (q := i / F)]; lia.
Qed.

Lemma scan_channel_ok l s r s' rep t : Forall plausible (l ++ [r]) -> scan_inv l s -> scan_channel c s r = (s', rep, t) ->
  scan_inv (l ++ [r]) s' /\ t = next_scan s' /\
  ((length l + 1) mod N <> 0 -> rep = None) /\
  ((length l + 1) mod N = 0 -> exists lo hi, rep = Some (nth ((length l / N) mod F) (freqs c) 0%Z, lo, hi) /\
     extremes (skipn (length l + 1 - N) (l ++ [r])) lo hi).
Proof.
  intros P [V1 V2 V3 V4 V5] E. unfold scan_channel in E. rewrite V2, V1 in E.
  pose proof (div_step (length l)) as [D1 D2]. pose proof (Nat.mod_upper_bound (length l) N ltac:(lia)) as U.
  pose proof (Nat.mod_le (length l) N ltac:(lia)) as ML.
  assert (X : extremes (skipn (length l - length l mod N) (l ++ [r])) (qmin (rms_min s) r) (qmax (rms_max s) r)).
  { rewrite skipn_app. replace (length l - length l mod N - length l) with 0 by lia. cbn [skipn].
    apply Forall_app in P. destruct P as [_ P]. inversion_clear P as [|? ? [Pa Pb] _].
    destruct V5 as [(Z & M1 & M2)|(I1 & I2 & I3)].
    - rewrite Z, Nat.sub_0_r, skipn_all. cbn [app]. rewrite M1, M2.
      assert (A : qmin (1000000000 # 1) r = r). { unfold qmin. destruct (Qle_bool _ r) eqn:B; auto. apply Qle_bool_iff in B. exfalso. apply (Qlt_not_le _ _ Pb B). }
      assert (B : qmax (- 1000000000 # 1) r = r). { unfold qmax. destruct (Qle_bool r _) eqn:B; auto. apply Qle_bool_iff in B. exfalso. apply (Qlt_not_le _ _ Pa B). }
      rewrite A, B. split; [now left|split; [now left|]]. intros x [->|[]]. split; apply Qle_refl.
    - fold (block l). split; [|split].
      + apply in_or_app. destruct (qmin_in (rms_min s) r) as [->| ->]; [now left|right; now left].
      + apply in_or_app. destruct (qmax_in (rms_max s) r) as [->| ->]; [now left|right; now left].
      + intros x Hx. apply in_app_or in Hx. destruct Hx as [Hx|[->|[]]].
        * destruct (I3 x Hx) as [A B]. split; [eapply Qle_trans; [apply qmin_l|exact A]|eapply Qle_trans; [exact B|apply qmax_l]].
        * split; [apply qmin_r|apply qmax_r]. }
  destruct (Nat.eqb_spec (length l mod N + 1) N) as [Y|Y]; injection E as <- <- <-.
  - destruct (D1 Y) as [E1 E2]. split; [|split; [reflexivity|split; [intros W; congruence|]]].
    + constructor; cbn [freqs_idx n_measurement_cnt next_scan tuned rms_min rms_max]; rewrite ?app_length; cbn [length]; rewrite ?E1, ?E2.
      * apply mod_step.
      * reflexivity.
      * rewrite V3. replace (length l + 1 - (length l / N + 1)) with (length l - length l / N) by lia. lia.
      * now rewrite mod_step.
      * left. auto.
    + intros _. eexists _, _. split; [reflexivity|]. replace (length l + 1 - N) with (length l - length l mod N) by lia. exact X.
  - destruct (D2 Y) as [E1 E2]. split; [|split; [reflexivity|split; [reflexivity|intros W; lia]]].
    assert (Dl : length l / N <= length l) by (apply Nat.div_le_upper_bound; nia).
    constructor; cbn [freqs_idx n_measurement_cnt next_scan tuned rms_min rms_max]; rewrite ?app_length; cbn [length]; rewrite ?E1, ?E2; auto.
    + rewrite V3. replace (length l + 1 - length l / N) with (S (length l - length l / N)) by lia. lia.
    + right. unfold block. rewrite app_length. cbn [length]. rewrite E2.
      replace (length l + 1 - (length l mod N + 1)) with (length l - length l mod N) by lia. exact X.
Qed.

Lemma scan_after_ok l : Forall plausible l -> scan_inv l (scan_after c start l).
Proof.
  induction l as [|r l IH] using rev_ind; intros P.
  - constructor; cbn [length scan_after fold_left scan_start freqs_idx n_measurement_cnt next_scan tuned rms_min rms_max];
      rewrite ?Nat.div_0_l, ?Nat.mod_0_l by lia; auto. cbn [Nat.sub]. lia.
  - unfold scan_after. rewrite fold_left_app. cbn [fold_left]. fold (scan_after c start l).
    destruct (scan_channel c (scan_after c start l) r) as [[s' rep] t] eqn:E.
    apply (scan_channel_ok l (scan_after c start l) r s' rep t); auto. apply IH. now apply Forall_app in P.
Qed.
End Scan.

(** ** Delay *)
Lemma delay_facts spacing turn : forall l s s' os, delay_run spacing turn s l = Ok (s', os) ->
  in_line (d_order s) (d_earliest s) (sent os) /\
  (forall i t, nth_error (requests os) i = Some t -> t = (next_measurement s + Z.of_nat (i + 1) * spacing)%Z) /\
  (forall a b tx rx d, os = a ++ DLog tx rx d :: b -> tx = latest (tx_time_last s) a /\ d = (rx - tx)%Z).
Proof.
  induction l as [|e l IH]; intros s s' os E; cbn [delay_run] in E.
  - injection E as <- <-. split; [exact I|]. split; [intros [|i] t X; discriminate|]. intros [|? ?] ? ? ? ? X; discriminate.
  - destruct (delay_step spacing turn s e) as [[s1 o]| | |] eqn:E1; try discriminate. cbn [bind] in E.
    destruct (delay_run spacing turn s1 l) as [[s2 os']| | |] eqn:E2; try discriminate. injection E as <- <-.
    destruct (IH _ _ _ E2) as (A & B & C). destruct e as [now hp|rx]; cbn [delay_step] in E1.
    + unfold guard in E1. destruct (next_measurement s <? now)%Z; try discriminate. destruct hp as [len|]; injection E1 as <- <-.
      * cbn in A, B, C. cbn [sent requests latest in_line order_id tx_time tx_length]. split; [repeat split; auto; lia|]. split.
        -- intros [|i] t X; cbn in X; [injection X as <-; lia|]. apply B in X. lia.
        -- intros [|x a] b tx rx d X; [discriminate|]. injection X as <- X. cbn [latest]. now apply (C a b).
      * cbn in A, B, C. cbn [sent requests latest]. split; [exact A|]. split.
        -- intros [|i] t X; cbn in X; [injection X as <-; lia|]. apply B in X. lia.
        -- intros [|x a] b tx rx d X; [discriminate|]. injection X as <- X. cbn [latest]. now apply (C a b).
    + injection E1 as <- <-. cbn [sent requests]. split; [exact A|]. split; [exact B|].
      intros [|x a] b tx rx' d X.
      * injection X as <- <- <- _. auto.
      * injection X as <- X. cbn [latest]. now apply (C a b).
Qed.

Lemma delay_calls spacing turn : forall l s s' os, delay_run spacing turn s l = Ok (s', os) ->
  Forall2 (fun e o => match e, o with
                      | DCall now (Some len), DSent (Some p) _ => (now + turn <= tx_time p)%Z /\ tx_length p = len
                      | DCall _ None, DSent None _ => True
                      | DHeard rx, DLog _ rx' _ => rx' = rx
                      | _, _ => False
                      end) l os.
Proof.
  induction l as [|e l IH]; intros s s' os E; cbn [delay_run] in E.
  - injection E as <- <-. constructor.
  - destruct (delay_step spacing turn s e) as [[s1 o]| | |] eqn:E1; try discriminate. cbn [bind] in E.
    destruct (delay_run spacing turn s1 l) as [[s2 os']| | |] eqn:E2; try discriminate. injection E as <- <-.
    constructor; [|eauto]. destruct e as [now hp|rx]; cbn [delay_step] in E1.
    + unfold guard in E1. destruct (next_measurement s <? now)%Z; try discriminate.
      destruct hp as [len|]; injection E1 as <- <-; auto. cbn. split; lia.
    + injection E1 as <- <-. reflexivity.
Qed.

(** ** Gain *)
Lemma fold_sel (g : nat -> nat) v a : forall l (f : nat -> Z),
  fold_left (fun f i => fun a => if a =? g i then v else f a) l f a = if existsb (fun i => a =? g i) l then v else f a.
Proof.
  induction l as [|i l IH]; intros f; cbn [fold_left existsb]; [reflexivity|]. rewrite IH.
  destruct (existsb (fun i0 => a =? g i0) l); [now rewrite orb_true_r|]. rewrite orb_false_r. reflexivity.
Qed.
Lemma adjustment_ok c m a : adjustment c m a =
  if chosen (a_ants c) (a_simul c) m a then (if Nat.even m then a_change c else (- a_change c)%Z) else 0%Z.
Proof.
  unfold adjustment, chosen. rewrite fold_sel.
  assert (E : (m mod 2 =? 0) = Nat.even m).
  { pose proof (Nat.even_spec m) as S. destruct (Nat.eqb_spec (m mod 2) 0) as [X|X]; destruct (Nat.even m); auto.
    - exfalso. apply Nat.mod_divide in X; [|lia]. destruct X as [k X]. assert (false = true); [|discriminate]. apply S. exists k. lia.
    - exfalso. destruct S as [S _]. destruct (S eq_refl) as [k K]. apply X. rewrite K, Nat.mul_comm. apply Nat.mod_mul. lia. }
  rewrite E. reflexivity.
Qed.
Lemma offset_step c m a : (offset c m a + adjustment c m a)%Z = offset c (m + 1) a.
Proof.
  rewrite adjustment_ok. unfold offset. replace (m + 1) with (S m) by lia. rewrite Nat.even_succ, <- Nat.negb_even.
  destruct (Nat.even m) eqn:E; cbn [negb].
  - assert (D : S m / 2 = m / 2).
    { apply Nat.even_spec in E. destruct E as [k ->]. rewrite (Nat.mul_comm 2 k), Nat.div_mul by lia.
      symmetry. apply Nat.div_unique with (r := 1); lia. }
    unfold chosen. rewrite D. destruct (existsb _ _); lia.
  - destruct (chosen _ _ m a); lia.
Qed.

Definition front_ok (c : agc_cfg) (e : agc_call) : Prop := a_timing c = AFree \/ hp_front e <> None.

Record agc_inv (c : agc_cfg) (start : Z) (k : nat) (s : agc_fw) : Prop := {
  g_time : meas_time s = (start + Z.of_nat (meas_cnt s + 1) * a_spacing c)%Z;
  g_ask : snd (asked s) = 0 /\ fst (asked s) = meas_time s \/
          a_timing c = AFree /\ asked s = ((S0 s + L0 s + a_p0 c)%Z, 1);
  g_cnt : match a_timing c with AFront => meas_cnt s = k /\ snd (asked s) = 0
                              | AFree => 2 * meas_cnt s + snd (asked s) = k end
}.

Lemma agc_step_inv c start k s e s' p : agc_inv c start k s -> agc_step c s e = Ok (s', p) -> agc_inv c start (k + 1) s'.
Proof.
  intros [G1 G2 G3] E. unfold agc_step, guard in E. destruct (fst (asked s) <? c_now e)%Z; [|discriminate].
  destruct (Nat.eqb_spec (snd (asked s)) 0) as [H0|H0].
  - destruct (fst (asked s) =? meas_time s)%Z; [|discriminate].
    destruct (agc_packet (a_order s) (c_now e + a_turn c) (hp_front e)) as [[p0 o] len].
    destruct (a_timing c) eqn:T.
    + unfold agc_back in E. cbn [S0 L0 a_order meas_time meas_cnt tx_moved rx_moved] in E.
      destruct (agc_packet o _ (hp_back e)) as [[p1 o1] len1]. injection E as <- <-.
      constructor; cbn [S0 L0 a_order meas_time meas_cnt tx_moved rx_moved asked fst snd]; rewrite ?T; auto; try lia.
      all: destruct G3; split; auto; lia.
    + injection E as <- <-. constructor; cbn [S0 L0 a_order meas_time meas_cnt tx_moved rx_moved asked fst snd]; rewrite ?T; auto; lia.
  - destruct (Nat.eqb_spec (snd (asked s)) 1) as [H1|H1]; [|discriminate].
    assert (T : a_timing c = AFree) by (destruct G2 as [[X _]|[X _]]; [congruence|exact X]). rewrite T in *.
    unfold agc_back in E. cbn [S0 L0 a_order meas_time meas_cnt tx_moved rx_moved] in E.
    destruct (agc_packet (a_order s) _ (hp_back e)) as [[p1 o1] len1]. injection E as <- <-.
    constructor; cbn [S0 L0 a_order meas_time meas_cnt tx_moved rx_moved asked fst snd]; rewrite ?T; auto; lia.
Qed.
Lemma agc_start_inv c start : agc_inv c start 0 (agc_start c start).
Proof. constructor; cbn; [lia|now left|destruct (a_timing c); auto]. Qed.

Lemma agc_run_inv c start : forall l s k s' ps, agc_inv c start k s -> agc_run c s l = Ok (s', ps) -> agc_inv c start (k + length l) s'.
Proof.
  induction l as [|e l IH]; intros s k s' ps G E; cbn [agc_run] in E.
  - injection E as <- <-. now rewrite Nat.add_0_r.
  - destruct (agc_step c s e) as [[s1 p]| | |] eqn:E1; try discriminate. cbn [bind] in E.
    destruct (agc_run c s1 l) as [[s2 ps']| | |] eqn:E2; try discriminate. injection E as <- <-.
    cbn [length]. replace (k + S (length l)) with (k + 1 + length l) by lia. eapply IH; [|exact E2]. eapply agc_step_inv; eauto.
Qed.

Definition at_offset (c : agc_cfg) (s : agc_fw) : Prop := forall a,
  tx_moved s a = (if changes_tx c then offset c (meas_cnt s) a else 0%Z) /\
  rx_moved s a = (if changes_rx c then offset c (meas_cnt s) a else 0%Z).

Lemma moved_tx c s a : at_offset c s -> moved (tx_moved s) (adj_tx c (meas_cnt s)) a = if changes_tx c then offset c (meas_cnt s + 1) a else 0%Z.
Proof.
  intros H. destruct (H a) as [H1 _]. unfold moved, adj_tx, changes_tx in *. destruct (a_type c); rewrite ?H1; auto; apply offset_step.
Qed.
Lemma moved_rx c s a : at_offset c s -> moved (rx_moved s) (adj_rx c (meas_cnt s)) a = if changes_rx c then offset c (meas_cnt s + 1) a else 0%Z.
Proof.
  intros H. destruct (H a) as [_ H1]. unfold moved, adj_rx, changes_rx in *. destruct (a_type c); rewrite ?H1; auto; apply offset_step.
Qed.

Lemma agc_step_gain c s e s' p : front_ok c e -> at_offset c s -> agc_step c s e = Ok (s', p) -> at_offset c s'.
Proof.
  intros FO H E. unfold agc_step, guard in E. destruct (fst (asked s) <? c_now e)%Z; [|discriminate].
  destruct (snd (asked s) =? 0).
  - destruct (fst (asked s) =? meas_time s)%Z; [|discriminate].
    destruct (agc_packet (a_order s) (c_now e + a_turn c) (hp_front e)) as [[p0 o] len].
    destruct (a_timing c) eqn:T.
    + destruct FO as [X|X]; [congruence|]. destruct (hp_front e) as [lf|]; [|congruence].
      unfold agc_back in E. cbn [S0 L0 a_order meas_time meas_cnt tx_moved rx_moved] in E.
      destruct (agc_packet o _ (hp_back e)) as [[p1 o1] len1]. injection E as <- <-.
      intros a. cbn [tx_moved rx_moved meas_cnt]. split; [now apply moved_tx|now apply moved_rx].
    + injection E as <- <-. exact H.
  - destruct (snd (asked s) =? 1); [|discriminate].
    unfold agc_back in E. cbn [S0 L0 a_order meas_time meas_cnt tx_moved rx_moved] in E.
    destruct (agc_packet (a_order s) _ (hp_back e)) as [[p1 o1] len1]. injection E as <- <-.
    intros a. cbn [tx_moved rx_moved meas_cnt]. split; [now apply moved_tx|now apply moved_rx].
Qed.
Lemma agc_run_gain c : forall l s s' ps, Forall (front_ok c) l -> at_offset c s -> agc_run c s l = Ok (s', ps) -> at_offset c s'.
Proof.
  induction l as [|e l IH]; intros s s' ps F H E; cbn [agc_run] in E.
  - now injection E as <- <-.
  - inversion_clear F as [|? ? F1 F2].
    destruct (agc_step c s e) as [[s1 p]| | |] eqn:E1; try discriminate. cbn [bind] in E.
    destruct (agc_run c s1 l) as [[s2 ps']| | |] eqn:E2; try discriminate. injection E as <- <-.
    eapply IH; [exact F2| |exact E2]. eapply agc_step_gain; eauto.
Qed.
Lemma at_offset_start c start : at_offset c (agc_start c start).
Proof. intros a. cbn. unfold offset. cbn. destruct (changes_tx c), (changes_rx c); auto. Qed.

Lemma numbered_app : forall p q n, numbered_from n p -> numbered_from (n + length p) q -> numbered_from n (p ++ q).
Proof.
  induction p as [|x p IH]; intros q n A B; cbn [app length numbered_from] in *; [now rewrite Nat.add_0_r in B|].
  destruct A as [A1 A2]. split; auto. apply IH; auto. now replace (n + 1 + length p) with (n + S (length p)) by lia.
Qed.
Lemma agc_packet_num o t hp p o' len : agc_packet o t hp = (p, o', len) -> numbered_from o p /\ o' = o + length p.
Proof. unfold agc_packet. destruct hp; intros E; injection E as <- <- <-; cbn; auto with arith. Qed.
Lemma agc_step_num c s e s' p : agc_step c s e = Ok (s', p) -> numbered_from (a_order s) p /\ a_order s' = a_order s + length p.
Proof.
  intros E. unfold agc_step, guard in E. destruct (fst (asked s) <? c_now e)%Z; [|discriminate].
  destruct (snd (asked s) =? 0).
  - destruct (fst (asked s) =? meas_time s)%Z; [|discriminate].
    destruct (agc_packet (a_order s) (c_now e + a_turn c) (hp_front e)) as [[p0 o] len] eqn:P0. apply agc_packet_num in P0. destruct P0 as [N0 O0].
    destruct (a_timing c).
    + unfold agc_back in E. cbn [S0 L0 a_order meas_time meas_cnt tx_moved rx_moved] in E.
      destruct (agc_packet o _ (hp_back e)) as [[p1 o1] len1] eqn:P1. apply agc_packet_num in P1. destruct P1 as [N1 O1]. injection E as <- <-.
      cbn [a_order]. rewrite app_length. split; [apply numbered_app; auto; now rewrite <- O0|lia].
    + injection E as <- <-. cbn [a_order]. auto.
  - destruct (snd (asked s) =? 1); [|discriminate].
    unfold agc_back in E. cbn [S0 L0 a_order meas_time meas_cnt tx_moved rx_moved] in E.
    destruct (agc_packet (a_order s) _ (hp_back e)) as [[p1 o1] len1] eqn:P1. apply agc_packet_num in P1. injection E as <- <-. exact P1.
Qed.
Lemma agc_run_num c : forall l s s' ps, agc_run c s l = Ok (s', ps) -> numbered_from (a_order s) (concat ps).
Proof.
  induction l as [|e l IH]; intros s s' ps E; cbn [agc_run] in E.
  - injection E as <- <-. exact I.
  - destruct (agc_step c s e) as [[s1 p]| | |] eqn:E1; try discriminate. cbn [bind] in E.
    destruct (agc_run c s1 l) as [[s2 ps']| | |] eqn:E2; try discriminate. injection E as <- <-.
    apply agc_step_num in E1. destruct E1 as [A B]. apply IH in E2. rewrite B in E2. cbn [concat]. now apply numbered_app.
Qed.

(** The packets of two calls one after the other, or of one. *)
Lemma agc_pair c s1 e1 s2 e2 s3 p q : a_timing c = AFree -> snd (asked s1) = 0 ->
  agc_step c s1 e1 = Ok (s2, [p]) -> agc_step c s2 e2 = Ok (s3, [q]) ->
  (tx_time q = tx_time p + tx_length p + a_p01 c)%Z /\ (tx_time p = c_now e1 + a_turn c)%Z.
Proof.
  intros T H0 E1 E2. unfold agc_step, guard in E1. destruct (fst (asked s1) <? c_now e1)%Z; [|discriminate].
  rewrite H0, T in E1. cbn [Nat.eqb] in E1. destruct (fst (asked s1) =? meas_time s1)%Z; [|discriminate].
  unfold agc_packet in E1. destruct (hp_front e1) as [lf|]; [|discriminate]. injection E1 as <- <-.
  unfold agc_step, guard in E2. cbn [asked fst snd] in E2. destruct (_ <? c_now e2)%Z; [|discriminate]. cbn [Nat.eqb] in E2.
  unfold agc_back, agc_packet in E2. cbn [S0 L0] in E2. destruct (hp_back e2) as [lb|]; [|discriminate]. injection E2 as _ <-.
  cbn. auto.
Qed.
Lemma agc_both c s1 e1 s2 p q : agc_step c s1 e1 = Ok (s2, [p; q]) ->
  (tx_time q = tx_time p + tx_length p + a_p01 c)%Z /\ (tx_time p = c_now e1 + a_turn c)%Z.
Proof.
  intros E. unfold agc_step, guard in E. destruct (fst (asked s1) <? c_now e1)%Z; [|discriminate].
  destruct (snd (asked s1) =? 0).
  - destruct (fst (asked s1) =? meas_time s1)%Z; [|discriminate]. unfold agc_packet in E.
    destruct (hp_front e1) as [lf|]; destruct (a_timing c); try discriminate;
      unfold agc_back, agc_packet in E; cbn [S0 L0] in E; destruct (hp_back e1) as [lb|]; try discriminate.
    injection E as _ <- <-. cbn. auto.
  - destruct (snd (asked s1) =? 1); [|discriminate]. unfold agc_back, agc_packet in E. destruct (hp_back e1); discriminate.
Qed.
Lemma agc_run_app c : forall l1 l2 s s' ps, agc_run c s (l1 ++ l2) = Ok (s', ps) ->
  exists s1 p1 p2, agc_run c s l1 = Ok (s1, p1) /\ agc_run c s1 l2 = Ok (s', p2) /\ ps = p1 ++ p2 /\ length p1 = length l1.
Proof.
  induction l1 as [|e l1 IH]; intros l2 s s' ps E; cbn [app agc_run] in *.
  - exists s, [], ps. auto.
  - destruct (agc_step c s e) as [[s1 p]| | |] eqn:E1; try discriminate. cbn [bind] in *.
    destruct (agc_run c s1 (l1 ++ l2)) as [[s2 ps']| | |] eqn:E2; try discriminate. injection E as <- <-.
    destruct (IH _ _ _ _ E2) as (s3 & p1 & p2 & A & B & C & D). exists s3, (p :: p1), p2. rewrite A. cbn [bind length app]. subst ps'. auto.
Qed.
