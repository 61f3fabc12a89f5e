From Verif Require Import Base IntHelpers Cells CellsFacts RxRing RxRingSpec RxRingFacts Resampler ResamplerSpec ResamplerFacts ResamplerStream ResamplerMeaning RxPacer RxPacerSpec RxPacerFacts RxPacerStream RxPacerCalls.
Open Scope N_scope.

(** ** The ring buffer *)
Lemma times_app' t m n : times t (m + n) = times t m ++ times (t + Z.of_N m) n.
Proof.
  unfold times. rewrite upto_app, map_app. f_equal. rewrite map_nseq. apply map_ext. intros. lia.
Qed.
Lemma seen_facts {smp} (c : RxRing.cfg) (zero : smp) bs o : (0 < cL c)%nat -> (0 <= cpre c)%Z -> seen c zero bs o ->
  ring_ok c o /\ rxt o = (if (total bs <=? cpre c)%Z then 0%Z else snd (fst (timeline 0 0 [] bs))).
Proof.
  intros HL HP (F & o0 & o1 & E0 & E1 & W).
  destruct (init_inv c zero o0 HL E0) as [Hinv Hc0]. destruct (run_inv c bs o0 0%Z [] Hinv F) as (st & E & H). rewrite E1 in E. injection E as <-.
  destruct (clock_published c zero o0 bs HL HP E0 F) as (st & E & CP). rewrite E1 in E. injection E as <-.
  rewrite Hc0 in H. destruct (timeline 0 0 [] bs) as [[from n] good]. cbn [fst snd] in *. destruct H as (_ & Hv).
  assert (R1 : ring_ok c o1).
  { destruct Hv as (_ & _ & _ & _ & HM & _ & HA). split; [exact HM|]. apply Forall_forall. intros m I. apply In_nth_error in I as (a & I).
    apply HA in I. destruct I as (I & _). exact I. }
  destruct W as [->|(b & k & (B1 & B2 & B3 & B4) & Hk & W)]; [split; assumption|].
  destruct (hw_write_ok c o1 b from good k Hv Hk B2) as (o' & W' & Hm & _ & _ & Hx & _). rewrite W in W'. injection W' as <-.
  split; [|rewrite Hx; exact CP]. destruct R1 as (R1 & R2). rewrite Forall_forall in R2, B3. split; [rewrite Hm, map_length, combine_length; lia|].
  rewrite Hm. apply Forall_forall. intros m I. apply in_map_iff in I as ([m1 d] & <- & I). cbn [fst snd].
  pose proof (in_combine_l _ _ _ _ I) as I1. pose proof (in_combine_r _ _ _ _ I) as I2. rewrite put_length; [apply R2; exact I1|].
  rewrite (R2 _ I1). rewrite firstn_length, (B3 _ I2). destruct Hv as (V1 & V2 & _ & V3 & _ & -> & _).
  pose proof (Z.mod_pos_bound (cnt o1) (Z.of_nat (cL c)) ltac:(lia)). lia.
Qed.
Lemma seen_sample {smp} (s0 : smp) (c : RxRing.cfg) (zero : smp) bs o a t v : (0 < cL c)%nat -> seen c zero bs o -> (a < cant c)%nat ->
  let '(from, n, good) := timeline 0 0 [] bs in
  (from <= t)%Z -> (n - Z.of_nat (cL c) + Z.of_nat (cM c) <= t)%Z -> (t < n)%Z ->
  RxRingSpec.sample_at from good a t = Some v -> ring_at s0 c o a t = v.
Proof.
  intros HL (F & o0 & o1 & E0 & E1 & W) Ha.
  assert (Q : forall w, read c o a t = Some w -> ring_at s0 c o a t = w).
  { unfold read, ring_at. intros w. destruct (nth_error (mem o) a) as [m|] eqn:Em; [|discriminate]. intros E.
    rewrite (nth_error_nth _ _ _ Em). apply nth_error_nth. exact E. }
  pose proof (ring_holds c zero o0 bs HL E0 F) as R. destruct (timeline 0 0 [] bs) as [[from n] good] eqn:ET.
  intros A B C V. destruct W as [->|(b & k & B1 & Hk & W)].
  - destruct R as (st & E & _ & R). rewrite E1 in E. injection E as <-. apply Q.
    destruct (R a t Ha A ltac:(lia) C) as (R1 & _). rewrite R1. exact V.
  - destruct (ring_holds_midwrite c zero o0 bs b k HL E0 F B1 Hk) as (st & st' & E & E' & R'). rewrite ET in R'.
    rewrite E1 in E. injection E as <-. rewrite W in E'. injection E' as <-. apply Q.
    rewrite (R' a t Ha A B C). exact V.
Qed.
Lemma heard_is_signal {smp} (s0 : smp) (c : RxRing.cfg) (zero : smp) unit a x : (0 < cL c)%nat -> (0 <= cpre c)%Z -> (a < cant c)%nat -> 1 <= unit ->
  forall l t, (0 <= t)%Z -> consecutive unit t l -> complete unit l ->
  Forall (fun e => exists bs, seen c zero bs (snd e) /\ kept c unit bs a x (fst e)) l ->
  heard s0 c unit l a = map x (times t (len l * unit)).
Proof.
  intros HL HP Ha HU. induction l as [|[t' o] l IH]; intros t Ht C K F; [reflexivity|].
  cbn [consecutive] in C. destruct C as (-> & C). inversion K as [|? ? K1 K2]; subst. inversion F as [|? ? (bs & S1 & S2) F2]; subst. cbn [fst snd] in *.
  unfold heard. cbn [flat_map fst snd]. fold (heard s0 c unit l a). rewrite (IH (t + Z.of_N unit)%Z ltac:(lia) C K2 F2).
  replace (len ((t, o) :: l) * unit) with (unit + len l * unit) by (change ((t, o) :: l) with ([(t, o)] ++ l); rewrite len_app; change (len [(t, o)]) with 1; lia).
  rewrite times_app', map_app. f_equal. unfold times. rewrite !map_map. apply map_ext_in. intros i I. apply upto_in in I.
  destruct (seen_facts c zero bs o HL HP S1) as (_ & RX).
  pose proof (seen_sample s0 c zero bs o a (t + Z.of_N i) (x (t + Z.of_N i)%Z) HL S1 Ha) as SS. unfold kept in S2.
  destruct (timeline 0 0 [] bs) as [[from n] good]. cbn [fst snd] in RX.
  assert (N1 : (t + Z.of_N unit <= n)%Z) by (destruct (_ <=? _)%Z in RX; lia).
  destruct S2 as (S2 & S3 & S4). apply SS; try lia. apply S4; lia.
Qed.

(** ** Local buffers *)
Lemma binv_front {smp} ant cap cnt C (m : list (list smp)) : binv ant cap cnt C m ->
  forall a, (a < ant)%nat -> firstn (N.to_nat cnt) (nth a m []) = C a.
Proof.
  intros (A & B) a Ha. destruct (B a Ha) as (E & r & -> & _). rewrite firstn_app.
  replace (N.to_nat cnt - length (C a))%nat with 0%nat by (unfold len in E; lia). cbn [firstn]. rewrite app_nil_r. apply firstn_all2. unfold len in E. lia.
Qed.
Lemma binv_size {smp} ant cap cnt C (m : list (list smp)) : binv ant cap cnt C m -> map len m = repeat cap ant.
Proof.
  intros (A & B). apply nth_ext with (d := len (@nil smp)) (d' := cap); [rewrite map_length, repeat_length; exact A|].
  intros a Ha. rewrite map_length in Ha. rewrite map_nth, nth_repeat. destruct (B a ltac:(lia)) as (_ & r & _ & E). exact E.
Qed.
Lemma size_binv {smp} ant cap (m : list (list smp)) : map len m = repeat cap ant -> binv ant cap 0 (fun _ => []) m.
Proof.
  intros E. assert (A : length m = ant) by (rewrite <- (map_length len), E; apply repeat_length). split; [exact A|].
  intros a Ha. split; [reflexivity|]. exists (nth a m []). split; [reflexivity|].
  change 0 with (len (@nil smp)). rewrite <- (map_nth len), E. assert (X : nth_error (repeat cap ant) a = Some cap) by (apply nth_error_repeat; exact Ha).
  exact (nth_error_nth _ _ _ X).
Qed.
Lemma create_size {smp} ant n (junk : smp) : map len (b_mem _ (create_lbuf _ ant n junk)) = repeat n ant.
Proof. eapply binv_size. apply create_binv. Qed.

Lemma pacer_facts coef ant c unit (rc : config coef) p : create_pacer _ ant c unit rc = Ok p -> (0 < cL c)%nat ->
  p = mkPc ant (N.of_nat (cL c)) unit /\ (ant <= cant c)%nat /\ 1 <= unit <= N.of_nat (cL c) /\ c_L _ rc <= c_M _ rc /\ c_hist _ rc <= unit.
Proof.
  unfold create_pacer, guard. intros E HL. destruct (Nat.leb_spec ant (cant c)); [|discriminate].
  destruct (N.eqb_spec unit 0); [discriminate|]. destruct (N.eqb_spec (N.of_nat (cL c) mod unit) 0) as [D|]; [|discriminate].
  destruct (N.leb_spec (c_L coef rc) (c_M coef rc)); [|discriminate].
  destruct (N.leb_spec (get_minimum_nof_input_samples coef rc) unit); [|discriminate]. injection E as <-.
  split; [reflexivity|]. split; [assumption|]. split; [|auto]. split; [lia|]. apply N.mod_divide in D; [|assumption]. apply N.divide_pos_le; [lia|exact D].
Qed.
Lemma ceil_ok x y : 1 <= y -> x + y <= 2 ^ 32 -> ceil_divide_integer 32 x y = Ok ((x + y - 1) / y).
Proof.
  intros A B. unfold ceil_divide_integer. replace (y =? 0) with false by (symmetry; apply N.eqb_neq; lia). do 2 f_equal.
  replace (x + y + (2 ^ 32 - 1)) with (x + y - 1 + 1 * 2 ^ 32) by lia. rewrite N.mod_add by lia. apply N.mod_small. lia.
Qed.
Lemma ceil_le x y : 1 <= y -> x <= (x + y - 1) / y * y <= x + y - 1.
Proof.
  intros A. pose proof (N.div_mod (x + y - 1) y ltac:(lia)) as E. pose proof (N.mod_lt (x + y - 1) y ltac:(lia)) as U.
  rewrite (N.mul_comm _ y). lia.
Qed.

(** ** Filter *)
Lemma filter_all smp coef (s0 : smp) c rc ant unit p max junk b b0 rs t mins obs :
  create_pacer coef ant c unit rc = Ok p -> (0 < cL c)%nat -> N.of_nat (cL c) < 2 ^ 32 -> (1 <= ant)%nat ->
  create_filter smp p max junk = Ok b -> max + unit <= 2 ^ 32 ->
  map len (b_mem _ b0) = map len (b_mem _ b) -> (0 <= t)%Z -> Forall (fun m => m <= max) mins -> Forall (ring_ok c) obs ->
  exists r, filter_calls smp p mins obs (reset_filter _ t b0, rs) = Ok r /\
    match r with
    | None => True
    | Some (s', _, l, ns) =>
        ns = filter_returns unit 0 mins /\ consecutive unit t l /\ (rising obs -> complete unit l) /\
        b_cnt _ (fst s') = len l * unit /\ b_time _ (fst s') = (t + Z.of_N (len l * unit))%Z /\
        map len (b_mem _ (fst s')) = map len (b_mem _ b) /\
        forall a, (a < ant)%nat -> firstn (N.to_nat (b_cnt _ (fst s'))) (nth a (b_mem _ (fst s')) []) = heard s0 c unit l a
    end.
Proof.
  intros E HL BL A1 EB HB SZ Ht HM HR. destruct (pacer_facts _ _ _ _ _ _ E HL) as (-> & A2 & U & _). clear E.
  unfold create_filter in EB. cbn [p_unit p_ant] in EB. rewrite ceil_ok in EB by lia. cbn [bind] in EB.
  pose proof (ceil_le max unit (proj1 U)) as C. set (cap := (max + unit - 1) / unit * unit) in *.
  rewrite w32_id in EB by lia. injection EB as <-. rewrite create_size in *.
  destruct (filter_calls_ok s0 c (mkPc ant (N.of_nat (cL c)) unit) eq_refl BL U (conj A1 A2) t cap max Ht ltac:(lia) eq_refl
    mins obs (reset_filter _ t b0, rs) []) as (r & R1 & R2).
  - split; [|split]; cbn; [lia|reflexivity|]. apply size_binv. exact SZ.
  - exact HM.
  - exact HR.
  - exists r. split; [exact R1|]. destruct r as [[[[s' obs'] l] ns]|]; [|exact Logic.I]. destruct R2 as ((I1 & I2 & I3) & R3 & R4 & R5).
    cbn [app p_unit p_ant fst reset_filter b_time b_cnt] in *. split; [exact R3|]. split; [exact R4|]. split; [exact R5|]. split; [exact I2|].
    split; [rewrite I1; unfold len; lia|]. split; [eapply binv_size; exact I3|]. intros a Ha. rewrite I2. exact (binv_front _ _ _ _ _ I3 a Ha).
Qed.
Lemma filter_returns_all smp coef (s0 : smp) c rc ant unit p max junk b b0 rs t m o obs :
  create_pacer coef ant c unit rc = Ok p -> (0 < cL c)%nat -> N.of_nat (cL c) < 2 ^ 32 -> (1 <= ant)%nat ->
  create_filter smp p max junk = Ok b -> max + unit <= 2 ^ 32 ->
  map len (b_mem _ b0) = map len (b_mem _ b) -> (0 <= t)%Z -> m <= max -> Forall (ring_ok c) (o :: obs) ->
  (N.to_nat m + 1 <= length obs)%nat -> (t + Z.of_N unit * (Z.of_N m + 1) <= rxt o)%Z ->
  exists x, filter_until_nto smp p m (o :: obs) (reset_filter _ t b0, rs) = Ok (Some x).
Proof.
  intros E HL BL A1 EB HB SZ Ht HM HR HO HT. destruct (pacer_facts _ _ _ _ _ _ E HL) as (-> & A2 & U & _). clear E.
  unfold create_filter in EB. cbn [p_unit p_ant] in EB. rewrite ceil_ok in EB by lia. cbn [bind] in EB.
  pose proof (ceil_le max unit (proj1 U)) as C. set (cap := (max + unit - 1) / unit * unit) in *.
  rewrite w32_id in EB by lia. injection EB as <-. rewrite create_size in *.
  refine (filter_returns_call s0 c (mkPc ant (N.of_nat (cL c)) unit) eq_refl BL U (conj A1 A2) t cap max Ht ltac:(lia) eq_refl
      m o obs (reset_filter _ t b0, rs) [] _ HM HR HO HT).
  split; [|split]; cbn; [lia|reflexivity|]. apply size_binv. exact SZ.
Qed.

(** ** Resampling *)
Section resample.
Variables (smp coef : Type) (s0 : smp) (f0 : coef) (dot : list smp -> list coef -> smp).
Variables (L M : N) (h : list coef) (junk0 : list (list smp)) (rc : config coef) (r0 : state smp).
Hypothesis (BL : L < 2 ^ 31) (BM : M < 2 ^ 31) (BF : len h + L <= 2 ^ 32).
Hypothesis (EC : create smp coef s0 f0 L M h junk0 = Ok (rc, r0)).
Notation one := ((L =? 1) && (M =? 1)).
Lemma created1 : one = true -> rc = mkCfg _ 1 1 0 [] 0 [] 0 Generic.
Proof using EC. clear BL BM BF.
  intros O. unfold create in EC. rewrite O in EC. rewrite andb_true_iff, !N.eqb_eq in O. destruct O as (O1 & O2). rewrite O1, O2 in EC.
  injection EC as <- _. reflexivity.
Qed.
Lemma created2 : one = false -> accepted coef L M h /\ rc = cfg coef f0 L M h.
Proof.
  intros O. destruct (create_inv smp coef s0 f0 dot L M h O BL BM BF junk0 rc r0 EC) as (A & B & _). auto.
Qed.
Lemma created_ratio : c_L _ rc = L /\ c_M _ rc = M /\ 1 <= L /\ 1 <= M.
Proof.
  exact (rc_L smp coef f0 dot L M h rc 1 BL BM BF (le_n 1) created1 created2).
Qed.
Lemma usable_hist ant b s : usable rc ant b s -> hist smp coef L M h ant (snd s).
Proof.
  intros (_ & U) O. destruct created_ratio as (RL & RM & _). rewrite RL, RM in U. destruct U as [(U1 & U2)|(U1 & U2)].
  - rewrite U1, U2 in O. discriminate O.
  - exists (length (r_hist _ (snd s))). split; [exact U1|]. split; [reflexivity|]. destruct (created2 O) as (_ & RC). rewrite RC in U2.
    eapply Forall_impl; [|exact U2]. cbn [cfg c_hist]. intros v V. lia.
Qed.
Lemma hist_usable ant b s : map len (b_mem _ (fst s)) = map len (b_mem _ b) -> hist smp coef L M h ant (snd s) -> usable rc ant b s.
Proof.
  intros A H. split; [exact A|]. destruct created_ratio as (RL & RM & _). rewrite RL, RM.
  assert (OO : one = true \/ one = false) by (case one; auto). destruct OO as [O|O].
  - left. rewrite andb_true_iff, !N.eqb_eq in O. exact O.
  - right. destruct (H O) as (m & Hm & S1 & S2). split; [lia|]. destruct (created2 O) as (_ & RC). rewrite RC.
    eapply Forall_impl; [|exact S2]. cbn [cfg c_hist]. intros v V. cbv beta in V. lia.
Qed.
Lemma usable_created ant b : (ant <= length junk0)%nat -> Forall (fun v => len v = 2 * c_hist _ rc) junk0 -> usable rc ant b (b, r0).
Proof.
  intros A J. split; [reflexivity|]. cbn [snd]. destruct created_ratio as (RL & RM & _). rewrite RL, RM.
  assert (OO : one = true \/ one = false) by (case one; auto). destruct OO as [O|O].
  - left. rewrite andb_true_iff, !N.eqb_eq in O. exact O.
  - right. destruct (create_inv smp coef s0 f0 dot L M h O BL BM BF junk0 rc r0 EC) as (_ & RC & ->). rewrite <- RC. unfold reset. cbn [r_hist].
    rewrite map_length. split; [exact A|]. rewrite Forall_forall in *. intros v I. apply in_map_iff in I as (w & <- & I). apply J in I.
    rewrite len_app. unfold len in *. rewrite repeat_length, skipn_length. lia.
Qed.

Variables (c : RxRing.cfg) (ant : nat) (unit : N) (p : pacer) (max : N) (junk : smp) (b : lbuf smp).
Hypothesis (EP : create_pacer coef ant c unit rc = Ok p) (HL : (0 < cL c)%nat) (PB : N.of_nat (cL c) < 2 ^ 32) (A1 : (1 <= ant)%nat).
Notation per := ((unit + M - 1) / M * L).
Hypothesis (EB : create_resample smp coef p rc max junk = Ok b) (UB : unit + M <= 2 ^ 32) (MB : max + 2 * per <= 2 ^ 32).

Lemma resample_setup : exists cap, map len (b_mem _ b) = repeat cap ant /\ cap < 2 ^ 32 /\ max + per <= cap + 1 /\
  p = mkPc ant (N.of_nat (cL c)) unit /\ (ant <= cant c)%nat /\ 1 <= unit <= N.of_nat (cL c) /\ c_hist _ rc <= unit.
Proof.
  destruct (pacer_facts _ _ _ _ _ _ EP HL) as (P & A2 & U & _ & HU). destruct created_ratio as (RL & RM & L1 & M1).
  unfold create_resample in EB. rewrite P in EB. cbn [p_unit p_ant] in EB. rewrite RL, RM in EB. unfold pacer_bound in EB.
  rewrite ceil_ok in EB by lia. cbn [bind] in EB.
  assert (Q1 : 1 <= (unit + M - 1) / M) by (apply N.div_le_lower_bound; lia).
  assert (P1 : 1 <= per) by (rewrite <- (N.mul_1_r 1); apply N.mul_le_mono; assumption).
  set (pr := per) in *. clearbody pr. rewrite w32_id in EB by lia. rewrite ceil_ok in EB by lia. cbn [bind] in EB.
  pose proof (ceil_le max pr P1) as C. set (q := (max + pr - 1) / pr) in *. clearbody q.
  assert (Q2 : q <= q * pr) by (rewrite <- (N.mul_1_r q) at 1; apply N.mul_le_mono_l; exact P1).
  rewrite (w32_id (1 + q)) in EB by lia. replace (pr * (1 + q)) with (pr + q * pr) in EB by lia.
  rewrite w32_id in EB by lia. unfold guard in EB. destruct (max <=? pr + q * pr); [|discriminate]. injection EB as <-.
  exists (pr + q * pr). split; [apply create_size|]. split; [lia|]. split; [lia|]. auto.
Qed.

Variables (t : Z) (s : st smp).
Hypothesis (T0 : (0 <= t)%Z) (US : usable rc ant b s).

Ltac setup cap := destruct resample_setup as (cap & SZ & CB & CC & PP & A2 & U & HU); rewrite PP in *; clear EP EB.

Lemma resample_all cs obs : Forall (fun x => match x with Until m => m <= max | Rewind => True end) cs -> Forall (ring_ok c) obs ->
  exists r, resample_calls smp coef dot p rc cs obs (reset_resample _ _ s0 rc t s) = Ok r /\
    match r with
    | None => True
    | Some (s', _, l, ns) => exists d,
        served L M h unit 0 0 cs ns (len l) d /\ consecutive unit t l /\ (rising obs -> complete unit l) /\
        b_cnt _ (fst s') = avail L M h (len l * unit) - d /\ b_time _ (fst s') = (t + Z.of_N (len l * unit))%Z /\
        usable rc ant b s' /\
        forall a, (a < ant)%nat -> firstn (N.to_nat (b_cnt _ (fst s'))) (nth a (b_mem _ (fst s')) []) =
          map (resampled s0 f0 dot L M h (sig s0 (heard s0 c unit l a))) (nseq d (N.to_nat (b_cnt _ (fst s'))))
    end.
Proof.
  intros HC HR. pose proof (usable_hist _ _ _ US) as HH. destruct US as (UZ & _). setup cap.
  destruct (resample_calls_ok s0 c (mkPc ant (N.of_nat (cL c)) unit) eq_refl PB U (conj A1 A2) coef f0 dot L M h rc BL BM BF created1 created2 HU
    t cap max T0 CB CC cs obs (reset_resample _ _ s0 rc t s) [] 0) as (r & R1 & R2).
  - split; [|split; [split|split; [|split]]]; cbn [fst snd reset_resample b_time b_cnt b_mem p_unit p_ant length].
    + lia.
    + exact (rinv_start smp coef s0 f0 dot L M h rc ant BL BM BF A1 created1 created2 _ HH).
    + apply (hist_step smp coef s0 f0 dot L M h rc ant BL BM BF A1 created2 (snd s) (Reset _) [] _ HH). reflexivity.
    + lia.
    + change (len [] * unit) with 0. rewrite (ready_0 smp coef f0 dot L M h rc ant BL BM BF A1 created1 created2). reflexivity.
    + cbn [N.to_nat nseq map]. apply size_binv. rewrite UZ. exact SZ.
  - exact HC.
  - exact HR.
  - exists r. split; [exact R1|]. destruct r as [[[[s' obs'] l] ns]|]; [|exact Logic.I].
    destruct R2 as (d & (I1 & (I2 & I3) & I4 & I5 & I6) & R3 & R4 & R5). cbn [app p_unit p_ant fst reset_resample b_time b_cnt] in *.
    exists d. split; [exact R3|]. split; [exact R4|]. split; [exact R5|]. split; [exact I5|]. split; [rewrite I1; unfold len; lia|].
    split; [apply hist_usable; [rewrite SZ; eapply binv_size; exact I6|exact I3]|]. intros a Ha. exact (binv_front _ _ _ _ _ I6 a Ha).
Qed.
Lemma packet_all phase (rot : phase -> smp -> smp) adv stage ph ns obs :
  Forall (fun x => fst x <= max /\ fst x <= stage) ns -> Forall (ring_ok c) obs ->
  exists r, packet smp coef s0 dot phase rot adv p rc stage t ph ns obs s = Ok r /\
    match r with
    | None => True
    | Some (s', l, ys) =>
        consecutive unit t l /\ (rising obs -> complete unit l) /\ usable rc ant b s' /\
        length ys = length ns /\ Forall (fun y => length y = ant) ys /\
        forall a, (a < ant)%nat -> map (fun y => nth a y []) ys =
          cut rot adv (resampled s0 f0 dot L M h (sig s0 (heard s0 c unit l a))) 0 ph ns
    end.
Proof.
  intros HC HR. pose proof (usable_hist _ _ _ US) as HH. destruct US as (UZ & _). setup cap. unfold packet.
  destruct (symbols_ok s0 c (mkPc ant (N.of_nat (cL c)) unit) eq_refl PB U (conj A1 A2) coef f0 dot L M h rc BL BM BF created1 created2 HU
    t cap max T0 CB CC phase rot adv stage ns obs (reset_resample _ _ s0 rc t s) (mkCut _ 0 0 ph) [] 0) as (r & R1 & R2).
  - split; [|split; [split|split; [|split]]]; cbn [fst snd reset_resample b_time b_cnt b_mem p_unit p_ant length].
    + lia.
    + exact (rinv_start smp coef s0 f0 dot L M h rc ant BL BM BF A1 created1 created2 _ HH).
    + apply (hist_step smp coef s0 f0 dot L M h rc ant BL BM BF A1 created2 (snd s) (Reset _) [] _ HH). reflexivity.
    + lia.
    + change (len [] * unit) with 0. rewrite (ready_0 smp coef f0 dot L M h rc ant BL BM BF A1 created1 created2). reflexivity.
    + cbn [N.to_nat nseq map]. apply size_binv. rewrite UZ. exact SZ.
  - split; cbn; [reflexivity|lia].
  - exact HC.
  - exact HR.
  - exists r. split; [exact R1|]. destruct r as [[[s' l] ys]|]; [|exact Logic.I].
    destruct R2 as ((d & (I1 & (I2 & I3) & I4 & I5 & I6)) & R3 & R4 & R5 & R6 & R7). cbn [app p_unit p_ant fst reset_resample b_time b_cnt k_r k_ph] in *.
    split; [exact R3|]. split; [exact R4|]. split; [apply hist_usable; [rewrite SZ; eapply binv_size; exact I6|exact I3]|].
    split; [exact R5|]. split; [exact R6|]. exact R7.
Qed.
Lemma resample_returns_all m o obs : M <= unit * L -> m <= max -> Forall (ring_ok c) (o :: obs) ->
  (N.to_nat m + 1 <= length obs)%nat -> (t + Z.of_N unit * (Z.of_N m + 1) <= rxt o)%Z ->
  exists x, resample_until_nto smp coef dot p rc m (o :: obs) (reset_resample _ _ s0 rc t s) = Ok (Some x).
Proof.
  intros MU HM HR HO HT. pose proof (usable_hist _ _ _ US) as HH. destruct US as (UZ & _). setup cap.
  refine (resample_returns_call s0 c (mkPc ant (N.of_nat (cL c)) unit) eq_refl PB U (conj A1 A2) coef f0 dot L M h rc BL BM BF created1 created2 HU
    t cap max T0 CB CC 0 m o obs (reset_resample _ _ s0 rc t s) [] MU _ HM HR HO HT).
  split; [|split; [split|split; [|split]]]; cbn [fst snd reset_resample b_time b_cnt b_mem p_unit p_ant length].
  - lia.
  - exact (rinv_start smp coef s0 f0 dot L M h rc ant BL BM BF A1 created1 created2 _ HH).
  - apply (hist_step smp coef s0 f0 dot L M h rc ant BL BM BF A1 created2 (snd s) (Reset _) [] _ HH). reflexivity.
  - lia.
  - change (len [] * unit) with 0. rewrite (ready_0 smp coef f0 dot L M h rc ant BL BM BF A1 created1 created2). reflexivity.
  - cbn [N.to_nat nseq map]. apply size_binv. rewrite UZ. exact SZ.
Qed.
End resample.
