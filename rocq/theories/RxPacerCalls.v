From Verif Require Import Base IntHelpers Cells CellsFacts RxRing Resampler ResamplerSpec ResamplerFacts ResamplerStream ResamplerMeaning RxPacer RxPacerSpec RxPacerFacts RxPacerStream.
Open Scope N_scope.

Section calls.
Context {smp : Type} (s0 : smp).
Variables (c : RxRing.cfg) (p : pacer).
Hypothesis (PL : p_len p = N.of_nat (cL c)) (PB : p_len p < 2 ^ 32) (PU : 1 <= p_unit p <= p_len p) (PA : (1 <= p_ant p <= cant c)%nat).
Notation u := (p_unit p).
Notation heard := (heard s0 c u).

Lemma heard_snoc l t o a : heard (l ++ [(t, o)]) a = heard l a ++ uni s0 c t o u a.
Proof. unfold RxPacerSpec.heard. rewrite flat_map_app. cbn [flat_map fst snd]. rewrite app_nil_r. reflexivity. Qed.
Lemma heard_app l l' a : heard (l ++ l') a = heard l a ++ heard l' a.
Proof. unfold RxPacerSpec.heard. apply flat_map_app. Qed.
Lemma heard_len l a : len (heard l a) = len l * u.
Proof.
  induction l as [|(t, o) l IH]; [reflexivity|]. change ((t, o) :: l) with ([(t, o)] ++ l). rewrite heard_app, !len_app, IH.
  change (heard [(t, o)] a) with (uni s0 c t o u a ++ []). rewrite app_nil_r, uni_len. change (len [(t, o)]) with 1. lia.
Qed.
Lemma consecutive_app (l l' : list (Z * ring smp)) : forall t, consecutive u t l ->
  consecutive u (t + Z.of_N u * Z.of_nat (length l)) l' -> consecutive u t (l ++ l').
Proof using. clear PL PB PU PA.
  induction l as [|(x, o) l IH]; intros t A B.
  - cbn in *. replace (t + Z.of_N u * 0)%Z with t in B by lia. exact B.
  - cbn [app consecutive] in *. destruct A as (-> & A). split; [reflexivity|]. apply IH; [exact A|].
    replace (t + Z.of_N u + Z.of_N u * Z.of_nat (length l))%Z with (t + Z.of_N u * Z.of_nat (length ((t, o) :: l)))%Z by (cbn [length]; lia). exact B.
Qed.
Lemma complete_app (l l' : list (Z * ring smp)) : complete u l -> complete u l' -> complete u (l ++ l').
Proof. intros. apply Forall_app. auto. Qed.

(** ** Filter *)
Section filter.
Variables (t0 : Z) (cap max : N).
Hypothesis (T0 : (0 <= t0)%Z) (CB : cap < 2 ^ 32) (CC : cap = (max + u - 1) / u * u).
Definition finv (l : list (Z * ring smp)) (s : st smp) : Prop :=
  b_time _ (fst s) = (t0 + Z.of_N u * Z.of_nat (length l))%Z /\ b_cnt _ (fst s) = len l * u /\
  binv (p_ant p) cap (len l * u) (heard l) (b_mem _ (fst s)).
Lemma cap_room k : k * u < max -> k * u + u <= cap.
Proof.
  intros H. rewrite CC. assert (k + 1 <= (max + u - 1) / u).
  { apply N.div_le_lower_bound; [lia|]. nia. }
  assert ((k + 1) * u <= (max + u - 1) / u * u) by (apply N.mul_le_mono_r; assumption). lia.
Qed.
Lemma finv_unit l s o : finv l s -> b_cnt _ (fst s) < max -> ring_ok c o ->
  exists b rs, filter_single_unit _ p s (mem o) = Ok (b, rs) /\ b_cnt _ b = b_cnt _ (fst s) + u /\
    finv (l ++ [(b_time _ (fst s), o)]) (mkLb _ (b_time _ (fst s) + Z.of_N u) (b_cnt _ b) (b_mem _ b), rs).
Proof.
  intros (E1 & E2 & E3) H R. destruct s as [b rs]. cbn [fst snd] in *. rewrite E2 in H.
  destruct (filter_unit_ok s0 c p PL PB PU PA cap _ _ b rs o CB E3 E2 (cap_room _ H) ltac:(rewrite E1; nia) R) as (m & F1 & F2).
  eexists _, rs. split; [exact F1|]. cbn [b_cnt b_mem]. split; [rewrite E2; reflexivity|].
  assert (LL : len (l ++ [(b_time smp b, o)]) * u = len l * u + u) by (rewrite len_app; change (len [(b_time smp b, o)]) with 1; lia).
  split; [|split]; cbn [fst b_time b_cnt b_mem].
  - rewrite E1, app_length. cbn [length]. lia.
  - rewrite LL. reflexivity.
  - rewrite LL. eapply binv_ext; [|exact F2]. intros a _. cbv beta. symmetry. apply heard_snoc.
Qed.
Lemma up_multiple m k : m <= k * u -> (1 <= k -> (k - 1) * u < m) -> (m + u - 1) / u * u = k * u.
Proof.
  intros A B. f_equal. symmetry. destruct (N.eq_dec k 0) as [->|K].
  - assert (m = 0) by lia. subst m. rewrite N.div_small by lia. reflexivity.
  - specialize (B ltac:(lia)). apply N.div_unique with (r := m + u - 1 - u * k); nia.
Qed.
Lemma filter_calls_ok : forall mins obs s l, finv l s -> Forall (fun m => m <= max) mins -> Forall (ring_ok c) obs ->
  exists r, filter_calls _ p mins obs s = Ok r /\
    match r with
    | None => True
    | Some (s', obs', l', ns) =>
        finv (l ++ l') s' /\ ns = filter_returns u (b_cnt _ (fst s)) mins /\ consecutive u (b_time _ (fst s)) l' /\
        (rising obs -> complete u l')
    end.
Proof.
  induction mins as [|m mins IH]; intros obs s l HI HM HR; cbn [filter_calls].
  - eexists. split; [reflexivity|]. cbv beta iota. rewrite app_nil_r. split; [exact HI|]. split; [reflexivity|].
    split; [exact Logic.I|]. intros; constructor.
  - inversion HM as [|? ? HM1 HM2]; subst.
    destruct (until_ok c p (filter_single_unit _ p) finv max) with (min := m) (obs := obs) (s := s) (l := l) as (r & E & P);
      [|exact HI|exact HM1|exact HR|].
    { intros l1 s1 o1 A1 A2 A3. destruct (finv_unit l1 s1 o1 A1 A2 A3) as (b & rs & B1 & _ & B2). exists b, rs. auto. }
    unfold filter_until_nto. rewrite E. cbn [bind]. destruct r as [[[s1 obs1] l1]|]; [|exists None; auto].
    destruct P as (P1 & P2 & (used & P3) & P4 & PT & P5 & P6).
    assert (HR1 : Forall (ring_ok c) obs1) by (rewrite P3 in HR; apply Forall_app in HR; apply HR).
    destruct (IH obs1 s1 (l ++ l1) P1 HM2 HR1) as (r & E1 & Q). rewrite E1. cbn [bind]. eexists. split; [reflexivity|].
    destruct r as [[[[s2 obs2] l2] ns]|]; [|exact Logic.I]. destruct Q as (Q1 & Q2 & Q3 & Q4).
    rewrite <- app_assoc in Q1. split; [exact Q1|]. split.
    + cbn [filter_returns]. assert (V : N.max (b_cnt smp (fst s)) ((m + u - 1) / u * u) = b_cnt smp (fst s1)).
      { destruct P1 as (_ & C1 & _). destruct HI as (_ & C0 & _). rewrite C1 in *. rewrite C0.
        destruct P6 as [(-> & ->)|(l'' & e & s'' & -> & (_ & D1 & _) & D2)].
        - rewrite app_nil_r in *. assert (X : (m + u - 1) / u <= len l).
          { apply N.lt_succ_r. apply N.div_lt_upper_bound; nia. }
          assert ((m + u - 1) / u * u <= len l * u) by (apply N.mul_le_mono_r; exact X). lia.
        - rewrite D1 in D2. assert (LE : len (l ++ l'' ++ [e]) = len (l ++ l'') + 1) by (rewrite app_assoc, len_app; reflexivity).
          rewrite LE in P2 |- *. rewrite (up_multiple m (len (l ++ l'') + 1) P2).
          + rewrite len_app. nia.
          + intros _. replace (len (l ++ l'') + 1 - 1) with (len (l ++ l'')) by lia. exact D2. }
      rewrite V, Q2. reflexivity.
    + split; [apply consecutive_app; [exact P4|rewrite <- PT; exact Q3]|].
      intros Rs. apply complete_app; [apply P5; exact Rs|]. apply Q4. rewrite P3 in Rs. eapply rising_app. exact Rs.
Qed.
Lemma filter_returns_call m o obs s l : finv l s -> m <= max -> Forall (ring_ok c) (o :: obs) ->
  (N.to_nat m + 1 <= length obs)%nat ->
  (b_time _ (fst s) + Z.of_N u * (Z.of_N m + 1) <= rxt o)%Z ->
  exists x, filter_until_nto _ p m (o :: obs) s = Ok (Some x).
Proof.
  intros HI HM HR O T. unfold filter_until_nto. apply (until_returns c p (filter_single_unit _ p) finv max) with (l := l); try assumption.
  - intros l1 s1 o1 A1 A2 A3. destruct (finv_unit l1 s1 o1 A1 A2 A3) as (b & rs & B1 & _ & B2). exists b, rs. auto.
  - intros l1 s1 o1 b rs A1 A2 A3 A4. destruct (finv_unit l1 s1 o1 A1 A2 A3) as (b' & rs' & B1 & B2 & _). rewrite A4 in B1.
    injection B1 as <- <-. destruct l1; lia.
  - unfold enough. destruct l; lia.
  - assert (EN : (Z.of_nat (enough l s m) <= Z.of_N m + 1)%Z) by (unfold enough; clear; destruct l; lia). clear -EN T PU. nia.
Qed.
End filter.

(** ** Resampling *)
Section resample.
Variables (coef : Type) (f0 : coef) (dot : list smp -> list coef -> smp) (L M : N) (h : list coef) (rc : config coef).
Hypothesis (BL : L < 2 ^ 31) (BM : M < 2 ^ 31) (BF : len h + L <= 2 ^ 32).
Notation one := ((L =? 1) && (M =? 1)).
Hypothesis (OK1 : one = true -> rc = mkCfg _ 1 1 0 [] 0 [] 0 Generic).
Hypothesis (OK2 : one = false -> accepted coef L M h /\ rc = cfg coef f0 L M h).
Hypothesis (HH : c_hist _ rc <= u).
Notation rsd := (resampled s0 f0 dot L M h).
Notation ready := (avail L M h).
Variables (t0 : Z) (cap max : N).
Notation per := ((u + M - 1) / M * L).
Hypothesis (T0 : (0 <= t0)%Z) (CB : cap < 2 ^ 32) (CC : max + per <= cap + 1).

Definition rsinv (d : N) (l : list (Z * ring smp)) (s : st smp) : Prop :=
  b_time _ (fst s) = (t0 + Z.of_N u * Z.of_nat (length l))%Z /\
  (rinv smp coef s0 L M h (p_ant p) (snd s) (heard l) (len l * u) /\ hist smp coef L M h (p_ant p) (snd s)) /\
  d <= ready (len l * u) /\ b_cnt _ (fst s) = ready (len l * u) - d /\
  binv (p_ant p) cap (b_cnt _ (fst s)) (fun a => map (rsd (sig s0 (heard l a))) (nseq d (N.to_nat (b_cnt _ (fst s))))) (b_mem _ (fst s)).

Lemma M_pos : 1 <= M.
Proof. apply (rc_L smp coef f0 dot L M h rc (p_ant p) BL BM BF (proj1 PA) OK1 OK2). Qed.
Lemma unit_room : u <= (u + M - 1) / M * M.
Proof.
  pose proof M_pos. pose proof (N.div_mod (u + M - 1) M ltac:(lia)) as E. pose proof (N.mod_lt (u + M - 1) M ltac:(lia)). lia.
Qed.
Lemma rsinv_unit d l s o : rsinv d l s -> b_cnt _ (fst s) < max -> ring_ok c o ->
  exists b rs, resample_single_unit _ _ dot p rc s (mem o) = Ok (b, rs) /\
    b_cnt _ b = b_cnt _ (fst s) + (ready ((len l + 1) * u) - ready (len l * u)) /\
    rsinv d (l ++ [(b_time _ (fst s), o)]) (mkLb _ (b_time _ (fst s) + Z.of_N u) (b_cnt _ b) (b_mem _ b), rs).
Proof.
  intros (E1 & E2 & E3 & E4 & E5) H R. destruct s as [b rs]. cbn [fst snd] in *.
  unfold resample_single_unit. cbn [fst snd]. set (t := b_time smp b) in *.
  assert (Ht : (0 <= t)%Z) by (rewrite E1; nia).
  rewrite (resample_input_ok s0 c p PL PB PU PA o t R Ht). cbn [bind].
  set (xs := map (uni s0 c t o u) (seq 0 (p_ant p))).
  destruct (unit_ok smp coef s0 f0 dot L M h rc (p_ant p) BL BM BF (proj1 PA) OK1 OK2 rs (heard l) (len l * u) xs u (proj1 E2))
    as (os & rs' & U1 & U2 & U3 & U4).
  { unfold xs. rewrite map_length. apply seq_length. }
  { unfold xs. apply Forall_forall. intros x I. apply in_map_iff in I as (a & <- & _). apply uni_len. }
  { exact HH. }
  rewrite U1. cbn [bind]. replace (len l * u + u) with ((len l + 1) * u) in * by lia.
  set (k := ready ((len l + 1) * u) - ready (len l * u)) in *.
  pose proof (ready_mono smp coef f0 dot L M h rc (p_ant p) BL BM BF (proj1 PA) OK1 OK2 (len l * u) ((len l + 1) * u) ltac:(lia)) as MO.
  assert (K1 : k <= per).
  { pose proof (ready_step smp coef f0 dot L M h rc (p_ant p) BL BM BF (proj1 PA) OK1 OK2 (len l * u) u _ unit_room) as ST. replace (len l * u + u) with ((len l + 1) * u) in ST by lia. subst k. lia. }
  assert (XA : forall a, (a < p_ant p)%nat -> heard l a ++ nth a xs [] = heard (l ++ [(t, o)]) a).
  { intros a Ha. rewrite heard_snoc. unfold xs. rewrite nth_map_seq by exact Ha. reflexivity. }
  rewrite (list_by_nth os (p_ant p) U2).
  destruct (stores_binv (p_ant p) cap (b_cnt smp b) k _ (fun a => nth a os []) _ E5) as (m & S1 & S2).
  { intros a Ha. rewrite U4 by exact Ha. rewrite len_map. unfold len. rewrite nseq_length. lia. }
  { lia. }
  rewrite S1. cbn [bind].
  assert (HD : len (hd [] (map (fun a => nth a os []) (seq 0 (p_ant p)))) = k).
  { destruct (p_ant p) as [|ant] eqn:EA; [lia|]. cbn [seq map hd]. rewrite U4 by lia. rewrite len_map. unfold len. rewrite nseq_length. lia. }
  rewrite HD. rewrite w32_id by lia.
  eexists _, rs'. split; [reflexivity|]. cbn [b_cnt b_mem fst snd]. split; [reflexivity|].
  assert (LL : len (l ++ [(t, o)]) = len l + 1) by (rewrite len_app; reflexivity).
  split; [|split; [|split; [|split]]]; cbn [fst snd b_time b_cnt b_mem]; rewrite ?LL.
  - rewrite E1, app_length. cbn [length]. lia.
  - split.
    + unfold rinv in U3 |- *. destruct one.
      * intros a Ha. rewrite <- XA by exact Ha. apply U3; exact Ha.
      * eapply inv_ext; [|exact U3]. exact XA.
    + apply (hist_step smp coef s0 f0 dot L M h rc (p_ant p) BL BM BF (proj1 PA) OK2 rs (Resample _ xs u) os rs' (proj2 E2)). exact U1.
  - lia.
  - subst k. lia.
  - eapply binv_ext; [|exact S2]. intros a Ha. cbv beta. rewrite U4 by exact Ha. rewrite XA by exact Ha. fold k.
    replace (N.to_nat (b_cnt smp b + k)) with (N.to_nat (b_cnt smp b) + N.to_nat k)%nat by lia. rewrite nseq_app, map_app. f_equal.
    + apply map_ext_in. intros i I. apply nseq_in in I. apply (resampled_ext smp coef s0 f0 dot L M h rc (p_ant p) BL BM BF (proj1 PA) OK1 OK2) with (n := len l * u).
      * intros j J. rewrite heard_snoc. unfold sig. symmetry. apply app_nth1. pose proof (heard_len l a) as HL. unfold len at 1 in HL. lia.
      * apply (ready_iff smp coef f0 dot L M h rc (p_ant p) BL BM BF (proj1 PA) OK1 OK2). lia.
    + f_equal. f_equal. lia.
Qed.
Lemma rsinv_rewind d l s : rsinv d l s -> rsinv (ready (len l * u)) l (rewind _ s).
Proof.
  intros (E1 & E2 & E3 & E4 & E5). unfold rewind. split; [|split; [|split; [|split]]]; cbn [fst snd b_time b_cnt b_mem].
  - exact E1.
  - exact E2.
  - lia.
  - lia.
  - cbn [N.to_nat nseq map]. eapply binv_zero. exact E5.
Qed.
Lemma rsinv_until d m obs s l : rsinv d l s -> m <= max -> Forall (ring_ok c) obs ->
  exists r, resample_until_nto _ _ dot p rc m obs s = Ok r /\ done p (rsinv d) l s obs m r.
Proof.
  intros HI HM HR. unfold resample_until_nto.
  apply (until_ok c p (resample_single_unit _ _ dot p rc) (rsinv d) max); [|exact HI|exact HM|exact HR].
  intros l1 s1 o1 A1 A2 A3. destruct (rsinv_unit d l1 s1 o1 A1 A2 A3) as (b & rs & B1 & _ & B2). exists b, rs. auto.
Qed.

Lemma resample_calls_ok : forall cs obs s l d, rsinv d l s -> Forall (fun x => match x with Until m => m <= max | Rewind => True end) cs ->
  Forall (ring_ok c) obs ->
  exists r, resample_calls _ _ dot p rc cs obs s = Ok r /\
    match r with
    | None => True
    | Some (s', obs', l', ns) => exists d',
        rsinv d' (l ++ l') s' /\ served L M h u (len l) d cs ns (len (l ++ l')) d' /\ consecutive u (b_time _ (fst s)) l' /\
        (rising obs -> complete u l')
    end.
Proof.
  induction cs as [|x cs IH]; intros obs s l d HI HM HR; cbn [resample_calls].
  - eexists. split; [reflexivity|]. exists d. rewrite app_nil_r. split; [exact HI|]. split; [cbn; auto|].
    split; [exact Logic.I|]. intros; constructor.
  - inversion HM as [|? ? HM1 HM2]; subst. destruct x as [m|].
    + destruct (rsinv_until d m obs s l HI HM1 HR) as (r & E & P). rewrite E. cbn [bind].
      destruct r as [[[s1 obs1] l1]|]; [|exists None; auto]. destruct P as (P1 & P2 & (used & P3) & P4 & PT & P5 & P6).
      assert (HR1 : Forall (ring_ok c) obs1) by (rewrite P3 in HR; apply Forall_app in HR; apply HR).
      destruct (IH obs1 s1 (l ++ l1) d P1 HM2 HR1) as (r & E1 & Q). rewrite E1. cbn [bind]. eexists. split; [reflexivity|].
      destruct r as [[[[s2 obs2] l2] ns]|]; [|exact Logic.I]. destruct Q as (d' & Q1 & Q2 & Q3 & Q4).
      exists d'. rewrite <- app_assoc in Q1, Q2. split; [exact Q1|]. split.
      * cbn [served]. exists (len (l ++ l1)), ns. destruct P1 as (_ & _ & _ & C1 & _). rewrite C1 in *.
        split; [reflexivity|]. split; [rewrite len_app; lia|]. split; [exact P2|]. split; [|exact Q2].
        intros LT. destruct P6 as [(-> & _)|(l'' & e & s'' & -> & (_ & _ & _ & D1 & _) & D2)].
        -- rewrite app_nil_r in LT. lia.
        -- rewrite app_assoc, len_app. change (len [e]) with 1. replace (len (l ++ l'') + 1 - 1) with (len (l ++ l'')) by lia.
           rewrite <- D1. exact D2.
      * split; [apply consecutive_app; [exact P4|rewrite <- PT; exact Q3]|].
        intros Rs. apply complete_app; [apply P5; exact Rs|]. apply Q4. rewrite P3 in Rs. eapply rising_app. exact Rs.
    + destruct (IH obs (rewind _ s) l _ (rsinv_rewind _ _ _ HI) HM2 HR) as (r & E & P). exists r. split; [exact E|].
      destruct r as [[[[s2 obs2] l2] ns]|]; [|exact Logic.I]. exact P.
Qed.

(** A call returns when the clock of the radio is far enough. *)
Lemma delay_over n : u <= n -> one = true \/ (len h - 1) / 2 <= n * L.
Proof.
  intros H. assert (OO : one = true \/ one = false) by (case one; auto). destruct OO as [O|O]; [left; exact O|right].
  destruct (OK2 O) as (A & RC). pose proof (aL coef L M h A) as HL.
  destruct (K_props smp coef dot L M h O BL BM BF HL (aO coef L M h A)) as (K1 & K2 & _ & _).
  rewrite RC in HH. cbn [cfg c_hist] in HH. set (K := sub_taps L h) in *. clearbody K.
  assert (D2 : 2 * ((len h - 1) / 2) <= len h - 1) by (apply N.mul_div_le; lia).
  assert (KN : K <= n + 1) by lia. assert (K * L <= (n + 1) * L) by (apply N.mul_le_mono_r; exact KN).
  assert (1 <= n) by lia. assert (1 * L <= n * L) by (apply N.mul_le_mono_r; assumption). lia.
Qed.
Lemma resample_returns_call d m o obs s l : M <= u * L -> rsinv d l s -> m <= max -> Forall (ring_ok c) (o :: obs) ->
  (N.to_nat m + 1 <= length obs)%nat ->
  (b_time _ (fst s) + Z.of_N u * (Z.of_N m + 1) <= rxt o)%Z ->
  exists x, resample_until_nto _ _ dot p rc m (o :: obs) s = Ok (Some x).
Proof.
  intros MU HI HM HR O T. unfold resample_until_nto.
  apply (until_returns c p (resample_single_unit _ _ dot p rc) (rsinv d) max) with (l := l); try assumption.
  - intros l1 s1 o1 A1 A2 A3. destruct (rsinv_unit d l1 s1 o1 A1 A2 A3) as (b & rs & B1 & _ & B2). exists b, rs. auto.
  - intros l1 s1 o1 b rs A1 A2 A3 A4. destruct (rsinv_unit d l1 s1 o1 A1 A2 A3) as (b' & rs' & B1 & B2 & _). rewrite A4 in B1.
    injection B1 as <- <-. rewrite B2. destruct l1 as [|e l1]; [lia|].
    pose proof (ready_grow smp coef f0 dot L M h rc (p_ant p) BL BM BF (proj1 PA) OK1 OK2 (len (e :: l1) * u) u MU) as G.
    replace ((len (e :: l1) + 1) * u) with (len (e :: l1) * u + u) by lia.
    assert (1 <= len (e :: l1)) by (unfold len; cbn [length]; lia).
    assert (UL : u <= len (e :: l1) * u) by (rewrite <- (N.mul_1_l u) at 1; apply N.mul_le_mono_r; assumption).
    specialize (G (delay_over _ UL)). clear -G. lia.
  - unfold enough. destruct l; lia.
  - assert (EN : (Z.of_nat (enough l s m) <= Z.of_N m + 1)%Z) by (unfold enough; clear; destruct l; lia). clear -EN T PU. nia.
Qed.

(** ** Symbols *)
Variables (phase : Type) (rot : phase -> smp -> smp) (adv : phase -> phase).
Notation mix := (mix smp phase rot adv).
Notation after := (phase_after adv).
Definition mixed (ph : phase) (x : list smp) : list smp := fst (mix ph x).
Lemma mix_phase x : forall ph, snd (mix ph x) = after (len x) ph.
Proof using.
  clear. induction x as [|y x IH]; intros ph; [reflexivity|]. cbn [RxPacer.mix]. specialize (IH (adv ph)).
  destruct (mix (adv ph) x) as [o ph']. cbn [snd] in *. rewrite IH. unfold phase_after, len. cbn [length].
  rewrite Nat2N.inj_succ, N.iter_succ_r. reflexivity.
Qed.
Lemma mixed_app x y : forall ph, mixed ph (x ++ y) = mixed ph x ++ mixed (after (len x) ph) y.
Proof using.
  clear. unfold mixed. induction x as [|z x IH]; intros ph; [reflexivity|]. cbn [RxPacer.mix app]. specialize (IH (adv ph)).
  destruct (mix (adv ph) (x ++ y)) as [o ph']. destruct (mix (adv ph) x) as [o1 ph1]. cbn [fst] in *. rewrite IH. cbn [app]. do 3 f_equal.
  unfold phase_after, len. cbn [length]. rewrite Nat2N.inj_succ, N.iter_succ_r. reflexivity.
Qed.
Lemma mixed_map f n : forall ph, mixed ph (map f (upto n)) = map (fun i => rot (after i ph) (f i)) (upto n).
Proof using.
  clear. induction n using N.peano_ind; intros ph; [reflexivity|]. rewrite <- N.add_1_r. rewrite upto_app, !map_app, mixed_app. rewrite IHn.
  f_equal. rewrite len_map, len_upto. unfold mixed. cbn [N.to_nat Pos.to_nat Pos.iter_op Nat.add nseq map RxPacer.mix fst]. reflexivity.
Qed.
Lemma mix_all_ok g n ph : (forall a, len (g a) = n) -> forall k i last, mix_all smp phase rot adv ph last (map g (seq i k)) =
  (map (fun a => mixed ph (g a)) (seq i k), if k then last else after n ph).
Proof using.
  clear. intros G. induction k as [|k IH]; intros i last; [reflexivity|]. cbn [seq map mix_all].
  pose proof (mix_phase (g i) ph) as P. unfold mixed at 1. destruct (mix ph (g i)) as [o l]. cbn [snd fst] in *. rewrite IH.
  rewrite P, G. destruct k; reflexivity.
Qed.
Lemma combine_map {A B C} (f : A -> B) (g : A -> C) l : combine (map f l) (map g l) = map (fun a => (f a, g a)) l.
Proof using. clear. induction l; cbn; [reflexivity|]. f_equal. exact IHl. Qed.

Variable (stage : N).
Definition cinv (d : N) (s : st smp) (k : cutter phase) : Prop :=
  k_w _ k = b_cnt _ (fst s) /\ k_r _ k <= k_w _ k.

(** [n] outputs from position [i] *)
Definition outs (l : list (Z * ring smp)) (i n : N) (a : nat) : list smp :=
  map (fun j => rsd (sig s0 (heard l a)) (i + j)) (upto n).
Lemma outs_len l i n a : len (outs l i n a) = n.
Proof. unfold outs. rewrite len_map. apply len_upto. Qed.
Lemma outs_app l i m n a : outs l i (m + n) a = outs l i m a ++ outs l (i + m) n a.
Proof.
  unfold outs. rewrite upto_app, map_app. f_equal. rewrite map_nseq. apply map_ext. intros. f_equal. lia.
Qed.
Lemma outs_nseq l i n a : map (rsd (sig s0 (heard l a))) (nseq i (N.to_nat n)) = outs l i n a.
Proof. apply map_nseq. Qed.
Lemma outs_ext l l' i n a : i + n <= ready (len l * u) -> outs l i n a = outs (l ++ l') i n a.
Proof.
  intros H. apply map_ext_in. intros j J. apply upto_in in J. apply (resampled_ext smp coef s0 f0 dot L M h rc (p_ant p) BL BM BF (proj1 PA) OK1 OK2) with (n := len l * u).
  - intros q Q. rewrite heard_app. unfold sig. symmetry. apply app_nth1. pose proof (heard_len l a) as HL. unfold len at 1 in HL. lia.
  - apply (ready_iff smp coef f0 dot L M h rc (p_ant p) BL BM BF (proj1 PA) OK1 OK2). lia.
Qed.
Lemma read_outs d l s i n : rsinv d l s -> i + n <= b_cnt _ (fst s) ->
  mapM (fun m => slice _ m i n) (b_mem _ (fst s)) = Ok (map (outs l (d + i) n) (seq 0 (p_ant p))).
Proof.
  intros (E1 & E2 & E3 & E4 & E5) H.
  eapply (binv_slice _ _ _ _ _ (outs l d i) (outs l (d + i) n) (outs l (d + i + n) (b_cnt smp (fst s) - i - n))); [exact E5| |].
  - intros a Ha. cbv beta. rewrite outs_nseq. rewrite <- outs_app. rewrite <- outs_app. f_equal. lia.
  - intros a Ha. rewrite !outs_len. auto.
Qed.

Lemma symbol_ok d l s k obs n : rsinv d l s -> cinv d s k -> n <= max -> n <= stage -> Forall (ring_ok c) obs ->
  exists r, run_mix_resample _ _ dot _ rot adv p rc stage n obs s k = Ok r /\
    match r with
    | None => True
    | Some (s', obs', l', k', y) => exists d',
        rsinv d' (l ++ l') s' /\ cinv d' s' k' /\ (exists used, obs = used ++ obs') /\ consecutive u (b_time _ (fst s)) l' /\
        b_time _ (fst s') = (b_time _ (fst s) + Z.of_N u * Z.of_nat (length l'))%Z /\
        (rising obs -> complete u l') /\
        d' + k_r _ k' = d + k_r _ k + n /\ d' + k_r _ k' <= ready (len (l ++ l') * u) /\
        k_ph _ k' = after n (k_ph _ k) /\
        y = map (fun a => mixed (k_ph _ k) (outs (l ++ l') (d + k_r _ k) n a)) (seq 0 (p_ant p))
    end.
Proof.
  intros HI (K1 & K2) HM HS HR. pose proof HI as (E1 & E2 & E3 & E4 & E5). pose proof (binv_cap _ _ _ _ _ (proj1 PA) E5) as CP.
  unfold run_mix_resample. set (w := k_w phase k) in *. set (r := k_r phase k) in *. set (ph := k_ph phase k).
  assert (HV : w32 (w + (2 ^ 32 - r)) = w - r).
  { unfold w32. replace (w + (2 ^ 32 - r)) with (w - r + 1 * 2 ^ 32) by lia. rewrite N.mod_add by lia. apply N.mod_small. lia. }
  rewrite HV. assert (ANT : exists q, p_ant p = S q) by (exists (p_ant p - 1)%nat; lia).
  destruct (N.leb_spec n (w - r)) as [D|D].
  - rewrite (read_outs d l s r n HI) by lia. cbn [bind]. replace (n <=? stage) with true by (symmetry; apply N.leb_le; exact HS).
    rewrite (mix_all_ok (outs l (d + r) n) n) by (intros; apply outs_len). rewrite (w32_id (r + n)) by lia.
    eexists. split; [reflexivity|]. exists d. rewrite app_nil_r.
    split; [exact HI|]. split; [split; cbn [k_w k_r]; lia|]. split; [exists []; reflexivity|]. split; [exact Logic.I|].
    split; [cbn [length]; lia|]. split; [intros; constructor|]. cbn [k_r k_ph].
    split; [lia|]. split; [lia|]. split; [destruct ANT as (q & ->); reflexivity|]. reflexivity.
  - rewrite (read_outs d l s r (w - r) HI) by lia. cbn [bind]. replace (w - r <=? stage) with true by (symmetry; apply N.leb_le; lia).
    rewrite (mix_all_ok (outs l (d + r) (w - r)) (w - r)) by (intros; apply outs_len).
    pose proof (rsinv_rewind _ _ _ HI) as HI0.
    destruct (rsinv_until _ (n - (w - r)) obs _ _ HI0 ltac:(lia) HR) as (x & X1 & X2). rewrite X1. cbn [bind].
    destruct x as [[[s1 obs1] l1]|]; [|exists None; auto]. destruct X2 as (P1 & P2 & P3 & P4 & PT & P5 & _).
    rewrite (read_outs _ _ _ 0 (n - (w - r)) P1) by lia. cbn [bind].
    replace (w - r + (n - (w - r)) <=? stage) with true by (symmetry; apply N.leb_le; lia).
    rewrite (mix_all_ok (outs (l ++ l1) (ready (len l * u) + 0) (n - (w - r))) (n - (w - r))) by (intros; apply outs_len).
    eexists. split; [reflexivity|]. exists (ready (len l * u)). cbn [k_r k_ph k_w].
    split; [exact P1|]. split; [split; cbn [k_w k_r]; [reflexivity|exact P2]|]. split; [exact P3|]. split; [exact P4|].
    split; [exact PT|]. split; [exact P5|]. destruct P1 as (_ & _ & Q3 & Q4 & _).
    assert (DW : d + w = ready (len l * u)) by lia.
    split; [lia|]. split; [lia|]. split.
    + destruct ANT as (q & ->). cbn [seq map]. unfold phase_after. rewrite <- N.iter_add. f_equal. lia.
    + rewrite combine_map, map_map. apply map_ext. intros a. cbn [fst snd].
      replace (outs (l ++ l1) (d + r) n a) with (outs (l ++ l1) (d + r) (w - r) a ++ outs (l ++ l1) (d + r + (w - r)) (n - (w - r)) a)
        by (rewrite <- outs_app; f_equal; lia).
      rewrite mixed_app, outs_len. f_equal.
      * f_equal. apply outs_ext. lia.
      * destruct ANT as (q & ->). f_equal. f_equal. lia.
Qed.

Lemma symbols_ok : forall ns obs s k l d, rsinv d l s -> cinv d s k -> Forall (fun x => fst x <= max /\ fst x <= stage) ns -> Forall (ring_ok c) obs ->
  exists r, symbols _ _ dot _ rot adv p rc stage ns obs s k = Ok r /\
    match r with
    | None => True
    | Some (s', l', ys) =>
        (exists d', rsinv d' (l ++ l') s') /\ consecutive u (b_time _ (fst s)) l' /\ (rising obs -> complete u l') /\ length ys = length ns /\ Forall (fun y => length y = p_ant p) ys /\
        forall a, (a < p_ant p)%nat -> map (fun y => nth a y []) ys = cut rot adv (rsd (sig s0 (heard (l ++ l') a))) (d + k_r _ k) (k_ph _ k) ns
    end.
Proof.
  induction ns as [|[n adj] ns IH]; intros obs s k l d HI HK HM HR; cbn [symbols].
  - eexists. split; [reflexivity|]. split; [exists d; rewrite app_nil_r; exact HI|].
    split; [exact Logic.I|]. split; [intros; constructor|]. split; [reflexivity|]. split; [constructor|]. reflexivity.
  - inversion HM as [|? ? (HM1 & HM2) HM3]; subst. cbn [fst] in HM1, HM2.
    assert (HK1 : cinv d s (mkCut _ (k_w _ k) (k_r _ k) (adj (k_ph _ k)))) by exact HK.
    destruct (symbol_ok d l s _ obs n HI HK1 HM1 HM2 HR) as (r & E & P). rewrite E. cbn [bind].
    destruct r as [[[[[s1 obs1] l1] k1] y]|]; [|exists None; auto].
    destruct P as (d1 & P1 & P2 & (used & P3) & P4 & PT & P5 & P6 & P7 & P8 & P9). cbn [k_r k_ph k_w] in *.
    assert (HR1 : Forall (ring_ok c) obs1) by (rewrite P3 in HR; apply Forall_app in HR; apply HR).
    destruct (IH obs1 s1 k1 (l ++ l1) d1 P1 P2 HM3 HR1) as (r & E1 & Q). rewrite E1. cbn [bind]. eexists. split; [reflexivity|].
    destruct r as [[[s2 l2] ys]|]; [|exact Logic.I]. destruct Q as ((d2 & Q0) & Q1 & Q2 & Q3 & Q4 & Q5).
    split; [exists d2; rewrite <- app_assoc in Q0; exact Q0|].
    split; [apply consecutive_app; [exact P4|rewrite <- PT; exact Q1]|].
    split. { intros Rs. apply complete_app; [apply P5; exact Rs|]. apply Q2. rewrite P3 in Rs. eapply rising_app. exact Rs. }
    split; [cbn [length]; rewrite Q3; reflexivity|].
    split. { constructor; [rewrite P9, map_length; apply seq_length|exact Q4]. }
    intros a Ha. cbn [map cut]. rewrite Q5 by exact Ha. rewrite P6, P8, <- app_assoc. f_equal.
    rewrite P9, nth_map_seq by exact Ha. rewrite (outs_ext _ l2) by lia. rewrite <- app_assoc. unfold outs. rewrite mixed_map. reflexivity.
Qed.
End resample.
End calls.
