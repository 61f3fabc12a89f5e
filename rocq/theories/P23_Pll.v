(** C38: the warp estimate of the beacon time PLL is based on sufficiently distant beacons. *)
From Verif Require Import Base IntHelpers IntHelpersSpec IntHelpersFacts Ppx Pll PllSpec PllFacts.
From Coq Require Import QArith Lqa.
Open Scope Z_scope.

Definition op_ok (o : pll_op) : Prop := match o with Provide t => tm t | Reset => True end.

Lemma run_sim sr P l : good sr P -> Forall op_ok l -> forall p s, rel sr P p s ->
  (exists p' s', pll_run p l = Ok p' /\ est_steps sr P s l s' /\ rel sr P p' s') \/ pll_run p l = Abort.
Proof.
  intros G F. induction F as [|o l Ho F IH]; intros p s R.
  - left. exists p, s. split; [reflexivity|]. split; [constructor|exact R].
  - cbn [pll_run]. destruct o as [t|]; cbn [pll_step op_ok] in *.
    + destruct (provide_sim sr P p s t G R Ho) as [(p1 & s1 & E & S & R1)|(E & _)]; rewrite E; cbn [bind]; [|auto].
      destruct (IH p1 s1 R1) as [(p' & s' & E' & S' & R')|E']; [|auto]. left. exists p', s'.
      split; [exact E'|]. split; [|exact R']. econstructor; eauto.
    + cbn [bind]. destruct (IH (pll_reset p) (mkEst [] 1) (reset_rel _ _ _ _ R)) as [(p' & s' & E' & S' & R')|E']; [|auto].
      left. exists p', s'. split; [exact E'|]. split; [|exact R']. econstructor; [constructor|exact S'].
Qed.

(** Every history follows the specification of PllSpec: nothing but an abort is possible otherwise, and it never reads
    outside its ring nor overflows. Sample rate and beacon period are 32 bit, beacon times below 2^61. *)
Theorem C38_refines : forall sr P p l, 0 < sr < 2 ^ 32 -> 0 < P < 2 ^ 32 -> pll_new sr P = Ok p -> Forall op_ok l ->
  (exists p' s', pll_run p l = Ok p' /\ est_steps sr P (mkEst [] 1) l s' /\ (pl_warp p' == warp s')%Q /\
     get_beacon_time_last_known p' = Ok (hd UNDEFINED_EARLY_64 (accepted s'))) \/
  pll_run p l = Abort.
Proof.
  intros sr P p l H1 H2 H F. destruct (pll_new_rel sr P p H1 H2 H) as (R & _).
  destruct (run_sim sr P l (conj H1 H2) F p _ R) as [(p' & s' & E & S & R')|E]; [|auto].
  left. exists p', s'. split; [exact E|]. split; [exact S|]. split; [apply R'|].
  destruct (rel_ring _ _ _ _ R') as (l0 & l1 & l2 & l3 & l4 & N & _ & L0 & _).
  destruct R' as ((R1 & R2) & _). destruct (len5 _ R1) as (a & b & c & d & e & V).
  unfold get_beacon_time_last_known, vat, prev_idx, newest_first in *. rewrite V in *.
  replace (hd UNDEFINED_EARLY_64 (accepted s')) with l0 by (rewrite L0; destruct (accepted s'); reflexivity).
  destruct (pl_idx p') as [|[|[|[|[|]]]]]; cbn in *; try congruence; lia.
Qed.

(** Accepted beacons are at least one second apart. *)
Fixpoint spaced (sr : Z) (acc : list Z) : Prop :=
  match acc with t :: ((a :: _) as r) => sr <= t - a /\ spaced sr r | _ => True end.
Theorem C38_acceptance_interval : forall sr P l s, est_steps sr P (mkEst [] 1) l s -> spaced sr (accepted s).
Proof.
  intros sr P l s H. assert (G : forall s0 s1, est_steps sr P s0 l s1 -> spaced sr (accepted s0) -> spaced sr (accepted s1)).
  { clear. induction l as [|o l IH]; intros s0 s1 H S; inversion H; subst; [exact S|]. eapply IH; [eassumption|].
    match goal with K : est_step _ _ _ _ _ |- _ => inversion K; subst end; cbn [accepted] in *; auto; [exact I| |].
    all: destruct acc as [|a acc]; cbn [spaced acceptable] in *; auto. }
  eapply G; [exact H|exact I].
Qed.

(** Every measurement behind the estimate spans at least four seconds and at most five seconds plus eight periods. *)
Theorem C38_measured_distance : forall sr P l s t s' d, 0 < sr -> est_steps sr P (mkEst [] 1) l s ->
  est_step sr P s (Provide t) s' -> ~ (warp s' == warp s)%Q -> measured (accepted s) t d ->
  4 * sr <= d <= 5 * sr + 8 * P.
Proof.
  intros sr P l s t s' d Hs H S W M. pose proof (C38_acceptance_interval _ _ _ _ H) as Sp.
  inversion S; subst; cbn [warp accepted] in *; try (exfalso; apply W; reflexivity).
  match goal with K : measured acc t ?x |- _ => assert (d = x) by (apply nth3_measured in M, K; lia); subst x end.
  destruct M as (o & N & ->).
  unfold longest in *. destruct acc as [|a [|b [|c [|e acc]]]]; cbn [nth_error] in N; try discriminate. injection N as ->.
  cbn [spaced acceptable] in *. lia.
Qed.

(** The parameter file announces five seconds; four are enough for a measurement. *)
Definition four_seconds : list pll_op :=
  [Provide 0; Provide 1728000; Provide 3456000; Provide 5184000; Provide 6912000].
Theorem C38_five_seconds_refuted : exists s s',
  est_steps 1728000 17280 (mkEst [] 1) (firstn 4 four_seconds) s /\
  est_step 1728000 17280 s (Provide 6912000) s' /\ measured (accepted s) 6912000 (4 * 1728000) /\
  longest 1728000 17280 >= 4 * 1728000 /\ length (accepted s') = 5%nat.
Proof.
  exists (mkEst [5184000; 3456000; 1728000; 0] 1), (mkEst [6912000; 5184000; 3456000; 1728000; 0] 1). split; [|split; [|split; [|split]]].
  - assert (N : forall acc t, (length acc < 4)%nat -> forall d, measured acc t d -> longest 1728000 17280 < d).
    { intros acc t L d (o & N & _). exfalso.
      rewrite (proj2 (nth_error_None acc 3)) in N by lia. discriminate. }
    cbn [four_seconds firstn]. econstructor; [apply E_collect; [exact I|apply N; cbn; lia]|].
    econstructor; [apply E_collect; [cbn; lia|apply N; cbn; lia]|].
    econstructor; [apply E_collect; [cbn; lia|apply N; cbn; lia]|].
    econstructor; [apply E_collect; [cbn; lia|apply N; cbn; lia]|]. constructor.
  - eapply E_measure with (d := 6912000) (r := 1%Q).
    + cbn. lia.
    + exists 0. split; reflexivity.
    + unfold longest. lia.
    + exists 400. split; [|split; [discriminate|reflexivity]]. apply nearest_intro; lia.
    + reflexivity.
    + split; reflexivity.
  - exists 0. split; reflexivity.
  - unfold longest. lia.
  - reflexivity.
Qed.

(** Beacons of a sender whose clock deviates by at most [ppm] from ours: any two are a whole number of periods apart, up
    to that deviation. *)
Definition drifting (P ppm : Z) (ts : list Z) : Prop :=
  forall t t', In t ts -> In t' ts -> t' < t -> exists n, 1 <= n /\ Z.abs (t - t' - n * P) * 1000000 <= ppm * (n * P).
Definition times (l : list pll_op) : list Z := flat_map (fun o => match o with Provide t => [t] | Reset => [] end) l.

Lemma ratio_unique P d r r' : 0 < P -> ratio P d r -> ratio P d r' -> (r == r')%Q.
Proof.
  intros HP (n & (A & B) & C & D) (n' & (A' & B') & C' & D').
  assert (n = n').
  { destruct (Z.eq_dec n n') as [|K]; [auto|]. exfalso. pose proof (A n'). pose proof (A' n).
    assert (E : Z.abs (d - n' * P) = Z.abs (d - n * P)) by lia. pose proof (B n' E ltac:(auto)). pose proof (B' n ltac:(lia) ltac:(auto)). lia. }
  subst. now rewrite D, D'.
Qed.
Lemma nearest_close P d n : 0 < P -> 2 * Z.abs (d - n * P) < P -> is_nearest d P n.
Proof. intros. apply nearest_intro; lia. Qed.

Lemma drift_ratio P ppm d n : 0 < P -> 0 <= ppm -> 1 <= n -> Z.abs (d - n * P) * 1000000 <= ppm * (n * P) ->
  2 * Z.abs (d - n * P) < P ->
  exists r, ratio P d r /\ (1 - inject_Z ppm * (1 # 1000000) <= r <= 1 + inject_Z ppm * (1 # 1000000))%Q.
Proof.
  intros HP Hp Hn H Hh. exists (inject_Z d / inject_Z (n * P))%Q. split.
  - exists n. split; [now apply nearest_close|]. split; [nia|reflexivity].
  - assert (E : 0 < n * P) by nia. set (e := n * P) in *.
    assert (Qe : (0 < inject_Z e)%Q) by (change 0%Q with (inject_Z 0); rewrite <- Zlt_Qlt; lia).
    assert (Lo : e * 1000000 - ppm * e <= d * 1000000) by lia.
    assert (Hi : d * 1000000 <= e * 1000000 + ppm * e) by lia.
    rewrite Zle_Qle in Lo, Hi. rewrite ?inject_Z_plus, ?inject_Z_mult in Hi.
    unfold Z.sub in Lo. rewrite inject_Z_plus, inject_Z_opp, !inject_Z_mult in Lo.
    change (inject_Z 1000000) with 1000000%Q in *. split.
    + apply Qle_shift_div_l; [exact Qe|]. lra.
    + apply Qle_shift_div_r; [exact Qe|]. lra.
Qed.

(** With a clock deviation of up to 30 ppm, twice what the standard allows each device, the PLL never aborts and its
    estimate stays within that deviation. *)
Theorem C38_estimate_within_drift : forall sr P p l ppm, 0 < sr < 2 ^ 32 -> 0 < P < 2 ^ 32 -> pll_new sr P = Ok p ->
  Forall op_ok l -> 0 <= ppm <= 30 -> drifting P ppm (times l) ->
  exists p', pll_run p l = Ok p' /\
    (1 - inject_Z ppm * (1 # 1000000) <= pl_warp p' <= 1 + inject_Z ppm * (1 # 1000000))%Q.
Proof.
  intros sr P p l ppm H1 H2 H F Hp D. destruct (pll_new_rel sr P p H1 H2 H) as (R & Big).
  set (e := (inject_Z ppm * (1 # 1000000))%Q).
  assert (He : (0 <= e /\ e <= 30 # 1000000)%Q).
  { subst e. destruct Hp as (P1 & P2). rewrite Zle_Qle in P1, P2. change (inject_Z 0) with 0%Q in P1. change (inject_Z 30) with 30%Q in P2. lra. }
  assert (G : forall l p s, Forall op_ok l -> rel sr P p s -> drifting P ppm (accepted s ++ times l) -> spaced sr (accepted s) ->
      (1 - e <= warp s <= 1 + e)%Q -> exists p', pll_run p l = Ok p' /\ (1 - e <= pl_warp p' <= 1 + e)%Q).
  { clear l p R H F D. induction l as [|o l IH]; intros p s F R D Sp W.
    - exists p. split; [reflexivity|]. destruct R as (_ & _ & _ & _ & ->). exact W.
    - inversion F as [|? ? Fo Fl]; subst. cbn [pll_run]. destruct o as [t|]; cbn [pll_step op_ok times flat_map app] in *.
      2:{ cbn [bind]. apply (IH _ (mkEst [] 1)); auto.
          - eapply reset_rel; eauto.
          - cbn [accepted app]. intros a b A B. apply D; apply in_or_app; right; assumption.
          - cbn [warp]. lra. }
      assert (MM : forall d, acceptable sr (accepted s) t -> measured (accepted s) t d -> d <= longest sr P ->
                exists r, ratio P d r /\ (1 - e <= r <= 1 + e)%Q /\ ~ is_nearest d P 0).
      { intros d A (o & N & ->) L.
        assert (Pos : 0 < t - o).
        { destruct (accepted s) as [|a [|b [|c [|x r]]]]; cbn [nth_error] in N; try discriminate. injection N as ->.
          cbn [spaced acceptable] in *. lia. }
        destruct (D t o) as (n & Hn & K).
        { apply in_or_app. right. now left. } { apply in_or_app. left. eapply nth_error_In; eauto. } { lia. }
        assert (Hh : 2 * Z.abs (t - o - n * P) < P).
        { assert (n * P <= t - o + Z.abs (t - o - n * P)) by lia.
          assert (Z.abs (t - o - n * P) * 1000000 <= 30 * (n * P)) by nia. nia. }
        destruct (drift_ratio P ppm (t - o) n) as (r & Rr & Br); try lia; auto.
        exists r. split; [exact Rr|]. split; [exact Br|]. intros (Nz & _).
        specialize (Nz n). nia. }
      destruct (provide_sim sr P p s t (conj H1 H2) R Fo) as [(p1 & s1 & E & S & R1)|(E & A & d & M & L & K)].
      + rewrite E. cbn [bind]. apply (IH p1 s1); auto.
        * inversion S; subst; cbn [accepted] in *.
          -- intros x y X Y. apply D; rewrite in_app_iff in *; cbn [In]; tauto.
          -- intros x y X Y. apply D; rewrite in_app_iff in *; cbn [In] in *; tauto.
          -- intros x y X Y. apply D; rewrite in_app_iff in *; cbn [In] in *; tauto.
        * inversion S; subst; cbn [accepted] in *; auto; destruct acc as [|a acc]; cbn [spaced acceptable] in *; auto.
        * inversion S; subst; cbn [accepted warp] in *; auto.
          destruct (MM d) as (r' & Rr & Br & _); auto. rewrite (ratio_unique P d r' r) in Br by (auto; lia).
          unfold smoothed in *. match goal with Q : (w' == _)%Q |- _ => rewrite Q end. lra.
      + exfalso. destruct (MM d A M L) as (r & Rr & Br & Nz). destruct K as [K|(r' & w' & Rr' & Sm & Ns)]; [contradiction|].
        apply Ns. rewrite (ratio_unique P d r r') in Br by (auto; lia). unfold smoothed, synchronous in *.
        rewrite Sm. lra. }
  apply (G l p (mkEst [] 1)); try exact I; auto. cbn [warp]. lra.
Qed.

(** With ideal beacons, all on the raster of the beacon period, the factor stays one and lengths are not warped. *)
Lemma warped_one p len : (pl_warp p == 1)%Q -> get_warped p len = len.
Proof.
  unfold get_warped. intros E. set (x := (inject_Z len * pl_warp p)%Q).
  assert (X : (x == inject_Z len)%Q) by (subst x; rewrite E; ring).
  destruct x as [n d]. unfold Qeq in X. cbn [Qnum Qden inject_Z] in *. rewrite Z.mul_1_r in X. subst n.
  destruct (Z.ltb_spec (len * Z.pos d) 0) as [L|L].
  - replace (2 * (len * Z.pos d) + - Z.pos d) with (- ((- len) * (2 * Z.pos d) + Z.pos d)) by ring.
    rewrite Z.quot_opp_l by lia. rewrite Z.quot_div_nonneg by nia.
    rewrite Z.div_add_l by lia. rewrite Z.div_small by lia. lia.
  - replace (2 * (len * Z.pos d) + Z.pos d) with (len * (2 * Z.pos d) + Z.pos d) by ring.
    assert (0 <= len) by nia. rewrite Z.quot_div_nonneg by nia.
    rewrite Z.div_add_l by lia. rewrite Z.div_small by lia. lia.
Qed.
Theorem C38_ideal_beacons : forall sr P p l c, 0 < sr < 2 ^ 32 -> 0 < P < 2 ^ 32 -> pll_new sr P = Ok p ->
  Forall op_ok l -> (forall t, In t (times l) -> (P | t - c)) ->
  exists p', pll_run p l = Ok p' /\ (pl_warp p' == 1)%Q /\ forall len, get_warped p' len = len.
Proof.
  intros sr P p l c H1 H2 H F D.
  destruct (C38_estimate_within_drift sr P p l 0 H1 H2 H F ltac:(lia)) as (p' & E & W).
  { intros t t' T T' L. destruct (D t T) as (a & A), (D t' T') as (b & B). exists (a - b). split; [nia|].
    replace (t - t' - (a - b) * P) with 0 by lia. lia. }
  exists p'. split; [exact E|]. assert (Q : (pl_warp p' == 1)%Q).
  { change (inject_Z 0) with 0%Q in W. apply Qle_antisym; lra. }
  split; [exact Q|]. intros len. now apply warped_one.
Qed.

Example C38_hypotheses_met : exists p, pll_new 1728000 17280 = Ok p /\ Forall op_ok four_seconds /\
  (forall t, In t (times four_seconds) -> (17280 | t - 0)) /\
  exists p', pll_run p four_seconds = Ok p' /\ (pl_warp p' == 1)%Q /\ get_warped p' 123456 = 123456.
Proof.
  eexists. split; [vm_compute; reflexivity|]. split; [unfold four_seconds; repeat constructor; vm_compute; (discriminate || reflexivity)|]. split.
  - cbn. intros t H. exists (t / 17280). decompose [or] H; subst; (reflexivity || contradiction).
  - eexists. split; [vm_compute; reflexivity|]. split; vm_compute; reflexivity.
Qed.

Print Assumptions C38_refines.
Print Assumptions C38_acceptance_interval.
Print Assumptions C38_measured_distance.
Print Assumptions C38_estimate_within_drift.
Print Assumptions C38_ideal_beacons.
