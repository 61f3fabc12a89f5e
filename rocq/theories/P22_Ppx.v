(** C39: the PPX edge stays aligned to the beacons. *)
From Verif Require Import Base IntHelpers IntHelpersSpec IntHelpersFacts Ppx.
Open Scope Z_scope.

(** [t] is [d] away from the raster through [ref], and no raster point is closer. *)
Definition offset_to_raster (ref raster t d : Z) : Prop := (raster | t - d - ref) /\ 2 * Z.abs d <= raster.
(** The time is exactly halfway between two raster points. *)
Definition halfway (ref raster t : Z) : Prop := exists k, 2 * (t - ref) = (2 * k + 1) * raster.

Lemma round_z_dist x y : 0 < y -> 2 * Z.abs (x - round_z x y * y) <= y.
Proof.
  intros Hy. destruct (round_z_nearest x y ltac:(lia)) as (N & _).
  set (q := round_z x y) in *. pose proof (N (q + 1)). pose proof (N (q - 1)).
  replace (x - (q + 1) * y) with (x - q * y - y) in H by ring.
  replace (x - (q - 1) * y) with (x - q * y + y) in H0 by ring. lia.
Qed.
Lemma b63 : 2 ^ (Z.of_N 64 - 1) = 9223372036854775808. Proof. reflexivity. Qed.
Ltac in64 := apply in_signed_iff; rewrite b63; lia.

(** The times below which nothing overflows: 2^61 samples, about 1000 years. *)
Definition near (z : Z) : Prop := Z.abs z < 2 ^ 61.

Lemma offset_val ref raster t : near ref -> near t -> 0 < raster < 2 ^ 61 -> (2 | raster) ->
  determine_offset ref raster t =
    if Z.abs (t - ref - round_z (t - ref) raster * raster) <? raster / 2
    then Ok (t - ref - round_z (t - ref) raster * raster) else Abort.
Proof.
  unfold near. change (2 ^ 61) with 2305843009213693952. intros H1 H2 H3 (k & ->).
  unfold determine_offset. rewrite Z.rem_mul by lia. cbn [Z.eqb guard].
  rewrite sgn_ok by in64. cbn [bind].
  rewrite round_integer_def; [|lia|rewrite b63; lia]. cbn [bind].
  pose proof (round_z_dist (t - ref) (k * 2) ltac:(lia)) as D. set (q := round_z (t - ref) (k * 2)) in *.
  rewrite sgn_ok by in64. cbn [bind]. rewrite sgn_ok by in64. cbn [bind]. rewrite sgn_ok by in64. cbn [bind].
  rewrite sgn_ok by in64. cbn [bind]. rewrite Z.quot_mul, Z.div_mul by lia.
  replace (t - (ref + q * (k * 2))) with (t - ref - q * (k * 2)) by ring. destruct (_ <? k); reflexivity.
Qed.

Lemma offset_unique ref raster t d d' : 0 < raster -> (raster | t - d - ref) -> (raster | t - d' - ref) ->
  2 * Z.abs d < raster -> 2 * Z.abs d' < raster -> d = d'.
Proof.
  intros R (a & A) (b & B) D D'. assert (a = b); [|subst; lia]. assert (d' - d = (a - b) * raster) by lia.
  destruct (Z.lt_trichotomy (a - b) 0) as [K|[K|K]]; [|lia|]; nia.
Qed.

Lemma halfway_no_offset ref raster t d : 0 < raster -> halfway ref raster t -> (raster | t - d - ref) -> ~ 2 * Z.abs d < raster.
Proof.
  intros R (j & J) (k & K) D. assert (E : 2 * d = (2 * (j - k) + 1) * raster) by nia.
  assert (Z.abs (2 * d) < raster) by lia. rewrite E, Z.abs_mul in H. assert (1 <= Z.abs (2 * (j - k) + 1)) by lia. nia.
Qed.
Lemma offset_cases ref raster t : near ref -> near t -> 0 < raster < 2 ^ 61 -> (2 | raster) ->
  (exists d, determine_offset ref raster t = Ok d /\ (raster | t - d - ref) /\ 2 * Z.abs d < raster) \/
  (determine_offset ref raster t = Abort /\ halfway ref raster t).
Proof.
  intros H1 H2 H3 H. rewrite offset_val by assumption. pose proof (round_z_dist (t - ref) raster ltac:(lia)) as D.
  set (q := round_z (t - ref) raster) in *. destruct H as (k & ->). rewrite Z.div_mul by lia.
  destruct (Z.ltb_spec (Z.abs (t - ref - q * (k * 2))) k) as [L|L].
  - left. eexists. split; [reflexivity|]. split; [exists q; ring|lia].
  - right. split; [reflexivity|]. assert (E : t - ref - q * (k * 2) = k \/ t - ref - q * (k * 2) = - k) by lia.
    destruct E as [E|E]; [exists q|exists (q - 1)]; lia.
Qed.

(** The offset of a time to an even raster: defined and below half the raster exactly if the time is not halfway
    between two raster points, in which case, and only then, the code aborts. Odd rasters always abort. *)
Theorem C39_offset_exact : forall ref raster t, near ref -> near t -> 0 < raster < 2 ^ 61 ->
  (~ (2 | raster) -> determine_offset ref raster t = Abort) /\
  ((2 | raster) ->
   (determine_offset ref raster t = Abort <-> halfway ref raster t) /\
   (~ halfway ref raster t -> exists d, determine_offset ref raster t = Ok d) /\
   (forall d, determine_offset ref raster t = Ok d <-> offset_to_raster ref raster t d /\ 2 * Z.abs d < raster)).
Proof.
  intros ref raster t H1 H2 H3. split.
  - intros H. unfold determine_offset. destruct (Z.rem raster 2 =? 0) eqn:E; [|reflexivity].
    exfalso. apply H. apply Z.rem_divide; lia.
  - intros H. destruct (offset_cases ref raster t H1 H2 H3 H) as [(d & E & D & L)|(E & W)]; rewrite E.
    + split; [|split].
      * split; [discriminate|]. intros W. exfalso. eapply halfway_no_offset; eauto; lia.
      * eauto.
      * intros d'. split.
        -- intros K. injection K as <-. split; [split; [exact D|lia]|exact L].
        -- intros ((D' & _) & L'). f_equal. eapply offset_unique; eauto; lia.
    + split; [|split]; [tauto|tauto|]. intros d. split; [discriminate|]. intros ((D & _) & L).
      exfalso. eapply halfway_no_offset; eauto; lia.
Qed.

(** Exactly when a beacon is taken and what it does to the edge: it moves it by less than half a raster, at most the
    accepted deviation, onto the raster of the beacon. In all other cases the code aborts. *)
Theorem C39_beacon_exact : forall p t, near (px_edge p) -> near t -> 0 < px_beacon p < 2 ^ 61 -> (2 | px_beacon p) ->
  (forall p', provide_beacon_time p t = Ok p' <->
     0 <= px_edge p /\ exists d, offset_to_raster (px_edge p) (px_beacon p) t d /\ 2 * Z.abs d < px_beacon p /\
       Z.abs d <= px_devmax p /\ p' = with_edge p (px_edge p + d)) /\
  ((exists p', provide_beacon_time p t = Ok p') \/ provide_beacon_time p t = Abort).
Proof.
  intros p t H1 H2 H3 H4. pose proof (offset_cases (px_edge p) (px_beacon p) t H1 H2 H3 H4) as O.
  unfold near in *. change (2 ^ 61) with 2305843009213693952 in *.
  unfold provide_beacon_time, provide_beacon_time_out_of_raster.
  destruct (Z.leb_spec 0 (px_edge p)) as [E|E]; cbn [guard].
  2:{ split; [|auto]. intros p'. split; [discriminate|]. intros (K & _). lia. }
  destruct O as [(d & -> & D & L)|(-> & W)]; cbn [bind].
  - destruct (Z.leb_spec (Z.abs d) (px_devmax p)) as [M|M]; cbn [guard].
    + rewrite sgn_ok by in64. cbn [bind]. split; [|eauto]. intros p'. split.
      * intros K. injection K as <-. split; [exact E|]. exists d. repeat split; auto; lia.
      * intros (_ & d' & (D' & _) & L' & _ & ->). do 3 f_equal. eapply offset_unique; eauto; lia.
    + split; [|auto]. intros p'. split; [discriminate|]. intros (_ & d' & (D' & _) & L' & M' & _).
      assert (d = d') by (eapply offset_unique; eauto; lia). subst. lia.
  - split; [|auto]. intros p'. split; [discriminate|]. intros (_ & d' & (D' & _) & L' & _).
    exfalso. eapply halfway_no_offset; eauto; lia.
Qed.

(** After any history the edge lies on the raster of the last beacon, shifted by the extrapolations since, and it has been
    moved away from plain extrapolation by at most the accepted deviation per beacon. *)
Definition last_beacon (l : list ppx_op) : option (Z * Z) :=
  fold_left (fun a o => match o with Beacon t => Some (t, 0) | Extrapolate => match a with Some (t, k) => Some (t, k + 1) | None => None end end) l None.
Definition beacons (l : list ppx_op) : Z := Z.of_nat (length (filter (fun o => match o with Beacon _ => true | _ => false end) l)).
Definition extrapolations (l : list ppx_op) : Z := Z.of_nat (length (filter (fun o => match o with Beacon _ => false | _ => true end) l)).

Definition same_setup (p q : ppx) : Prop :=
  px_period p = px_period q /\ px_length p = px_length q /\ px_advance p = px_advance q /\ px_beacon p = px_beacon q /\
  px_devmax p = px_devmax q /\ px_warped p = px_warped q.

Lemma beacon_sound p t p' : 0 < px_beacon p -> provide_beacon_time p t = Ok p' ->
  (2 | px_beacon p) /\ (px_beacon p | t - px_edge p') /\ Z.abs (px_edge p' - px_edge p) <= px_devmax p /\
  2 * Z.abs (px_edge p' - px_edge p) < px_beacon p /\ same_setup p' p.
Proof.
  unfold provide_beacon_time, provide_beacon_time_out_of_raster, determine_offset. intros R H.
  destruct (0 <=? px_edge p); [|discriminate]. cbn [guard] in H.
  destruct (Z.rem (px_beacon p) 2 =? 0) eqn:E2; [|discriminate]. cbn [guard] in H.
  unfold sgn at 1 in H. destruct (in_signed 64 (t - px_edge p)); [|discriminate]. cbn [bind] in H.
  destruct (round_integer 64 (t - px_edge p) (px_beacon p)) as [q| | |]; try discriminate. cbn [bind] in H.
  unfold sgn at 1 in H. destruct (in_signed 64 (q * px_beacon p)); [|discriminate]. cbn [bind] in H.
  unfold sgn at 1 in H. destruct (in_signed 64 (px_edge p + q * px_beacon p)); [|discriminate]. cbn [bind] in H.
  unfold sgn at 1 in H. destruct (in_signed 64 (t - (px_edge p + q * px_beacon p))); [|discriminate]. cbn [bind] in H.
  unfold sgn at 1 in H. destruct (in_signed 64 (Z.abs (t - (px_edge p + q * px_beacon p)))); [|discriminate]. cbn [bind] in H.
  destruct (_ <? Z.quot (px_beacon p) 2) eqn:E3 in H; [|discriminate]. cbn [guard bind] in H.
  destruct (Z.abs _ <=? px_devmax p) eqn:E4 in H; [|discriminate]. cbn [guard] in H.
  unfold sgn at 1 in H. destruct in_signed in H; [|discriminate]. cbn [bind] in H. injection H as <-.
  assert (D : (2 | px_beacon p)) by (apply Z.rem_divide; lia). split; [exact D|]. cbn [with_edge px_edge px_beacon px_devmax px_warped].
  split; [exists q; ring|]. split; [|split; [|repeat split]].
  - replace (px_edge p + (t - (px_edge p + q * px_beacon p)) - px_edge p) with (t - (px_edge p + q * px_beacon p)) by ring. lia.
  - replace (px_edge p + (t - (px_edge p + q * px_beacon p)) - px_edge p) with (t - (px_edge p + q * px_beacon p)) by ring.
    destruct D as (k & K). rewrite K, Z.quot_mul in E3 by lia. lia.
Qed.

Theorem C39_history : forall l p p', 0 < px_beacon p -> 0 <= px_devmax p -> ppx_run p l = Ok p' ->
  same_setup p' p /\
  Z.abs (px_edge p' - (px_edge p + extrapolations l * px_warped p)) <= beacons l * px_devmax p /\
  forall t k, last_beacon l = Some (t, k) -> (px_beacon p | px_edge p' - (t + k * px_warped p)).
Proof.
  intros l. induction l as [|o l IH] using rev_ind; intros p p' R V H.
  - injection H as <-. split; [repeat split|]. split; [cbn; lia|]. intros t k K. discriminate.
  - assert (G : exists q, ppx_run p l = Ok q /\ ppx_step q o = Ok p').
    { clear IH R V. revert p H. induction l as [|x l IH]; intros p H; cbn [app ppx_run] in *.
      - destruct (ppx_step p o) as [q| | |] eqn:E; try discriminate. cbn [bind] in H. injection H as <-. eauto.
      - destruct (ppx_step p x) as [q| | |] eqn:E; try discriminate. cbn [bind] in *. apply IH. exact H. }
    destruct G as (q & G1 & G2). destruct (IH p q R V G1) as (S & M & A). clear IH H.
    destruct S as (S1 & S2 & S3 & S4 & S5 & S6).
    unfold beacons, extrapolations, last_beacon in *. rewrite !filter_app, !app_length, fold_left_app.
    destruct o as [t|]; cbn [fold_left filter length ppx_step] in *.
    + apply beacon_sound in G2; [|lia]. destruct G2 as (_ & D & X & _ & (T1 & T2 & T3 & T4 & T5 & T6)).
      split; [repeat split; congruence|]. split.
      * rewrite !Nat2Z.inj_add. cbn [Z.of_nat]. rewrite S5 in X. set (e := Z.of_nat (length (filter _ l))) in *. set (b := Z.of_nat (length (filter _ l))) in *.
        rewrite Z.add_0_r. replace ((b + Z.of_nat 1) * px_devmax p) with (b * px_devmax p + px_devmax p) by lia. lia.
      * intros t' k K. injection K as <- <-. destruct D as (c & D). exists (- c). rewrite S4 in D. lia.
    + unfold extrapolate_next_rising_edge in G2. unfold sgn in G2. destruct in_signed; [|discriminate]. cbn [bind] in G2. injection G2 as <-.
      cbn [with_edge px_edge]. split; [repeat split; assumption|]. split.
      * rewrite !Nat2Z.inj_add. cbn [Z.of_nat]. rewrite S6. set (e := Z.of_nat (length (filter _ l))) in *. set (b := Z.of_nat (length (filter _ l))) in *.
        rewrite Z.add_0_r. replace ((e + Z.of_nat 1) * px_warped p) with (e * px_warped p + px_warped p) by lia. lia.
      * intros t' k K. destruct (fold_left _ l None) as [(t0, k0)|] eqn:F; [|discriminate]. injection K as <- <-.
        destruct (A _ _ eq_refl) as (c & C). exists c. rewrite S6. lia.
Qed.

(** With ideal beacons, on the raster of the edge, nothing ever aborts and the edge only moves by extrapolation. *)
Theorem C39_ideal_beacons : forall l p, 0 < px_beacon p < 2 ^ 61 -> (2 | px_beacon p) -> (px_beacon p | px_warped p) -> 0 <= px_devmax p ->
  0 <= px_edge p -> 0 <= px_warped p -> px_edge p + extrapolations l * px_warped p < 2 ^ 61 ->
  (forall t, In (Beacon t) l -> near t /\ (px_beacon p | t - px_edge p)) ->
  ppx_run p l = Ok (with_edge p (px_edge p + extrapolations l * px_warped p)).
Proof.
  intros l. induction l as [|o l IH]; intros p R D W V E P F B.
  - unfold extrapolations. cbn. rewrite Z.add_0_r. destruct p; reflexivity.
  - unfold extrapolations in *. cbn [ppx_run filter length] in *. destruct o as [t|]; cbn [ppx_step length] in *.
    + destruct (B t (or_introl eq_refl)) as (N & (c & C)).
      assert (K : provide_beacon_time p t = Ok p).
      { apply C39_beacon_exact; auto.
        - unfold near. rewrite Z.abs_eq by lia. nia.
        - split; [exact E|]. exists 0. split; [split; [exists c; lia|lia]|]. split; [lia|]. split; [lia|].
          rewrite Z.add_0_r. destruct p; reflexivity. }
      rewrite K. cbn [bind]. apply IH; auto. intros t' T. apply B. now right.
    + rewrite Nat2Z.inj_succ in *. unfold extrapolate_next_rising_edge.
      assert (0 <= Z.of_nat (length (filter (fun o => match o with Beacon _ => false | _ => true end) l)) * px_warped p) by (apply Z.mul_nonneg_nonneg; lia).
      set (e := Z.of_nat _) in *. replace (Z.succ e * px_warped p) with (e * px_warped p + px_warped p) in * by ring.
      rewrite sgn_ok by (change (2 ^ 61) with 2305843009213693952 in *; in64). cbn [bind].
      rewrite IH; cbn [with_edge px_beacon px_warped px_devmax px_edge]; auto; try lia.
      * unfold with_edge. cbn. do 2 f_equal. lia.
      * intros t T. destruct (B t (or_intror T)) as (N & (c & C)). split; [exact N|]. destruct W as (w & W). exists (c - w). rewrite W. lia.
Qed.

Example C39_hypotheses_met :
  exists p q, ppx_new 1728000 17280 1000 17280 100 = Ok p /\ set_ppx_rising_edge p 5000 = Ok q /\
  near (px_edge q) /\ ppx_run q [Beacon 22285; Extrapolate; Beacon (5000 + 1728000 + 3 * 17280 - 8)] =
    Ok (with_edge q (5000 + 1728000 - 8)) /\
  last_beacon [Beacon 22285; Extrapolate] = Some (22285, 1).
Proof. eexists. eexists. split; [reflexivity|]. split; [reflexivity|]. split; [unfold near; cbn; lia|]. split; vm_compute; reflexivity. Qed.

Print Assumptions C39_offset_exact.
Print Assumptions C39_beacon_exact.
Print Assumptions C39_history.
Print Assumptions C39_ideal_beacons.
