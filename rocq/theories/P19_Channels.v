(** C32: the channel arrangement maps channels to frequencies injectively. *)
From Verif Require Import Base Channels ChannelsSpec MuxFacts.
Open Scope N_scope.

Lemma plan_lookup b lo hi : In (b, lo, hi) plan -> get_acfn b = Ok (mkAcfn b lo hi 2).
Proof. cbn [plan In]. intros H. decompose [or] H; try tauto; match goal with E : _ = _ |- _ => injection E as <- <- <-; reflexivity end. Qed.
Lemma plan_bands b lo hi : In (b, lo, hi) plan -> 1 <= b <= 19 /\ hi <= 8191.
Proof. cbn [plan In]. intros H. decompose [or] H; try tauto; match goal with E : _ = _ |- _ => injection E as <- <- <-; lia end. Qed.
Lemma plan_total b : 1 <= b <= 19 -> exists lo hi, In (b, lo, hi) plan.
Proof.
  intros H. assert (K : b = 1 \/ b = 2 \/ b = 3 \/ b = 4 \/ b = 5 \/ b = 6 \/ b = 7 \/ b = 8 \/ b = 9 \/ b = 10 \/ b = 11 \/
    b = 12 \/ b = 13 \/ b = 14 \/ b = 15 \/ b = 16 \/ b = 17 \/ b = 18 \/ b = 19) by lia.
  decompose [or] K; subst b; eexists; eexists; cbn [plan In]; tauto.
Qed.
Lemma plan_fun b lo hi lo' hi' : In (b, lo, hi) plan -> In (b, lo', hi') plan -> lo = lo' /\ hi = hi'.
Proof. intros A B. apply plan_lookup in A, B. rewrite A in B. injection B. auto. Qed.

(** The frequency the code computes, as one function of the channel number. *)
Definition freq (n : N) : Z :=
  if n <=? 2511 then (450144000 + Z.of_N n * 864000)%Z
  else if n <=? 4103 then (3000596000 + (Z.of_N n - 2952) * 1728000)%Z
  else (5150000000 + (Z.of_N n - 4104) * 2000000)%Z.
Lemma freq_ok b n : in_band b n -> exists cf, get_center_frequency b n = Ok cf /\ cf_FC cf = freq n /\ cf_n cf = n /\ cf_spacing cf = raster b.
Proof.
  intros (lo & hi & I & B). unfold get_center_frequency. rewrite (plan_lookup _ _ _ I). cbn [bind].
  unfold get_center_frequency_acfn, assert_band, raster, freq. cbn [ac_band ac_min ac_max].
  pose proof (plan_bands _ _ _ I) as (P & _).
  replace ((1 <=? b) || (b <=? 19)) with true by lia. replace ((lo <=? n) && (n <=? hi)) with true by lia. cbn [guard].
  cbn [plan In] in I. decompose [or] I; try tauto;
    match goal with E : _ = _ |- _ => injection E as <- <- <- end;
    repeat match goal with
           | |- context [(?a <=? ?b)%N] => first [replace (a <=? b)%N with true by (symmetry; apply N.leb_le; lia) | replace (a <=? b)%N with false by (symmetry; apply N.leb_gt; lia)]
           end; cbn [andb];
    eexists; (split; [reflexivity|]); cbn [cf_FC cf_n cf_spacing]; repeat split; lia.
Qed.
Lemma freq_mono n n' : n < n' -> n <= 2511 \/ 2952 <= n -> n' <= 2511 \/ 2952 <= n' -> (freq n < freq n')%Z.
Proof.
  intros H K K'. unfold freq.
  destruct (N.leb_spec n 2511), (N.leb_spec n' 2511), (N.leb_spec n 4103), (N.leb_spec n' 4103); lia.
Qed.
Lemma band_range b n : in_band b n -> n <= 2511 \/ 2952 <= n.
Proof.
  intros (lo & hi & I & B). cbn [plan In] in I. decompose [or] I; try tauto;
    match goal with E : _ = _ |- _ => injection E as <- <- <-; lia end.
Qed.

(** A frequency is defined exactly for the channels of the band; everything else aborts. *)
Theorem C32_defined_iff_in_band : forall b n, 1 <= b <= 19 ->
  ((exists cf, get_center_frequency b n = Ok cf) <-> in_band b n) /\
  (get_center_frequency b n = Abort <-> ~ in_band b n).
Proof.
  intros b n Hb. destruct (plan_total b Hb) as (lo & hi & I).
  destruct ((lo <=? n) && (n <=? hi)) eqn:E.
  - assert (B : in_band b n) by (exists lo, hi; split; [exact I|lia]). destruct (freq_ok b n B) as (cf & F & _).
    split; split; intros; try tauto; try (rewrite F in *; discriminate). exists cf. exact F.
  - assert (B : ~ in_band b n). { intros (l & h & I' & K). destruct (plan_fun _ _ _ _ _ I I'). subst. lia. }
    assert (F : get_center_frequency b n = Abort).
    { unfold get_center_frequency. rewrite (plan_lookup _ _ _ I). cbn [bind].
      unfold get_center_frequency_acfn, assert_band. cbn [ac_band ac_min ac_max]. rewrite E.
      replace ((1 <=? b) || (b <=? 19)) with true by lia. reflexivity. }
    rewrite F. split; split; intros H; try tauto. destruct H. discriminate.
Qed.

(** Neighbouring channels of a band are one raster step apart. *)
Theorem C32_equally_spaced : forall b n cf cf',
  1 <= b <= 19 -> get_center_frequency b n = Ok cf -> get_center_frequency b (n + 1) = Ok cf' ->
  (cf_FC cf' = cf_FC cf + raster b /\ cf_spacing cf = raster b /\ 0 < raster b)%Z.
Proof.
  intros b n cf cf' Hb H H'.
  assert (B : in_band b n) by (apply C32_defined_iff_in_band; eauto).
  assert (B' : in_band b (n + 1)) by (apply C32_defined_iff_in_band; eauto).
  destruct (freq_ok b n B) as (? & E & F & _ & S). rewrite H in E. injection E as <-.
  destruct (freq_ok _ _ B') as (? & E' & F' & _ & S'). rewrite H' in E'. injection E' as <-.
  rewrite F, F', S. unfold get_center_frequency in *. destruct B as (lo & hi & I & B), B' as (lo' & hi' & I' & B').
  destruct (plan_fun _ _ _ _ _ I I') as (<- & <-). clear I' H H' F F' S S' cf cf'. unfold freq, raster.
  cbn [plan In] in I. decompose [or] I; try tauto;
    match goal with E : _ = _ |- _ => injection E as <- <- <- end;
    repeat match goal with
           | |- context [(?a <=? ?b)%N] => first [replace (a <=? b)%N with true by (symmetry; apply N.leb_le; lia) | replace (a <=? b)%N with false by (symmetry; apply N.leb_gt; lia)]
           end; lia.
Qed.

(** Channel numbers order frequencies, across all bands; in particular no two channel numbers share one,
    and a channel has the same frequency in every band that contains it. *)
Theorem C32_frequency_orders_channels : forall b b' n n' cf cf', 1 <= b <= 19 -> 1 <= b' <= 19 ->
  get_center_frequency b n = Ok cf -> get_center_frequency b' n' = Ok cf' ->
  ((cf_FC cf < cf_FC cf')%Z <-> n < n') /\ (cf_FC cf = cf_FC cf' <-> n = n').
Proof.
  intros b b' n n' cf cf' Hb Hb' H H'.
  assert (B : in_band b n) by (apply C32_defined_iff_in_band; eauto).
  assert (B' : in_band b' n') by (apply C32_defined_iff_in_band; eauto).
  destruct (freq_ok b n B) as (? & E & F & _). rewrite H in E. injection E as <-.
  destruct (freq_ok _ _ B') as (? & E' & F' & _). rewrite H' in E'. injection E' as <-. rewrite F, F'.
  apply band_range in B, B'. destruct (N.lt_total n n') as [L|[<-|L]].
  - pose proof (freq_mono n n' L B B'). split; split; intros; lia.
  - split; split; intros; lia.
  - pose proof (freq_mono n' n L B' B). split; split; intros; lia.
Qed.

(** The range check of received channel numbers accepts exactly the channels with a frequency in some band, and never
    aborts. *)
Theorem C32_in_range : forall n, exists r, is_absolute_channel_number_in_range n = Ok r /\
  (r = true <-> exists b, in_band b n).
Proof.
  intros n. unfold is_absolute_channel_number_in_range. destruct (N.ltb_spec 8191 n) as [H|H].
  - exists false. split; [reflexivity|]. split; [discriminate|]. intros (b & lo & hi & I & B).
    apply plan_bands in I. lia.
  - assert (G : forall bands, (forall b, In b bands -> 1 <= b <= 19) ->
        exists r, in_some_band bands n = Ok r /\ (r = true <-> exists b, In b bands /\ in_band b n)).
    { induction bands as [|b bands IH]; intros Hb.
      - exists false. split; [reflexivity|]. split; [discriminate|]. intros (b & [] & _).
      - destruct IH as (r & E & R); [intros; apply Hb; now right|].
        destruct (plan_total b) as (lo & hi & I); [apply Hb; now left|].
        cbn [in_some_band]. rewrite (plan_lookup _ _ _ I). cbn [bind ac_min ac_max].
        destruct ((lo <=? n) && (n <=? hi)) eqn:K.
        + exists true. split; [reflexivity|]. split; [|auto]. intros _. exists b. split; [now left|].
          exists lo, hi. split; [exact I|lia].
        + exists r. split; [exact E|]. rewrite R. split; intros (c & J & Q).
          * exists c. split; [now right|exact Q].
          * destruct J as [<-|J]; [|now exists c]. destruct Q as (l & h & I' & Q).
            destruct (plan_fun _ _ _ _ _ I I'). subst. lia. }
    destruct (G [1; 2; 3; 4; 5; 6; 7; 8; 9; 10; 11; 12; 13; 14; 15; 16; 17; 18; 19]) as (r & E & R).
    { intros b Hb. cbn [In] in Hb. lia. }
    exists r. split; [exact E|]. rewrite R. split; intros (b & Q).
    + exists b. tauto.
    + exists b. split; [|exact Q]. destruct Q as (lo & hi & I & _). apply plan_bands in I. cbn [In]. lia.
Qed.

(** A band number that does not exist is not rejected: it silently means band 19. *)
Theorem C32_unknown_band_refuted : forall b, b = 0 \/ 19 < b ->
  exists cf, get_center_frequency b 4265 = Ok cf /\ cf_FC cf = 5472000000%Z /\
  exists cf', get_center_frequency 19 4265 = Ok cf' /\ cf_FC cf' = cf_FC cf.
Proof.
  intros b Hb.
  assert (E : get_acfn b = Ok (mkAcfn b 4265 4391 2)).
  { unfold get_acfn, assert_band. replace ((1 <=? b) || (b <=? 19)) with true by lia. cbn [guard].
    destruct b as [|p]; [reflexivity|]. do 5 (destruct p as [p|p|]; try reflexivity; try (exfalso; lia)). }
  exists (mkCf (mkAcfn b 4265 4391 2) 4265 5150000000 2000000 5472000000). split.
  - unfold get_center_frequency. rewrite E. cbn [bind]. unfold get_center_frequency_acfn, assert_band. cbn [ac_band ac_min ac_max].
    replace ((1 <=? b) || (b <=? 19)) with true by lia.
    replace ((1 <=? b) && (b <=? 12)) with false by lia. replace ((13 <=? b) && (b <=? 16)) with false by lia. reflexivity.
  - split; [reflexivity|]. eexists. split; [vm_compute; reflexivity|reflexivity].
Qed.

Example C32_hypotheses_met :
  in_band 1 1657 /\ (exists cf, get_center_frequency 1 1657 = Ok cf /\ cf_FC cf = 1881792000%Z) /\
  is_absolute_channel_number_in_range 1657 = Ok true /\ is_absolute_channel_number_in_range 1678 = Ok false.
Proof.
  split; [exists 1657, 1677; split; [cbn [plan In]; tauto|lia]|]. split; [eexists; split; vm_compute; reflexivity|].
  split; vm_compute; reflexivity.
Qed.

Print Assumptions C32_defined_iff_in_band.
Print Assumptions C32_equally_spaced.
Print Assumptions C32_frequency_orders_channels.
Print Assumptions C32_in_range.
Print Assumptions C32_unknown_band_refuted.
