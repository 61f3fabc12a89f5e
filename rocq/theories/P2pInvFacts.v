(** The invariant of all histories of the p2p firmware. *)
From Verif Require Import Base IntHelpers IntHelpersSpec IntHelpersFacts Duration DurationSpec P21_Duration Allocation AllocationSpec
  AllocationFacts P24_Allocation P25_P2pPlan IrregularQueue P2p P2pSpec P2pFacts.
Open Scope Z_scope.

Definition rate (sr : N) : Prop := (0 < sr < 2 ^ 31)%N /\ (192000 | sr)%N.
Lemma lut_rate_ok sr l : lut_new sr = Ok l -> rate sr /\ lut_rate l = sr.
Proof.
  intros E. destruct (C33_lookup_table sr) as (_ & B). split.
  - destruct (N.ltb_spec 0 sr) as [A|A]; [|rewrite B in E by (intros (? & _); lia); discriminate].
    destruct (N.ltb_spec sr (2 ^ 31)) as [C|C]; [|rewrite B in E by (intros (? & _); lia); discriminate].
    split; [auto|]. apply N.mod_divide; [lia|]. destruct (N.eq_dec (sr mod 192000) 0) as [D|D]; [auto|].
    rewrite B in E; [discriminate|]. intros (_ & F). apply D, N.mod_divide; [lia|exact F].
  - unfold lut_new in E. destruct forallb; [|discriminate]. now injection E as <-.
Qed.
Lemma samples sr l ec m : lut_new sr = Ok l -> (m < 1000)%N -> exists n, get_N_samples_from_duration l ec m = Ok n /\ 0 <= n <= 2 ^ 42.
Proof.
  intros E M. destruct (C33_conversion_exact sr l ec m E) as (n & -> & K); [change (2 ^ 32)%N with 4294967296%N; lia|].
  destruct (lut_rate_ok sr l E) as ((R & _) & _). exists (Z.of_N n). split; [reflexivity|]. unfold lasts in K. big.
  assert (1 <= per_second ec)%N by (destruct ec; cbn; lia). nia.
Qed.

Record base (r : role) (sr : N) (f : fw) : Prop := {
  b_role : f_role f = r;
  b_lut : lut_new sr = Ok (f_lut f);
  b_per : Z.of_N (du_N (fa_period (f_ft f))) = beacon_period sr;
  b_prep : Z.of_N (du_N (fa_prepare (f_ft f))) = beacon_prepare sr;
  b_contacts : Forall (contact_ok (beacon_length sr) (fa_period (f_ft f))) (f_contacts f);
  b_ne : f_contacts f <> [];
  b_times : Forall (fun a => time_ok (pa_beacon a)) (f_contacts f) }.
Lemma base_same r sr f g : base r sr f -> f_role g = f_role f -> f_lut g = f_lut f -> fa_period (f_ft g) = fa_period (f_ft f) ->
  fa_prepare (f_ft g) = fa_prepare (f_ft f) -> f_contacts g = f_contacts f -> base r sr g.
Proof. intros [A B C D E F G] E1 E2 E3 E4 E5. split; try congruence; rewrite ?E3, ?E5; assumption. Qed.
Lemma base_sizes r sr f : base r sr f ->
  0 <= beacon_length sr <= beacon_period sr /\ 0 < beacon_prepare sr < beacon_period sr /\ beacon_period sr < 2 ^ 31.
Proof.
  intros B. destruct (lut_rate_ok _ _ (b_lut _ _ _ B)) as (((R1 & R2) & (k & ->)) & _). unfold beacon_length, beacon_period, beacon_prepare. big.
  replace (k * 192000 / 1200)%N with (k * 160)%N by lia. replace (k * 192000 / 100)%N with (k * 1920)%N by lia.
  replace (k * 192000 / 500)%N with (k * 384)%N by lia. lia.
Qed.

Definition first_handle (r : role) : N := match r with FT => 0 | PT => handle_association end.
Definition low : Z := - 2 ^ 60.
(** Exactly one report waits, and it is the one the state expects. *)
Definition life (sr : N) (f : fw) (p : list report) : Prop :=
  match f_stage f with
  | First => exists t, p = [report_at t (first_handle (f_role f))] /\ - 2 ^ 59 <= t <= 2 ^ 59 /\ f_released f = false
  | Steady => exists t, p = [report_at t 0] /\ - 2 ^ 60 <= t <= 2 ^ 59 + 2 ^ 34 /\ f_released f = false /\
      (f_role f = FT -> t = fa_scheduled (f_ft f) - beacon_prepare sr)
  | Dissociation => exists t, p = [report_at t (handle_dissociation (f_role f))] /\ - 2 ^ 59 <= t <= 2 ^ 59 /\ f_released f = false /\ f_shut f = true
  | Nop => p = [] /\ f_released f = true /\ f_shut f = true
  end.
Definition follows (L P : Z) (l : list tx) : Prop :=
  forall i t, nth_error l i = Some t -> is_beacon t = false ->
  exists j m b, (j < i)%nat /\ nth_error l j = Some (Beacon_tx m b) /\ between_beacons L P b t.
Definition spaced (P B : Z) (l : list tx) : Prop := forall i t, nth_error (beacons l) i = Some t -> tx_begin t = B + Z.of_nat i * P.
Definition ft_part (sr : N) (f : fw) (l : list tx) : Prop :=
  (l = [] /\ f_earliest f = low /\ fa_transmitted (f_ft f) = 2 ^ 63 - 1 /\ (f_stage f = Steady -> - 2 ^ 59 <= fa_scheduled (f_ft f) <= 2 ^ 59 + 2 ^ 33)) \/
  (exists b B, fa_transmitted (f_ft f) = b /\ fa_scheduled (f_ft f) = b + beacon_period sr /\ - 2 ^ 59 <= b <= 2 ^ 58 + 2 ^ 32 /\
     low <= f_earliest f <= b + beacon_period sr /\ last_end (beacon_length sr) low l <= Z.max (f_earliest f) (b + beacon_length sr) /\
     spaced (beacon_period sr) B l /\ fa_scheduled (f_ft f) = B + Z.of_nat (length (beacons l)) * beacon_period sr /\
     (exists j m, nth_error l j = Some (Beacon_tx m b)) /\ follows (beacon_length sr) (beacon_period sr) l).
Definition pt_part (sr : N) (f : fw) (l : list tx) : Prop :=
  low <= f_earliest f <= 2 ^ 59 /\ last_end (beacon_length sr) low l = f_earliest f /\ beacons l = [].
Definition parts (r : role) (sr : N) (f : fw) (l : list tx) : Prop := match r with FT => ft_part sr f l | PT => pt_part sr f l end.

Record inv (r : role) (sr : N) (s : sys) : Prop := {
  i_base : base r sr (s_fw s);
  i_order : f_order (s_fw s) = Z.of_nat (length (s_txs s));
  i_chain : chain (beacon_length sr) 0 low (s_txs s);
  i_parts : parts r sr (s_fw s) (s_txs s);
  i_first : f_stage (s_fw s) = First -> s_txs s = [];
  i_life : if s_started s then life sr (s_fw s) (s_pending s)
           else f_stage (s_fw s) = First /\ s_pending s = [] /\ s_txs s = [] /\ f_released (s_fw s) = false }.

(** How an event may change the system. *)
Record moves (s s' : sys) : Prop := {
  m_role : f_role (s_fw s') = f_role (s_fw s);
  m_shut : f_shut (s_fw s) = true -> f_shut (s_fw s') = true;
  m_started : s_started s = true -> s_started s' = true;
  m_txs : exists t, s_txs s' = s_txs s ++ t /\ (f_stage (s_fw s) <> Steady -> t = []) /\ (f_shut (s_fw s) = true -> beacons t = []);
  m_stage : (f_stage (s_fw s') = f_stage (s_fw s) /\ (s_calls s' = s_calls s \/ (s_calls s' = S (s_calls s) /\ f_stage (s_fw s) = Steady /\ f_shut (s_fw s) = false))) \/
            (s_calls s' = S (s_calls s) /\ (rank (f_stage (s_fw s)) < rank (f_stage (s_fw s')))%nat /\
             (f_shut (s_fw s) = true -> S (left_over (f_stage (s_fw s'))) = left_over (f_stage (s_fw s)))) }.
Definition fails (s : sys) (e : ev) : Prop :=
  (step s e = Abort /\ (beacon_fails s e \/ beacon_in_future s e)) \/ (step s e = Oob /\ before_first_beacon s e).

(** *** Sequences *)
Lemma beacons_app l l' : beacons (l ++ l') = beacons l ++ beacons l'.
Proof. apply filter_app. Qed.
Lemma beacons_none l : Forall (fun t => is_beacon t = false) l -> beacons l = [].
Proof. unfold beacons. induction 1 as [|t l H F IH]; [reflexivity|]. cbn [filter]. rewrite H. exact IH. Qed.
Lemma nth_app {A} (l l' : list A) i x : nth_error (l ++ l') i = Some x ->
  nth_error l i = Some x \/ (length l <= i)%nat /\ nth_error l' (i - length l) = Some x.
Proof.
  intros E. destruct (Nat.lt_ge_cases i (length l)) as [K|K].
  - left. rewrite nth_error_app1 in E by auto. exact E.
  - right. rewrite nth_error_app2 in E by auto. auto.
Qed.
Lemma nth_front {A} (l l' : list A) i x : nth_error l i = Some x -> nth_error (l ++ l') i = Some x.
Proof. intros E. rewrite nth_error_app1; [exact E|]. apply nth_error_Some. congruence. Qed.
Lemma spaced_snoc P B l m : spaced P B l -> spaced P B (l ++ [Beacon_tx m (B + Z.of_nat (length (beacons l)) * P)]).
Proof.
  intros H i t E. rewrite beacons_app in E. apply nth_app in E. destruct E as [E|(K & E)]; [apply H; exact E|].
  cbn [beacons filter is_beacon] in E. destruct (i - length (beacons l))%nat as [|n] eqn:X; [|destruct n; discriminate].
  cbn in E. injection E as <-. cbn [tx_begin]. replace i with (length (beacons l)) by lia. reflexivity.
Qed.
Lemma spaced_more P B l l' : Forall (fun t => is_beacon t = false) l' -> spaced P B l -> spaced P B (l ++ l').
Proof. intros F H i t E. rewrite beacons_app, (beacons_none l' F), app_nil_r in E. apply H. exact E. Qed.
Lemma follows_snoc L P l m b : follows L P l -> follows L P (l ++ [Beacon_tx m b]).
Proof.
  intros H i t E N. apply nth_app in E. destruct E as [E|(K & E)].
  - destruct (H i t E N) as (j & m' & b' & J & E' & Bt). exists j, m', b'. split; [auto|]. split; [apply nth_front; exact E'|exact Bt].
  - destruct (i - length l)%nat as [|n]; [cbn in E; injection E as <-; discriminate|destruct n; discriminate].
Qed.
Lemma follows_more L P l l' j m b : nth_error l j = Some (Beacon_tx m b) -> Forall (between_beacons L P b) l' -> follows L P l -> follows L P (l ++ l').
Proof.
  intros J F H i t E N. apply nth_app in E. destruct E as [E|(K & E)].
  - destruct (H i t E N) as (j' & m' & b' & J' & E' & Bt). exists j', m', b'. split; [auto|]. split; [apply nth_front; exact E'|exact Bt].
  - assert (j < length l)%nat by (apply nth_error_Some; congruence). exists j, m, b. split; [lia|]. split; [apply nth_front; exact J|].
    rewrite Forall_forall in F. apply F. eapply nth_error_In; exact E.
Qed.

(** *** The calls *)
(** Unicast packets of an FT after its first beacon. *)
Lemma ft_unicasts sr f l i : base FT sr f -> near_inp i -> f_order f = Z.of_nat (length l) -> chain (beacon_length sr) 0 low l ->
  ft_part sr f l -> l <> [] ->
  exists g t, consecutive f i = Ok (g, t) /\ same_but_sent f g /\ f_order g = Z.of_nat (length (l ++ t)) /\
    chain (beacon_length sr) 0 low (l ++ t) /\ ft_part sr g (l ++ t) /\ beacons t = [].
Proof.
  intros B (Ck & _) O C [(K & _)|(b & Bb & T & S & Nb & Ea & La & Sp & Sc & (j & m & J) & Fo)] NE; [congruence|].
  pose proof (base_sizes FT sr f B) as (Z1 & Z2 & Z3). unfold consecutive. rewrite (b_role _ _ _ B). unfold low in *.
  pose proof (b_per _ _ _ B) as Per.
  destruct (ft_consecutive_spec (beacon_length sr) (fa_period (f_ft f)) b ltac:(lia) ltac:(lia) ltac:(big; lia) ltac:(big; lia) i max_tx Ck f 0%nat
    (b_contacts _ _ _ B) T ltac:(lia)) as (g & t & -> & (S1 & S2 & S3 & S4 & S5 & S6 & S7)).
  exists g, t. split; [reflexivity|]. split; [exact S1|]. rewrite app_length. split; [lia|].
  destruct (S3 (last_end (beacon_length sr) (- 2 ^ 60) l) La) as (X1 & X2). split.
  { apply chain_app. split; [exact C|]. rewrite O in X1. exact X1. }
  destruct (sbs_fields f g S1) as (_ & _ & _ & _ & _ & _ & F1 & F2). rewrite Per in *. split; [|apply beacons_none; exact S5].
  right. exists b, Bb. rewrite F1. split; [auto|]. split; [auto|]. split; [auto|]. unfold low. split; [specialize (S7 ltac:(lia)); lia|].
  split; [rewrite last_app; exact X2|]. split; [apply spaced_more; auto|]. split; [rewrite beacons_app, (beacons_none t S5), app_nil_r; exact Sc|].
  split; [exists j, m; apply nth_front; exact J|]. eapply follows_more; eauto.
Qed.
(** Unicast packets of a PT. *)
Lemma pt_unicasts sr f l i : base PT sr f -> near_inp i -> f_order f = Z.of_nat (length l) -> chain (beacon_length sr) 0 low l ->
  pt_part sr f l ->
  (exists k a, In a (f_contacts f) /\ clock i k < pa_beacon a /\ consecutive f i = Abort) \/
  exists g t, consecutive f i = Ok (g, t) /\ same_but_sent f g /\ f_order g = Z.of_nat (length (l ++ t)) /\
    chain (beacon_length sr) 0 low (l ++ t) /\ pt_part sr g (l ++ t) /\ beacons t = [].
Proof.
  intros B (Ck & _) O C (Ea & La & Be). unfold consecutive. rewrite (b_role _ _ _ B). unfold low in *.
  destruct (f_contacts f) as [|a ll] eqn:Cs; [destruct (b_ne _ _ _ B Cs)|].
  pose proof (b_contacts _ _ _ B) as Fc. pose proof (b_times _ _ _ B) as Ft. rewrite Cs in Fc, Ft. inversion Fc; inversion Ft; subst.
  destruct (pt_consecutive_spec (beacon_length sr) (fa_period (f_ft f)) i a ll max_tx Ck ltac:(assumption) ltac:(assumption) f 0%nat Cs Ea)
    as [(k & K & ->)|(g & t & -> & (S1 & S2 & S3 & S4 & S5 & S6 & S7))].
  - left. exists k, a. split; [now left|]. auto.
  - right. exists g, t. split; [reflexivity|]. split; [exact S1|]. rewrite app_length. split; [lia|]. split.
    { apply chain_app. split; [exact C|]. rewrite La, <- O. exact S3. }
    split; [|apply beacons_none; exact S7]. unfold pt_part, low. split; [lia|]. split; [rewrite last_app, La; exact S4|].
    rewrite beacons_app, Be, (beacons_none t S7). reflexivity.
Qed.
(** The parts do not depend on the mode and the stage, once something was sent. *)
Lemma parts_same r sr f g l : parts r sr f l -> f_ft g = f_ft f -> f_earliest g = f_earliest f ->
  (f_stage g = Steady -> f_stage f = Steady) -> parts r sr g l.
Proof.
  intros Pa E1 E2 St. destruct r; cbn [parts] in *.
  - unfold ft_part in *. rewrite E1, E2. destruct Pa as [(A & B & C & D)|Pa]; [left|right; exact Pa]. repeat split; auto; apply D; auto.
  - unfold pt_part in *. rewrite E2. exact Pa.
Qed.
