(** Invariants of the p2p firmware model. *)
From Verif Require Import Base IntHelpers IntHelpersSpec IntHelpersFacts Duration DurationSpec P21_Duration Allocation AllocationSpec
  AllocationFacts P24_Allocation P25_P2pPlan IrregularQueue P2p P2pSpec.
Open Scope Z_scope.

Ltac big :=
  change (2 ^ 58) with 288230376151711744 in *; change (2 ^ 59) with 576460752303423488 in *;
  change (2 ^ 60) with 1152921504606846976 in *; change (2 ^ 32) with 4294967296 in *; change (2 ^ 34) with 17179869184 in *;
  change (2 ^ 33) with 8589934592 in *; change (2 ^ 31) with 2147483648 in *; change (2 ^ 42) with 4398046511104 in *;
  change (2 ^ 32)%N with 4294967296%N in *; change (2 ^ 31)%N with 2147483648%N in *.

(** *** One transmit opportunity *)
(** The allocation of a contact. [L]: samples kept free for the beacon. *)
Record contact_ok (L : Z) (per : duration) (a : allocation_pt) : Prop := {
  co_reach : reachable a;
  co_period : pa_period a = per;
  co_turn : 0 <= pa_turnaround a <= 2 ^ 32;
  co_dl : Forall (fun r => L <= first r) (pa_dl a) }.

Lemma reachable_beacon a t : reachable a -> reachable (set_beacon_time_last_known a t).
Proof.
  intros (lut & p & v & w & tt & ops & A & B & C & D & E). exists lut, p, v, w, tt, (ops ++ [Beacon t]). do 3 (split; [assumption|]).
  split; [apply Forall_app; split; [exact D|repeat constructor]|]. revert E. generalize (allocation_pt_new lut p v w tt).
  induction ops as [|o ops IH]; intros b E; cbn [pt_run app] in *.
  - injection E as ->. reflexivity.
  - apply bind_ok_inv in E. destruct E as (c & C1 & C2). rewrite C1. cbn [bind]. apply IH; auto. now inversion D.
Qed.
Lemma contact_beacon L per a t : contact_ok L per a -> contact_ok L per (set_beacon_time_last_known a t).
Proof. intros [A B C D]. split; [apply reachable_beacon; exact A|exact B|exact C|exact D]. Qed.

(** A downlink opportunity lies between the beacon's end and the next beacon. *)
Lemma dl_opportunity L per a b now te : contact_ok L per a -> time_ok b -> time_ok now -> time_ok te ->
  exists o, get_tx_opportunity (set_beacon_time_last_known a b) dl now te = Ok o /\
    (o = no_opportunity \/
     te <= op_time o /\ b + L <= op_time o /\ 0 <= op_N o /\ op_time o + op_N o <= b + Z.of_N (du_N per)).
Proof.
  intros C B N T. pose proof (contact_beacon L per a b C) as [R P U D]. set (c := set_beacon_time_last_known a b) in *.
  destruct (C34_legal c dl now te R ltac:(discriminate)) as (_ & X); [repeat split; try assumption; try apply B; try apply N; try apply T; apply U|].
  destruct X as (o & E & O); [intros (K & _); discriminate|]. exists o. split; [exact E|].
  destruct O as [O|(r & I & (k & K0 & K) & Nn & _ & T1 & T2)]; [left; exact O|right].
  destruct (C35_never_overlap c R dl) as (F & _). rewrite Forall_forall in F, D. specialize (F r I). cbn [of_direction] in I. specialize (D r I).
  destruct F as ((F1 & F2) & F3). unfold limit in T2. cbn [c set_beacon_time_last_known pa_beacon] in *. rewrite P in *.
  assert (pa_beacon c = b) by reflexivity. unfold period in *. rewrite P in *. assert (k = 0) by nia. subst k. lia.
Qed.
Lemma ul_opportunity L per a now te : contact_ok L per a -> time_ok (pa_beacon a) -> time_ok now -> time_ok te ->
  (now < pa_beacon a /\ get_tx_opportunity a ul now te = Abort) \/
  exists o, get_tx_opportunity a ul now te = Ok o /\
    (o = no_opportunity \/ te <= op_time o /\ 0 <= op_N o < 2 ^ 32 /\ op_time o <= now + 2 ^ 32).
Proof.
  intros [R P U D] B N T.
  destruct (C34_legal a ul now te R ltac:(discriminate)) as (X & Y); [repeat split; try assumption; try apply B; try apply N; try apply T; apply U|].
  destruct (Z.lt_ge_cases now (pa_beacon a)) as [K|K]; [left; split; [exact K|apply X; auto]|right].
  destruct Y as (o & E & O); [intros (_ & Q); lia|]. exists o. split; [exact E|].
  destruct O as [O|(r & I & _ & Nn & _ & T1 & T2)]; [left; exact O|right].
  destruct (C35_never_overlap a R ul) as (F & _). rewrite Forall_forall in F. specialize (F r I). destruct F as ((F1 & F2) & F3).
  apply reachable_ok in R. destruct R as ((S & _) & _ & S3). unfold limit, period, small in *. big. lia.
Qed.

(** *** Sequences of packets *)
Fixpoint chain (L n e : Z) (l : list tx) : Prop :=
  match l with
  | [] => True
  | t :: l => tx_id t = n /\ e <= tx_begin t /\ tx_begin t <= tx_end L t /\ chain L (n + 1) (tx_end L t) l
  end.
Fixpoint last_end (L e : Z) (l : list tx) : Z :=
  match l with [] => e | t :: l => last_end L (tx_end L t) l end.
Lemma chain_app L l : forall n e l', chain L n e (l ++ l') <-> chain L n e l /\ chain L (n + Z.of_nat (length l)) (last_end L e l) l'.
Proof.
  induction l as [|t l IH]; intros n e l'; cbn [app chain last_end].
  - change (length (@nil tx)) with 0%nat. rewrite Z.add_0_r. tauto.
  - rewrite IH. change (length (t :: l)) with (S (length l)). replace (n + 1 + Z.of_nat (length l)) with (n + Z.of_nat (S (length l))) by lia. tauto.
Qed.
Lemma last_app L l : forall e l', last_end L e (l ++ l') = last_end L (last_end L e l) l'.
Proof. induction l as [|t l IH]; intros e l'; [reflexivity|]. cbn [app last_end]. apply IH. Qed.
Lemma last_mono L l : forall n e, chain L n e l -> e <= last_end L e l.
Proof.
  induction l as [|t l IH]; intros n e C; [cbn; lia|]. cbn [chain last_end] in *. destruct C as (_ & A & B & C). specialize (IH _ _ C). lia.
Qed.
Lemma chain_begin L l : forall n e, chain L n e l -> forall j u, nth_error l j = Some u -> tx_id u = n + Z.of_nat j /\ e <= tx_begin u /\ tx_begin u <= tx_end L u.
Proof.
  induction l as [|t l IH]; intros n e C j u E; [destruct j; discriminate|]. cbn [chain] in C. destruct C as (A & B & D & C).
  destruct j as [|j]; cbn [nth_error] in E; [injection E as <-; lia|]. destruct (IH _ _ C j u E). lia.
Qed.
Lemma chain_order L l : forall n e, chain L n e l -> forall i j t u, (i < j)%nat -> nth_error l i = Some t -> nth_error l j = Some u -> tx_end L t <= tx_begin u.
Proof.
  induction l as [|x l IH]; intros n e C i j t u Lt E F; [destruct i; discriminate|]. cbn [chain] in C. destruct C as (A & B & D & C).
  destruct j as [|j]; [lia|]. cbn [nth_error] in F. destruct i as [|i]; cbn [nth_error] in E.
  - injection E as <-. destruct (chain_begin L l _ _ C j u F) as (_ & K & _). exact K.
  - apply (IH _ _ C i j t u); auto. lia.
Qed.
Lemma chain_in_order L l e : chain L 0 e l -> in_order L l.
Proof.
  intros C. split.
  - intros i t E. destruct (chain_begin L l _ _ C i t E) as (K & _). lia.
  - intros i j t u. apply (chain_order L l _ _ C).
Qed.

(** *** Unicast packets of a call *)
(** Everything but the counters of the transmissions is the same. *)
Definition same_but_sent (f g : fw) : Prop := exists o e, g = with_sent f o e.
Lemma sbs_refl f : same_but_sent f f.
Proof. exists (f_order f), (f_earliest f). destruct f; reflexivity. Qed.
Lemma sbs_trans f g h : same_but_sent f g -> same_but_sent g h -> same_but_sent f h.
Proof. intros (o & e & ->) (o' & e' & ->). exists o', e'. reflexivity. Qed.
Lemma sbs_fields f g : same_but_sent f g ->
  f_role g = f_role f /\ f_lut g = f_lut f /\ f_stage g = f_stage f /\ f_shut g = f_shut f /\ f_released g = f_released f /\
  f_start g = f_start f /\ f_ft g = f_ft f /\ f_contacts g = f_contacts f.
Proof. intros (o & e & ->). repeat split. Qed.

(** Packets sent by an FT after the beacon at [b], the last packet before having ended at [E]. *)
Definition ft_sent (L P b : Z) (f g : fw) (l : list tx) : Prop :=
  same_but_sent f g /\ f_order g = f_order f + Z.of_nat (length l) /\
  (forall E, E <= Z.max (f_earliest f) (b + L) -> chain L (f_order f) E l /\ last_end L E l <= Z.max (f_earliest g) (b + L)) /\
  Forall (between_beacons L P b) l /\ Forall (fun t => is_beacon t = false) l /\
  (f_earliest f <= f_earliest g) /\ (f_earliest f <= b + P -> f_earliest g <= b + P).
Lemma ft_sent_nil L P b f : ft_sent L P b f f [].
Proof.
  split; [apply sbs_refl|]. split; [cbn; lia|]. split; [intros E K; cbn; split; [exact I|exact K]|].
  repeat split; try constructor; lia.
Qed.
Lemma ft_sent_app L P b f g h l l' : ft_sent L P b f g l -> ft_sent L P b g h l' -> ft_sent L P b f h (l ++ l').
Proof.
  intros (A1 & A2 & A3 & A4 & A5 & A6 & A7) (B1 & B2 & B3 & B4 & B5 & B6 & B7).
  split; [eapply sbs_trans; eauto|]. split; [rewrite app_length; lia|]. split.
  - intros E K. destruct (A3 E K) as (C1 & C2). rewrite chain_app, last_app, <- A2. destruct (B3 _ C2) as (D1 & D2). auto.
  - split; [apply Forall_app; auto|]. split; [apply Forall_app; auto|]. split; [lia|auto].
Qed.

Section Ft.
Context (L : Z) (per : duration) (b : Z).
Hypothesis Lnn : 0 <= L.
Hypothesis Lper : L <= Z.of_N (du_N per).
Hypothesis Bok : - 2 ^ 59 <= b <= 2 ^ 59.
Hypothesis Psmall : (du_N per < 2 ^ 32)%N.

Lemma ft_round_spec i l : (forall k, near (clock i k)) -> Forall (contact_ok L per) l ->
  forall f c k, fa_transmitted (f_ft f) = b -> - 2 ^ 60 <= f_earliest f <= b + Z.of_N (du_N per) ->
  exists g t go, ft_round f i c k l = Ok (g, t, go) /\ ft_sent L (Z.of_N (du_N per)) b f g t.
Proof using Lnn Lper Bok Psmall.
  intros Ck. induction l as [|a l IH]; intros F f c k Tr Ea; cbn [ft_round].
  - exists f, [], true. split; [reflexivity|apply ft_sent_nil].
  - inversion F as [|? ? Fa F']; subst x l0. rewrite Tr.
    destruct (dl_opportunity L per a b (clock i k) (f_earliest f) Fa) as (o & -> & O);
      [unfold time_ok; big; lia|specialize (Ck k); unfold time_ok, near in *; big; lia|unfold time_ok; big; lia|]. cbn [bind].
    destruct (Z.ltb_spec (op_time o) 0) as [N|N].
    { exists f, [], false. split; [reflexivity|apply ft_sent_nil]. }
    destruct O as [->|(O1 & O2 & O3 & O4)]; [cbn in N; lia|].
    unfold tx_unicast. destruct (sends i k).
    + unfold get_end. rewrite sgn_ok by (big; in64). cbn [bind].
      set (f1 := with_sent f (f_order f + 1) (op_time o + op_N o)).
      assert (S1 : ft_sent L (Z.of_N (du_N per)) b f f1 [Unicast_tx (f_order f) c o]).
      { split; [eexists; eexists; reflexivity|]. split; [cbn; lia|]. split.
        - intros E K. cbn [chain last_end tx_id tx_begin tx_end f1 with_sent f_earliest f_order]. lia.
        - split; [constructor; [|constructor]; split; cbn [tx_begin tx_end]; lia|]. split; [repeat constructor|].
          cbn [f1 with_sent f_earliest]. lia. }
      destruct (IH F' f1 (S c) (S k)) as (g & t & go & E & S2); [exact Tr|cbn [f1 with_sent f_earliest]; big; lia|]. rewrite E. cbn [bind].
      exists g, ([Unicast_tx (f_order f) c o] ++ t), go. split; [reflexivity|]. eapply ft_sent_app; eauto.
    + cbn [bind]. destruct (IH F' f (S c) (S k)) as (g & t & go & E & S2); [exact Tr|exact Ea|]. rewrite E. cbn [bind].
      exists g, t, go. split; [reflexivity|exact S2].
Qed.
Lemma ft_consecutive_spec i n : (forall k, near (clock i k)) ->
  forall f k, Forall (contact_ok L per) (f_contacts f) -> fa_transmitted (f_ft f) = b -> - 2 ^ 60 <= f_earliest f <= b + Z.of_N (du_N per) ->
  exists g t, ft_consecutive n f i k = Ok (g, t) /\ ft_sent L (Z.of_N (du_N per)) b f g t.
Proof using Lnn Lper Bok Psmall.
  intros Ck. induction n as [|n IH]; intros f k F Tr Ea; cbn [ft_consecutive].
  - exists f, []. split; [reflexivity|apply ft_sent_nil].
  - destruct (ft_round_spec i (f_contacts f) Ck F f 0%nat k Tr Ea) as (g & t & go & -> & S1). cbn [bind].
    destruct go; [|exists g, t; split; [reflexivity|exact S1]].
    pose proof S1 as (Sb & _ & _ & _ & _ & M1 & M2). destruct (sbs_fields f g Sb) as (_ & _ & _ & _ & _ & _ & E1 & E2).
    destruct (IH g (k + length (f_contacts g))%nat) as (h & t' & E & S2); [congruence|congruence|specialize (M2 ltac:(lia)); lia|].
    rewrite E. cbn [bind]. exists h, (t ++ t'). split; [reflexivity|]. eapply ft_sent_app; eauto.
Qed.
End Ft.

(** Packets sent by a PT, the last packet before having ended at [f_earliest f]. *)
Definition pt_sent (L : Z) (f g : fw) (l : list tx) : Prop :=
  same_but_sent f g /\ f_order g = f_order f + Z.of_nat (length l) /\
  chain L (f_order f) (f_earliest f) l /\ last_end L (f_earliest f) l = f_earliest g /\
  (f_earliest f <= 2 ^ 59 -> f_earliest g <= 2 ^ 59) /\ f_earliest f <= f_earliest g /\ Forall (fun t => is_beacon t = false) l.
Lemma pt_sent_nil L f : pt_sent L f f [].
Proof. split; [apply sbs_refl|]. split; [cbn; lia|]. cbn. repeat split; try lia; constructor. Qed.
Lemma pt_sent_app L f g h l l' : pt_sent L f g l -> pt_sent L g h l' -> pt_sent L f h (l ++ l').
Proof.
  intros (A1 & A2 & A3 & A4 & A5 & A6 & A7) (B1 & B2 & B3 & B4 & B5 & B6 & B7).
  split; [eapply sbs_trans; eauto|]. split; [rewrite app_length; lia|]. split.
  - rewrite chain_app, <- A2, A4. auto.
  - rewrite last_app, A4. split; [auto|]. split; [auto|]. split; [lia|]. apply Forall_app; auto.
Qed.
Lemma pt_consecutive_spec L per i a l n : (forall k, near (clock i k)) -> contact_ok L per a -> time_ok (pa_beacon a) ->
  forall f k, f_contacts f = a :: l -> - 2 ^ 60 <= f_earliest f <= 2 ^ 59 ->
  (exists k', clock i k' < pa_beacon a /\ pt_consecutive n f i k = Abort) \/
  exists g t, pt_consecutive n f i k = Ok (g, t) /\ pt_sent L f g t.
Proof.
  intros Ck Ca Bk. induction n as [|n IH]; intros f k C Ea; cbn [pt_consecutive].
  - right. exists f, []. split; [reflexivity|apply pt_sent_nil].
  - rewrite C. pose proof (Ck k) as Nk. unfold near in Nk.
    destruct (ul_opportunity L per a (clock i k) (f_earliest f) Ca Bk) as [(K & ->)|(o & -> & O)];
      [unfold time_ok; big; lia|unfold time_ok; big; lia|left; exists k; split; [exact K|reflexivity]|]. cbn [bind].
    destruct (Z.ltb_spec (op_time o) 0) as [N|N].
    { right. exists f, []. split; [reflexivity|apply pt_sent_nil]. }
    destruct O as [->|(O1 & O2 & O3)]; [cbn in N; lia|].
    unfold tx_unicast. destruct (sends i k).
    + unfold get_end. rewrite sgn_ok by (big; in64). cbn [bind].
      set (f1 := with_sent f (f_order f + 1) (op_time o + op_N o)).
      assert (S1 : pt_sent L f f1 [Unicast_tx (f_order f) 0 o]).
      { split; [eexists; eexists; reflexivity|]. split; [cbn; lia|].
        cbn [chain last_end tx_id tx_begin tx_end f1 with_sent f_earliest f_order].
        split; [split; [reflexivity|split; [lia|split; [lia|exact I]]]|]. split; [reflexivity|]. split; [big; lia|]. split; [lia|repeat constructor]. }
      destruct (IH f1 (S k)) as [(k' & K & ->)|(g & t & -> & S2)]; [exact C|cbn [f1 with_sent f_earliest]; big; lia| |].
      * left. exists k'. split; [exact K|reflexivity].
      * right. cbn [bind]. exists g, ([Unicast_tx (f_order f) 0 o] ++ t). split; [reflexivity|]. eapply pt_sent_app; eauto.
    + cbn [bind]. right. exists f, []. split; [reflexivity|apply pt_sent_nil].
Qed.
