(** C65: the gain tables of the radios. *)
From Verif Require Import Base GainLut GainLutSpec GainLutFacts.
From Coq Require Import QArith Qabs Lqa Lia.
Open Scope Q_scope.

(** Every shipped table is complete, and both step widths are 1 dB. *)
Theorem C65_tables : forall t, In t [simulator; n310; n320; x410; b210] -> complete_table t /\ t_step t == 1.
Proof. exact tables_complete. Qed.

(** Whatever is looked for in a row is found, capped to the ends, at a point between two neighbours. *)
Theorem C65_search : forall row value, searchable row ->
  exists i w, get_interpolation_points row value = Ok (mkPoints i (S i) w (1 - w)) /\ finds row value i w.
Proof. exact points_ok. Qed.
Example C65_search_nonvacuous : searchable (row [-425; -405; -375]%Z).
Proof. split; [cbn; lia|vm_compute; discriminate]. Qed.

(** For every wanted power and every frequency there is an answer, without reading outside the tables. The gain is a multiple
    of the step and within half a step of the gain at the points found; the power is the capped one, corrected by the rounding
    of the gain. *)
Theorem C65_achievable : forall freqs gains powers step power freq,
  complete freqs gains powers -> 0 < step ->
  exists i w jl wl jr wr pw g,
    finds freqs freq i w /\ finds (nth i powers []) power jl wl /\ finds (nth (S i) powers []) power jr wr /\
    achievable freqs gains powers step power freq = Ok (pw, g) /\
    (exists n : Z, g = inject_Z n * step) /\
    let gain := w * at_point (nth i gains []) jl wl + (1 - w) * at_point (nth (S i) gains []) jr wr in
    Qabs (g - gain) <= step / 2 /\
    pw == w * at_point (nth i powers []) jl wl + (1 - w) * at_point (nth (S i) powers []) jr wr + (g - gain).
Proof. exact achievable_ok. Qed.

Lemma closest_range l v c : searchable l -> is_closest l v c -> nth 0 l 0 <= v <= nth (length l - 1) l 0 -> c == v.
Proof. intros [_ H] C R. unfold is_closest in C. lra. Qed.

(** A power every row can give is reported to within half a step. *)
Theorem C65_power : forall t x power freq, complete_table t -> 0 < t_step t ->
  (forall r, In r (powers_of t x) -> nth 0 r 0 <= power <= nth (length r - 1) r 0) ->
  exists pw g, lut t x power freq = Ok (pw, g) /\ Qabs (pw - power) <= t_step t / 2.
Proof.
  intros t x power freq C Hs R.
  destruct (achievable_ok _ _ _ _ power freq (C x) Hs) as (i & w & jl & wl & jr & wr & pw & g & F & Fl & Fr & E & _ & G & P).
  destruct (C x) as (_ & Lp & _ & Rows). pose proof (proj1 (proj1 F)) as Li.
  exists pw, g. split; [destruct x; exact E|].
  assert (Ll : (i < length (t_freqs t))%nat) by lia.
  assert (Kl : (i < length (powers_of t x))%nat) by lia. assert (Kr : (S i < length (powers_of t x))%nat) by lia.
  assert (El := closest_range _ _ _ (proj1 (Rows i Ll)) (proj1 (proj2 Fl)) (R _ (nth_In _ _ Kl))).
  assert (Er := closest_range _ _ _ (proj1 (Rows (S i) Li)) (proj1 (proj2 Fr)) (R _ (nth_In _ _ Kr))).
  cbv zeta in G, P. rewrite P, El, Er. set (gain := w * _ + (1 - w) * at_point (nth (S i) (gains_of t x) []) jr wr) in *.
  setoid_replace (w * power + (1 - w) * power + (g - gain) - power) with (g - gain) by ring. exact G.
Qed.
Example C65_power_nonvacuous :
  (forall r, In r (powers_of n310 TX) -> nth 0 r 0 <= (-5 # 2) <= nth (length r - 1) r 0) /\
  exists pw g, lut n310 TX (-5 # 2) 3830 = Ok (pw, g) /\ g == 36 /\ pw == -1329 # 560.
Proof.
  split.
  - intros r H. assert (B : forallb (fun r => Qle_bool (nth 0 r 0) (-5 # 2) && Qle_bool (-5 # 2) (nth (length r - 1) r 0)) (powers_of n310 TX) = true)
      by (vm_compute; reflexivity).
    rewrite forallb_forall in B. apply B in H. apply andb_prop in H. destruct H as [H K]. split; apply Qle_bool_iff; assumption.
  - eexists _, _. split; [vm_compute; reflexivity|]. split; vm_compute; reflexivity.
Qed.

(** Where one dB of gain is one dB of transmit power, the reported power is the power of the gain, to the last digit. *)
Theorem C65_transmitter : forall freqs gains powers step power freq c,
  complete freqs gains powers -> 0 < step -> transmitter freqs gains powers c ->
  exists i w pw g, finds freqs freq i w /\ achievable freqs gains powers step power freq = Ok (pw, g) /\
    pw == w * c i + (1 - w) * c (S i) + g.
Proof.
  intros freqs gains powers step power freq c C Hs T.
  destruct (achievable_ok _ _ _ _ power freq C Hs) as (i & w & jl & wl & jr & wr & pw & g & F & Fl & Fr & E & _ & _ & P).
  pose proof (proj1 (proj1 F)) as Li. pose proof (proj1 (proj1 Fl)) as Ll. pose proof (proj1 (proj1 Fr)) as Lr.
  exists i, w, pw, g. split; [exact F|]. split; [exact E|]. cbv zeta in P. rewrite P. unfold at_point.
  rewrite (T i jl) by lia. rewrite (T i (S jl)) by lia. rewrite (T (S i) jr) by lia. rewrite (T (S i) (S jr)) by lia. ring.
Qed.
Theorem C65_simulator_tx : forall power freq, exists pw g, lut simulator TX power freq = Ok (pw, g) /\ pw == g - 40.
Proof.
  intros power freq. destruct (C65_tables simulator ltac:(left; reflexivity)) as [C _].
  destruct (C65_transmitter _ _ _ 1 power freq (fun _ => -40) (C TX) ltac:(lra)) as (i & w & pw & g & _ & E & P).
  - intros [|[|i]] [|[|j]] Hi Hj; cbn in Hi, Hj; try lia; vm_compute; reflexivity.
  - exists pw, g. split; [exact E|]. rewrite P. ring.
Qed.

(** Where one dB of gain lowers the power at full scale by one dB, as on the receive side of the simulator, N310, N320 and B210, the power of the gain is
    [c - g]. The reported one differs from it by twice the rounding of the gain: the correction has the wrong sign. *)
Theorem C65_receiver : forall freqs gains powers step power freq c,
  complete freqs gains powers -> 0 < step -> receiver freqs gains powers c ->
  exists i w jl wl jr wr pw g, finds freqs freq i w /\ finds (nth i powers []) power jl wl /\ finds (nth (S i) powers []) power jr wr /\
    achievable freqs gains powers step power freq = Ok (pw, g) /\
    let gain := w * at_point (nth i gains []) jl wl + (1 - w) * at_point (nth (S i) gains []) jr wr in
    pw - (w * c i + (1 - w) * c (S i) - g) == 2 * (g - gain).
Proof.
  intros freqs gains powers step power freq c C Hs T.
  destruct (achievable_ok _ _ _ _ power freq C Hs) as (i & w & jl & wl & jr & wr & pw & g & F & Fl & Fr & E & _ & _ & P).
  pose proof (proj1 (proj1 F)) as Li. pose proof (proj1 (proj1 Fl)) as Ll. pose proof (proj1 (proj1 Fr)) as Lr.
  exists i, w, jl, wl, jr, wr, pw, g. split; [exact F|]. split; [exact Fl|]. split; [exact Fr|]. split; [exact E|].
  cbv zeta in P |- *. rewrite P. unfold at_point.
  rewrite (T i jl) by lia. rewrite (T i (S jl)) by lia. rewrite (T (S i) jr) by lia. rewrite (T (S i) (S jr)) by lia. ring.
Qed.
Definition full_scale (t : table) (i : nat) : Q := nth 0 (nth i (t_powers_rx t) []) 0 + nth 0 (nth i (t_gains_rx t) []) 0.
Theorem C65_receivers : forall t, In t [simulator; n310; n320; b210] ->
  receiver (t_freqs t) (t_gains_rx t) (t_powers_rx t) (full_scale t).
Proof.
  intros t H. cbn [In] in H.
  assert (B : forallb (fun i => forallb (fun j => Qeq_bool (nth j (nth i (t_powers_rx t) []) 0) (full_scale t i - nth j (nth i (t_gains_rx t) []) 0))
      (seq 0 (length (nth i (t_powers_rx t) [])))) (seq 0 (length (t_freqs t))) = true)
    by (destruct H as [<-|[<-|[<-|[<-|[]]]]]; vm_compute; reflexivity).
  intros i j Hi Hj. rewrite forallb_forall in B. specialize (B i ltac:(apply in_seq; lia)). cbv beta in B.
  rewrite forallb_forall in B. specialize (B j ltac:(apply in_seq; lia)). apply Qeq_bool_iff in B. exact B.
Qed.
Theorem C65_simulator_rx : forall power freq, -60 <= power <= 10 ->
  exists pw g, lut simulator RX power freq = Ok (pw, g) /\ Qabs (g - (10 - power)) <= 1 # 2 /\
    pw - (10 - g) == 2 * (g - (10 - power)).
Proof.
  intros power freq R. destruct (C65_tables simulator ltac:(left; reflexivity)) as [C _].
  destruct (achievable_ok _ _ _ 1 power freq (C RX) ltac:(lra)) as (i & w & jl & wl & jr & wr & pw & g & F & Fl & Fr & E & _ & G & P).
  pose proof (proj1 (proj1 F)) as Li. cbn in Li. assert (i = 0%nat) by lia. subst i.
  exists pw, g. split; [exact E|]. cbv zeta in G, P.
  pose proof (proj1 (proj1 Fl)) as Ll. pose proof (proj1 (proj1 Fr)) as Lr. cbn in Ll, Lr.
  assert (jl = 0%nat) by lia. assert (jr = 0%nat) by lia. subst jl jr.
  assert (El := closest_range (row [-600; 100]%Z) _ _ ltac:(split; [cbn; lia|vm_compute; discriminate]) (proj1 (proj2 Fl)) ltac:(cbn; lra)).
  assert (Er := closest_range (row [-600; 100]%Z) _ _ ltac:(split; [cbn; lia|vm_compute; discriminate]) (proj1 (proj2 Fr)) ltac:(cbn; lra)).
  cbn [nth powers_of simulator t_powers_rx] in El, Er. unfold at_point, row in El, Er. cbn [map nth] in El, Er.
  assert (El' : wl * 70 == 10 - power) by (clear - El; lra). assert (Er' : wr * 70 == 10 - power) by (clear - Er; lra).
  assert (Gn : w * at_point (nth 0 (gains_of simulator RX) []) 0 wl + (1 - w) * at_point (nth 1 (gains_of simulator RX) []) 0 wr == 10 - power).
  { cbn [nth gains_of simulator t_gains_rx]. unfold at_point, row. cbn [map nth].
    setoid_replace (w * (wl * (700 # 10) + (1 - wl) * (0 # 10)) + (1 - w) * (wr * (700 # 10) + (1 - wr) * (0 # 10)))
      with (w * (wl * 70) + (1 - w) * (wr * 70)) by ring. rewrite El', Er'. ring. }
  assert (Pn : w * at_point (nth 0 (powers_of simulator RX) []) 0 wl + (1 - w) * at_point (nth 1 (powers_of simulator RX) []) 0 wr == power).
  { cbn [nth powers_of simulator t_powers_rx]. unfold at_point, row. cbn [map nth]. rewrite El, Er. ring. }
  rewrite Gn in G, P. rewrite Pn in P. split; [setoid_replace (1 # 2) with (1 / 2) by reflexivity; exact G|]. rewrite P. ring.
Qed.
(** "The power that is reported for a receiver is the one of its gain" is false: here by one dB. *)
Theorem C65_receiver_refuted : exists pw g, lut simulator RX (-1 # 2) 3830 = Ok (pw, g) /\ g == 11 /\ pw == 0 /\ ~ pw == 10 - g.
Proof.
  eexists _, _. split; [vm_compute; reflexivity|]. split; [vm_compute; reflexivity|]. split; [vm_compute; reflexivity|].
  vm_compute. discriminate.
Qed.

(** ** The radio *)
(** No sequence of commands fails. Power and gain always come from the same entry of the table, at a frequency that
    has been used; before the first change the power reads zero. *)
Theorem C65_radio : forall t x cs, complete_table t -> 0 < t_step t ->
  exists d, commands t x created cs = Ok d /\ tuned cs (d_freq d) /\
  (d_power d = 0 /\ d_gain d = None \/
   exists p f g, tuned cs f /\ lut t x p f = Ok (d_power d, g) /\ d_gain d = Some g).
Proof.
  intros t x cs C Hs. exact (commands_inv t x C Hs cs [] created (or_introl eq_refl) (or_introl (conj eq_refl eq_refl))).
Qed.
(** After a power has been set, the reported one is less than a step from what can be achieved; the gain is written
    exactly when the power changes by a step or more. *)
Theorem C65_set : forall t x d p, complete_table t -> 0 < t_step t ->
  exists d' pw g, command t x d (Set_ p) = Ok d' /\ lut t x p (d_freq d) = Ok (pw, g) /\ d_freq d' = d_freq d /\
    Qabs (pw - d_power d') < t_step t /\
    (Qabs (pw - d_power d) < t_step t -> d' = d) /\
    (t_step t <= Qabs (pw - d_power d) -> d_power d' = pw /\ d_gain d' = Some g).
Proof.
  intros t x d p C Hs. destruct (set_power_ok t x d p C Hs) as (d' & [pw g] & E & L & F & H). cbn [fst snd] in H.
  exists d', pw, g. split; [exact E|]. split; [exact L|]. split; [exact F|].
  destruct H as [[H ->]|(H & A & B)].
  - split; [exact H|]. split; [reflexivity|]. intros K. destruct (Qlt_not_le _ _ H K).
  - split; [rewrite A; setoid_replace (pw - pw) with 0 by ring; exact Hs|]. split; [intros K; destruct (Qlt_not_le _ _ K H)|]. intros _. split; assumption.
Qed.
Theorem C65_set_range : forall t x d p, complete_table t -> 0 < t_step t ->
  (forall r, In r (powers_of t x) -> nth 0 r 0 <= p <= nth (length r - 1) r 0) ->
  exists d', command t x d (Set_ p) = Ok d' /\ Qabs (d_power d' - p) < (3 # 2) * t_step t.
Proof.
  intros t x d p C Hs R. destruct (C65_set t x d p C Hs) as (d' & pw & g & E & L & _ & H & _).
  destruct (C65_power t x p (d_freq d) C Hs R) as (pw' & g' & L' & H'). rewrite L in L'. injection L' as <- <-.
  exists d'. split; [exact E|]. apply Qabs_Qle_condition in H'. apply Qabs_Qlt_condition in H. apply Qabs_Qlt_condition.
  assert (Eh : t_step t / 2 == (1 # 2) * t_step t) by field. rewrite Eh in H'. clear - H H'. split; lra.
Qed.
(** Initialization writes a gain in both directions: the lowest of the first frequency. *)
Theorem C65_initialized : forall t x, In t [n310; n320; x410; b210] ->
  exists d g, initialized t x = Ok d /\ d_gain d = Some g /\
    g == match x with TX => nth 0 (nth 0 (t_gains_tx t) []) 0 | RX => 0 end.
Proof.
  intros t x H. cbn [In] in H. destruct H as [<-|[<-|[<-|[<-|[]]]]], x; eexists _, _; (split; [vm_compute; reflexivity|]);
    (split; [reflexivity|vm_compute; reflexivity]).
Qed.

(** "An adjustment by one step takes effect" is false: on a B210 at 1 GHz that transmits with 6 dBm, raising the power by
    1 dB does nothing, however often it is asked for. *)
Theorem C65_adjust_refuted : exists d g, commands b210 TX created [Set_ (-1000); Tune 1000; Set_ 6] = Ok d /\ d_power d == 6 /\
  d_gain d = Some g /\ g == 75 /\ forall n, commands b210 TX d (repeat (Adjust 1) n) = Ok d.
Proof.
  eexists _, _. split; [vm_compute; reflexivity|]. split; [vm_compute; reflexivity|]. split; [reflexivity|].
  split; [vm_compute; reflexivity|].
  match goal with |- forall n, commands _ _ ?d _ = _ => assert (E : command b210 TX d (Adjust 1) = Ok d) by (vm_compute; reflexivity) end.
  induction n as [|n IH]; [reflexivity|]. cbn [repeat commands]. rewrite E. cbn [bind]. exact IH.
Qed.
(** "After a power has been set, the gain is the one for it" is false: an initialized N310 is tuned to 4 GHz and set to -32 dBm. It
    reports -32 dBm, but the gain stays at 0 dB; -32 dBm need 10 dB. *)
Theorem C65_retune_refuted : exists d g pw g',
  commands n310 TX created [Set_ (-1000); Tune 4000; Set_ (-32)] = Ok d /\ d_power d == -32 /\ d_gain d = Some g /\ g == 0 /\
  lut n310 TX (-32) 4000 = Ok (pw, g') /\ pw == -32 /\ g' == 10.
Proof.
  eexists _, _, _, _. split; [vm_compute; reflexivity|]. split; [vm_compute; reflexivity|]. split; [reflexivity|].
  split; [vm_compute; reflexivity|]. split; [vm_compute; reflexivity|]. split; vm_compute; reflexivity.
Qed.
(** "The powers of a row are strictly ascending" is false of three of the tables. *)
Theorem C65_ascending_refuted : forall t, In t [n320; x410; b210] -> exists r, In r (t_powers_tx t) /\ ~ ascending r.
Proof.
  intros t H. cbn [In] in H. destruct H as [<-|[<-|[<-|[]]]].
  - exists (nth 1 (t_powers_tx n320) []). split; [apply nth_In; cbn; lia|]. intros A. specialize (A 9%nat ltac:(cbn; lia)). vm_compute in A. discriminate.
  - exists (nth 10 (t_powers_tx x410) []). split; [apply nth_In; cbn; lia|]. intros A. specialize (A 0%nat ltac:(cbn; lia)). vm_compute in A. discriminate.
  - exists (nth 1 (t_powers_tx b210) []). split; [apply nth_In; cbn; lia|]. intros A. specialize (A 10%nat ltac:(cbn; lia)). vm_compute in A. discriminate.
Qed.
(** It matters: a hundredth of a dB more on an N320 at 1 GHz is eight dB more gain. *)
Theorem C65_jump_refuted : exists a g b h, lut n320 TX (1499 # 100) 1000 = Ok (a, g) /\ lut n320 TX 15 1000 = Ok (b, h) /\ g == 45 /\ h == 53.
Proof.
  eexists _, _, _, _. split; [vm_compute; reflexivity|]. split; [vm_compute; reflexivity|]. split; vm_compute; reflexivity.
Qed.

Print Assumptions C65_tables. Print Assumptions C65_search. Print Assumptions C65_achievable. Print Assumptions C65_power.
Print Assumptions C65_transmitter. Print Assumptions C65_simulator_tx. Print Assumptions C65_receiver. Print Assumptions C65_receivers.
Print Assumptions C65_simulator_rx. Print Assumptions C65_receiver_refuted. Print Assumptions C65_radio. Print Assumptions C65_set.
Print Assumptions C65_set_range. Print Assumptions C65_initialized. Print Assumptions C65_adjust_refuted.
Print Assumptions C65_retune_refuted. Print Assumptions C65_ascending_refuted. Print Assumptions C65_jump_refuted.
