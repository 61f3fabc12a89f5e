(** C60: the p2p firmware sends packets in order, always has exactly one callback waiting, and answers a stop request. *)
From Verif Require Import Base IntHelpers IntHelpersFacts Duration DurationSpec P21_Duration Allocation AllocationFacts IrregularQueue P2p P2pSpec P2pFacts P2pInvFacts P2pStepFacts.
Open Scope Z_scope.

(** Packets are numbered without gaps and never overlap. Beacons of an FT are exactly one period apart, and every other
    packet lies between the end of a beacon handed over before it and the next beacon. A PT sends no beacons. *)
Theorem C60_in_order : forall r sr s, reached r sr s ->
  let l := s_txs s in
  in_order (beacon_length sr) l /\
  (r = FT -> periodic (beacon_period sr) l /\
     forall i t, nth_error l i = Some t -> is_beacon t = false ->
     exists j m b, (j < i)%nat /\ nth_error l j = Some (Beacon_tx m b) /\ between_beacons (beacon_length sr) (beacon_period sr) b t) /\
  (r = PT -> beacons l = []).
Proof.
  intros r sr s H l. apply reached_inv in H. destruct H as [B O C Pa Fi Li]. split; [eapply chain_in_order; exact C|]. split; intros ->; cbn [parts] in Pa.
  - destruct Pa as [(E & _)|(b & Bb & _ & _ & _ & _ & _ & Sp & _ & _ & Fo)].
    + unfold l. rewrite E. split; [exists 0; intros [|]; discriminate|intros [|]; discriminate].
    + split; [exists Bb; exact Sp|exact Fo].
  - apply Pa.
Qed.

(** Once started and until the end, exactly one callback waits, with a finite time, and it is called once that time has
    come. In the steady state of an FT that is the preparation time before the next beacon is due. *)
Theorem C60_one_callback : forall r sr s, reached r sr s -> s_started s = true ->
  (f_stage (s_fw s) <> Nop -> exists p, s_pending s = [p] /\ has_finite_time p = true /\
     (forall rec, call_after p <= rec -> calls_back s 0 rec = Some p) /\
     (r = FT -> f_stage (s_fw s) = Steady -> call_after p = fa_scheduled (f_ft (s_fw s)) - beacon_prepare sr)) /\
  (f_stage (s_fw s) = Nop -> s_pending s = []).
Proof.
  intros r sr s H St. apply reached_inv in H. destruct H as [B O C Pa Fi Li]. rewrite St in Li. unfold life in Li.
  assert (Cb : forall p, s_pending s = [p] -> forall rec, call_after p <= rec -> calls_back s 0 rec = Some p).
  { intros p P rec K. unfold calls_back. rewrite St, P. cbn [nth_error]. replace (call_after p <=? rec) with true by lia. reflexivity. }
  pose proof (b_role _ _ _ B) as Ro. destruct (f_stage (s_fw s)).
  - destruct Li as (t & P & T & _). split; [|discriminate]. intros _. eexists. split; [exact P|]. split; [apply finite; big; lia|]. split; [apply Cb; exact P|discriminate].
  - destruct Li as (t & P & T & _ & Tf). split; [|discriminate]. intros _. eexists. split; [exact P|]. split; [apply finite; big; lia|]. split; [apply Cb; exact P|].
    intros -> _. apply Tf, Ro.
  - destruct Li as (t & P & T & _). split; [|discriminate]. intros _. eexists. split; [exact P|]. split; [apply finite; big; lia|]. split; [apply Cb; exact P|discriminate].
  - split; [congruence|]. intros _. apply Li.
Qed.

(** A stop request is answered by exactly the second (from the dissociation on: the next) irregular call after it,
    whatever else happens in between. By C60_one_callback such a call is always pending until then. *)
Theorem C60_stop_answered : forall r sr s es s', reached r sr s -> f_shut (s_fw s) = true ->
  Forall near_ev es -> Forall delivered es -> run s es = Ok s' ->
  (s_calls s' <= s_calls s + left_over (f_stage (s_fw s)))%nat /\
  (f_released (s_fw s') = true <-> s_calls s' = (s_calls s + left_over (f_stage (s_fw s)))%nat) /\
  (f_released (s_fw s') = false -> s_started s' = true -> exists p, s_pending s' = [p] /\ has_finite_time p = true).
Proof.
  intros r sr s es s' H Sh N D E. pose proof H as I. apply reached_inv in I. destruct (run_stop r sr es s s' I Sh N D E) as (Sh' & Le & _).
  pose proof (run_inv r sr es s s' I N D E) as I'. pose proof (i_life _ _ _ I') as Li. split; [lia|].
  assert (Rl : (f_released (s_fw s') = true <-> f_stage (s_fw s') = Nop) /\ (f_released (s_fw s') = false -> s_started s' = true -> exists p, s_pending s' = [p] /\ has_finite_time p = true)).
  { destruct (s_started s').
    - unfold life in Li. destruct (f_stage (s_fw s')).
      + destruct Li as (t & P & T & R). rewrite R. split; [split; discriminate|]. intros _ _. eexists. split; [exact P|]. apply finite. big. lia.
      + destruct Li as (t & P & T & R & _). rewrite R. split; [split; discriminate|]. intros _ _. eexists. split; [exact P|]. apply finite. big. lia.
      + destruct Li as (t & P & T & R & _). rewrite R. split; [split; discriminate|]. intros _ _. eexists. split; [exact P|]. apply finite. big. lia.
      + destruct Li as (P & R & _). rewrite R. split; [tauto|discriminate].
    - destruct Li as (G & _ & _ & R). rewrite R, G. split; [split; discriminate|discriminate]. }
  destruct Rl as (Rl & Pe). split; [|exact Pe]. rewrite Rl. split; [intros K; rewrite K in Le; cbn [left_over] in *; lia|].
  destruct (f_stage (s_fw s')); cbn [left_over] in *; try lia; auto.
Qed.
(** It is never answered without being asked, the stages are only gone through forwards, no beacon is sent after the
    request, and nothing at all after the steady state. *)
Theorem C60_orderly : forall r sr s es s', reached r sr s -> Forall near_ev es -> Forall delivered es -> run s es = Ok s' ->
  (f_released (s_fw s') = true -> f_shut (s_fw s') = true /\ f_stage (s_fw s') = Nop) /\
  (f_stage (s_fw s') = Dissociation -> f_shut (s_fw s') = true) /\
  (rank (f_stage (s_fw s)) <= rank (f_stage (s_fw s')))%nat /\
  (f_shut (s_fw s) = true -> exists t, s_txs s' = s_txs s ++ t /\ beacons t = []) /\
  (f_stage (s_fw s) = Dissociation \/ f_stage (s_fw s) = Nop -> s_txs s' = s_txs s) /\
  (f_stage (s_fw s') = First -> s_txs s' = []).
Proof.
  intros r sr s es s' H N D E. apply reached_inv in H. pose proof (run_inv r sr es s s' H N D E) as I'. pose proof (i_life _ _ _ I') as Li.
  split; [|split; [|split; [|split; [|split]]]].
  - intros R. destruct (s_started s'); [|destruct Li as (_ & _ & _ & K); congruence]. unfold life in Li.
    destruct (f_stage (s_fw s')); [destruct Li as (? & _ & _ & K); congruence|destruct Li as (? & _ & _ & K & _); congruence|destruct Li as (? & _ & _ & K & _); congruence|].
    split; [apply Li|reflexivity].
  - intros G. destruct (s_started s'); [|destruct Li as (K & _); congruence]. unfold life in Li. rewrite G in Li. destruct Li as (? & _ & _ & _ & K). exact K.
  - eapply run_rank; eauto.
  - intros Sh. destruct (run_stop r sr es s s' H Sh N D E) as (_ & _ & K). exact K.
  - intros G. eapply run_quiet; eauto. destruct G as [-> | ->]; cbn; lia.
  - apply (i_first _ _ _ I').
Qed.

(** A call fails only in three ways. *)
Theorem C60_fails_only : forall r sr s e, reached r sr s -> near_ev e -> delivered e ->
  (exists s', step s e = Ok s') \/ (step s e = Abort /\ (beacon_fails s e \/ beacon_in_future s e)) \/ (step s e = Oob /\ before_first_beacon s e).
Proof.
  intros r sr s e H N D. apply reached_inv in H. destruct (step_inv r sr s e H N D) as [(s' & E & _)|[F|F]]; eauto.
Qed.
(** A beacon without a free HARQ process, or recognised exactly on time, does end the program. *)
Theorem C60_beacon_aborts : forall r sr s e, reached r sr s -> near_ev e -> beacon_fails s e -> step s e = Abort.
Proof.
  intros r sr s e H N (n & rec & i & p & -> & Cb & Ro & Sg & Sh & F). apply reached_inv in H. destruct H as [B O C Pa Fi Li].
  assert (St : s_started s = true) by (unfold calls_back in Cb; destruct (s_started s); [reflexivity|discriminate]).
  pose proof (b_role _ _ _ B) as Rr. assert (r = FT) as -> by congruence.
  rewrite St in Li. unfold life in Li. rewrite Sg in Li. destruct Li as (t & Pe & T & _ & Tf). specialize (Tf Ro).
  destruct (calls_one s n rec p Cb _ Pe) as (-> & -> & Du & _). cbn [report_at call_after] in *. pose proof (base_sizes FT sr _ B) as (Z1 & Z2 & Z3).
  cbn [step]. rewrite Cb. unfold work_irregular. rewrite Sg, Ro, Sh. cbn [report_at call_after]. replace (t <? fa_scheduled (f_ft (s_fw s))) with true by lia.
  cbn [guard]. destruct N as (Nr & _). unfold near in Nr. rewrite sgn_ok by (big; in64). cbn [bind]. destruct (Z.ltb_spec 0 (rec - t)); [|reflexivity]. cbn [guard].
  destruct F as [F|F]; [lia|]. unfold tx_beacon. rewrite F. reflexivity.
Qed.
(** Data that reach an FT before its first beacon make it add a period to the largest time: undefined behaviour. *)
Theorem C60_data_before_beacon : forall r sr s e, reached r sr s -> near_ev e -> before_first_beacon s e -> step s e = Oob.
Proof.
  intros r sr s e H N (i & -> & Ro & Sg & Tx). apply reached_inv in H. pose proof (b_role _ _ _ (i_base _ _ _ H)) as Rr. assert (r = FT) as -> by congruence.
  assert (St : s_started s = true).
  { pose proof (i_life _ _ _ H) as Li. destruct (s_started s); [reflexivity|]. destruct Li as (K & _). congruence. }
  cbn [step]. rewrite St. unfold work_application. rewrite Sg, (unicasts_ft_empty sr s i H N Sg Tx). reflexivity.
Qed.

(** *** Concrete histories *)
(** All readings of the clock give [t], only the first unicast packet finds data. *)
Definition calm (t : Z) : inp := mkInp (fun _ => t) (fun k => (k =? 0)%nat) true 0 None.
Definition sr0 : N := 1920000.
Definition lut0 : duration_lut := match lut_new sr0 with Ok l => l | _ => mkLut 1 (fun _ => 0) end.
Definition fw0 (r : role) : fw := match fw_new r lut0 1000 2 2 0 with Ok f => f | _ => mkFw r lut0 First false false 0 (mkFt (mkDur 1 s001 1 1) (mkDur 1 s001 1 1) 0 0 0 0) [] 0 0 end.
Lemma ok_value {A} (x : res A) d : is_ok x = true -> x = Ok (match x with Ok a => a | _ => d end).
Proof. destruct x; [reflexivity|discriminate..]. Qed.
Lemma fw0_deployed r : deployed r sr0 (fw0 r).
Proof.
  exists lut0, 1000, 2%N, 2%N, 0%N. split; [apply ok_value; vm_compute; reflexivity|]. split; [lia|]. split; [right; auto|].
  apply ok_value. destruct r; vm_compute; reflexivity.
Qed.
(** An FT that sends two beacons and data after each, is stopped and released. *)
Definition story : list ev :=
  [Start 0; Irregular 0 960001 (calm 970000); Irregular 0 3836161 (calm 3836200); Application (calm 3841000); Irregular 0 3855400 (calm 3855400);
   Shut; Application (calm 3861000); Irregular 0 3875000 (calm 3875000); Irregular 0 4076000 (calm 4076000)].
(** A PT that hears a beacon, sends data twice, is stopped and released. *)
Definition story_pt : list ev :=
  [Start 0; Irregular 0 192001 (calm 192100); Beacon_header 200000; Beacon_data (calm 200900); Application (calm 201000); Irregular 0 212000 (calm 212000);
   Shut; Irregular 0 231000 (calm 231000); Irregular 0 424000 (calm 424000)].
Definition told (r : role) (es : list ev) : sys := match run (sys_new (fw0 r)) es with Ok s => s | _ => sys_new (fw0 r) end.
Lemma near_calm t : near t -> near_inp (calm t).
Proof. intros H. split; [intros k; exact H|]. unfold near. cbn [calm pps]. big. lia. Qed.
Ltac fine := repeat constructor; cbn [near_ev]; try (apply near_calm); unfold near; big; lia.
Lemma told_reached r es : Forall near_ev es -> Forall delivered es -> is_ok (run (sys_new (fw0 r)) es) = true -> reached r sr0 (told r es).
Proof. intros A B K. exists (fw0 r), es. split; [apply fw0_deployed|]. split; [exact A|]. split; [exact B|]. apply ok_value, K. Qed.
(** What the theorems above speak of: *)
Definition seen (s : sys) : stage * bool * bool * nat * list (bool * Z * Z) :=
  (f_stage (s_fw s), f_shut (s_fw s), f_released (s_fw s), s_calls s, map (fun t => (is_beacon t, tx_begin t, tx_end (beacon_length sr0) t)) (s_txs s)).
Example story_reached : reached FT sr0 (told FT story) /\ reached FT sr0 (told FT (firstn 6 story)) /\
  seen (told FT (firstn 6 story)) = (Steady, true, false, 3%nat,
    [(true, 3840000, 3841600); (false, 3843200, 3844800); (false, 3849600, 3851200); (true, 3859200, 3860800); (false, 3862400, 3864000)]) /\
  seen (told FT story) = (Nop, true, true, 5%nat,
    [(true, 3840000, 3841600); (false, 3843200, 3844800); (false, 3849600, 3851200); (true, 3859200, 3860800); (false, 3862400, 3864000); (false, 3868800, 3870400)]).
Proof.
  split; [apply told_reached; [fine|fine|vm_compute; reflexivity]|]. split; [apply told_reached; [fine|fine|vm_compute; reflexivity]|].
  split; vm_compute; reflexivity.
Qed.
Example story_pt_reached : reached PT sr0 (told PT story_pt) /\ reached PT sr0 (told PT (firstn 6 story_pt)) /\
  seen (told PT (firstn 6 story_pt)) = (Steady, false, false, 2%nat, [(false, 208000, 209600); (false, 220800, 222400)]) /\
  seen (told PT story_pt) = (Nop, true, true, 4%nat, [(false, 208000, 209600); (false, 220800, 222400)]).
Proof.
  split; [apply told_reached; [fine|fine|vm_compute; reflexivity]|]. split; [apply told_reached; [fine|fine|vm_compute; reflexivity]|].
  split; vm_compute; reflexivity.
Qed.

Lemma first_in {A} (d : A) l : (0 <? length l)%nat = true -> In (match l with a :: _ => a | [] => d end) l.
Proof. destruct l; [discriminate|]. intros _. now left. Qed.
(** The three ways to fail do occur. *)
Theorem C60_never_fails_refuted :
  (exists s e, reached FT sr0 s /\ near_ev e /\ before_first_beacon s e /\ step s e = Oob) /\
  (exists s e, reached FT sr0 s /\ near_ev e /\ beacon_fails s e /\ step s e = Abort) /\
  (exists s e, reached PT sr0 s /\ near_ev e /\ beacon_in_future s e /\ step s e = Abort).
Proof.
  assert (R2 : reached FT sr0 (told FT (firstn 2 story))) by (apply told_reached; [fine|fine|vm_compute; reflexivity]).
  assert (R3 : reached PT sr0 (told PT (firstn 3 story_pt))) by (apply told_reached; [fine|fine|vm_compute; reflexivity]).
  split; [|split].
  - exists (told FT (firstn 2 story)), (Application (calm 970000)).
    assert (N : near_ev (Application (calm 970000))) by fine.
    assert (B : before_first_beacon (told FT (firstn 2 story)) (Application (calm 970000))).
    { exists (calm 970000). split; [reflexivity|]. split; [vm_compute; reflexivity|]. split; vm_compute; reflexivity. }
    split; [exact R2|]. split; [exact N|]. split; [exact B|]. exact (C60_data_before_beacon FT sr0 _ _ R2 N B).
  - exists (told FT (firstn 2 story)), (Irregular 0 3836160 (calm 3836200)).
    assert (N : near_ev (Irregular 0 3836160 (calm 3836200))) by (split; [unfold near; big; lia|fine]).
    assert (B : beacon_fails (told FT (firstn 2 story)) (Irregular 0 3836160 (calm 3836200))).
    { exists 0%nat, 3836160, (calm 3836200), (report_at 3836160 0). split; [reflexivity|]. split; [vm_compute; reflexivity|]. split; [vm_compute; reflexivity|].
      split; [vm_compute; reflexivity|]. split; [vm_compute; reflexivity|]. left. reflexivity. }
    split; [exact R2|]. split; [exact N|]. split; [exact B|]. exact (C60_beacon_aborts FT sr0 _ _ R2 N B).
  - exists (told PT (firstn 3 story_pt)), (Beacon_data (calm 199999)).
    split; [exact R3|]. split; [fine|]. split; [|vm_compute; reflexivity].
    exists (calm 199999), 0%nat, (match f_contacts (s_fw (told PT (firstn 3 story_pt))) with a :: _ => a | [] => allocation_pt_new lut0 (mkDur 1 s001 1 1) (mkDur 1 s001 1 1) (mkDur 1 s001 1 1) 0 end).
    split; [right; reflexivity|]. split; [vm_compute; reflexivity|]. split; [vm_compute; reflexivity|]. split; [apply first_in|]; vm_compute; reflexivity.
Qed.

(** One callback lost to a full job queue and the firmware never again gets an irregular call: a stop request made then
    or later is never answered, whatever else happens. *)
Theorem C60_lost_callback : forall r sr s rec p es s', reached r sr s -> f_stage (s_fw s) <> Nop -> calls_back s 0 rec = Some p ->
  run s (Dropped 0 rec :: es) = Ok s' -> s_pending s' = [] /\ f_released (s_fw s') = false /\ s_calls s' = s_calls s.
Proof.
  intros r sr s rec p es s' H G Cb E. apply reached_inv in H. cbn [run step] in E. rewrite Cb in E. cbn [bind] in E.
  assert (St : s_started s = true) by (unfold calls_back in Cb; destruct (s_started s); [reflexivity|discriminate]).
  pose proof (i_life _ _ _ H) as Li. rewrite St in Li. unfold life in Li.
  assert (X : exists q, s_pending s = [q] /\ f_released (s_fw s) = false).
  { destruct (f_stage (s_fw s)); [destruct Li as (? & ? & _ & ?)|destruct Li as (? & ? & _ & ? & _)|destruct Li as (? & ? & _ & ? & _)|congruence]; eauto. }
  destruct X as (q & Pe & Rl). rewrite Pe in E. cbn [without] in E.
  destruct (stuck_run es (mkSys (s_fw s) true [] (s_txs s) (s_calls s)) s' eq_refl eq_refl E) as (A & B & C). split; [exact A|]. split; [rewrite B; exact Rl|exact C].
Qed.
Theorem C60_lost_callback_refuted : exists s rec p, reached FT sr0 s /\ f_stage (s_fw s) <> Nop /\ calls_back s 0 rec = Some p /\
  is_ok (run s [Dropped 0 rec; Shut; Application (calm 3861000)]) = true.
Proof.
  exists (told FT (firstn 5 story)), 3875000, (report_at 3874560 0). split; [apply told_reached; [fine|fine|vm_compute; reflexivity]|].
  split; [vm_compute; discriminate|]. split; vm_compute; reflexivity.
Qed.

Print Assumptions C60_in_order.
Print Assumptions C60_one_callback.
Print Assumptions C60_stop_answered.
Print Assumptions C60_orderly.
Print Assumptions C60_fails_only.
Print Assumptions C60_beacon_aborts.
Print Assumptions C60_data_before_beacon.
Print Assumptions C60_never_fails_refuted.
Print Assumptions C60_lost_callback.
Print Assumptions C60_lost_callback_refuted.
