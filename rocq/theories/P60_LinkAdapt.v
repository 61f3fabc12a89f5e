(** C67: the link adaptation of the p2p firmware. *)
From Verif Require Import Base Bytes Feedback LinkAdapt LinkAdaptSpec LinkAdaptFacts.
From Coq Require Import QArith Lqa.
Open Scope N_scope.

(** The table: for every valid range and offset and every signal-to-noise ratio the best MCS of the range; the constructor accepts exactly
    the valid ranges. *)
Theorem C67_best : forall mn mx off,
  match lut_new mn mx off with
  | Ok l => mn <= mx <= 11 /\ (0 <= off)%Q /\ forall snr, best_mcs mn mx (snr - off)%Q (highest_mcs l snr)
  | Abort => ~ (mn <= mx <= 11 /\ (0 <= off)%Q)
  | _ => False
  end.
Proof.
  intros mn mx off. unfold lut_new, guard. destruct (N.leb_spec mn mx); [|intros [? _]; lia]. destruct (N.ltb_spec mx 12); [|intros [? _]; lia].
  destruct (Qle_bool 0 off) eqn:E.
  - apply Qle_bool_iff in E. assert (B : mn <= mx <= 11) by lia. split; [exact B|]. split; [exact E|]. intros snr. exact (highest_ok (mkLut mn mx off) snr (conj B E)).
  - intros [_ O]. apply Qle_bool_iff in O. congruence.
Qed.
(** The best one is unique. *)
Theorem C67_best_unique : forall lo hi snr m m', best_mcs lo hi snr m -> best_mcs lo hi snr m' -> m = m'.
Proof.
  assert (H : forall lo hi snr m m', best_mcs lo hi snr m -> best_mcs lo hi snr m' -> m' <= m).
  { intros lo hi snr m m' ((A1 & A2) & A3 & A4) ((B1 & B2) & B3 & B4). destruct (N.le_gt_cases m' m) as [L|L]; [exact L|]. exfalso.
    specialize (A4 m' (conj L B2)). destruct B3 as [->|B3]; [lia|]. exact (Qlt_not_le _ _ A4 B3). }
  intros lo hi snr m m' A B. apply N.le_antisymm; eapply H; eassumption.
Qed.

Section Device.
  Variables (l : lut) (plans : list (list N)) (life : Z) (mimo : bool).
  Hypotheses (Hl : lut_ok l) (Hp : plans_ok plans).
  Let ok (xs : list (pool * op)) := Forall (op_ok (length plans)) (map snd xs).
  Let run := dev_run (dev_new l plans life mimo).

  (** No history of receptions and transmissions makes the device abort, throw or leave a buffer; a packet results from every transmission that
      gets as far, and from nothing else. *)
  Theorem C67_safe : forall xs, ok xs ->
    exists d ps, run xs = Ok (d, ps) /\ length ps = length xs /\
      forall i, (exists p, nth_error ps i = Some (Some p)) <-> (exists k t, nth_error (map snd xs) i = Some (Tx k t Sent)).
  Proof using Hl Hp.
    intros xs O. destruct (run_inv l plans life mimo Hl Hp xs _ [] (dev_new_inv l plans life mimo) (Forall_nil _) O) as (d & R & _).
    exists d, (packets l plans life mimo [] (map snd xs)). split; [exact R|]. rewrite <- (map_length snd xs). generalize (map snd xs) as ys. clear. intros ys. generalize (@nil op) as hs.
    induction ys as [|y ys IH]; intros hs; cbn [packets length].
    - split; [reflexivity|]. intros i. split; [intros (p & H)|intros (k & t & H)]; destruct i; discriminate H.
    - destruct (IH (hs ++ [y])) as (L & J). split; [rewrite L; reflexivity|]. intros [|i]; cbn [nth_error]; [|exact (J i)]. split.
      + intros (p & H). destruct y as [| | |k t o]; try discriminate H. destruct o; try discriminate H. exists k, t. reflexivity.
      + intros (k & t & H). injection H as ->. eexists. reflexivity.
  Qed.

  (** The packet sent by an operation in the middle of a history. *)
  Lemma at_tx xs old k t ys d ps : ok (xs ++ (old, Tx k t Sent) :: ys) -> run (xs ++ (old, Tx k t Sent) :: ys) = Ok (d, ps) ->
    nth_error ps (length xs) =
      Some (Some (mkPacket (mcs_used l life k (map snd xs) t) (octets_sent l plans life k (map snd xs) t) (cb_used life mimo k (map snd xs) t))).
  Proof using Hl Hp.
    intros O R. destruct (run_inv l plans life mimo Hl Hp _ _ [] (dev_new_inv l plans life mimo) (Forall_nil _) O) as (d' & R' & _).
    unfold run in R. rewrite R in R'. injection R' as _ ->. rewrite map_app. cbn [map snd]. rewrite <- (map_length snd xs). generalize (map snd xs) as hs.
    assert (G : forall hs0 hs, nth_error (packets l plans life mimo hs0 (hs ++ Tx k t Sent :: map snd ys)) (length hs) =
      Some (sent_packet l plans life mimo (hs0 ++ hs) (Tx k t Sent))).
    { intros hs0 hs. revert hs0. induction hs as [|h hs IH]; intros hs0; cbn [app packets length nth_error]; [rewrite app_nil_r; reflexivity|].
      rewrite (IH (hs0 ++ [h])), <- app_assoc. reflexivity. }
    intros hs. rewrite (G [] hs). reflexivity.
  Qed.

  (** A packet to a contact uses the MCS of the last report received from this contact if that is not older than the lifetime, limited to the
      range of the device, and the lowest MCS otherwise. *)
  Theorem C67_used : forall xs old k t ys d ps, ok (xs ++ (old, Tx k t Sent) :: ys) -> run (xs ++ (old, Tx k t Sent) :: ys) = Ok (d, ps) ->
    exists p, nth_error ps (length xs) = Some (Some p) /\ l_min l <= k_mcs p <= l_max l /\
      k_mcs p = match last_of (mcs_report k) (map snd xs) with
                | Some (m, tr) => if (t - life <=? tr)%Z then clamp (l_min l) (l_max l) m else l_min l
                | None => l_min l
                end.
  Proof using Hl Hp.
    intros xs old k t ys d ps O R. eexists. split; [exact (at_tx _ _ _ _ _ _ _ O R)|]. cbn [k_mcs]. unfold mcs_used, fresh.
    destruct Hl as [[L1 L2] _]. unfold clamp. destruct (last_of (mcs_report k) (map snd xs)) as [[m tr]|]; [destruct (t - life <=? tr)%Z|]; lia.
  Qed.

  (** The n-th packet sent to a contact carries the format at position n modulo the length of the plan, whatever else happened and however many
      attempts failed in between. A format 4 feedback reports the best MCS for the last measurement on a packet of this contact, or the lowest
      if there is none within the lifetime. *)
  Theorem C67_reported : forall xs old k t ys d ps, ok (xs ++ (old, Tx k t Sent) :: ys) -> run (xs ++ (old, Tx k t Sent) :: ys) = Ok (d, ps) ->
    let plan := nth k plans [] in let f := nth (sent_to k (map snd xs) mod length plan) plan 0 in
    exists p b0 b1, nth_error ps (length xs) = Some (Some p) /\ k_octets p = [b0; b1] /\ b0 / 16 = f /\ (f = 4 \/ f = 5) /\
      (f = 4 -> 1 <= b1 <= 12 /\
        match last_of (measured k) (map snd xs) with
        | Some (snr, tm) => if (t - life <=? tm)%Z then best_mcs (l_min l) (l_max l) (snr - l_off l)%Q (b1 - 1) else b1 - 1 = l_min l
        | None => b1 - 1 = l_min l
        end) /\
      (f = 5 -> b1 = match last_of (beamed k) (map snd xs) with
                     | Some (cb, tm) => if (t - life <=? tm)%Z then cb else 0
                     | None => 0
                     end).
  Proof using Hl Hp.
    intros xs old k t ys d ps O R plan f. pose proof (at_tx _ _ _ _ _ _ _ O R) as A.
    assert (K : (k < length plans)%nat).
    { unfold ok in O. rewrite map_app in O. apply Forall_app in O as (_ & O). cbn [map snd] in O. inversion O as [|? ? O1 O2]; subst. exact O1. }
    assert (F : f = 4 \/ f = 5).
    { destruct (Hp plan (nth_In _ _ K)) as (P1 & P2). apply P2. apply nth_In. apply Nat.mod_upper_bound. destruct plan; [congruence|discriminate]. }
    unfold octets_sent in A. change (fmt_at plans k (map snd xs)) with f in A.
    destruct F as [F|F]; rewrite F in A |- *; cbn [N.eqb Pos.eqb] in A.
    - eexists _, 64, _. split; [exact A|]. split; [reflexivity|]. split; [reflexivity|]. split; [auto|]. split; [intros _|discriminate].
      destruct Hl as [[L1 L2] L3]. unfold fm, fresh. destruct (last_of (measured k) (map snd xs)) as [[snr tm]|]; [destruct (t - life <=? tm)%Z|]; rewrite N.add_sub; try lia.
      pose proof (highest_ok l snr Hl) as H. split; [|exact H]. destruct H as ((? & ?) & _). lia.
    - eexists _, 81, _. split; [exact A|]. split; [reflexivity|]. split; [reflexivity|]. split; [auto|]. split; [discriminate|reflexivity].
  Qed.

  (** The codebook index of a packet: zero without the MIMO switch, else the last suggestion within the lifetime. *)
  Theorem C67_codebook : forall xs old k t ys d ps, ok (xs ++ (old, Tx k t Sent) :: ys) -> run (xs ++ (old, Tx k t Sent) :: ys) = Ok (d, ps) ->
    exists p, nth_error ps (length xs) = Some (Some p) /\
      k_cb p = if mimo then match last_of (suggested k) (map snd xs) with
                            | Some (cb, tr) => if (t - life <=? tr)%Z then cb else 0
                            | None => 0
                            end else 0.
  Proof using Hl Hp. intros xs old k t ys d ps O R. eexists. split; [exact (at_tx _ _ _ _ _ _ _ O R)|]. reflexivity. Qed.
End Device.
Print Assumptions C67_best.
Print Assumptions C67_best_unique.
Print Assumptions C67_safe.
Print Assumptions C67_used.
Print Assumptions C67_reported.
Print Assumptions C67_codebook.

Lemma last_mid {B} (f : op -> option B) xs x ys b : f x = Some b -> (forall y, In y ys -> f y = None) -> last_of f (xs ++ x :: ys) = Some b.
Proof.
  intros X Y. assert (last_of f ys = None) as YN.
  { clear - Y. induction ys as [|y ys IH]; [reflexivity|]. cbn [last_of]. rewrite IH by (intros; apply Y; right; assumption). apply Y. left. reflexivity. }
  induction xs as [|z xs IH]; cbn [app last_of]; [rewrite YN; exact X|]. rewrite IH. reflexivity.
Qed.

(** Two devices. [B] sends a packet; [A] receives its two feedback octets, gets no other report from [B] and sends a packet to [B]. The MCS of that
    packet is the lowest of [A] or not above the lowest of [B], unless [B] measured, within its lifetime, a signal-to-noise ratio that suffices for
    this MCS with B's offset, and [A] sends within its lifetime. *)
Theorem C67_loop : forall lb plansb lifeb mimob bs oldb kb tb bs' db psb pb la plansa lifea mimoa as1 olda ka ta as2 olda' t as3 da psa,
  lut_ok lb -> plans_ok plansb -> lut_ok la -> plans_ok plansa ->
  let hb := bs ++ (oldb, Tx kb tb Sent) :: bs' in
  Forall (op_ok (length plansb)) (map snd hb) -> dev_run (dev_new lb plansb lifeb mimob) hb = Ok (db, psb) -> nth_error psb (length bs) = Some (Some pb) ->
  let before := as1 ++ (olda, RxPcc ka (k_octets pb) ta) :: as2 in
  let ha := before ++ (olda', Tx ka t Sent) :: as3 in
  Forall (op_ok (length plansa)) (map snd ha) -> (forall x, In x (map snd as2) -> mcs_report ka x = None) ->
  (exists b1, k_octets pb = [64; b1]) ->
  dev_run (dev_new la plansa lifea mimoa) ha = Ok (da, psa) ->
  exists pa, nth_error psa (length before) = Some (Some pa) /\
    (k_mcs pa = l_min la \/
     k_mcs pa <= l_max la /\ (t - lifea <= ta)%Z /\
       (k_mcs pa <= l_min lb \/
        exists snr tm, last_of (measured kb) (map snd bs) = Some (snr, tm) /\ (tb - lifeb <= tm)%Z /\ (required (k_mcs pa) <= snr - l_off lb)%Q)).
Proof.
  intros lb plansb lifeb mimob bs oldb kb tb bs' db psb pb la plansa lifea mimoa as1 olda ka ta as2 olda' t as3 da psa HLB HPB HLA HPA hb OB RB NB before ha OA RP (b1 & E4) RA.
  destruct (C67_used la plansa lifea mimoa HLA HPA before olda' ka t as3 da psa OA RA) as (pa & NA & BA & UA). exists pa. split; [exact NA|].
  destruct (C67_reported lb plansb lifeb mimob HLB HPB bs oldb kb tb bs' db psb OB RB) as (p & c0 & c1 & NB' & EO & EF & _ & E4' & _).
  rewrite NB in NB'. injection NB' as <-. rewrite E4 in EO. injection EO as <- <-. change (64 / 16) with 4 in EF. specialize (E4' (eq_sym EF)) as (BR & ER). clear EF.
  assert (M : last_of (mcs_report ka) (map snd before) = Some (b1 - 1, ta)).
  { unfold before. rewrite map_app. cbn [map snd]. apply last_mid; [|exact RP]. rewrite E4. cbn [mcs_report]. change (64 / 16) with 4. rewrite Nat.eqb_refl, (N.mod_small b1 16) by lia.
    replace (1 <=? b1) with true by lia. replace (b1 <=? 12) with true by lia. reflexivity. }
  rewrite M in UA. destruct (Z.leb_spec (t - lifea) ta) as [T|T]; [|left; exact UA]. 
  destruct (N.eq_dec (k_mcs pa) (l_min la)) as [Z0|Z0]; [left; exact Z0|]. right. split; [lia|]. split; [exact T|].
  assert (LE : k_mcs pa <= b1 - 1) by (rewrite UA in Z0 |- *; unfold clamp in *; lia).
  destruct (last_of (measured kb) (map snd bs)) as [[snr tm]|]; [|left; lia]. destruct (Z.leb_spec (tb - lifeb) tm) as [T'|T']; [|left; lia].
  destruct ER as ((R1 & R2) & [R3|R3] & _); [left; lia|]. right. exists snr, tm. split; [reflexivity|]. split; [exact T'|].
  apply Qle_trans with (2 := R3). replace (b1 - 1) with (k_mcs pa + N.of_nat (N.to_nat (b1 - 1 - k_mcs pa))) by lia. apply required_le. lia.
Qed.
Print Assumptions C67_loop.

(** ** Cases *)
Definition ex_lut := mkLut 4 7 (8#1)%Q.
Definition ex_pool := pool_prepared 0.
Definition ex_plans : list (list N) := [[4]; [4; 5]].
(** A report of MCS 6 from contact 1 raises the MCS of the next packet to it; a report of 11 is limited to 7; after the lifetime of 50 the lowest
    is used. Contact 0 gets 4. The failed attempts do not advance the plan. Feedback: 27.5 dB less the offset of 8 dB are enough for 7 (17.5 dB). *)
Definition ex_ops : list op :=
  [RxPdc 1 (55#2) 90; Tx 1 100 Sent; RxPcc 1 [64; 7] 110; Tx 1 120 NoHarq; Tx 0 121 Sent; Tx 1 122 NoData; Tx 1 130 Sent; RxBeacon 1 2 3 20 135;
   RxPcc 1 [64; 12] 140; Tx 1 150 Sent; RxPcc 1 [64; 0] 155; Tx 1 160 Sent; Tx 1 190 Sent; Tx 1 191 Sent].
Definition ex_h := map (fun x => (ex_pool, x)) ex_ops.
Example C67_nonvacuous :
  lut_new 4 7 (8#1) = Ok ex_lut /\ lut_ok ex_lut /\ plans_ok ex_plans /\ Forall (op_ok (length ex_plans)) ex_ops /\
  exists d, dev_run (dev_new ex_lut ex_plans 50 false) ex_h =
    Ok (d, [None; Some (mkPacket 4 [64; 8] 0); None; None; Some (mkPacket 4 [64; 5] 0); None; Some (mkPacket 6 [81; 0] 0); None; None;
            Some (mkPacket 7 [64; 5] 0); None; Some (mkPacket 7 [81; 2] 0); Some (mkPacket 7 [64; 5] 0); Some (mkPacket 4 [81; 0] 0)]).
Proof.
  split; [reflexivity|]. split; [unfold lut_ok; cbn; split; [lia|lra]|].
  split. { intros p [<-|[<-|[]]]; (split; [discriminate|]); cbn; intros f H; intuition. }
  split. { unfold ex_ops. repeat (constructor; [cbn; try lia; try (split; [lia|]); try (eexists _, _; split; [reflexivity|]); lia|]). constructor. }
  eexists. vm_compute. reflexivity.
Qed.
(** The lowest MCS of a range is reported and used however bad the channel: at -40 dB a device with the range 4..7 reports 4, which needs 11 dB. *)
Example C67_lowest_case : highest_mcs ex_lut (-40) = 4 /\ ~ (required 4 <= -40 - l_off ex_lut)%Q.
Proof. split; [vm_compute; reflexivity|]. intros H. vm_compute in H. apply H. reflexivity. Qed.

(** With the MIMO switch a valid feedback decides the codebook index of the next packet without a limit: octets that are valid for every receiver make
    the transmitter abort, whatever its numbers of streams and antennas. *)
Theorem C67_codebook_refuted : exists l plans life xs old k t,
  lut_ok l /\ plans_ok plans /\ Forall (op_ok (length plans)) (map snd (xs ++ [(old, Tx k t Sent)])) /\
  exists d ps p, dev_run (dev_new l plans life true) (xs ++ [(old, Tx k t Sent)]) = Ok (d, ps) /\ nth_error ps (length xs) = Some (Some p) /\
    forall n_ts n_tx, tx_codebook_check n_ts n_tx (k_cb p) = Abort.
Proof.
  exists ex_lut, ex_plans, 50%Z, [(ex_pool, RxPcc 1 [81; 63] 10)], ex_pool, 1%nat, 20%Z.
  destruct C67_nonvacuous as (_ & A & B & _). split; [exact A|]. split; [exact B|].
  split. { cbn [map snd app]. constructor; [cbn; split; [lia|]; eexists _, _; split; [reflexivity|lia]|]. constructor; [cbn; lia|constructor]. }
  eexists _, _, _. split; [vm_compute; reflexivity|]. split; [reflexivity|]. intros n_ts n_tx. cbn [k_cb]. unfold tx_codebook_check, guard.
  assert (H : codebook_index_max n_ts n_tx <= 27).
  { unfold codebook_index_max. repeat match goal with |- match ?x with _ => _ end <= _ => destruct x end; lia. }
  destruct (N.leb_spec 63 (codebook_index_max n_ts n_tx)); [lia|reflexivity].
Qed.
Print Assumptions C67_codebook_refuted.
