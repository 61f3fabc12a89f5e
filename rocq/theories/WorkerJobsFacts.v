(** Facts about WorkerJobs. *)
From Verif Require Import Base WorkerJobs WorkerJobsSpec.

(** Projections distribute over concatenation. *)
Lemma answers_app a b : answers (a ++ b) = answers a ++ answers b. Proof. apply flat_map_app. Qed.
Lemma packets_app a b : packets (a ++ b) = packets a ++ packets b. Proof. apply flat_map_app. Qed.
Lemma released_app a b : released (a ++ b) = released a ++ released b. Proof. apply flat_map_app. Qed.
Lemma irregulars_app a b : irregulars (a ++ b) = irregulars a ++ irregulars b. Proof. apply flat_map_app. Qed.
Lemma scans_app a b : scans (a ++ b) = scans a ++ scans b. Proof. apply flat_map_app. Qed.
Lemma accepted_app a b : accepted (a ++ b) = accepted a ++ accepted b. Proof. apply flat_map_app. Qed.
Lemma finished_app a b : finished (a ++ b) = finished a ++ finished b. Proof. apply flat_map_app. Qed.
Lemma tickets_app a b : tickets (a ++ b) = tickets a ++ tickets b. Proof. apply flat_map_app. Qed.

Lemma carried_app a b : carried_out a -> carried_out b -> carried_out (a ++ b).
Proof.
  intros (A1 & A2 & A3 & A4) (B1 & B2 & B3 & B4). unfold carried_out.
  rewrite packets_app, released_app, irregulars_app, scans_app, answers_app, map_app, !flat_map_app.
  rewrite A1, A2, A3, A4, B1, B2, B3, B4. rewrite A1, B1. repeat split; reflexivity.
Qed.
Lemma token_app s a b : token_run s (a ++ b) = match token_run s a with Some s' => token_run s' b | None => None end.
Proof. revert s. induction a as [|e a IH]; intros s; [reflexivity|]. cbn [app token_run]. destruct (token_step s e); [apply IH|reflexivity]. Qed.

(** The events of carrying out one answer, without calls. *)
Definition tx_events (ds : list desc) : list event := flat_map (fun d => [EPacket d; EFinTx (d_hp d)]) ds.
Definition irr_events (r : option Z) : list event := map EIrregular (opt r).
Definition plain_events (a : answer) : list event := tx_events (a_tx a) ++ irr_events (a_irregular a).

Lemma proj_plain a : answers (plain_events a) = [] /\ packets (plain_events a) = a_tx a /\ released (plain_events a) = map d_hp (a_tx a) /\
  irregulars (plain_events a) = opt (a_irregular a) /\ scans (plain_events a) = [] /\ accepted (plain_events a) = [] /\ finished (plain_events a) = [] /\
  tickets (plain_events a) = [] /\ token_run Free (plain_events a) = Some Free /\
  flat_map (fun e => match e with ECallLow l => [l] | _ => [] end) (plain_events a) = [] /\
  flat_map (fun e => match e with EFinRx h c => [(h, c)] | _ => [] end) (plain_events a) = [].
Proof.
  unfold plain_events. destruct a as [ds r s]. cbn [a_tx a_irregular].
  induction ds as [|d ds IH].
  - cbn. destruct r; cbn; repeat split; reflexivity.
  - destruct IH as (I1 & I2 & I3 & I4 & I5 & I6 & I7 & I8 & I9 & I10 & I11). cbn. repeat split; try assumption; f_equal; assumption.
Qed.
Definition scan_events (a : answer) (rest : list event) : Prop :=
  match a_scan a with None => rest = [] | Some s => exists a', rest = EScan s :: ELock :: ECall (WChannel s) a' :: EUnlock :: plain_events a' end.

Section Worker.
  Context {W : Type} (firmware : W -> call -> W * answer) (firmware_pcc : W -> W * low) (take_buffer : W -> option Z -> W * bool) (nof_hw : Z).
  Hypothesis Hhw : (nof_hw < 2 ^ 64)%Z.

  Lemma bind_done {A B} (m : M W A) (k : A -> M W B) w w' t x : bindM W m k w = (w', t, inl x) ->
    exists w1 t1 y t2, m w = (w1, t1, inl y) /\ k y w1 = (w', t2, inl x) /\ t = t1 ++ t2.
  Proof using.
    unfold bindM. destruct (m w) as [[w1 t1] [y|f]]; [|discriminate]. destruct (k y w1) as [[w2 t2] r2] eqn:E. intros H. injection H as -> <- ->.
    exists w1, t1, y, t2. split; [reflexivity|]. split; [exact E|reflexivity].
  Qed.
  Ltac inv := repeat match goal with
    | H : bindM _ _ _ _ = (_, _, inl _) |- _ => apply bind_done in H; destruct H as (? & ? & ? & ? & ? & ? & ->)
    | H : emit _ _ _ = (_, _, inl _) |- _ => unfold emit in H; injection H as <- <- <-
    | H : ret _ _ _ = (_, _, inl _) |- _ => unfold ret in H; injection H as <- <- <-
    | H : fail _ _ _ = (_, _, inl _) |- _ => discriminate H
    end.

  Lemma get_buffer_done hw w w' t ok : get_buffer W take_buffer nof_hw hw w = (w', t, inl ok) -> t = [] /\ (hw <= -1)%Z.
  Proof using All.
    unfold get_buffer. destruct (Z.leb_spec hw (-1)) as [L|L].
    - unfold ask. destruct (take_buffer w None) as [w1 b]. intros H. injection H as <- <- <-. split; [reflexivity|exact L].
    - replace ((-1) mod 2 ^ 64 <? nof_hw)%Z with false; [discriminate|]. symmetry. apply Z.ltb_ge.
      change ((-1) mod 2 ^ 64)%Z with (2 ^ 64 - 1)%Z. lia.
  Qed.
  Lemma run_tx_done : forall ds w w' t x, run_tx W take_buffer nof_hw true ds w = (w', t, inl x) -> t = tx_events ds /\ Forall (fun d => (d_hw d <= -1)%Z) ds.
  Proof using All.
    induction ds as [|d ds IH]; intros w w' t x H; cbn [run_tx] in H.
    - inv. split; [reflexivity|constructor].
    - inv. match goal with H : get_buffer _ _ _ _ _ = _ |- _ => apply get_buffer_done in H; destruct H as [-> L] end.
      match goal with H : (if ?b then _ else _) _ = _ |- _ => destruct b end; inv.
      match goal with H : run_tx _ _ _ _ _ _ = _ |- _ => apply IH in H; destruct H as [-> F] end.
      split; [reflexivity|]. constructor; assumption.
  Qed.
  Lemma run_irr_done r w w' t x : run_irregular W r w = (w', t, inl x) -> t = irr_events r.
  Proof using. destruct r; cbn [run_irregular]; intros H; inv; reflexivity. Qed.
  Lemma ask_done {A} (f : W -> W * A) e w w' t x : ask W f e w = (w', t, inl x) -> t = e x.
  Proof using. unfold ask. destruct (f w) as [w1 a]. intros H. injection H as <- <- <-. reflexivity. Qed.

  Lemma run_tx_chscan_done a w w' t x : run_tx_chscan W firmware take_buffer nof_hw true a w = (w', t, inl x) ->
    exists rest, t = plain_events a ++ rest /\ scan_events a rest.
  Proof using All.
    unfold run_tx_chscan, scan_events. intros H. inv. match goal with H : run_tx _ _ _ _ _ _ = _ |- _ => apply run_tx_done in H; destruct H as [-> _] end.
    match goal with H : run_irregular _ _ _ = _ |- _ => apply run_irr_done in H; subst end.
    destruct (a_scan a) as [s|]; inv.
    - repeat match goal with
        | H : run_tx _ _ _ _ _ _ = _ |- _ => apply run_tx_done in H; destruct H as [-> _]
        | H : run_irregular _ _ _ = _ |- _ => apply run_irr_done in H; subst
        | H : ask _ _ _ _ = _ |- _ => apply ask_done in H; subst end.
      eexists. split; [unfold plain_events; reflexivity|]. eexists. cbn [app]. unfold plain_events. rewrite ?app_nil_r, <- ?app_assoc. reflexivity.
    - exists []. split; [unfold plain_events; reflexivity|reflexivity].
  Qed.

  (** A call and all that follows from it. *)
  Definition served (c : call) (u : event) (t : list event) : Prop := exists a rest, t = ECall c a :: u :: plain_events a ++ rest /\ scan_events a rest.
  Lemma fifo_call_done fifo c w w' t x : fifo_call W firmware take_buffer nof_hw true fifo c w = (w', t, inl x) ->
    exists s, t = ELockFifo fifo :: s /\ served c EUnlockFifo s.
  Proof using All.
    unfold fifo_call. intros H. inv. match goal with H : ask _ _ _ _ = _ |- _ => apply ask_done in H; subst end.
    match goal with H : run_tx_chscan _ _ _ _ _ _ _ = _ |- _ => apply run_tx_chscan_done in H; destruct H as (rest & -> & S) end.
    eexists. split; [reflexivity|]. eexists _, rest. split; [reflexivity|exact S].
  Qed.

  Definition job_events (j : job) (t : list event) : Prop :=
    match j_content j with
    | CRegular => exists s, t = ELockFifo (j_fifo j) :: s /\ served WRegular EUnlockFifo s
    | CIrregular => exists s, t = ELockFifo (j_fifo j) :: s /\ served WIrregular EUnlockFifo s
    | CApplication => exists s, t = ELockFifo (j_fifo j) :: s /\ served WApplication EUnlockFifo s
    | CSync false _ => t = [ELockFifo (j_fifo j); EUnlockFifo; EReset]
    | CSync true crc => exists l,
        if l_continue l then exists hp s, l_hp l = Some hp /\ served (if crc then WPdc else WPdcError) EUnlock s /\
          t = ELockFifo (j_fifo j) :: ECallLow l :: EUnlockFifo :: ELock :: s ++ [EReset; EFinRx hp crc]
        else t = [ELockFifo (j_fifo j); ECallLow l; EUnlockFifo; EReset]
    | CNone => False
    end.
  Lemma do_job_done j w w' t x : do_job W firmware firmware_pcc take_buffer nof_hw true j w = (w', t, inl x) -> job_events j t.
  Proof using All.
    unfold do_job, job_events. destruct (j_content j) as [| |[|] crc| |]; intros H.
    - apply fifo_call_done in H. exact H.
    - apply fifo_call_done in H. exact H.
    - inv. match goal with H : ask _ _ _ _ = _ |- _ => apply ask_done in H; subst end.
      match goal with l : low |- _ => exists l; destruct (l_continue l) eqn:El; cbn [negb] in *; destruct (l_hp l) as [hp|] end; inv; try reflexivity.
      match goal with H : ask _ _ _ _ = _ |- _ => apply ask_done in H; subst end.
      match goal with H : run_tx_chscan _ _ _ _ _ _ _ = _ |- _ => apply run_tx_chscan_done in H; destruct H as (rest & -> & S) end.
      eexists hp, _. split; [reflexivity|]. split; [eexists _, rest; split; [reflexivity|exact S]|]. cbn [app]. rewrite <- !app_assoc. reflexivity.
    - inv. reflexivity.
    - apply fifo_call_done in H. exact H.
    - inv.
  Qed.

  (** Consequences for one job. *)
  Lemma scan_events_proj a rest : scan_events a rest ->
    (packets rest = flat_map (fun ca => a_tx (snd ca)) (answers rest)) /\ released rest = map d_hp (packets rest) /\
    irregulars rest = flat_map (fun ca => opt (a_irregular (snd ca))) (answers rest) /\
    scans rest = opt (a_scan a) /\ flat_map (fun ca => if is_channel (fst ca) then [] else opt (a_scan (snd ca))) (answers rest) = [] /\
    accepted rest = [] /\ finished rest = [] /\ tickets rest = [] /\ token_run Free rest = Some Free /\
    flat_map (fun e => match e with ECallLow l => [l] | _ => [] end) rest = [] /\
    flat_map (fun e => match e with EFinRx h c => [(h, c)] | _ => [] end) rest = [] /\
    (map fst (answers rest) = [] \/ exists s, map fst (answers rest) = [WChannel s]).
  Proof using.
    unfold scan_events. destruct (a_scan a) as [s|].
    - intros (a' & ->). destruct (proj_plain a') as (I1 & I2 & I3 & I4 & I5 & I6 & I7 & I8 & I9 & I10 & I11).
      cbn. fold (answers (plain_events a')) (packets (plain_events a')) (released (plain_events a')) (irregulars (plain_events a')) (scans (plain_events a'))
        (accepted (plain_events a')) (finished (plain_events a')) (tickets (plain_events a')).
      rewrite I1, I2, I3, I4, I5. cbn. rewrite !app_nil_r. repeat split; try assumption; try reflexivity. right. exists s. reflexivity.
    - intros ->. cbn. repeat split; try reflexivity. left. reflexivity.
  Qed.
  Lemma served_proj c u t : served c u t -> is_channel c = false -> u = EUnlockFifo \/ u = EUnlock ->
    carried_out t /\ accepted t = [] /\ finished t = [] /\ tickets t = [] /\
    (token_run (match u with EUnlock => Held | _ => HeldFifo end) t = Some Free) /\
    flat_map (fun e => match e with ECallLow l => [l] | _ => [] end) t = [] /\
    flat_map (fun e => match e with EFinRx h c => [(h, c)] | _ => [] end) t = [] /\ then_scan c (calls t).
  Proof using.
    intros (a & rest & -> & S) Hc Hu. destruct (scan_events_proj a rest S) as (S1 & S2 & S3 & S4 & S5 & S6 & S7 & S8 & S9 & S10 & S11 & S12).
    destruct (proj_plain a) as (I1 & I2 & I3 & I4 & I5 & I6 & I7 & I8 & I9 & I10 & I11).
    assert (Eq : forall (X : Type) (f : event -> list X), f u = [] -> f (ECall c a) = [] -> flat_map f (ECall c a :: u :: plain_events a ++ rest) = flat_map f (plain_events a) ++ flat_map f rest).
    { intros X f F1 F2. cbn [flat_map]. rewrite F1, F2, flat_map_app. reflexivity. }
    assert (Ea : answers (ECall c a :: u :: plain_events a ++ rest) = (c, a) :: answers rest).
    { unfold answers at 1. cbn [flat_map]. fold (answers (plain_events a ++ rest)). rewrite answers_app, I1. destruct Hu as [-> | ->]; reflexivity. }
    split; [|split; [|split; [|split; [|split; [|split; [|split]]]]]].
    - unfold carried_out. rewrite Ea. cbn [flat_map fst snd]. rewrite Hc.
      unfold packets, released, irregulars, scans. rewrite !Eq by (destruct Hu as [-> | ->]; reflexivity).
      fold (packets (plain_events a)) (packets rest) (released (plain_events a)) (released rest) (irregulars (plain_events a)) (irregulars rest)
        (scans (plain_events a)) (scans rest).
      rewrite I2, I3, I4, I5, S2, S3, S4, S5, map_app, app_nil_r. rewrite S1. cbn [app]. repeat split; reflexivity.
    - unfold accepted. rewrite Eq by (destruct Hu as [-> | ->]; reflexivity). fold (accepted (plain_events a)) (accepted rest). rewrite I6, S6. reflexivity.
    - unfold finished. rewrite Eq by (destruct Hu as [-> | ->]; reflexivity). fold (finished (plain_events a)) (finished rest). rewrite I7, S7. reflexivity.
    - unfold tickets. rewrite Eq by (destruct Hu as [-> | ->]; reflexivity). fold (tickets (plain_events a)) (tickets rest). rewrite I8, S8. reflexivity.
    - destruct Hu as [-> | ->]; cbn [token_run token_step]; rewrite token_app, I9; exact S9.
    - rewrite Eq by (destruct Hu as [-> | ->]; reflexivity). rewrite I10, S10. reflexivity.
    - rewrite Eq by (destruct Hu as [-> | ->]; reflexivity). rewrite I11, S11. reflexivity.
    - unfold calls. rewrite Ea. cbn [map fst]. destruct S12 as [->|[s ->]]; [left; reflexivity|right; exists s; reflexivity].
  Qed.

  (** Nothing is left undone whenever the firmware is called. *)
  Definition served_before (t : list event) : Prop :=
    forall t1 c a t2, t = t1 ++ ECall c a :: t2 -> carried_out t1.
  Lemma before_app u v : served_before u -> carried_out u -> served_before v -> served_before (u ++ v).
  Proof using.
    intros Hu Cu Hv t1 c a t2 E. revert t1 E. revert Hu Cu. assert (G : forall u t1, u ++ v = t1 ++ ECall c a :: t2 ->
      (exists t3, u = t1 ++ ECall c a :: t3) \/ (exists t4, t1 = u ++ t4 /\ v = t4 ++ ECall c a :: t2)).
    { clear. induction u as [|e u IH]; intros t1 E.
      - right. exists t1. split; [reflexivity|exact E].
      - destruct t1 as [|e' t1]; cbn [app] in E; injection E as -> E.
        + left. exists u. reflexivity.
        + destruct (IH t1 E) as [(t3 & ->)|(t4 & -> & ->)]; [left; exists t3; reflexivity|right; exists t4; split; reflexivity]. }
    intros Hu Cu t1 E. destruct (G u t1 E) as [(t3 & E3)|(t4 & -> & E4)].
    - exact (Hu _ _ _ _ E3).
    - apply carried_app; [exact Cu|exact (Hv _ _ _ _ E4)].
  Qed.
  (** One call with a silent prelude. *)
  Lemma before_one pre c a post : answers pre = [] -> answers post = [] -> carried_out pre -> served_before (pre ++ ECall c a :: post).
  Proof using.
    intros A B Cp t1 c' a' t2 E. enough (t1 = pre) as -> by exact Cp.
    revert t1 E. clear Cp. induction pre as [|e pre IH]; intros t1 E; cbn [app] in E.
    - destruct t1 as [|e1 t1]; [reflexivity|]. exfalso. cbn [app] in E. injection E as _ E. rewrite E, answers_app in B.
      destruct (answers t1); discriminate B.
    - destruct t1 as [|e1 t1]; cbn [app] in E.
      + exfalso. injection E as -> _. discriminate A.
      + injection E as <- E. f_equal. apply IH; [|exact E]. clear - A. destruct e; cbn in A; try exact A; discriminate.
  Qed.
  Lemma before_none t : answers t = [] -> served_before t.
  Proof using. intros A t1 c a t2 ->. rewrite answers_app in A. destruct (answers t1); discriminate A. Qed.

  Lemma served_before_ok c u t pre : served c u t -> u = EUnlockFifo \/ u = EUnlock -> is_channel c = false ->
    answers pre = [] -> carried_out pre -> served_before (pre ++ t).
  Proof using.
    intros (a & rest & -> & S) Hu Hc A Cp. destruct (proj_plain a) as (I1 & I2 & I3 & I4 & I5 & _).
    unfold scan_events in S. destruct (a_scan a) as [s|] eqn:Es.
    - destruct S as (a' & ->).
      replace (pre ++ ECall c a :: u :: plain_events a ++ EScan s :: ELock :: ECall (WChannel s) a' :: EUnlock :: plain_events a')
        with ((pre ++ ECall c a :: u :: plain_events a ++ [EScan s]) ++ [ELock] ++ ECall (WChannel s) a' :: EUnlock :: plain_events a')
        by (cbn [app]; rewrite <- app_assoc; cbn [app]; do 3 f_equal; rewrite <- app_assoc; reflexivity).
      apply before_app.
      + apply before_one; [exact A| |exact Cp]. unfold answers. destruct Hu as [-> | ->]; cbn [flat_map app];
          fold (answers (plain_events a ++ [EScan s])); rewrite answers_app, I1; reflexivity.
      + apply carried_app; [exact Cp|]. unfold carried_out.
        assert (Eq : forall (X : Type) (f : event -> list X), f u = [] -> flat_map f (ECall c a :: u :: plain_events a ++ [EScan s]) = f (ECall c a) ++ flat_map f (plain_events a) ++ f (EScan s)).
        { intros X f F1. cbn [flat_map]. rewrite F1, flat_map_app. cbn [flat_map]. rewrite app_nil_r. reflexivity. }
        unfold packets, released, irregulars, scans, answers. rewrite !Eq by (destruct Hu as [-> | ->]; reflexivity).
        fold (packets (plain_events a)) (released (plain_events a)) (irregulars (plain_events a)) (scans (plain_events a)) (answers (plain_events a)).
        rewrite I1, I2, I3, I4, I5. cbn. rewrite Hc, Es, !app_nil_r. repeat split; reflexivity.
      + apply before_one; [reflexivity| |repeat split; reflexivity]. unfold answers. cbn [flat_map app]. exact (proj1 (proj_plain a')).
    - subst rest. apply before_one; [exact A| |exact Cp]. unfold answers. destruct Hu as [-> | ->]; cbn [flat_map app]; rewrite app_nil_r; exact I1.
  Qed.

  Lemma job_proj j t : job_events j t -> carried_out t /\ served_before t /\ accepted t = finished t /\ tickets t = [j_fifo j] /\ token_run Free t = Some Free /\ job_calls j t.
  Proof using.
    unfold job_events, job_calls. intros H.
    assert (Fifo : forall c, is_channel c = false -> (exists s, t = ELockFifo (j_fifo j) :: s /\ served c EUnlockFifo s) ->
      carried_out t /\ served_before t /\ accepted t = finished t /\ tickets t = [j_fifo j] /\ token_run Free t = Some Free /\ then_scan c (calls t)).
    { intros c Hc (s & -> & S). destruct (served_proj c _ s S Hc (or_introl eq_refl)) as (C1 & C2 & C3 & C4 & C5 & C6 & C7 & C8).
      change (ELockFifo (j_fifo j) :: s) with ([ELockFifo (j_fifo j)] ++ s).
      split; [apply carried_app; [repeat split; reflexivity|exact C1]|]. split; [|split; [|split; [|split]]].
      - apply (served_before_ok c EUnlockFifo s); [exact S|left; reflexivity|exact Hc|reflexivity|repeat split; reflexivity].
      - rewrite accepted_app, finished_app, C2, C3. reflexivity.
      - rewrite tickets_app, C4. reflexivity.
      - exact C5.
      - exact C8. }
    destruct (j_content j) as [| |[|] crc| |].
    - apply Fifo; [reflexivity|exact H].
    - apply Fifo; [reflexivity|exact H].
    - destruct H as (l & H). destruct (l_continue l) eqn:El.
      + destruct H as (hp & s & Hh & S & ->). set (c := if crc then WPdc else WPdcError) in *.
        assert (Hc : is_channel c = false) by (unfold c; destruct crc; reflexivity).
        destruct (served_proj c _ s S Hc (or_intror eq_refl)) as (C1 & C2 & C3 & C4 & C5 & C6 & C7 & C8).
        change (ELockFifo (j_fifo j) :: ECallLow l :: EUnlockFifo :: ELock :: s ++ [EReset; EFinRx hp crc])
          with ([ELockFifo (j_fifo j); ECallLow l; EUnlockFifo; ELock] ++ s ++ [EReset; EFinRx hp crc]).
        split; [apply carried_app; [repeat split; reflexivity|apply carried_app; [exact C1|repeat split; reflexivity]]|].
        split; [|split; [|split; [|split]]].
        * rewrite app_assoc. apply before_app.
          -- apply (served_before_ok c EUnlock s); [exact S|right; reflexivity|exact Hc|reflexivity|repeat split; reflexivity].
          -- apply carried_app; [repeat split; reflexivity|exact C1].
          -- apply before_none. reflexivity.
        * rewrite !accepted_app, !finished_app, C2, C3. cbn. rewrite El, Hh. reflexivity.
        * rewrite !tickets_app, C4. reflexivity.
        * rewrite token_app. cbn [token_run token_step]. rewrite token_app, C5. reflexivity.
        * exists l. rewrite El, !flat_map_app, C6, C7. split; [reflexivity|]. unfold calls. rewrite !answers_app. cbn [answers flat_map app].
          rewrite app_nil_r. split; [exact C8|]. exists hp. split; [exact Hh|reflexivity].
      + subst t. split; [repeat split; reflexivity|]. split; [apply before_none; reflexivity|].
        split; [cbn; rewrite El; reflexivity|]. split; [reflexivity|]. split; [reflexivity|].
        exists l. rewrite El. split; [reflexivity|]. split; reflexivity.
    - subst t. split; [repeat split; reflexivity|]. split; [apply before_none; reflexivity|]. repeat split; reflexivity.
    - apply Fifo; [reflexivity|exact H].
    - contradiction.
  Qed.

  Lemma do_jobs_done : forall js w w' t x, do_jobs W firmware firmware_pcc take_buffer nof_hw true js w = (w', t, inl x) ->
    exists ts, t = concat ts /\ Forall2 job_events js ts.
  Proof using All.
    induction js as [|j js IH]; intros w w' t x H; cbn [do_jobs] in H.
    - inv. exists []. split; [reflexivity|constructor].
    - inv. match goal with H : do_job _ _ _ _ _ _ _ _ = _ |- _ => apply do_job_done in H end.
      match goal with H : do_jobs _ _ _ _ _ _ _ _ = _ |- _ => apply IH in H; destruct H as (ts & -> & F) end.
      eexists (_ :: ts). split; [reflexivity|]. constructor; assumption.
  Qed.

  (** When nothing goes wrong outside, the worker finishes. *)
  Definition harmless : Prop :=
    (forall w c d, In d (a_tx (snd (firmware w c))) -> (d_hw d <= -1)%Z) /\ (forall w, snd (take_buffer w None) = true) /\
    (forall w, l_continue (snd (firmware_pcc w)) = match l_hp (snd (firmware_pcc w)) with Some _ => true | None => false end).
  Lemma bind_total {A B} (m : M W A) (k : A -> M W B) (P : A -> Prop) :
    (forall w, exists w' t x, m w = (w', t, inl x) /\ P x) -> (forall x w, P x -> exists w' t y, k x w = (w', t, inl y)) ->
    forall w, exists w' t y, bindM W m k w = (w', t, inl y).
  Proof using.
    intros Hm Hk w. destruct (Hm w) as (w1 & t1 & x & E & Px). destruct (Hk x w1 Px) as (w2 & t2 & y & E2). unfold bindM. rewrite E, E2. eauto.
  Qed.
  Lemma emit_total e : forall w, exists w' t x, emit W e w = (w', t, inl x) /\ True.
  Proof using. intros w. unfold emit. eauto. Qed.
  Lemma run_tx_total asserts : harmless -> forall ds, Forall (fun d => (d_hw d <= -1)%Z) ds -> forall w, exists w' t y, run_tx W take_buffer nof_hw asserts ds w = (w', t, inl y).
  Proof using.
    intros (_ & Hb & _). induction ds as [|d ds IH]; intros F w; cbn [run_tx]; [unfold ret; eauto|].
    apply Forall_cons_iff in F. destruct F as [L F]. unfold get_buffer. destruct (Z.leb_spec (d_hw d) (-1)); [|lia].
    unfold bindM at 1, ask. specialize (Hb w). destruct (take_buffer w None) as [w1 b]. cbn in Hb. subst b.
    edestruct (bind_total (bindM W (emit W (EPacket d)) (fun _ => emit W (EFinTx (d_hp d)))) (fun _ => run_tx W take_buffer nof_hw asserts ds) (fun _ => True)) as (w2 & t2 & y & E).
    - intros w0. unfold bindM, emit. cbn. eauto.
    - intros x w0 _. apply IH, F.
    - rewrite E. eauto.
  Qed.
  Lemma run_irr_total r : forall w, exists w' t x, run_irregular W r w = (w', t, inl x).
  Proof using. intros w. destruct r; cbn; unfold emit, ret; eauto. Qed.
  Lemma run_plain_total asserts a : harmless -> Forall (fun d => (d_hw d <= -1)%Z) (a_tx a) ->
    forall w, exists w' t y, bindM W (run_tx W take_buffer nof_hw asserts (a_tx a)) (fun _ => run_irregular W (a_irregular a)) w = (w', t, inl y).
  Proof using.
    intros H F. apply (bind_total _ _ (fun _ => True)).
    - intros w. destruct (run_tx_total asserts H _ F w) as (w1 & t1 & y & E). eauto.
    - intros x w _. apply run_irr_total.
  Qed.
  Lemma answer_ok : harmless -> forall w c, Forall (fun d => (d_hw d <= -1)%Z) (a_tx (snd (firmware w c))).
  Proof using. intros (H & _) w c. apply Forall_forall. intros d Hd. exact (H w c d Hd). Qed.
  Lemma ask_total c : harmless -> forall w, exists w' t a, ask W (fun w => firmware w c) (fun a => [ECall c a]) w = (w', t, inl a) /\ Forall (fun d => (d_hw d <= -1)%Z) (a_tx a).
  Proof using.
    intros H w. pose proof (answer_ok H w c) as F. unfold ask. destruct (firmware w c) as [w1 a]. cbn in F. eauto.
  Qed.
  Lemma run_tx_chscan_total asserts a : harmless -> Forall (fun d => (d_hw d <= -1)%Z) (a_tx a) ->
    forall w, exists w' t y, run_tx_chscan W firmware take_buffer nof_hw asserts a w = (w', t, inl y).
  Proof using.
    intros H F. unfold run_tx_chscan. apply (bind_total _ _ (fun _ => True)).
    { intros w. destruct (run_plain_total asserts a H F w) as (w1 & t1 & y & E). eauto. }
    intros _ w _. destruct (a_scan a) as [s|]; [|unfold ret; eauto]. revert w.
    apply (bind_total _ _ (fun _ => True)). { intros w. unfold bindM, emit. cbn. eauto. }
    intros _ w _. revert w. apply (bind_total _ _ (fun a => Forall (fun d => (d_hw d <= -1)%Z) (a_tx a))); [apply ask_total, H|].
    intros a' w F'. revert w. apply (bind_total _ _ (fun _ => True)).
    { intros w. edestruct (bind_total (emit W EUnlock) (fun _ => run_tx W take_buffer nof_hw asserts (a_tx a')) (fun _ => True) (emit_total _)) as (w1 & t1 & y & E);
        [intros x w0 _; apply run_tx_total; assumption|]. rewrite E. eauto. }
    intros _ w _. apply run_irr_total.
  Qed.
  Lemma do_job_total asserts j : harmless -> j_content j <> CNone -> forall w, exists w' t y, do_job W firmware firmware_pcc take_buffer nof_hw asserts j w = (w', t, inl y).
  Proof using.
    intros H Hn. assert (Fifo : forall c w, exists w' t y, fifo_call W firmware take_buffer nof_hw asserts (j_fifo j) c w = (w', t, inl y)).
    { intros c. unfold fifo_call. apply (bind_total _ _ (fun _ => True)); [apply emit_total|]. intros _ w _. revert w.
      apply (bind_total _ _ (fun a => Forall (fun d => (d_hw d <= -1)%Z) (a_tx a))); [apply ask_total, H|]. intros a w F. revert w.
      apply (bind_total _ _ (fun _ => True)); [apply emit_total|]. intros _ w _. apply run_tx_chscan_total; assumption. }
    unfold do_job. destruct (j_content j) as [| |[|] crc| |]; try apply Fifo; try contradiction.
    - apply (bind_total _ _ (fun _ => True)); [apply emit_total|]. intros _ w _. revert w.
      apply (bind_total _ _ (fun l => l_continue l = match l_hp l with Some _ => true | None => false end)).
      { intros w. unfold ask. destruct H as (_ & _ & H). specialize (H w). destruct (firmware_pcc w) as [w1 l]. cbn in H. eauto. }
      intros l w Hl. revert w. apply (bind_total _ _ (fun _ => True)); [apply emit_total|]. intros _ w _. revert w.
      rewrite Hl. destruct (l_hp l) as [hp|]; cbn [negb].
      + apply (bind_total _ _ (fun _ => True)); [apply emit_total|]. intros _ w _. revert w.
        apply (bind_total _ _ (fun a => Forall (fun d => (d_hw d <= -1)%Z) (a_tx a))); [apply ask_total, H|]. intros a w F. revert w.
        apply (bind_total _ _ (fun _ => True)); [|intros _ w _; unfold emit; eauto]. intros w.
        edestruct (bind_total (bindM W (emit W EUnlock) (fun _ => run_tx_chscan W firmware take_buffer nof_hw asserts a)) (fun _ => emit W EReset) (fun _ => True)) as (w1 & t1 & y & E).
        * intros w0. edestruct (bind_total (emit W EUnlock) (fun _ => run_tx_chscan W firmware take_buffer nof_hw asserts a) (fun _ => True) (emit_total _)) as (w1 & t1 & y & E);
            [intros x w1 _; apply run_tx_chscan_total; assumption|]. rewrite E. eauto.
        * intros x w0 _. unfold emit. eauto.
        * rewrite E. eauto.
      + apply (bind_total _ _ (fun _ => True)); [apply emit_total|]. intros _ w _. unfold ret. eauto.
    - intros w. unfold bindM, emit. cbn. eauto.
  Qed.
  Lemma do_jobs_total asserts : harmless -> forall js, Forall (fun j => j_content j <> CNone) js -> forall w,
    exists w' t y, do_jobs W firmware firmware_pcc take_buffer nof_hw asserts js w = (w', t, inl y).
  Proof using.
    intros H. induction js as [|j js IH]; intros F w; cbn [do_jobs]; [unfold ret; eauto|]. apply Forall_cons_iff in F. destruct F as [Fj F]. revert w.
    apply (bind_total _ _ (fun _ => True)).
    - intros w. destruct (do_job_total asserts j H Fj w) as (w1 & t1 & y & E). eauto.
    - intros _ w _. apply IH, F.
  Qed.
End Worker.
