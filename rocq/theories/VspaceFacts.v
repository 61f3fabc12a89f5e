From Verif Require Import Base Vspace VspaceSpec.
Open Scope Z_scope.

Definition b2n (b : bool) : nat := if b then 1%nat else 0%nat.

Lemma all_true_nth l : forallb (fun b : bool => b) l = true <-> forall i, (i < length l)%nat -> nth i l false = true.
Proof.
  rewrite forallb_forall. split.
  - intros H i Hi. apply H. apply nth_In. exact Hi.
  - intros H x Hx. destruct (In_nth l x false Hx) as (i & Hi & <-). apply H. exact Hi.
Qed.
Lemma some_false_nth l : forallb (fun b : bool => b) l = false -> exists i, (i < length l)%nat /\ nth i l false = false.
Proof.
  induction l as [|b l IH]; cbn [forallb]; [discriminate|]. destruct b; cbn [andb].
  - intros H. destruct (IH H) as (i & Hi & E). exists (S i). cbn [length nth]. split; [lia|exact E].
  - intros _. exists 0%nat. cbn. split; [lia|reflexivity].
Qed.
Lemma nth_repeat' {A} (x d : A) n i : (i < n)%nat -> nth i (repeat x n) d = x.
Proof. revert i; induction n as [|n IH]; intros [|i] H; cbn; try lia; auto. apply IH. lia. Qed.
Lemma nth_error_nth_iff {A} (l : list A) i d : (i < length l)%nat -> nth_error l i = Some (nth i l d).
Proof. intros H. apply nth_error_nth'. exact H. Qed.
Lemma nth_upd {A} (l : list A) i j x d : (i < length l)%nat ->
  nth j (upd l i x) d = if (j =? i)%nat then x else nth j l d.
Proof.
  intros H. destruct (Nat.eqb_spec j i) as [->|Hn].
  - apply nth_upd_same. exact H.
  - apply nth_upd_other. lia.
Qed.

Section facts.
Context {data : Type}.
Variable d0 : data.
Variables (rate spp t0 : Z) (cfg : list radio) (n : nat).
Hypothesis Hn : length cfg = n.
Hypothesis Hpos : (0 < n)%nat.
Hypothesis Hcfg : alike rate spp t0 cfg.

Notation sim := (sim data).
Notation vspace := (vspace data).
Notation event := (event data).

Definition T (k : nat) : Z := t0 + Z.of_nat k * spp.

(** While the radios register. *)
Definition InvA (s : sim) (tr : list event) : Prop :=
  let v := space data s in
  tr = [] /\ radios data s = cfg /\
  length (txs data s) = n /\ length (rxs data s) = n /\
  length (tx_registered data v) = n /\ length (rx_registered data v) = n /\ length (slots data v) = n /\
  length (status_tx_written data v) = n /\ length (status_rx_read data v) = n /\
  all_rx_registered data v = false /\
  all_tx_registered data v = forallb is_some (tx_registered data v) /\
  forallb (fun b => b) (rx_registered data v) = false /\
  (all_tx_registered data v = true -> spp_size_common data v = spp) /\
  now data v = (if forallb negb (rx_registered data v) then 0 else t0) /\
  (forallb negb (rx_registered data v) = false -> all_tx_registered data v = true) /\
  (forall i, (i < n)%nat ->
     (nth i (txs data s) TxRegister = TxRegister /\ nth i (tx_registered data v) None = None) \/
     (nth i (txs data s) TxRegister = TxWaitAll /\ nth i (tx_registered data v) None = Some (rate, spp))) /\
  (forall i, (i < n)%nat ->
     (nth i (rxs data s) RxWaitTx = RxWaitTx /\ nth i (rx_registered data v) false = false) \/
     (nth i (rxs data s) RxWaitTx = RxWaitAll /\ nth i (rx_registered data v) false = true)).

Definition TxOk (k : nat) (w : bool) (pc : tx_pc) : Prop :=
  match pc with
  | TxRegister => False
  | TxWaitAll => k = 0%nat /\ w = false
  | TxWait t => t = T (k + b2n w)
  | TxWrite t => w = false /\ t = T k
  end.
Definition RxOk (k rc : nat) (r : bool) (pc : rx_pc) : Prop :=
  match pc with
  | RxWaitTx => False
  | RxWaitAll => (k + rc = 0)%nat
  | RxWait t => t = T (k + rc)
  | RxRead t => r = false /\ t = T (k + rc)
  end.

(** At time step [k]: [wr] = the radios are writing (otherwise they are reading). *)
Definition InvB (k : nat) (wr : bool) (s : sim) (tr : list event) : Prop :=
  let v := space data s in
  let W i := nth i (status_tx_written data v) false in
  let R i := nth i (status_rx_read data v) false in
  let rc i := if wr then 0%nat else b2n (R i) in
  radios data s = cfg /\
  length (txs data s) = n /\ length (rxs data s) = n /\ length (slots data v) = n /\
  length (status_tx_written data v) = n /\ length (status_rx_read data v) = n /\
  all_rx_registered data v = true /\
  spp_size_common data v = spp /\ now data v = T k /\
  (if wr then (forall i, (i < n)%nat -> R i = true) /\ exists i, (i < n)%nat /\ W i = false
   else (forall i, (i < n)%nat -> W i = true) /\ exists i, (i < n)%nat /\ R i = false) /\
  (forall i, (i < n)%nat -> TxOk k (W i) (nth i (txs data s) TxRegister)) /\
  (forall i, (i < n)%nat -> RxOk k (rc i) (R i) (nth i (rxs data s) RxWaitTx)) /\
  (forall i, (i < n)%nat -> map fst (writes_of i tr) = grid t0 spp (k + b2n (W i))) /\
  (forall i, (i < n)%nat -> W i = true -> In (T k, nth i (slots data v) d0) (writes_of i tr)) /\
  (forall i, (i < n)%nat -> map fst (reads_of i tr) = grid t0 spp (k + rc i)) /\
  (forall i t l, (i < n)%nat -> In (t, l) (reads_of i tr) ->
     length l = n /\ forall j, (j < n)%nat -> In (t, nth j l d0) (writes_of j tr)).

Definition InvV (s : sim) (tr : list event) : Prop := InvA s tr \/ exists k wr, InvB k wr s tr.

Lemma radio_ok i : (i < n)%nat -> exists c, nth_error cfg i = Some c /\ samp_rate c = rate /\ spp_size c = spp /\ start c = t0.
Proof using Hn Hcfg.
  clear Hpos. intros Hi. destruct (nth_error cfg i) as [c|] eqn:E; [|apply nth_error_None in E; lia].
  exists c. split; [reflexivity|]. unfold alike in Hcfg. rewrite Forall_forall in Hcfg. apply Hcfg. eapply nth_error_In; eauto.
Qed.

Lemma writes_app i (a b : list event) : writes_of i (a ++ b) = writes_of i a ++ writes_of i b.
Proof. clear. induction a as [|[j t d|j t l] a IH]; cbn [writes_of app]; auto. destruct (_ =? _)%nat; cbn [app]; rewrite IH; reflexivity. Qed.
Lemma reads_app i (a b : list event) : reads_of i (a ++ b) = reads_of i a ++ reads_of i b.
Proof. clear. induction a as [|[j t d|j t l] a IH]; cbn [reads_of app]; auto. destruct (_ =? _)%nat; cbn [app]; rewrite IH; reflexivity. Qed.
Lemma grid_S k : grid t0 spp (S k) = grid t0 spp k ++ [T k].
Proof. clear. unfold grid, T. rewrite seq_S, map_app. reflexivity. Qed.

Lemma init_inv : InvA (sim_new data d0 cfg) [].
Proof using Hn Hpos.
  clear Hcfg. unfold InvA, sim_new, vspace_new; cbn [space radios txs rxs tx_registered rx_registered slots status_tx_written
    status_rx_read all_rx_registered all_tx_registered spp_size_common now].
  rewrite !repeat_length, Hn.
  assert (A : forall (l : nat), (0 < l)%nat -> forallb is_some (repeat (@None (Z * Z)) l) = false).
  { intros [|l] H; [lia|reflexivity]. }
  assert (B : forall (l : nat), (0 < l)%nat -> forallb (fun b => b) (repeat false l) = false).
  { intros [|l] H; [lia|reflexivity]. }
  assert (C : forall (l : nat), forallb negb (repeat false l) = true).
  { induction l; [reflexivity|]. exact IHl. }
  rewrite A, B, C by exact Hpos. repeat (split; [reflexivity|]). split; [discriminate|]. split; [reflexivity|].
  split; [discriminate|].
  split; intros i Hi; left; rewrite !nth_repeat' by exact Hi; auto.
Qed.

Lemma same_first l : (forall i, (i < length l)%nat -> nth i l None = Some (rate, spp)) -> (0 < length l)%nat ->
  same_as_first l = true /\ match l with Some (_, s) :: _ => s | _ => 0 end = spp.
Proof using .
  clear Hn Hpos Hcfg n. intros H Hl. destruct l as [|o l]; [cbn in Hl; lia|].
  pose proof (H 0%nat ltac:(cbn [length]; lia)) as H0. cbn in H0. subst o. split; [|reflexivity].
  cbn [same_as_first]. apply forallb_forall. intros x Hx. destruct (In_nth l x None Hx) as (i & Hi & <-).
  specialize (H (S i) ltac:(cbn [length]; lia)). cbn [nth] in H. rewrite H, !Z.eqb_refl. reflexivity.
Qed.

Lemma tx_step_A s tr i d : InvA s tr -> (i < n)%nat ->
  exists s' e, tx_step data s i d = Ok (s', e) /\ InvA s' (tr ++ e).
Proof.
  intros HI Hi. pose proof HI as (-> & HR & L1 & L2 & L3 & L4 & L5 & L6 & L7 & AR & AT & NR & SC & NW & NF & PT & PR).
  unfold tx_step. rewrite (nth_error_nth_iff _ i TxRegister) by lia. rewrite HR.
  destruct (radio_ok i Hi) as (c & -> & C1 & C2 & C3).
  destruct (PT i Hi) as [[P Q]|[P Q]]; rewrite P; cbv zeta.
  - unfold hw_register_tx, guard. rewrite L3. destruct (Nat.ltb_spec i n); [|lia].
    rewrite (nth_error_nth_iff _ i None) by lia. rewrite Q, C1, C2.
    assert (AF : all_tx_registered data (space data s) = false).
    { rewrite AT. destruct (forallb is_some _) eqn:E; [|reflexivity]. rewrite forallb_forall in E.
      assert (In None (tx_registered data (space data s))) as HIn by (rewrite <- Q; apply nth_In; lia).
      discriminate (E _ HIn). }
    assert (RF : forallb negb (rx_registered data (space data s)) = true).
    { destruct (forallb negb _) eqn:E; [reflexivity|]. rewrite (NF eq_refl) in AF. discriminate. }
    set (reg := upd (tx_registered data (space data s)) i (Some (rate, spp))).
    assert (Lr : length reg = n) by (unfold reg; rewrite upd_length; exact L3).
    assert (PT' : forall j, (j < n)%nat ->
     (nth j (upd (txs data s) i TxWaitAll) TxRegister = TxRegister /\ nth j reg None = None) \/
     (nth j (upd (txs data s) i TxWaitAll) TxRegister = TxWaitAll /\ nth j reg None = Some (rate, spp))).
    { intros j Hj. unfold reg. rewrite !nth_upd by lia. destruct (Nat.eqb_spec j i); [right; auto|]. apply PT. exact Hj. }
    destruct (forallb is_some reg) eqn:EA.
    + assert (All : forall j, (j < length reg)%nat -> nth j reg None = Some (rate, spp)).
      { intros j Hj. rewrite Lr in Hj. destruct (PT' j Hj) as [[_ Q']|[_ Q']]; [|exact Q'].
        rewrite forallb_forall in EA. assert (In None reg) as HIn by (rewrite <- Q'; apply nth_In; lia).
        discriminate (EA _ HIn). }
      destruct (same_first reg All ltac:(lia)) as [-> Hsc]. cbn [bind].
      eexists _, _. split; [reflexivity|]. unfold InvA; cbn [space radios txs rxs tx_registered rx_registered slots status_tx_written
         status_rx_read all_rx_registered all_tx_registered spp_size_common now app].
      rewrite upd_length, RF, EA. repeat (split; [assumption || reflexivity|]). split; [auto|]. split; [reflexivity|]. split; [discriminate|]. auto.
    + cbn [bind]. eexists _, _. split; [reflexivity|]. unfold InvA; cbn [space radios txs rxs tx_registered rx_registered slots status_tx_written
         status_rx_read all_rx_registered all_tx_registered spp_size_common now app].
      rewrite upd_length, RF, EA, AF. rewrite RF in NW. repeat (split; [assumption || reflexivity|]).
      split; [discriminate|]. split; [exact NW|]. split; [discriminate|]. auto.
  - rewrite AR. exists s, []. split; [reflexivity|exact HI].
Qed.

Lemma rx_step_A s tr i : InvA s tr -> (i < n)%nat ->
  exists s' e, rx_step data s i = Ok (s', e) /\ InvV s' (tr ++ e).
Proof.
  intros HI Hi. pose proof HI as (-> & HR & L1 & L2 & L3 & L4 & L5 & L6 & L7 & AR & AT & NR & SC & NW & NF & PT & PR).
  unfold rx_step. rewrite (nth_error_nth_iff _ i RxWaitTx) by lia. rewrite HR.
  destruct (radio_ok i Hi) as (c & -> & C1 & C2 & C3).
  assert (Stay : exists s' e, Ok (s, @nil event) = Ok (s', e) /\ InvV s' ([] ++ e)).
  { exists s, []. split; [reflexivity|]. left. exact HI. }
  destruct (PR i Hi) as [[P Q]|[P Q]]; rewrite P; cbv zeta; [|rewrite AR; exact Stay].
  destruct (all_tx_registered data (space data s)) eqn:EA; [|exact Stay].
  unfold hw_register_rx. rewrite (nth_error_nth_iff _ i None) by lia.
  assert (HT : nth i (tx_registered data (space data s)) None = Some (rate, spp)).
  { destruct (PT i Hi) as [[_ Q']|[_ Q']]; [|exact Q']. symmetry in AT. rewrite forallb_forall in AT.
    assert (In None (tx_registered data (space data s))) as HIn by (rewrite <- Q'; apply nth_In; lia).
    discriminate (AT _ HIn). }
  rewrite HT. rewrite (rd_ok _ _ false) by lia. rewrite Q, EA, C1, C2, C3, !Z.eqb_refl. cbn [bind negb guard].
  rewrite NW. set (fst_ := forallb negb (rx_registered data (space data s))).
  assert (G1 : (negb fst_ || ((if fst_ then 0 else t0) =? 0))%bool = true) by (destruct fst_; reflexivity).
  rewrite G1. cbn [guard].
  assert (G2 : (if fst_ then t0 else if fst_ then 0 else t0) = t0) by (destruct fst_; reflexivity).
  rewrite G2, Z.eqb_refl. cbn [guard bind].
  set (reg := upd (rx_registered data (space data s)) i true).
  assert (Lr : length reg = n) by (unfold reg; rewrite upd_length; exact L4).
  assert (Hneg : forallb negb reg = false).
  { destruct (forallb negb reg) eqn:E; [|reflexivity]. rewrite forallb_forall in E.
    assert (HIn : In true reg).
    { rewrite <- (nth_upd_same (rx_registered data (space data s)) i true false) by lia. apply nth_In. lia. }
    discriminate (E _ HIn). }
  assert (PR' : forall j, (j < n)%nat ->
     (nth j (upd (rxs data s) i RxWaitAll) RxWaitTx = RxWaitTx /\ nth j reg false = false) \/
     (nth j (upd (rxs data s) i RxWaitAll) RxWaitTx = RxWaitAll /\ nth j reg false = true)).
  { intros j Hj. unfold reg. rewrite !nth_upd by lia. destruct (Nat.eqb_spec j i); [right; auto|]. apply PR. exact Hj. }
  eexists _, _. split; [reflexivity|].
  destruct (forallb (fun b => b) reg) eqn:EL.
  - (* the last registration *)
    right. exists 0%nat, true. rewrite app_nil_r.
    assert (AllT : forall j, (j < n)%nat -> nth j reg false = true).
    { intros j Hj. apply all_true_nth; [exact EL|]. lia. }
    unfold InvB; cbn [space radios txs rxs tx_registered rx_registered slots status_tx_written
         status_rx_read all_rx_registered all_tx_registered spp_size_common now app].
    rewrite !repeat_length, upd_length, L6, L7. unfold T. rewrite Z.mul_0_l, Z.add_0_r.
    repeat (split; [assumption || reflexivity || (apply SC; reflexivity)|]).
    split; [split|].
    + intros j Hj. apply nth_repeat'. exact Hj.
    + exists 0%nat. split; [exact Hpos|]. apply nth_repeat'. exact Hpos.
    + split.
      * intros j Hj. rewrite nth_repeat' by exact Hj. destruct (PT j Hj) as [[_ Q']|[-> _]].
        -- symmetry in AT. rewrite forallb_forall in AT.
           assert (In None (tx_registered data (space data s))) as HIn by (rewrite <- Q'; apply nth_In; lia).
           discriminate (AT _ HIn).
        -- cbn. auto.
      * split.
        -- intros j Hj. destruct (PR' j Hj) as [[_ Q']|[-> _]]; [rewrite (AllT j Hj) in Q'; discriminate|]. reflexivity.
        -- split; [intros j Hj; rewrite nth_repeat' by exact Hj; reflexivity|].
           split; [intros j Hj; rewrite nth_repeat' by exact Hj; discriminate|].
           split; [reflexivity|]. intros j t l _ [].
  - left. rewrite app_nil_r. unfold InvA; cbn [space radios txs rxs tx_registered rx_registered slots status_tx_written
         status_rx_read all_rx_registered all_tx_registered spp_size_common now app].
    rewrite upd_length, Hneg, EL. repeat (split; [assumption || reflexivity|]).
    auto.
Qed.

Lemma tx_step_B k wr s tr i d : InvB k wr s tr -> (i < n)%nat ->
  exists s' e, tx_step data s i d = Ok (s', e) /\ InvV s' (tr ++ e).
Proof.
  intros HI Hi. pose proof HI as (HR & L1 & L2 & L5 & L6 & L7 & AR & SC & NW & PH & PT & PR & TW & TS & TR & TC).
  unfold tx_step. rewrite (nth_error_nth_iff _ i TxRegister) by lia. rewrite HR.
  destruct (radio_ok i Hi) as (c & -> & C1 & C2 & C3).
  assert (Stay : exists s' e, Ok (s, @nil event) = Ok (s', e) /\ InvV s' (tr ++ e)).
  { exists s, []. split; [reflexivity|]. right. exists k, wr. rewrite app_nil_r. exact HI. }
  pose proof (PT i Hi) as Pi. cbv zeta. destruct (nth i (txs data s) TxRegister) as [| |t|t] eqn:P; cbn [TxOk] in Pi.
  - contradiction.
  - rewrite AR. eexists _, _. split; [reflexivity|]. right. exists k, wr. rewrite app_nil_r.
    unfold InvB; cbn [space radios txs rxs]. rewrite upd_length.
    split; [first [exact HR|reflexivity]|]. do 8 (split; [assumption || reflexivity|]). split; [exact PH|].
    split; [|auto]. intros j Hj. rewrite nth_upd by lia. destruct (Nat.eqb_spec j i) as [->|]; [|apply PT; exact Hj].
    destruct Pi as [-> ->]. cbn [TxOk b2n plus]. rewrite C3. unfold T. lia.
  - rewrite (rd_ok _ _ false) by lia. cbn [bind].
    destruct (nth i (status_tx_written data (space data s)) false) eqn:W; [exact Stay|].
    eexists _, _. split; [reflexivity|]. right. exists k, wr. rewrite app_nil_r.
    unfold InvB; cbn [space radios txs rxs]. rewrite upd_length.
    split; [first [exact HR|reflexivity]|]. do 8 (split; [assumption || reflexivity|]). split; [exact PH|].
    split; [|auto]. intros j Hj. rewrite nth_upd by lia. destruct (Nat.eqb_spec j i) as [->|]; [|apply PT; exact Hj].
    rewrite W. cbn [TxOk b2n]. split; [reflexivity|]. rewrite Pi. cbn [b2n]. f_equal. lia.
  - destruct Pi as [W Et]. unfold write. rewrite (rd_ok _ _ false) by lia. rewrite W. cbn [bind negb guard].
    rewrite NW, Et, Z.eqb_refl. cbn [guard bind].
    set (wn := upd (status_tx_written data (space data s)) i true).
    assert (Lw : length wn = n) by (unfold wn; rewrite upd_length; exact L6).
    assert (Ewr : wr = true).
    { destruct wr; [reflexivity|]. destruct PH as [PH _]. rewrite (PH i Hi) in W. discriminate. }
    rewrite Ewr in PH, PR, TR. destruct PH as [RT _].
    assert (Wn : forall j, (j < n)%nat -> nth j wn false = if (j =? i)%nat then true else nth j (status_tx_written data (space data s)) false).
    { intros j Hj. unfold wn. apply nth_upd. lia. }
    assert (NWn : forall j, writes_of j (tr ++ [EWrite data i (T k) d]) = writes_of j tr ++ (if (j =? i)%nat then [(T k, d)] else [])).
    { intros j. rewrite writes_app. cbn [writes_of]. destruct (j =? i)%nat; reflexivity. }
    assert (NRn : forall j, reads_of j (tr ++ [EWrite data i (T k) d]) = reads_of j tr).
    { intros j. rewrite reads_app. cbn [reads_of]. apply app_nil_r. }
    (* facts common to both outcomes *)
    assert (F1 : forall j, (j < n)%nat -> TxOk k (nth j wn false) (nth j (upd (txs data s) i (TxWait (T k + spp_size c))) TxRegister)).
    { intros j Hj. rewrite nth_upd, Wn by lia. destruct (Nat.eqb_spec j i) as [->|]; [|apply PT; exact Hj].
      cbn [TxOk b2n]. rewrite C2. unfold T. lia. }
    assert (F2 : forall j, (j < n)%nat -> map fst (writes_of j (tr ++ [EWrite data i (T k) d])) = grid t0 spp (k + b2n (nth j wn false))).
    { intros j Hj. rewrite NWn, map_app, TW, Wn by exact Hj. destruct (Nat.eqb_spec j i) as [->|].
      - rewrite W. cbn [b2n map fst]. replace (k + 0)%nat with k by lia. replace (k + 1)%nat with (S k) by lia.
        rewrite grid_S. reflexivity.
      - cbn [map]. rewrite app_nil_r. reflexivity. }
    assert (F3 : forall j, (j < n)%nat -> nth j wn false = true ->
              In (T k, nth j (upd (slots data (space data s)) i d) d0) (writes_of j (tr ++ [EWrite data i (T k) d]))).
    { intros j Hj. rewrite NWn, Wn, nth_upd by lia. destruct (Nat.eqb_spec j i) as [->|].
      - intros _. apply in_or_app. right. left. reflexivity.
      - intros Hw. rewrite app_nil_r. apply TS; assumption. }
    assert (F4 : forall j t' l, (j < n)%nat -> In (t', l) (reads_of j (tr ++ [EWrite data i (T k) d])) ->
       length l = n /\ forall m, (m < n)%nat -> In (t', nth m l d0) (writes_of m (tr ++ [EWrite data i (T k) d]))).
    { intros j t' l Hj HIn. rewrite NRn in HIn. destruct (TC j t' l Hj HIn) as [A B]. split; [exact A|].
      intros m Hm. rewrite NWn. apply in_or_app. left. apply B. exact Hm. }
    eexists _, _. split; [reflexivity|]. right.
    destruct (forallb (fun b => b) wn) eqn:EL.
    + exists k, false. unfold InvB; cbn [space radios txs rxs slots status_tx_written status_rx_read all_rx_registered
        all_tx_registered spp_size_common now]. rewrite !upd_length, repeat_length, L7.
      split; [first [exact HR|reflexivity]|]. do 8 (split; [assumption || reflexivity|]). split; [|split; [|split; [|split; [|split; [|split]]]]].
      * split; [intros j Hj; apply all_true_nth; [exact EL|lia]|].
        exists 0%nat. split; [exact Hpos|]. apply nth_repeat'. exact Hpos.
      * exact F1.
      * intros j Hj. rewrite nth_repeat' by exact Hj. specialize (PR j Hj). rewrite (RT j Hj) in PR. cbn [b2n].
        destruct (nth j (rxs data s) RxWaitTx); cbn [RxOk] in *; auto. destruct PR as [PR _]. discriminate.
      * exact F2.
      * exact F3.
      * intros j Hj. rewrite NRn, nth_repeat' by exact Hj. cbn [b2n]. apply TR. exact Hj.
      * exact F4.
    + exists k, true. unfold InvB; cbn [space radios txs rxs slots status_tx_written status_rx_read all_rx_registered
        all_tx_registered spp_size_common now]. rewrite !upd_length.
      split; [first [exact HR|reflexivity]|]. do 8 (split; [assumption || reflexivity|]). split; [|split; [|split; [|split; [|split; [|split]]]]].
      * split; [exact RT|]. destruct (some_false_nth wn EL) as (j & Hj & E). exists j. split; [lia|exact E].
      * exact F1.
      * exact PR.
      * exact F2.
      * exact F3.
      * intros j Hj. rewrite NRn. apply TR. exact Hj.
      * exact F4.
Qed.

Lemma rx_step_B k wr s tr i : InvB k wr s tr -> (i < n)%nat ->
  exists s' e, rx_step data s i = Ok (s', e) /\ InvV s' (tr ++ e).
Proof.
  intros HI Hi. pose proof HI as (HR & L1 & L2 & L5 & L6 & L7 & AR & SC & NW & PH & PT & PR & TW & TS & TR & TC).
  unfold rx_step. rewrite (nth_error_nth_iff _ i RxWaitTx) by lia. rewrite HR.
  destruct (radio_ok i Hi) as (c & -> & C1 & C2 & C3).
  assert (Stay : exists s' e, Ok (s, @nil event) = Ok (s', e) /\ InvV s' (tr ++ e)).
  { exists s, []. split; [reflexivity|]. right. exists k, wr. rewrite app_nil_r. exact HI. }
  pose proof (PR i Hi) as Pi. cbv zeta. destruct (nth i (rxs data s) RxWaitTx) as [| |t|t] eqn:P; cbn [RxOk] in Pi.
  - contradiction.
  - rewrite AR. eexists _, _. split; [reflexivity|]. right. exists k, wr. rewrite app_nil_r.
    unfold InvB; cbn [space radios txs rxs]. rewrite upd_length.
    split; [first [exact HR|reflexivity]|]. do 8 (split; [assumption || reflexivity|]). split; [exact PH|]. split; [exact PT|].
    split; [|auto]. intros j Hj. rewrite nth_upd by lia. destruct (Nat.eqb_spec j i) as [->|]; [|apply PR; exact Hj].
    cbn [RxOk]. rewrite Pi, C3. unfold T. lia.
  - rewrite (rd_ok _ _ false) by lia. cbn [bind].
    destruct (nth i (status_rx_read data (space data s)) false) eqn:R; [exact Stay|].
    eexists _, _. split; [reflexivity|]. right. exists k, wr. rewrite app_nil_r.
    unfold InvB; cbn [space radios txs rxs]. rewrite upd_length.
    split; [first [exact HR|reflexivity]|]. do 8 (split; [assumption || reflexivity|]). split; [exact PH|]. split; [exact PT|].
    split; [|auto]. intros j Hj. rewrite nth_upd by lia. destruct (Nat.eqb_spec j i) as [->|]; [|apply PR; exact Hj].
    rewrite R. cbn [RxOk]. split; [reflexivity|exact Pi].
  - destruct Pi as [R Et]. unfold read. rewrite (rd_ok _ _ false) by lia. rewrite R. cbn [bind negb guard].
    assert (Ewr : wr = false).
    { destruct wr; [|reflexivity]. destruct PH as [PH _]. rewrite (PH i Hi) in R. discriminate. }
    rewrite Ewr in PH, PR, TR, Et. rewrite R in Et. cbn [b2n] in Et. replace (k + 0)%nat with k in Et by lia.
    destruct PH as [WT _].
    rewrite NW, Et, Z.eqb_refl. cbn [guard bind].
    set (rn := upd (status_rx_read data (space data s)) i true).
    assert (Lw : length rn = n) by (unfold rn; rewrite upd_length; exact L7).
    assert (Rn : forall j, (j < n)%nat -> nth j rn false = if (j =? i)%nat then true else nth j (status_rx_read data (space data s)) false).
    { intros j Hj. unfold rn. apply nth_upd. lia. }
    set (ev := ERead data i (T k) (slots data (space data s))).
    assert (NRn : forall j, reads_of j (tr ++ [ev]) = reads_of j tr ++ (if (j =? i)%nat then [(T k, slots data (space data s))] else [])).
    { intros j. rewrite reads_app. unfold ev. cbn [reads_of]. destruct (j =? i)%nat; reflexivity. }
    assert (NWn : forall j, writes_of j (tr ++ [ev]) = writes_of j tr).
    { intros j. rewrite writes_app. cbn [writes_of ev]. apply app_nil_r. }
    assert (F1 : forall j, (j < n)%nat -> RxOk k (b2n (nth j rn false)) (nth j rn false) (nth j (upd (rxs data s) i (RxWait (T k + spp_size c))) RxWaitTx)).
    { intros j Hj. rewrite nth_upd, Rn by lia. destruct (Nat.eqb_spec j i) as [->|]; [|apply PR; exact Hj].
      cbn [RxOk b2n]. rewrite C2. unfold T. lia. }
    assert (F2 : forall j, (j < n)%nat -> map fst (reads_of j (tr ++ [ev])) = grid t0 spp (k + b2n (nth j rn false))).
    { intros j Hj. rewrite NRn, map_app, TR, Rn by exact Hj. destruct (Nat.eqb_spec j i) as [->|].
      - rewrite R. cbn [b2n map fst]. replace (k + 0)%nat with k by lia. replace (k + 1)%nat with (S k) by lia.
        rewrite grid_S. reflexivity.
      - cbn [map]. rewrite app_nil_r. reflexivity. }
    assert (F4 : forall j t' l, (j < n)%nat -> In (t', l) (reads_of j (tr ++ [ev])) ->
       length l = n /\ forall m, (m < n)%nat -> In (t', nth m l d0) (writes_of m (tr ++ [ev]))).
    { intros j t' l Hj HIn. rewrite NRn in HIn. apply in_app_or in HIn as [HIn|HIn].
      - destruct (TC j t' l Hj HIn) as [A B]. split; [exact A|]. intros m Hm. rewrite NWn. apply B. exact Hm.
      - destruct (j =? i)%nat; [|contradiction]. destruct HIn as [HIn|[]]. injection HIn as <- <-.
        split; [exact L5|]. intros m Hm. rewrite NWn. apply TS; [exact Hm|]. apply WT. exact Hm. }
    eexists _, _. split; [reflexivity|]. right.
    destruct (forallb (fun b => b) rn) eqn:EL.
    + assert (RA : forall j, (j < n)%nat -> nth j rn false = true).
      { intros j Hj. apply all_true_nth; [exact EL|lia]. }
      exists (S k), true. unfold InvB; cbn [space radios txs rxs slots status_tx_written status_rx_read all_rx_registered
        all_tx_registered spp_size_common now]. rewrite upd_length, repeat_length, L6.
      split; [first [exact HR|reflexivity]|]. do 6 (split; [assumption || reflexivity|]). split; [exact SC|]. split; [|split; [|split; [|split; [|split; [|split; [|split]]]]]].
      * rewrite SC. unfold T. lia.
      * split; [exact RA|]. exists 0%nat. split; [exact Hpos|]. apply nth_repeat'. exact Hpos.
      * intros j Hj. rewrite nth_repeat' by exact Hj. specialize (PT j Hj). rewrite (WT j Hj) in PT. cbn [b2n] in *.
        destruct (nth j (txs data s) TxRegister); cbn [TxOk b2n] in *.
        -- exact PT.
        -- destruct PT as [_ PT]. discriminate.
        -- rewrite PT. f_equal. lia.
        -- destruct PT as [PT _]. discriminate.
      * intros j Hj. specialize (F1 j Hj). rewrite (RA j Hj) in *. cbn [b2n] in F1.
        destruct (nth j (upd (rxs data s) i (RxWait (T k + spp_size c))) RxWaitTx); cbn [RxOk] in *.
        -- exact F1.
        -- lia.
        -- rewrite F1. f_equal. lia.
        -- destruct F1 as [F1 _]. discriminate.
      * intros j Hj. rewrite NWn, TW, (WT j Hj), nth_repeat' by exact Hj. cbn [b2n]. f_equal. lia.
      * intros j Hj. rewrite nth_repeat' by exact Hj. discriminate.
      * intros j Hj. rewrite F2, (RA j Hj) by exact Hj. cbn [b2n]. f_equal. lia.
      * exact F4.
    + exists k, false. unfold InvB; cbn [space radios txs rxs slots status_tx_written status_rx_read all_rx_registered
        all_tx_registered spp_size_common now]. rewrite upd_length.
      split; [first [exact HR|reflexivity]|]. do 8 (split; [assumption || reflexivity|]). split; [|split; [|split; [|split; [|split; [|split]]]]].
      * split; [exact WT|]. destruct (some_false_nth rn EL) as (j & Hj & E). exists j. split; [lia|exact E].
      * exact PT.
      * exact F1.
      * intros j Hj. rewrite NWn. apply TW. exact Hj.
      * intros j Hj Hw. rewrite NWn. apply TS; assumption.
      * exact F2.
      * exact F4.
Qed.

Definition act_ok (a : action data) : Prop := match a with Tx _ i _ => (i < n)%nat | Rx _ i => (i < n)%nat end.

Lemma step_inv s tr a : InvV s tr -> exists s' e, step data s a = Ok (s', e) /\ InvV s' (tr ++ e).
Proof.
  intros HI.
  assert (Lens : length (txs data s) = n /\ length (rxs data s) = n).
  { destruct HI as [(_ & _ & A & B & _)|(k & wr & _ & A & B & _)]; auto. }
  assert (Out : forall i, ~ (i < n)%nat -> nth_error (txs data s) i = None /\ nth_error (rxs data s) i = None).
  { intros i Hi. split; apply nth_error_None; lia. }
  destruct a as [i d|i]; cbn [step].
  - destruct (Nat.lt_ge_cases i n) as [Hi|Hi].
    + destruct HI as [HA|(k & wr & HB)].
      * destruct (tx_step_A s tr i d HA Hi) as (s' & e & E & H'). exists s', e. split; [exact E|]. left. exact H'.
      * apply (tx_step_B k wr); assumption.
    + unfold tx_step. destruct (Out i ltac:(lia)) as [-> _]. exists s, []. rewrite app_nil_r. auto.
  - destruct (Nat.lt_ge_cases i n) as [Hi|Hi].
    + destruct HI as [HA|(k & wr & HB)].
      * apply rx_step_A; assumption.
      * apply (rx_step_B k wr); assumption.
    + unfold rx_step. destruct (Out i ltac:(lia)) as [_ ->]. exists s, []. rewrite app_nil_r. auto.
Qed.

Lemma run_inv : forall l s tr, InvV s tr -> exists s' tr', run data s l = Ok (s', tr') /\ InvV s' (tr ++ tr').
Proof.
  induction l as [|a l IH]; intros s tr HI; cbn [run].
  - exists s, []. rewrite app_nil_r. auto.
  - destruct (step_inv s tr a HI) as (s1 & e1 & -> & H1). cbn [bind].
    destruct (IH s1 (tr ++ e1) H1) as (s2 & e2 & -> & H2). cbn [bind]. exists s2, (e1 ++ e2).
    rewrite app_assoc. auto.
Qed.
End facts.
