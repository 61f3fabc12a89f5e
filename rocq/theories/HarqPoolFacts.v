From Verif Require Import Base HarqPool HarqPoolSpec.
Open Scope nat_scope.

Definition leased (cmax : nat) (p : proc) (l : lease) : Prop :=
  outer p = true /\ ps_C p = l_C l /\ length (l_soft l) = l_C l /\ l_C l <= cmax /\ network_id p = l_net l /\
  rv p = version l /\ rv_unwrapped p = N.of_nat (l_k l) /\ l_k l <= 7 /\ soft p = full_soft cmax l /\ ending p = false.

Definition ending_proc (cmax : nat) : proc :=
  {| outer := true; inner := false; plcf_type := 0; network_id := 0; ps_C := 0; rv := 0; rv_unwrapped := 0;
     pol := PReset; soft := repeat [] cmax; ending := true |}.

Definition PRel (cmax : nat) (p : proc) (st : status) : Prop :=
  match st with
  | SIdle => p = proc_new cmax
  | SEnding => p = ending_proc cmax
  | SBusy pl l => leased cmax p l /\ inner p = true /\ pol p = pl
  | SParked l => leased cmax p l /\ inner p = false
  end.

Record HRel (q : hpool) (s : spool) : Prop := {
  hr_procs : Forall2 (PRel (s_cmax s)) (procs q) (sts s);
  hr_tb : max_tb q = s_max_tb s;
  hr_scan : scan q = s_scan s;
  hr_req : match s_scan s with
           | None => True
           | Some (_, r) => exists tb C, r_sizes r = Some (tb, C) /\ C <= s_cmax s
           end }.

Lemma Forall2_nth {A B} (R : A -> B -> Prop) l1 l2 i : Forall2 R l1 l2 ->
  match nth_error l1 i, nth_error l2 i with
  | Some a, Some b => R a b
  | None, None => True
  | _, _ => False
  end.
Proof.
  intros H. revert i; induction H as [|a b l1 l2 Hab Hl IH]; intros [|i]; cbn; auto. apply IH.
Qed.

Lemma Forall2_upd {A B} (R : A -> B -> Prop) l1 l2 i a b : Forall2 R l1 l2 -> R a b ->
  Forall2 R (upd l1 i a) (upd l2 i b).
Proof.
  intros H Hab. revert i; induction H as [|x y l1 l2 Hxy Hl IH]; intros [|i]; cbn; constructor; auto.
Qed.

Lemma hrel_upd q s i p st : HRel q s -> PRel (s_cmax s) p st -> HRel (set_proc q i p) (with_status s i st).
Proof. intros [] H. constructor; cbn; auto. apply Forall2_upd; auto. Qed.

Lemma hrel_scan q s x : HRel q s ->
  match x with None => True | Some (_, r) => exists tb C, r_sizes r = Some (tb, C) /\ C <= s_cmax s end ->
  HRel (set_scan q x) (with_scan s x).
Proof. intros [] H. constructor; cbn; auto. Qed.

Lemma version_small l : l_base l = None -> (version l <= rv_max)%N.
Proof.
  intros E. unfold version. rewrite E. pose proof (Nat.mod_upper_bound (l_k l) 4 ltac:(lia)).
  destruct (l_k l mod 4) as [|[|[|[|]]]]; cbn; unfold rv_max; lia.
Qed.

Lemma cycle_next k : (match nth (k mod 4) rv_cycle 0 with 0 => Ok 2 | 1 => Ok 0 | 2 => Ok 3 | 3 => Ok 1 | _ => Abort end)%N
  = Ok (nth (S k mod 4) rv_cycle 0%N).
Proof.
  assert (E : S k mod 4 = (k mod 4 + 1) mod 4) by (rewrite Nat.add_mod_idemp_l by lia; f_equal; lia).
  rewrite E. pose proof (Nat.mod_upper_bound k 4 ltac:(lia)).
  destruct (k mod 4) as [|[|[|[|]]]]; cbn; try reflexivity; lia.
Qed.

Lemma clear_soft cmax l : length (l_soft l) = l_C l -> l_C l <= cmax ->
  repeat [] (min (l_C l) (length (full_soft cmax l))) ++ skipn (l_C l) (full_soft cmax l) = repeat (@nil N) cmax.
Proof.
  intros E L. unfold full_soft. rewrite app_length, repeat_length, E, skipn_app, E, Nat.sub_diag.
  rewrite skipn_all2 by lia. cbn [skipn app]. rewrite <- repeat_app. f_equal. lia.
Qed.

Definition good (q : hpool) (o : hop) (x : sres) : Prop :=
  match x with
  | SOk s' r => exists q', hstep q o = Ok (q', r) /\ HRel q' s'
  | SAbort => hstep q o = Abort
  | SThrow => hstep q o = Throw
  | SMisuse => True
  end.

Lemma hstep_refines q s o : HRel q s -> good q o (sstep s o).
Proof.
  intros H. pose proof H as []. destruct o as [r| |id pl v|id|id cb x|id crc|id]; cbn [sstep].
  - (* HGet *)
    unfold good, hstep. rewrite hr_scan0. destruct (s_scan s) as [[i r0]|] eqn:Es; [eauto|].
    destruct ((r_plcf r =? 1) || (r_plcf r =? 2))%N; cbn [guard]; [|reflexivity].
    destruct (r_sizes r) as [(tb, C)|] eqn:Er; [|reflexivity].
    destruct (Nat.leb_spec C (s_cmax s)); [|exact I].
    eexists; split; [reflexivity|]. apply hrel_scan; eauto.
  - (* HProbe *)
    unfold good, hstep. rewrite hr_scan0. destruct (s_scan s) as [[i r]|] eqn:Es; [|eauto].
    destruct hr_req0 as (tb & C & Er & HC). rewrite Er.
    pose proof (Forall2_nth _ _ _ i hr_procs0) as P.
    destruct (nth_error (procs q) i) as [p|] eqn:Ep, (nth_error (sts s) i) as [st|] eqn:Et; try contradiction.
    2:{ eexists; split; [reflexivity|]. apply hrel_scan; auto. }
    destruct st as [|pl l|l|]; cbn [PRel] in P.
    + subst p. cbn [outer proc_new]. unfold acquire. cbn [inner proc_new negb guard]. rewrite hr_tb0.
      destruct (tb <=? s_max_tb s)%N; cbn [guard bind]; [|reflexivity].
      eexists; split; [reflexivity|]. apply hrel_scan; [|exact I]. apply hrel_upd; [exact H|].
      cbn [PRel]. unfold leased, full_soft, version; cbn. repeat split; auto; try lia; try apply repeat_length;
        try (destruct (r_rv r); reflexivity).
      rewrite <- repeat_app. f_equal. lia.
    + destruct P as ((Ho & _) & _). rewrite Ho. eexists; split; [reflexivity|]. apply hrel_scan; eauto.
    + destruct P as ((Ho & _) & _). rewrite Ho. eexists; split; [reflexivity|]. apply hrel_scan; eauto.
    + subst p. eexists; split; [reflexivity|]. apply hrel_scan; eauto.
  - (* HRunning *)
    pose proof (Forall2_nth _ _ _ id hr_procs0) as P. unfold good, hstep.
    destruct (nth_error (procs q) id) as [p|] eqn:Ep, (nth_error (sts s) id) as [st|] eqn:Et; try contradiction; [|reflexivity].
    destruct st as [|pl' l|l|]; cbn [PRel] in P; unfold acquire_running.
    + subst p. reflexivity.
    + destruct P as ((Ho & _) & Hi & _). rewrite Ho, Hi. cbn [guard bind]. eauto.
    + destruct P as (HL & Hi). pose proof HL as (Ho & HL'). rewrite Ho, Hi. cbn [guard bind].
      destruct (l_base l) as [b|] eqn:Eb, v as [v|]; try exact I; cbn [bind].
      * eexists; split; [reflexivity|]. apply hrel_upd; [exact H|]. cbn [PRel]. unfold leased in *; cbn. intuition.
      * eexists; split; [reflexivity|]. apply hrel_upd; [exact H|]. cbn [PRel]. unfold leased in *; cbn. intuition.
    + exact I.
  - (* HInfo *)
    pose proof (Forall2_nth _ _ _ id hr_procs0) as P. unfold good, hstep.
    destruct (nth_error (procs q) id) as [p|] eqn:Ep, (nth_error (sts s) id) as [st|] eqn:Et; try contradiction; [|eauto].
    destruct st as [|pl' l|l|]; cbn [PRel] in P; unfold fully_locked.
    + subst p. reflexivity.
    + destruct P as (HL & Hi & _). destruct HL as (Ho & H1 & H2 & H3 & H4 & H5 & H6 & H7 & H8 & H9).
      rewrite Ho, Hi, H5. cbn [andb guard]. destruct (version l <=? rv_max)%N; cbn [guard]; [|reflexivity].
      rewrite H4, H1, H8. eauto.
    + destruct P as (_ & Hi). rewrite Hi, andb_false_r. reflexivity.
    + subst p. reflexivity.
  - (* HCode *)
    pose proof (Forall2_nth _ _ _ id hr_procs0) as P. unfold good, hstep.
    destruct (nth_error (procs q) id) as [p|] eqn:Ep, (nth_error (sts s) id) as [st|] eqn:Et; try contradiction; [|eauto].
    destruct st as [|pl' l|l|]; try exact I. cbn [PRel] in P.
    destruct P as (HL & Hi & Hp). destruct HL as (Ho & H1 & H2 & H3 & H4 & H5 & H6 & H7 & H8 & H9).
    destruct (nth_error (l_soft l) cb) as [y|] eqn:Ey; [|exact I].
    assert (Hcb : cb < length (l_soft l)) by (apply nth_error_Some; congruence).
    unfold rd. rewrite H8. unfold full_soft. rewrite nth_error_app1, Ey by exact Hcb. cbn [bind].
    eexists; split; [reflexivity|]. apply hrel_upd; [exact H|]. cbn [PRel]. unfold leased, full_soft; cbn.
    rewrite upd_length. repeat split; auto.
    clear -Hcb. revert cb Hcb. generalize (l_soft l). intros L. induction L as [|h t IH]; intros [|cb] Hcb; cbn in *; try lia; auto.
    f_equal. apply IH. lia.
  - (* HFinalize *)
    pose proof (Forall2_nth _ _ _ id hr_procs0) as P. unfold good, hstep.
    destruct (nth_error (procs q) id) as [p|] eqn:Ep, (nth_error (sts s) id) as [st|] eqn:Et; try contradiction; [|eauto].
    destruct st as [|pl' l|l|]; cbn [PRel] in P.
    + subst p. reflexivity.
    + destruct P as (HL & Hi & Hp). pose proof HL as (Ho & H1 & H2 & H3 & H4 & H5 & H6 & H7 & H8 & H9).
      unfold finalize. rewrite Hp.
      assert (Hfl : fully_locked p = true) by (unfold fully_locked; rewrite Ho, Hi; reflexivity).
      assert (Hend : reset_and_terminate_begin p = Ok (ending_proc (s_cmax s))).
      { unfold reset_and_terminate_begin. rewrite Hfl. cbn [guard]. unfold ending_proc. rewrite Ho, H1, H8, clear_soft by assumption.
        reflexivity. }
      assert (Hpark : exists p', unlock_inner p = Ok p' /\ PRel (s_cmax s) p' (SParked l)).
      { unfold unlock_inner. rewrite Hfl. cbn [guard]. eexists; split; [reflexivity|]. cbn [PRel]. unfold leased; cbn. intuition. }
      destruct pl'.
      * rewrite Hend. cbn [bind]. eexists; split; [reflexivity|]. apply hrel_upd; [exact H|reflexivity].
      * destruct (l_base l) eqn:Eb; [exact I|]. unfold set_next_rv. rewrite Hfl. cbn [guard].
        assert (Ev : rv p = nth (l_k l mod 4) rv_cycle 0%N) by (rewrite H5; unfold version; rewrite Eb; reflexivity).
        rewrite Ev, cycle_next. cbn [bind]. rewrite H6. unfold rv_unwrapped_max.
        destruct (Nat.eqb_spec (l_k l) 7) as [E7|E7].
        -- rewrite E7. reflexivity.
        -- replace (N.of_nat (l_k l) + 1 <=? 7)%N with true by lia. cbn [guard bind]. unfold unlock_inner, fully_locked; cbn [outer inner].
           rewrite Ho, Hi. cbn [andb guard bind]. eexists; split; [reflexivity|]. apply hrel_upd; [exact H|].
           cbn [PRel]. unfold leased, version, full_soft in *; cbn. repeat split; auto; lia.
      * destruct Hpark as (p' & E & R). rewrite E. cbn [bind]. eexists; split; [reflexivity|]. apply hrel_upd; [exact H|exact R].
      * destruct crc.
        -- rewrite Hend. cbn [bind]. eexists; split; [reflexivity|]. apply hrel_upd; [exact H|reflexivity].
        -- destruct Hpark as (p' & E & R). rewrite E. cbn [bind]. eexists; split; [reflexivity|]. apply hrel_upd; [exact H|exact R].
    + destruct P as (HL & Hi).
      unfold finalize, reset_and_terminate_begin, set_next_rv, unlock_inner, fully_locked. rewrite Hi, andb_false_r.
      destruct (pol p), crc; reflexivity.
    + subst p. reflexivity.
  - (* HRelease *)
    pose proof (Forall2_nth _ _ _ id hr_procs0) as P. unfold good, hstep.
    destruct (nth_error (procs q) id) as [p|] eqn:Ep, (nth_error (sts s) id) as [st|] eqn:Et; try contradiction; [|eauto].
    destruct st as [|pl' l|l|]; cbn [PRel] in P.
    + subst p. cbn [ending proc_new]. eauto.
    + destruct P as (HL & _). destruct HL as (_ & _ & _ & _ & _ & _ & _ & _ & _ & H9). rewrite H9. eauto.
    + destruct P as (HL & _). destruct HL as (_ & _ & _ & _ & _ & _ & _ & _ & _ & H9). rewrite H9. eauto.
    + subst p. cbn. eexists; split; [reflexivity|]. apply hrel_upd; [exact H|reflexivity].
Qed.

Lemma hrel_new n cmax tb : HRel (hpool_new n cmax tb) (spool_new n cmax tb).
Proof.
  constructor; cbn; auto. induction n; cbn; constructor; auto. reflexivity.
Qed.

Lemma hrun_refines ops : forall q s, HRel q s ->
  match srun s ops with
  | SROk s' outs => exists q', hrun q ops = Ok (q', outs) /\ HRel q' s'
  | SRAbort => hrun q ops = Abort
  | SRThrow => hrun q ops = Throw
  | SRMisuse => True
  end.
Proof.
  induction ops as [|o os IH]; intros q s H; cbn [srun hrun]; [eauto|].
  pose proof (hstep_refines q s o H) as G. unfold good in G. destruct (sstep s o) as [s1 r| | |]; auto.
  - destruct G as (q1 & E & R). specialize (IH q1 s1 R). rewrite E. cbn [bind fst snd].
    destruct (srun s1 os) as [s2 rs| | |]; auto.
    + destruct IH as (q2 & E2 & R2). rewrite E2. cbn [bind fst snd]. eauto.
    + rewrite IH. reflexivity.
    + rewrite IH. reflexivity.
  - rewrite G. reflexivity.
  - rewrite G. reflexivity.
Qed.

Lemma harq_pool_refines n cmax tb ops :
  match srun (spool_new n cmax tb) ops with
  | SROk _ outs => exists q, hrun (hpool_new n cmax tb) ops = Ok (q, outs)
  | SRAbort => hrun (hpool_new n cmax tb) ops = Abort
  | SRThrow => hrun (hpool_new n cmax tb) ops = Throw
  | SRMisuse => True
  end.
Proof.
  pose proof (hrun_refines ops _ _ (hrel_new n cmax tb)) as H.
  destruct (srun (spool_new n cmax tb) ops); auto. destruct H as (q & E & _). eauto.
Qed.

(** Exclusive use, on traces. *)
Definition busy_nat (st : option status) : nat := match st with Some (SBusy _ _) => 1 | _ => 0 end.

Lemma nth_upd_cases {X} (l : list X) j i y : nth_error (upd l j y) i =
  if j =? i then match nth_error l j with Some _ => Some y | None => None end else nth_error l i.
Proof.
  destruct (Nat.eqb_spec j i) as [->|H].
  - destruct (nth_error l i) eqn:E.
    + apply nth_error_upd_same. apply nth_error_Some. congruence.
    + apply nth_error_None. rewrite upd_length. apply nth_error_None. exact E.
  - apply nth_error_upd_other. exact H.
Qed.

Lemma sstep_exclusive s o s' r i : sstep s o = SOk s' r ->
  busy_nat (nth_error (sts s') i) + given_back i (o, r) = busy_nat (nth_error (sts s) i) + handed i (o, r).
Proof.
  intros H. destruct o as [rq| |id pl v|id|id cb x|id crc|id]; cbn [sstep] in H.
  - destruct (s_scan s) as [|]; [injection H as <- <-; reflexivity|].
    destruct (_ || _); [|discriminate]. destruct (r_sizes rq) as [(?, C)|]; [|discriminate].
    destruct (C <=? s_cmax s); [|discriminate]. injection H as <- <-. reflexivity.
  - destruct (s_scan s) as [[k rq]|]; [|injection H as <- <-; reflexivity].
    destruct (nth_error (sts s) k) as [st|] eqn:Ek; [|injection H as <- <-; reflexivity].
    destruct st; (destruct (r_sizes rq) as [(tb, C)|]; [|injection H as <- <-; reflexivity]);
      try (injection H as <- <-; reflexivity).
    destruct (tb <=? s_max_tb s)%N; [|discriminate]. injection H as <- <-.
    cbn [with_scan with_status sts handed given_back]. rewrite nth_upd_cases, Ek.
    destruct (Nat.eqb_spec k i) as [->|]; [rewrite Ek|]; cbn; lia.
  - destruct (nth_error (sts s) id) as [st|] eqn:Ek; [|discriminate].
    destruct st as [|p l|l|]; try discriminate.
    + injection H as <- <-. reflexivity.
    + destruct (l_base l), v; try discriminate; injection H as <- <-;
      cbn [with_status sts handed given_back]; rewrite nth_upd_cases, Ek;
      (destruct (Nat.eqb_spec id i) as [->|]; [rewrite Ek|]; cbn; lia).
  - destruct (nth_error (sts s) id) as [st|] eqn:Ek; [|injection H as <- <-; reflexivity].
    destruct st as [|p l|l|]; try discriminate. destruct (_ <=? _)%N; [|discriminate]. injection H as <- <-. reflexivity.
  - destruct (nth_error (sts s) id) as [st|] eqn:Ek; [|injection H as <- <-; reflexivity].
    destruct st as [|p l|l|]; try discriminate. destruct (nth_error (l_soft l) cb); [|discriminate].
    injection H as <- <-. cbn [with_status sts handed given_back]. rewrite nth_upd_cases, Ek.
    destruct (Nat.eqb_spec id i) as [->|]; [rewrite Ek|]; cbn; lia.
  - destruct (nth_error (sts s) id) as [st|] eqn:Ek; [|injection H as <- <-; reflexivity].
    destruct st as [|p l|l|]; try discriminate.
    destruct p; [| |  |destruct crc]; try (injection H as <- <-; cbn [with_status sts handed given_back]; rewrite nth_upd_cases, Ek;
       destruct (Nat.eqb_spec id i) as [->|]; [rewrite Ek|]; cbn; lia).
    destruct (l_base l); [discriminate|]. destruct (l_k l =? 7); [discriminate|].
    injection H as <- <-; cbn [with_status sts handed given_back]; rewrite nth_upd_cases, Ek;
       destruct (Nat.eqb_spec id i) as [->|]; [rewrite Ek|]; cbn; lia.
  - destruct (nth_error (sts s) id) as [st|] eqn:Ek; [|injection H as <- <-; reflexivity].
    destruct st as [|p l|l|]; try (injection H as <- <-; reflexivity).
    injection H as <- <-; cbn [with_status sts handed given_back]; rewrite nth_upd_cases, Ek;
       destruct (Nat.eqb_spec id i) as [->|]; [rewrite Ek|]; cbn; lia.
Qed.

Lemma srun_exclusive i ops : forall s s' outs, srun s ops = SROk s' outs ->
  busy_nat (nth_error (sts s') i) + count (given_back i) (combine ops outs) =
  busy_nat (nth_error (sts s) i) + count (handed i) (combine ops outs).
Proof.
  induction ops as [|o os IH]; intros s s' outs; cbn [srun].
  - intros H. injection H as <- <-. reflexivity.
  - destruct (sstep s o) as [s1 r| | |] eqn:Es; try discriminate.
    destruct (srun s1 os) as [s2 rs| | |] eqn:Er; try discriminate. intros H. injection H as <- <-.
    specialize (IH s1 s2 rs Er). apply (sstep_exclusive s o s1 r i) in Es. cbn [combine count fold_right] in *.
    fold (count (given_back i) (combine os rs)). fold (count (handed i) (combine os rs)). lia.
Qed.

Lemma nth_repeat_idle i n : busy_nat (nth_error (repeat SIdle n) i) = 0.
Proof.
  destruct (nth_error (repeat SIdle n) i) as [x|] eqn:E; [|reflexivity].
  apply nth_error_In, repeat_spec in E. subst. reflexivity.
Qed.

(** A used pool: a history the specification accepts, with its results. *)
Lemma pool_exclusive n cmax tb ops q outs i : srun (spool_new n cmax tb) ops <> SRMisuse ->
  hrun (hpool_new n cmax tb) ops = Ok (q, outs) ->
  let tr := combine ops outs in
  count (given_back i) tr <= count (handed i) tr <= S (count (given_back i) tr).
Proof.
  intros Hm Hr. pose proof (harq_pool_refines n cmax tb ops) as R. cbv zeta.
  destruct (srun (spool_new n cmax tb) ops) as [s' o'| | |] eqn:Es; try congruence.
  destruct R as (q' & E). rewrite Hr in E. injection E as <- <-.
  apply (srun_exclusive i) in Es. cbn [spool_new sts] in Es. rewrite nth_repeat_idle in Es.
  assert (busy_nat (nth_error (sts s') i) <= 1) by (destruct (nth_error (sts s') i) as [[]|]; cbn; lia). lia.
Qed.

(** Redundancy versions, on traces. A TX pool: no request carries a version. *)
Definition st_ok (c : tracked) (st : status) : Prop :=
  match st with
  | SBusy p l => l_k l = t_incs c /\ p = t_pol c
  | SParked l => l_k l = t_incs c
  | _ => True
  end.
Definition st_tx (st : status) : Prop :=
  match st with SBusy _ l | SParked l => l_base l = None | _ => True end.
Definition scan_ok (s : spool) (c : tracked) : Prop :=
  match s_scan s with Some (_, r) => r_rv r = None /\ r_pol r = t_req c | None => True end.

Definition TInv (i : nat) (s : spool) (c : tracked) : Prop :=
  scan_ok s c /\ (forall st, nth_error (sts s) i = Some st -> st_ok c st) /\
  (forall j st, nth_error (sts s) j = Some st -> st_tx st).

Lemma tinv_upd i s c id st' c' : TInv i s c -> st_tx st' -> t_req c' = t_req c ->
  (id = i -> st_ok c' st') -> (id <> i -> c' = c) -> TInv i (with_status s id st') c'.
Proof.
  intros (T1 & T2 & T3) Htx Hrq Heq Hne. repeat split; cbn [with_status sts].
  - unfold scan_ok in *; cbn. rewrite Hrq. exact T1.
  - intros st. rewrite nth_upd_cases. destruct (Nat.eqb_spec id i) as [->|N].
    + destruct (nth_error (sts s) i); [|discriminate]. intros E; injection E as <-. auto.
    + rewrite (Hne N). auto.
  - intros j st. rewrite nth_upd_cases. destruct (id =? j).
    + destruct (nth_error (sts s) id); [|discriminate]. intros E; injection E as <-. auto.
    + apply T3.
Qed.

Lemma tinv_scan i s c x : TInv i s c -> match x with Some (_, r) => r_rv r = None /\ r_pol r = t_req c | None => True end ->
  TInv i (with_scan s x) c.
Proof. intros (T1 & T2 & T3) H. repeat split; cbn; auto. Qed.

Lemma track_inv i s o s' r c : TInv i s c -> tx_op o -> sstep s o = SOk s' r -> TInv i s' (track_step i c (o, r)).
Proof.
  intros HT Htx H. pose proof HT as (T1 & T2 & T3). unfold scan_ok in T1.
  destruct o as [rq| |id pl v|id|id cb x|id crc|id]; cbn [sstep] in H; cbn [tx_op] in Htx.
  - destruct (s_scan s) as [|] eqn:Esc; [injection H as <- <-; exact HT|].
    destruct (_ || _); [|discriminate]. destruct (r_sizes rq) as [(?, C)|]; [|discriminate].
    destruct (C <=? s_cmax s); [|discriminate]. injection H as <- <-.
    cbn [track_step]. split; [cbn; auto|]. cbn [with_scan sts]. auto.
  - destruct (s_scan s) as [[k rq]|] eqn:Esc; [|injection H as <- <-; exact HT].
    destruct T1 as (T1a & T1b).
    assert (Hnone : TInv i (with_scan s None) c) by (apply tinv_scan; auto).
    assert (Hnext : TInv i (with_scan s (Some (S k, rq))) c) by (apply tinv_scan; auto).
    destruct (nth_error (sts s) k) as [st|] eqn:Ek; [|injection H as <- <-; exact Hnone].
    destruct st; (destruct (r_sizes rq) as [(tb, C)|]; [|injection H as <- <-; exact Hnone]);
      try (injection H as <- <-; exact Hnext).
    destruct (tb <=? s_max_tb s)%N; [|discriminate]. injection H as <- <-. cbn [track_step].
    apply tinv_scan; [|exact I].
    apply (tinv_upd i s c); auto; [destruct (k =? i); reflexivity| |]; destruct (Nat.eqb_spec k i); cbn; auto; contradiction.
  - subst v. destruct (nth_error (sts s) id) as [st|] eqn:Ek; [|discriminate].
    destruct st as [|p l|l|]; try discriminate.
    + injection H as <- <-. exact HT.
    + destruct (l_base l) eqn:Eb; [discriminate|]. injection H as <- <-. cbn [track_step].
      apply (tinv_upd i s c); auto; [destruct (id =? i); reflexivity| |]; destruct (Nat.eqb_spec id i) as [->|]; cbn; auto; try contradiction.
      intros _. split; [|reflexivity]. apply (T2 _ Ek).
  - destruct (nth_error (sts s) id) as [st|] eqn:Ek; [|injection H as <- <-; exact HT].
    destruct st as [|p l|l|]; try discriminate. destruct (_ <=? _)%N; [|discriminate]. injection H as <- <-. exact HT.
  - destruct (nth_error (sts s) id) as [st|] eqn:Ek; [|injection H as <- <-; exact HT].
    destruct st as [|p l|l|]; try discriminate. destruct (nth_error (l_soft l) cb) as [y|]; [|discriminate].
    pose proof (T3 _ _ Ek) as Eb. injection H as <- <-. cbn [track_step].
    apply (tinv_upd i s c); auto. intros ->. exact (T2 _ Ek).
  - destruct (nth_error (sts s) id) as [st|] eqn:Ek; [|injection H as <- <-; exact HT].
    destruct st as [|p l|l|]; try discriminate. pose proof (T3 _ _ Ek) as Eb. cbn in Eb.
    assert (Hok : id = i -> l_k l = t_incs c /\ p = t_pol c) by (intros ->; exact (T2 _ Ek)).
    assert (HE : forall c', t_req c' = t_req c -> (id <> i -> c' = c) -> TInv i (with_status s id SEnding) c')
      by (intros; apply (tinv_upd i s c); cbn; auto).
    destruct p; [| |  |destruct crc].
    2: rewrite Eb in H; destruct (l_k l =? 7); [discriminate|].
    all: injection H as <- <-; cbn [track_step]; apply (tinv_upd i s c); cbn [st_tx l_base]; auto;
      try (destruct (id =? i), (t_pol c); reflexivity);
      destruct (Nat.eqb_spec id i) as [E|E]; cbn [andb]; auto; try contradiction;
      destruct (Hok E) as (Hk & Hp); rewrite <- Hp; cbn; auto.
  - destruct (nth_error (sts s) id) as [st|] eqn:Ek; [|injection H as <- <-; exact HT].
    destruct st as [|p l|l|]; try (injection H as <- <-; exact HT).
    injection H as <- <-. cbn [track_step]. apply (tinv_upd i s c); cbn; auto.
Qed.

Lemma track_run i ops : forall s s' outs c, TInv i s c -> Forall tx_op ops -> srun s ops = SROk s' outs ->
  TInv i s' (fold_left (track_step i) (combine ops outs) c).
Proof.
  induction ops as [|o os IH]; intros s s' outs c HT Htx; cbn [srun].
  - intros H. injection H as <- <-. exact HT.
  - destruct (sstep s o) as [s1 r| | |] eqn:Es; try discriminate.
    destruct (srun s1 os) as [s2 rs| | |] eqn:Er; try discriminate. intros H. injection H as <- <-.
    inversion Htx; subst. cbn [combine fold_left]. eapply IH; eauto. eapply track_inv; eauto.
Qed.

Lemma tinv_new i n cmax tb c : TInv i (spool_new n cmax tb) c.
Proof.
  repeat split; cbn; try exact I; intros; match goal with E : nth_error (repeat _ _) _ = Some _ |- _ => apply nth_error_In, repeat_spec in E; subst; exact I end.
Qed.

Lemma srun_app ops1 ops2 : forall s, srun s (ops1 ++ ops2) =
  match srun s ops1 with
  | SROk s1 o1 => match srun s1 ops2 with SROk s2 o2 => SROk s2 (o1 ++ o2) | x => x end
  | x => x
  end.
Proof.
  induction ops1 as [|o os IH]; intros s; cbn [srun app].
  - destruct (srun s ops2); reflexivity.
  - destruct (sstep s o); auto. rewrite IH. destruct (srun s0 os); auto. destruct (srun s1 ops2); auto.
Qed.

Lemma hrun_app ops1 ops2 : forall q, hrun q (ops1 ++ ops2) =
  do a <- hrun q ops1 ; do b <- hrun (fst a) ops2 ; Ok (fst b, snd a ++ snd b).
Proof.
  induction ops1 as [|o os IH]; intros q; cbn [hrun app].
  - cbn [bind fst snd app]. destruct (hrun q ops2) as [[]| | |]; reflexivity.
  - destruct (hstep q o) as [(q1, r)| | |]; cbn [bind fst snd]; auto. rewrite IH.
    destruct (hrun q1 os) as [(q2, rs)| | |]; cbn [bind fst snd]; auto.
    destruct (hrun q2 ops2) as [(q3, r3)| | |]; cbn [bind fst snd app]; auto.
Qed.

(** A history that is not a misuse and did not stop. *)
Lemma ran n cmax tb ops q outs : srun (spool_new n cmax tb) ops <> SRMisuse ->
  hrun (hpool_new n cmax tb) ops = Ok (q, outs) ->
  exists s, srun (spool_new n cmax tb) ops = SROk s outs /\ HRel q s.
Proof.
  intros Hm Hr. pose proof (hrun_refines ops _ _ (hrel_new n cmax tb)) as R.
  destruct (srun (spool_new n cmax tb) ops) as [s' o'| | |] eqn:Es; try congruence.
  destruct R as (q' & E & Rl). rewrite Hr in E. injection E as <- <-. eauto.
Qed.

Lemma tx_version n cmax tb ops q outs i v net C sf q' : srun (spool_new n cmax tb) ops <> SRMisuse -> Forall tx_op ops ->
  hrun (hpool_new n cmax tb) ops = Ok (q, outs) ->
  hstep q (HInfo i) = Ok (q', RInfo v net C sf) ->
  let k := t_incs (track i (combine ops outs)) in k <= 7 /\ v = nth (k mod 4) rv_cycle 0%N.
Proof.
  intros Hm Htx Hr Hi. destruct (ran _ _ _ _ _ _ Hm Hr) as (s & Es & R). cbv zeta.
  pose proof (track_run i ops _ _ _ _ (tinv_new i n cmax tb {| t_pol := PReset; t_incs := 0; t_req := PReset |}) Htx Es) as (_ & T2 & T3).
  fold (track i (combine ops outs)) in T2.
  pose proof (hstep_refines q s (HInfo i) R) as G. unfold good in G. cbn [sstep] in G. destruct R.
  pose proof (Forall2_nth _ _ _ i hr_procs0) as P.
  destruct (nth_error (sts s) i) as [st|] eqn:Ei.
  2:{ destruct G as (? & E & _). congruence. }
  destruct st as [|p l|l|]; try congruence.
  destruct (version l <=? rv_max)%N; [|congruence]. destruct G as (? & E & _). rewrite Hi in E. injection E as _ -> _ _ _.
  destruct (T2 _ eq_refl) as (Hk & _). pose proof (T3 _ _ Ei) as Hb. cbn in Hb.
  unfold version. rewrite Hb, Hk. split; [|reflexivity]. rewrite <- Hk.
  destruct (nth_error (procs q) i); [|contradiction]. cbn in P. unfold leased in P. tauto.
Qed.

Lemma tx_eighth_increase n cmax tb ops q outs i crc : srun (spool_new n cmax tb) ops <> SRMisuse -> Forall tx_op ops ->
  hrun (hpool_new n cmax tb) ops = Ok (q, outs) ->
  let c := track i (combine ops outs) in
  count (handed i) (combine ops outs) = S (count (given_back i) (combine ops outs)) -> t_pol c = PInc ->
  (t_incs c < 7 -> exists q', hstep q (HFinalize i crc) = Ok (q', RDone)) /\
  (t_incs c = 7 -> hstep q (HFinalize i crc) = Abort).
Proof.
  intros Hm Htx Hr c Hh Hp. destruct (ran _ _ _ _ _ _ Hm Hr) as (s & Es & R).
  pose proof (track_run i ops _ _ _ _ (tinv_new i n cmax tb {| t_pol := PReset; t_incs := 0; t_req := PReset |}) Htx Es) as (_ & T2 & T3).
  fold (track i (combine ops outs)) in T2. fold c in T2.
  pose proof (srun_exclusive i _ _ _ _ Es) as X. cbn [spool_new sts] in X. rewrite nth_repeat_idle in X.
  pose proof (hstep_refines q s (HFinalize i crc) R) as G. unfold good in G. cbn [sstep] in G.
  destruct (nth_error (sts s) i) as [st|] eqn:Ei; [|cbn [busy_nat] in X; lia].
  destruct st as [|p l|l|]; cbn [busy_nat] in X; try lia. destruct (T2 _ eq_refl) as (Hk & Hpp). rewrite Hp in Hpp. subst p.
  pose proof (T3 _ _ Ei) as Hb. cbn in Hb. rewrite Hb in G. rewrite <- Hk. split.
  - intros L. destruct (Nat.eqb_spec (l_k l) 7); [lia|]. destruct G as (q' & E & _). eauto.
  - intros E. rewrite E in G. exact G.
Qed.

(** Asking a quiet pool. *)
Lemma scan_all s m r tb C : r_sizes r = Some (tb, C) -> (tb <= s_max_tb s)%N -> 
  forall i, s_scan s = Some (i, r) -> 
  (forall j, j < m -> exists st, nth_error (sts s) (i + j) = Some st /\ st <> SIdle) ->
  exists s1, srun s (repeat HProbe m) = SROk s1 (repeat RBusy m) /\ sts s1 = sts s /\ s_scan s1 = Some (i + m, r) /\ s_max_tb s1 = s_max_tb s.
Proof.
  intros Er Htb. revert s Htb. induction m as [|m IH]; intros s Htb i Hs Hall.
  - exists s. repeat split; auto. rewrite Hs. do 2 f_equal. lia.
  - destruct (Hall 0 ltac:(lia)) as (st & Ei & Hne). rewrite Nat.add_0_r in Ei.
    cbn [repeat srun]. unfold sstep at 1. rewrite Hs, Ei, Er.
    destruct (IH (with_scan s (Some (S i, r))) Htb (S i) eq_refl) as (s1 & E & E2 & E3 & E4).
    { intros j Hj. destruct (Hall (S j) ltac:(lia)) as (st' & E' & N'). exists st'. split; [|exact N'].
      cbn [with_scan sts]. rewrite <- E'. f_equal. lia. }
    destruct st; try congruence; rewrite E; exists s1; repeat split; auto; rewrite E3; do 2 f_equal; lia.
Qed.

Definition taken (s : spool) (i : nat) : Prop := exists st, nth_error (sts s) i = Some st /\ st <> SIdle.

Lemma sget_first_idle s r : s_scan s = None -> valid_request r (s_max_tb s) (s_cmax s) -> forall i,
  (forall j, j < i -> taken s j) ->
  (nth_error (sts s) i = Some SIdle -> exists s', srun s (HGet r :: repeat HProbe (S i)) = SROk s' (RScan :: repeat RBusy i ++ [RGot i])) /\
  (i = length (sts s) -> exists s', srun s (HGet r :: repeat HProbe (S i)) = SROk s' (RScan :: repeat RBusy i ++ [RNull])).
Proof.
  intros Hs (Hp & t & C & Er & Ht & HC) i Hall.
  assert (Eg : sstep s (HGet r) = SOk (with_scan s (Some (0, r))) RScan).
  { unfold sstep. rewrite Hs, Er. replace ((r_plcf r =? 1) || (r_plcf r =? 2))%N with true by (destruct Hp as [-> | ->]; reflexivity).
    destruct (Nat.leb_spec C (s_cmax s)); [reflexivity|lia]. }
  destruct (scan_all (with_scan s (Some (0, r))) i r t C Er Ht 0 eq_refl Hall) as (s1 & E1 & E2 & E3 & E4).
  replace (S i) with (i + 1) by lia. rewrite repeat_app. 
  change (HGet r :: repeat HProbe i ++ repeat HProbe 1) with ([HGet r] ++ repeat HProbe i ++ repeat HProbe 1).
  rewrite srun_app. cbn [srun]. rewrite Eg, srun_app, E1. cbn [repeat srun]. unfold sstep. rewrite E3, Er, Nat.add_0_l.
  cbn [with_scan sts s_max_tb] in *. rewrite E2. split.
  - intros Ei. rewrite Ei, E4. destruct (N.leb_spec t (s_max_tb s)); [|lia]. eexists; reflexivity.
  - intros ->. rewrite (proj2 (nth_error_None (sts s) (length (sts s)))) by lia. eexists; reflexivity.
Qed.

(** In use, on traces. *)
Definition taken_nat (st : option status) : nat := match st with None | Some SIdle => 0 | _ => 1 end.

Lemma sstep_taken s o s' r i : sstep s o = SOk s' r ->
  taken_nat (nth_error (sts s') i) + released i (o, r) = taken_nat (nth_error (sts s) i) + obtained i (o, r).
Proof.
  intros H. destruct o as [rq| |id pl v|id|id cb x|id crc|id]; cbn [sstep] in H.
  - destruct (s_scan s) as [|]; [injection H as <- <-; reflexivity|].
    destruct (_ || _); [|discriminate]. destruct (r_sizes rq) as [(?, C)|]; [|discriminate].
    destruct (C <=? s_cmax s); [|discriminate]. injection H as <- <-. reflexivity.
  - destruct (s_scan s) as [[k rq]|]; [|injection H as <- <-; reflexivity].
    destruct (nth_error (sts s) k) as [st|] eqn:Ek; [|injection H as <- <-; reflexivity].
    destruct st; (destruct (r_sizes rq) as [(tb, C)|]; [|injection H as <- <-; reflexivity]);
      try (injection H as <- <-; reflexivity).
    destruct (tb <=? s_max_tb s)%N; [|discriminate]. injection H as <- <-.
    cbn [with_scan with_status sts obtained released]. rewrite nth_upd_cases, Ek.
    destruct (Nat.eqb_spec k i) as [->|]; [rewrite Ek|]; cbn; lia.
  - destruct (nth_error (sts s) id) as [st|] eqn:Ek; [|discriminate].
    destruct st as [|p l|l|]; try discriminate.
    + injection H as <- <-. reflexivity.
    + destruct (l_base l), v; try discriminate; injection H as <- <-;
      cbn [with_status sts obtained released]; rewrite nth_upd_cases, Ek;
      (destruct (Nat.eqb_spec id i) as [->|]; [rewrite Ek|]; cbn; lia).
  - destruct (nth_error (sts s) id) as [st|] eqn:Ek; [|injection H as <- <-; reflexivity].
    destruct st as [|p l|l|]; try discriminate. destruct (_ <=? _)%N; [|discriminate]. injection H as <- <-. reflexivity.
  - destruct (nth_error (sts s) id) as [st|] eqn:Ek; [|injection H as <- <-; reflexivity].
    destruct st as [|p l|l|]; try discriminate. destruct (nth_error (l_soft l) cb); [|discriminate].
    injection H as <- <-. cbn [with_status sts obtained released]. rewrite nth_upd_cases, Ek.
    destruct (Nat.eqb_spec id i) as [->|]; [rewrite Ek|]; cbn; lia.
  - destruct (nth_error (sts s) id) as [st|] eqn:Ek; [|injection H as <- <-; reflexivity].
    destruct st as [|p l|l|]; try discriminate.
    destruct p; [| |  |destruct crc]; try (injection H as <- <-; cbn [with_status sts obtained released]; rewrite nth_upd_cases, Ek;
       destruct (Nat.eqb_spec id i) as [->|]; [rewrite Ek|]; cbn; lia).
    destruct (l_base l); [discriminate|]. destruct (l_k l =? 7); [discriminate|].
    injection H as <- <-; cbn [with_status sts obtained released]; rewrite nth_upd_cases, Ek;
       destruct (Nat.eqb_spec id i) as [->|]; [rewrite Ek|]; cbn; lia.
  - destruct (nth_error (sts s) id) as [st|] eqn:Ek; [|injection H as <- <-; reflexivity].
    destruct st as [|p l|l|]; try (injection H as <- <-; reflexivity).
    injection H as <- <-; cbn [with_status sts obtained released]; rewrite nth_upd_cases, Ek;
       destruct (Nat.eqb_spec id i) as [->|]; [rewrite Ek|]; cbn; lia.
Qed.

Lemma srun_taken i ops : forall s s' outs, srun s ops = SROk s' outs ->
  taken_nat (nth_error (sts s') i) + count (released i) (combine ops outs) =
  taken_nat (nth_error (sts s) i) + count (obtained i) (combine ops outs).
Proof.
  induction ops as [|o os IH]; intros s s' outs; cbn [srun].
  - intros H. injection H as <- <-. reflexivity.
  - destruct (sstep s o) as [s1 r| | |] eqn:Es; try discriminate.
    destruct (srun s1 os) as [s2 rs| | |] eqn:Er; try discriminate. intros H. injection H as <- <-.
    specialize (IH s1 s2 rs Er). apply (sstep_taken s o s1 r i) in Es. cbn [combine count fold_right] in *.
    fold (count (released i) (combine os rs)). fold (count (obtained i) (combine os rs)). lia.
Qed.

Lemma srun_params ops : forall s s' outs, srun s ops = SROk s' outs ->
  length (sts s') = length (sts s) /\ s_max_tb s' = s_max_tb s /\ s_cmax s' = s_cmax s.
Proof.
  induction ops as [|o os IH]; intros s s' outs; cbn [srun].
  - intros H. injection H as <- <-. auto.
  - destruct (sstep s o) as [s1 r| | |] eqn:Es; try discriminate.
    destruct (srun s1 os) as [s2 rs| | |] eqn:Er; try discriminate. intros H. injection H as <- <-.
    specialize (IH s1 s2 rs Er).
    assert (L : length (sts s1) = length (sts s) /\ s_max_tb s1 = s_max_tb s /\ s_cmax s1 = s_cmax s).
    { unfold sstep in Es.
      repeat match type of Es with
             | match ?x with _ => _ end = _ => destruct x; try discriminate
             | (if ?x then _ else _) = _ => destruct x; try discriminate
             end; injection Es as <- <-; cbn; rewrite ?upd_length; auto. }
    intuition congruence.
Qed.

Lemma quiet_pool_answers n cmax tb ops q outs r i : srun (spool_new n cmax tb) ops <> SRMisuse ->
  hrun (hpool_new n cmax tb) ops = Ok (q, outs) -> scan q = None -> valid_request r tb cmax -> i <= n ->
  let tr := combine ops outs in
  (forall j, j < i -> in_use j tr) ->
  (i < n -> ~ in_use i tr -> exists q', hrun q (HGet r :: repeat HProbe (S i)) = Ok (q', RScan :: repeat RBusy i ++ [RGot i])) /\
  (i = n -> exists q', hrun q (HGet r :: repeat HProbe (S i)) = Ok (q', RScan :: repeat RBusy i ++ [RNull])).
Proof.
  intros Hm Hr Hsc Hv Hi tr Hall. destruct (ran _ _ _ _ _ _ Hm Hr) as (s & Es & R).
  destruct (srun_params _ _ _ _ Es) as (L1 & L2 & L3). cbn [spool_new sts s_max_tb s_cmax] in *. rewrite repeat_length in L1.
  assert (Hs : s_scan s = None) by (destruct R; congruence).
  assert (Ht : forall j, taken_nat (nth_error (sts s) j) + count (released j) tr = count (obtained j) tr).
  { intros j. pose proof (srun_taken j _ _ _ _ Es) as E. fold tr in E. rewrite E. cbn [spool_new sts].
    destruct (nth_error (repeat SIdle n) j) eqn:E2; [|reflexivity]. apply nth_error_In, repeat_spec in E2. subst. reflexivity. }
  rewrite <- L2, <- L3 in Hv.
  destruct (sget_first_idle s r Hs Hv i) as (G1 & G2).
  { intros j Hj. specialize (Ht j). specialize (Hall j Hj). unfold in_use in Hall. unfold taken.
    destruct (nth_error (sts s) j) as [st|]; cbn [taken_nat] in Ht; [|lia]. exists st. split; [reflexivity|]. intros ->. lia. }
  assert (Conv : forall s' outs', srun s (HGet r :: repeat HProbe (S i)) = SROk s' outs' ->
            exists q', hrun q (HGet r :: repeat HProbe (S i)) = Ok (q', outs')).
  { intros s' outs' E. pose proof (hrun_refines (HGet r :: repeat HProbe (S i)) q s R) as X. rewrite E in X. destruct X as (q' & X & _). eauto. }
  split.
  - intros Hlt Hfree. specialize (Ht i). unfold in_use in Hfree.
    assert (exists st, nth_error (sts s) i = Some st) as (st & E).
    { destruct (nth_error (sts s) i) eqn:E; eauto. apply nth_error_None in E. lia. }
    rewrite E in Ht, G1. destruct st; cbn in Ht; try lia. destruct (G1 eq_refl) as (s' & E'). eauto.
  - intros ->. destruct (G2 (eq_sym L1)) as (s' & E'). eauto.
Qed.

(** Soft buffer contents, on traces. *)
Definition soft_ok (i : nat) (s : spool) (w : nat -> list N) : Prop :=
  forall l, (exists p, nth_error (sts s) i = Some (SBusy p l)) \/ nth_error (sts s) i = Some (SParked l) ->
    length (l_soft l) = l_C l /\ l_C l <= s_cmax s /\ forall cb, nth cb (l_soft l) [] = w cb.

Definition scan_fits (s : spool) : Prop :=
  match s_scan s with Some (_, r) => match r_sizes r with Some (_, C) => C <= s_cmax s | None => True end | None => True end.

Lemma nth_upd_default (l : list (list N)) a b x : a < length l -> nth b (upd l a x) [] = if a =? b then x else nth b l [].
Proof.
  intros H. destruct (Nat.eqb_spec a b) as [<-|Hn].
  - rewrite <- (nth_upd_same l a x []) at 2 by exact H. reflexivity.
  - apply nth_upd_other. exact Hn.
Qed.

Lemma nth_repeat_nil cb C : nth cb (repeat (@nil N) C) [] = [].
Proof. revert cb; induction C; intros [|cb]; cbn; auto. Qed.

Lemma soft_step i s o s' r w : soft_ok i s w -> scan_fits s -> sstep s o = SOk s' r ->
  soft_ok i s' (fun cb => written_step i cb (w cb) (o, r)) /\ scan_fits s'.
Proof.
  intros HS HF H.
  assert (Same : forall x w', (forall cb, w' cb = w cb) -> soft_ok i (with_scan s x) w').
  { intros x w' Ew l E. cbn [with_scan sts s_cmax] in *. destruct (HS l E) as (A & B & C). repeat split; auto. intros. rewrite Ew. auto. }
  assert (Upd : forall id st' w', (id <> i -> forall cb, w' cb = w cb) ->
     (id = i -> forall l, ((exists p, st' = SBusy p l) \/ st' = SParked l) -> length (l_soft l) = l_C l /\ l_C l <= s_cmax s /\ forall cb, nth cb (l_soft l) [] = w' cb) ->
     soft_ok i (with_status s id st') w').
  { intros id st' w' H1 H2 l E. cbn [with_status sts s_cmax] in *. rewrite nth_upd_cases in E.
    destruct (Nat.eqb_spec id i) as [Ei|Ni].
    - destruct (nth_error (sts s) id); [|destruct E as [[? E]|E]; discriminate]. apply (H2 Ei).
      destruct E as [[p E]|E]; injection E as ->; eauto.
    - destruct (HS l E) as (A & B & C). repeat split; auto. intros. rewrite (H1 Ni). auto. }
  destruct o as [rq| |id pl v|id|id cb x|id crc|id]; cbn [sstep] in H.
  - destruct (s_scan s) as [|] eqn:Esc; [injection H as <- <-; split; auto|].
    destruct (_ || _); [|discriminate]. destruct (r_sizes rq) as [(?, C)|] eqn:Er; [|discriminate].
    destruct (Nat.leb_spec C (s_cmax s)); [|discriminate]. injection H as <- <-. split; [apply Same; reflexivity|].
    unfold scan_fits; cbn. rewrite Er. auto.
  - destruct (s_scan s) as [[k rq]|] eqn:Esc; [|injection H as <- <-; split; auto].
    unfold scan_fits in HF. rewrite Esc in HF.
    destruct (nth_error (sts s) k) as [st|] eqn:Ek; [|injection H as <- <-; split; [apply Same; reflexivity|exact I]].
    destruct st; (destruct (r_sizes rq) as [(tb, C)|] eqn:Er; [|injection H as <- <-; split; [apply Same; reflexivity|exact I]]);
      try (injection H as <- <-; split; [apply Same; reflexivity|unfold scan_fits; cbn; rewrite Er; exact HF]).
    destruct (tb <=? s_max_tb s)%N; [|discriminate]. injection H as <- <-. split; [|exact I].
    match goal with |- soft_ok i (with_scan ?s0 _) ?w0 => change (soft_ok i s0 w0) end.
    apply Upd; cbn [written_step].
    + intros Hn cb. destruct (Nat.eqb_spec k i); [contradiction|reflexivity].
    + intros -> l [[p E]|E]; [|discriminate]. injection E as _ <-. cbn. rewrite Nat.eqb_refl, repeat_length. repeat split; auto.
      intros c. exact (nth_repeat_nil c C).
  - destruct (nth_error (sts s) id) as [st|] eqn:Ek; [|discriminate].
    destruct st as [|p l|l|]; try discriminate.
    + injection H as <- <-. split; auto.
    + destruct (l_base l), v; try discriminate; injection H as <- <-; (split; [|exact HF]);
      (apply Upd; [reflexivity|]); intros -> l' [[p' E]|E]; try discriminate; injection E as _ <-;
      destruct (HS l (or_intror Ek)) as (A & B & C); repeat split; auto.
  - destruct (nth_error (sts s) id) as [st|] eqn:Ek; [|injection H as <- <-; split; auto].
    destruct st as [|p l|l|]; try discriminate. destruct (_ <=? _)%N; [|discriminate]. injection H as <- <-. split; auto.
  - destruct (nth_error (sts s) id) as [st|] eqn:Ek; [|injection H as <- <-; split; auto].
    destruct st as [|p l|l|]; try discriminate. destruct (nth_error (l_soft l) cb) as [y|] eqn:Ey; [|discriminate].
    injection H as <- <-. split; [|exact HF]. apply Upd; cbn [written_step].
    + intros Hn cb'. destruct (Nat.eqb_spec id i); [contradiction|reflexivity].
    + intros -> l' [[p' E]|E]; [|discriminate]. injection E as _ <-. destruct (HS l (or_introl (ex_intro _ _ Ek))) as (A & B & C).
      cbn. rewrite upd_length, Nat.eqb_refl. repeat split; auto. intros cb'. cbn [andb].
      rewrite nth_upd_default by (apply nth_error_Some; congruence). destruct (Nat.eqb_spec cb cb') as [<-|]; [|apply C].
      rewrite <- C. rewrite (nth_error_nth _ _ [] Ey). reflexivity.
  - destruct (nth_error (sts s) id) as [st|] eqn:Ek; [|injection H as <- <-; split; auto].
    destruct st as [|p l|l|]; try discriminate.
    assert (HSl : id = i -> length (l_soft l) = l_C l /\ l_C l <= s_cmax s /\ forall cb, nth cb (l_soft l) [] = w cb).
    { intros ->. apply HS. left. eauto. }
    destruct p; [| |  |destruct crc].
    2: destruct (l_base l); [discriminate|]; destruct (l_k l =? 7); [discriminate|].
    all: injection H as <- <-; split; [|exact HF]; apply Upd; [reflexivity|]; intros Ei l' [[p' E]|E]; try discriminate;
      injection E as <-; cbn; apply (HSl Ei).
  - destruct (nth_error (sts s) id) as [st|] eqn:Ek; [|injection H as <- <-; split; auto].
    destruct st as [|p l|l|]; try (injection H as <- <-; split; auto).
    apply Upd; [reflexivity|]. intros _ l' [[p' E]|E]; discriminate.
Qed.

Lemma soft_run i ops : forall s s' outs w, soft_ok i s w -> scan_fits s -> srun s ops = SROk s' outs ->
  soft_ok i s' (fun cb => fold_left (written_step i cb) (combine ops outs) (w cb)).
Proof.
  induction ops as [|o os IH]; intros s s' outs w HS HF; cbn [srun].
  - intros H. injection H as <- <-. exact HS.
  - destruct (sstep s o) as [s1 r| | |] eqn:Es; try discriminate.
    destruct (srun s1 os) as [s2 rs| | |] eqn:Er; try discriminate. intros H. injection H as <- <-.
    destruct (soft_step i s o s1 r w HS HF Es) as (HS1 & HF1). cbn [combine fold_left].
    apply (IH s1 s2 rs _ HS1 HF1 Er).
Qed.

Lemma soft_contents n cmax tb ops q outs i v net C sf q' : srun (spool_new n cmax tb) ops <> SRMisuse ->
  hrun (hpool_new n cmax tb) ops = Ok (q, outs) -> hstep q (HInfo i) = Ok (q', RInfo v net C sf) ->
  length sf = cmax /\ forall cb, nth cb sf [] = written i cb (combine ops outs).
Proof.
  intros Hm Hr Hi. destruct (ran _ _ _ _ _ _ Hm Hr) as (s & Es & R).
  destruct (srun_params _ _ _ _ Es) as (_ & _ & L3). cbn [spool_new s_cmax] in L3.
  assert (HS : soft_ok i s (fun cb => written i cb (combine ops outs))).
  { apply (soft_run i ops (spool_new n cmax tb) s outs (fun _ => [])); [|exact I|exact Es].
    intros l E. cbn [spool_new sts] in E. destruct E as [[p E]|E]; apply nth_error_In, repeat_spec in E; discriminate. }
  pose proof (hstep_refines q s (HInfo i) R) as G. unfold good in G. cbn [sstep] in G.
  destruct (nth_error (sts s) i) as [st|] eqn:Ei.
  2:{ destruct G as (? & E & _). congruence. }
  destruct st as [|p l|l|]; try congruence.
  destruct (version l <=? rv_max)%N; [|congruence]. destruct G as (? & E & _). rewrite Hi in E. injection E as _ _ _ _ ->.
  destruct (HS l (or_introl (ex_intro _ p Ei))) as (A & B & Cc). unfold full_soft. split.
  - rewrite app_length, repeat_length. lia.
  - intros cb. rewrite <- Cc. destruct (Nat.ltb_spec cb (length (l_soft l))).
    + apply app_nth1. lia.
    + rewrite app_nth2 by lia. rewrite nth_repeat_nil, nth_overflow by lia. reflexivity.
Qed.
