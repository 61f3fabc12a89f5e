From Verif Require Import Base Ring JobQueue JobQueueSpec.

Section Facts.
  Context {A : Type}.
  Notation jq := (jqueue A).

  Definition pend_slots (q : jq) : list (option (job A)) :=
    ring_list (map slot_job (job_slot_vec q)) (enqueue_ptr q) (dequeue_ptr q) None.

  Definition rel (q : jq) (s : jspec) : Prop :=
    0 < capacity q /\ length (job_slot_vec q) = capacity q /\
    ring_ok (capacity q) (enqueue_ptr q) (dequeue_ptr q) /\
    permeable q = sp_open s /\ next_fifo_cnt q = sp_next s /\
    pend_slots q = map (fun p => Some (job_of p)) (sp_pending s) /\
    job_slot_vec_cnt q = Z.of_nat (length (sp_pending s)).

  Lemma rel_used q s : rel q s -> jq_get_used q = length (sp_pending s).
  Proof.
    intros (Hc & Hl & Hok & _ & _ & Hp & _).
    assert (length (pend_slots q) = length (sp_pending s)) as E by (rewrite Hp, map_length; reflexivity).
    unfold pend_slots in E. rewrite ring_list_length, map_length, Hl in E. exact E.
  Qed.

  Lemma rel_free q s : rel q s -> jq_get_free q = capacity q - 1 - length (sp_pending s).
  Proof.
    intros H. rewrite <- (rel_used _ _ H). destruct H as (Hc & Hl & [Hw Hr] & _).
    unfold jq_get_free, jq_get_used.
    destruct (Nat.ltb_spec (enqueue_ptr q) (dequeue_ptr q));
      destruct (Nat.leb_spec (dequeue_ptr q) (enqueue_ptr q)); lia.
  Qed.

  Lemma map_upd {X Y} (f : X -> Y) l i x : map f (upd l i x) = upd (map f l) i (f x).
  Proof. revert i; induction l as [|h t IH]; intros [|i]; cbn; auto. rewrite IH. reflexivity. Qed.

  Lemma upd_same {X} (l : list X) i x : nth_error l i = Some x -> upd l i x = l.
  Proof.
    revert i; induction l as [|h t IH]; intros [|i] H; cbn in *; try discriminate.
    - inversion H; reflexivity.
    - rewrite IH by exact H. reflexivity.
  Qed.

  Lemma map_nth_error' {X Y} (f : X -> Y) l i x : nth_error l i = Some x -> nth_error (map f l) i = Some (f x).
  Proof. apply map_nth_error. Qed.

  Lemma rd_in {X} (l : list X) i : i < length l -> exists x, rd l i = Ok x /\ nth_error l i = Some x.
  Proof.
    intros H. destruct (nth_error l i) as [x|] eqn:E.
    - exists x. unfold rd. rewrite E. auto.
    - apply nth_error_None in E. lia.
  Qed.

  Definition outcome_ok (cap : nat) (x : res (jq * jout A)) (y : res (jspec * jout A)) : Prop :=
    match y with
    | Ok (s, o) => exists q, x = Ok (q, o) /\ rel q s /\ capacity q = cap
    | Abort => x = Abort
    | _ => False
    end.

  Lemma step_refines fatal q s o :
    rel q s -> outcome_ok (capacity q) (jstep fatal q o) (spec_step (capacity q - 1) fatal s o).
  Proof.
    intros H. pose proof H as (Hc & Hl & Hok & Hperm & Hn & Hp & Hcnt).
    destruct o as [b|a|]; cbn [jstep spec_step].
    - eexists; split; [reflexivity|]. split; [|reflexivity]. unfold rel, pend_slots in *; cbn. tauto.
    - unfold enqueue_nto. rewrite Hperm. destruct (sp_open s) eqn:Eo; cbn [negb].
      2:{ cbn. eexists; split; [reflexivity|]; auto. }
      unfold enqueue_under_lock. rewrite (rel_free _ _ H).
      destruct (Nat.leb_spec (capacity q - 1) (length (sp_pending s))) as [Hf|Hf].
      + replace (capacity q - 1 - length (sp_pending s) =? 0) with true by (symmetry; apply Nat.eqb_eq; lia).
        destruct fatal; cbn; [reflexivity|]. eexists; split; [reflexivity|]; auto.
      + replace (capacity q - 1 - length (sp_pending s) =? 0) with false by (symmetry; apply Nat.eqb_neq; lia).
        destruct Hok as [Hw Hr].
        destruct (rd_in (job_slot_vec q) (enqueue_ptr q)) as (sl & E1 & E1'); [lia|]. rewrite E1. cbn [bind].
        set (j := {| fifo_cnt_of := next_fifo_cnt q; content := a |}).
        set (v := upd (job_slot_vec q) (enqueue_ptr q) (put_job sl j)).
        set (p := (enqueue_ptr q + 1) mod capacity q).
        assert (p < capacity q) as Hp' by (apply Nat.mod_upper_bound; lia).
        assert (length v = capacity q) as Hv by (unfold v; rewrite upd_length; exact Hl).
        destruct (rd_in v p) as (sl' & E2 & E2'); [lia|]. rewrite E2. cbn [bind fst snd].
        eexists; split; [reflexivity|]. split; [|reflexivity].
        unfold rel; cbn [capacity permeable next_fifo_cnt job_slot_vec job_slot_vec_cnt enqueue_ptr
                          dequeue_ptr sp_open sp_next sp_pending].
        split; [lia|]. split; [rewrite upd_length; exact Hv|].
        split; [apply ring_ok_push; split; lia|].
        split; [congruence|]. split; [rewrite Hn; lia|].
        split.
        * unfold pend_slots; cbn [job_slot_vec enqueue_ptr dequeue_ptr].
          rewrite map_upd. cbn [slot_job bump_filled].
          rewrite upd_same by (apply map_nth_error'; exact E2').
          unfold v. rewrite map_upd. cbn [slot_job put_job].
          unfold p. replace (capacity q) with (length (map slot_job (job_slot_vec q))) by (rewrite map_length; exact Hl).
          assert (ring_used (capacity q) (enqueue_ptr q) (dequeue_ptr q) = length (sp_pending s)) as Hu
            by exact (rel_used _ _ H).
          rewrite ring_list_push; rewrite ?map_length, ?Hl; [|split; lia|lia].
          rewrite map_app. cbn [map]. fold (pend_slots q). rewrite Hp. unfold job_of, j; cbn. rewrite Hn. reflexivity.
        * rewrite app_length, Hcnt. cbn [length]. lia.
    - unfold wait_for_new_job_to. rewrite Hcnt.
      destruct (sp_pending s) as [|pp l] eqn:Es.
      + cbn. eexists; split; [reflexivity|]. auto.
      + replace (Z.of_nat (length (pp :: l)) =? 0)%Z with false by (symmetry; apply Z.eqb_neq; cbn; lia).
        unfold dequeue_under_lock. pose proof (rel_used _ _ H) as Hu. rewrite Es in Hu.
        rewrite Hu. cbn [length Nat.eqb].
        destruct Hok as [Hw Hr].
        destruct (rd_in (job_slot_vec q) (dequeue_ptr q)) as (sl & E1 & E1'); [lia|]. rewrite E1. cbn [bind].
        set (p := (dequeue_ptr q + 1) mod capacity q).
        assert (p < capacity q) as Hp' by (apply Nat.mod_upper_bound; lia).
        destruct (rd_in (job_slot_vec q) p) as (sl' & E2 & E2'); [lia|]. rewrite E2. cbn [bind].
        assert (pend_slots q = nth (dequeue_ptr q) (map slot_job (job_slot_vec q)) None ::
                ring_list (map slot_job (job_slot_vec q)) (enqueue_ptr q) p None) as Epop.
        { unfold pend_slots, p. rewrite <- Hl, <- (map_length slot_job). apply ring_list_pop.
          - rewrite map_length, Hl; split; lia.
          - rewrite map_length, Hl. change (0 < jq_get_used q). rewrite Hu. cbn; lia. }
        rewrite Epop in Hp. cbn [map] in Hp. injection Hp as Hhd Htl.
        erewrite nth_error_nth in Hhd by (apply map_nth_error'; exact E1').
        rewrite Hhd. cbn [bind fst snd].
        eexists; split; [reflexivity|]. split; [|reflexivity].
        unfold rel; cbn [capacity permeable next_fifo_cnt job_slot_vec job_slot_vec_cnt enqueue_ptr
                          dequeue_ptr sp_open sp_next sp_pending].
        split; [lia|]. split; [rewrite upd_length; exact Hl|].
        split; [apply ring_ok_pop; split; lia|].
        split; [exact Hperm|]. split; [exact Hn|]. split.
        * unfold pend_slots; cbn [job_slot_vec enqueue_ptr dequeue_ptr].
          rewrite map_upd. cbn [slot_job bump_processed].
          rewrite upd_same by (apply map_nth_error'; exact E2'). exact Htl.
        * cbn [length] in *. lia.
  Qed.

  Lemma rel_new cap : 0 < cap -> rel (jq_new cap) {| sp_open := false; sp_next := 0; sp_pending := [] |}.
  Proof.
    intros H. unfold rel; cbn. rewrite repeat_length. repeat split; auto.
  Qed.

  Lemma run_refines fatal ops : forall q s, rel q s ->
    match spec_run (capacity q - 1) fatal s ops with
    | Ok (_, outs) => exists q', jrun fatal q ops = Ok (q', outs)
    | Abort => jrun fatal q ops = Abort
    | Throw | Oob => False
    end.
  Proof.
    induction ops as [|o os IH]; intros q s H; cbn [jrun spec_run].
    - eauto.
    - pose proof (step_refines fatal q s o H) as R. unfold outcome_ok in R.
      destruct (spec_step (capacity q - 1) fatal s o) as [[s' r]| | |]; cbn [bind fst snd]; try contradiction.
      2:{ rewrite R. reflexivity. }
      destruct R as (q' & E & H' & Hc). rewrite E. cbn [bind fst snd].
      specialize (IH q' s' H'). rewrite Hc in IH.
      destruct (spec_run (capacity q - 1) fatal s' os) as [[s'' rs]| | |]; cbn [bind fst snd]; try contradiction.
      + destruct IH as (q'' & ->). cbn. eauto.
      + rewrite IH. reflexivity.
  Qed.

  Lemma jobqueue_refines_fifo cap fatal (ops : list (jop A)) :
    0 < cap ->
    match spec_run (cap - 1) fatal {| sp_open := false; sp_next := 0; sp_pending := [] |} ops with
    | Ok (_, outs) => exists q, jrun fatal (jq_new cap) ops = Ok (q, outs)
    | Abort => jrun fatal (jq_new cap) ops = Abort
    | Throw | Oob => False
    end.
  Proof. intros H. apply (run_refines fatal ops (jq_new cap) _ (rel_new cap H)). Qed.

  (** Observational order on the specification. *)
  Lemma number_from_app z (l m : list A) :
    number_from z (l ++ m) = number_from z l ++ number_from (z + Z.of_nat (length l)) m.
  Proof.
    revert z; induction l as [|a l IH]; intros z; cbn [app number_from length].
    - f_equal; lia.
    - rewrite IH. f_equal. f_equal. f_equal. lia.
  Qed.

  Lemma number_from_length z (l : list A) : length (number_from z l) = length l.
  Proof. revert z; induction l as [|a l IH]; intros z; cbn; [reflexivity|]. rewrite IH. reflexivity. Qed.

  Lemma spec_order cap fatal (ops : list (jop A)) : forall s s' outs,
    spec_run cap fatal s ops = Ok (s', outs) ->
    length (sp_pending s) <= cap ->
    length (sp_pending s') <= cap /\
    map job_of (sp_pending s) ++ number_from (sp_next s) (accepted (sp_open s) ops outs)
      = handed_out outs ++ map job_of (sp_pending s').
  Proof.
    induction ops as [|o os IH]; intros s s' outs H Hb; cbn [spec_run] in H.
    - inversion H; subst. cbn. rewrite app_nil_r. auto.
    - destruct (spec_step cap fatal s o) as [[s1 r]| | |] eqn:E; cbn [bind fst snd] in H; try discriminate.
      destruct (spec_run cap fatal s1 os) as [[s2 rs]| | |] eqn:E2; cbn [bind fst snd] in H; try discriminate.
      inversion H; subst; clear H. specialize (IH _ _ _ E2).
      destruct o as [b|a|]; cbn [spec_step] in E.
      + inversion E; subst; clear E. cbn [accepted handed_out sp_open sp_next sp_pending] in *. auto.
      + destruct (sp_open s) eqn:Eo; cbn [negb] in E.
        * destruct (Nat.leb_spec cap (length (sp_pending s))) as [Hf|Hf].
          -- destruct fatal; inversion E; subst; clear E. cbn [accepted handed_out].
             rewrite Eo in IH. auto.
          -- inversion E; subst; clear E. cbn [accepted handed_out sp_open sp_next sp_pending] in *.
             rewrite app_length in IH. cbn [length] in IH.
             destruct IH as [I1 I2]; [lia|]. split; [exact I1|].
             cbn [number_from]. rewrite <- I2, map_app. cbn [map]. rewrite <- app_assoc. cbn [app].
             reflexivity.
        * inversion E; subst; clear E. cbn [accepted handed_out]. rewrite Eo in IH. auto.
      + destruct (sp_pending s) as [|p l] eqn:Es; inversion E; subst; clear E.
        * cbn [accepted handed_out]. rewrite Es in IH. auto.
        * cbn [accepted handed_out sp_open sp_next sp_pending map app length] in *.
          destruct IH as [I1 I2]; [lia|]. split; [exact I1|]. rewrite I2. reflexivity.
  Qed.

  Lemma jobqueue_order cap fatal (ops : list (jop A)) q outs :
    0 < cap -> jrun fatal (jq_new cap) ops = Ok (q, outs) ->
    exists pending,
      number_from 0 (accepted false ops outs) = handed_out outs ++ pending /\
      length pending <= cap - 1.
  Proof.
    intros H E. pose proof (jobqueue_refines_fifo cap fatal ops H) as R.
    destruct (spec_run (cap - 1) fatal _ ops) as [[s' o']| | |] eqn:Es; try contradiction; try congruence.
    destruct R as (q' & R). rewrite E in R. inversion R; subst; clear R.
    apply spec_order in Es; [|cbn; lia]. cbn in Es. destruct Es as [Hl Es].
    eexists; split; [exact Es|]. rewrite map_length. exact Hl.
  Qed.

  (** While the gate is closed nothing changes, whatever is offered. *)
  Lemma impermeable_no_effect fatal (q : jq) a :
    permeable q = false -> jstep fatal q (JEnqueue a) = Ok (q, REnqueue true).
  Proof. intros H. cbn. unfold enqueue_nto. rewrite H. reflexivity. Qed.

  Fixpoint last_gate (g : bool) (ops : list (jop A)) : bool :=
    match ops with
    | JPermeable b :: os => last_gate b os
    | _ :: os => last_gate g os
    | [] => g
    end.

  Lemma step_perm fatal (q : jq) o q' r : jstep fatal q o = Ok (q', r) ->
    permeable q' = match o with JPermeable b => b | _ => permeable q end.
  Proof.
    destruct o as [b|a|]; cbn.
    - intros H; inversion H; reflexivity.
    - unfold enqueue_nto, enqueue_under_lock. destruct (permeable q) eqn:Ep; cbn.
      + destruct (jq_get_free q =? 0); [destruct fatal; cbn; intros H; inversion H; subst; auto|].
        destruct (rd (job_slot_vec q) _); cbn; try discriminate.
        match goal with |- context [rd ?x ?y] => destruct (rd x y) end; cbn; try discriminate.
        intros H; inversion H; subst; cbn; auto.
      + intros H; inversion H; subst; auto.
    - unfold wait_for_new_job_to, dequeue_under_lock. destruct (job_slot_vec_cnt q =? 0)%Z; cbn.
      + intros H; inversion H; subst; auto.
      + destruct (jq_get_used q =? 0); cbn; try discriminate.
        destruct (rd (job_slot_vec q) _) as [s| | |]; cbn; try discriminate.
        match goal with |- context [rd ?x ?y] => destruct (rd x y) end; cbn; try discriminate.
        destruct (slot_job s); cbn; try discriminate.
        intros H; inversion H; subst; cbn; auto.
  Qed.

  Lemma run_perm fatal ops : forall (q q' : jq) outs, jrun fatal q ops = Ok (q', outs) ->
    permeable q' = last_gate (permeable q) ops.
  Proof.
    induction ops as [|o os IH]; intros q q' outs H; cbn [jrun] in H.
    - inversion H; reflexivity.
    - destruct (jstep fatal q o) as [[q1 r]| | |] eqn:E; cbn [bind fst snd] in H; try discriminate.
      destruct (jrun fatal q1 os) as [[q2 rs]| | |] eqn:E2; cbn [bind fst snd] in H; try discriminate.
      inversion H; subst. rewrite (IH _ _ _ E2), (step_perm _ _ _ _ _ E).
      destruct o; reflexivity.
  Qed.

  Lemma closed_gate_drops cap fatal (ops : list (jop A)) q outs a :
    jrun fatal (jq_new cap) ops = Ok (q, outs) -> last_gate false ops = false ->
    jstep fatal q (JEnqueue a) = Ok (q, REnqueue true).
  Proof.
    intros E H. apply impermeable_no_effect. rewrite (run_perm _ _ _ _ _ E). exact H.
  Qed.

  (** Draining: with the gate closed, a worker that keeps waiting receives every pending job, then
      timeouts only. *)
  Lemma jrun_app fatal (ops1 ops2 : list (jop A)) q :
    jrun fatal q (ops1 ++ ops2) =
    do r1 <- jrun fatal q ops1 ;
    do r2 <- jrun fatal (fst r1) ops2 ;
    Ok (fst r2, snd r1 ++ snd r2).
  Proof.
    revert q; induction ops1 as [|o os IH]; intros q; cbn [app jrun].
    - cbn. destruct (jrun fatal q ops2) as [[? ?]| | |]; reflexivity.
    - destruct (jstep fatal q o) as [[q1 r]| | |]; cbn [bind fst snd]; auto.
      rewrite IH. destruct (jrun fatal q1 os) as [[q2 rs]| | |]; cbn [bind fst snd]; auto.
      destruct (jrun fatal q2 ops2) as [[q3 rs']| | |]; cbn [bind fst snd]; auto.
  Qed.
  Lemma spec_run_app cap fatal (ops1 ops2 : list (jop A)) s :
    spec_run cap fatal s (ops1 ++ ops2) =
    do r1 <- spec_run cap fatal s ops1 ;
    do r2 <- spec_run cap fatal (fst r1) ops2 ;
    Ok (fst r2, snd r1 ++ snd r2).
  Proof.
    revert s; induction ops1 as [|o os IH]; intros s; cbn [app spec_run].
    - cbn. destruct (spec_run cap fatal s ops2) as [[? ?]| | |]; reflexivity.
    - destruct (spec_step cap fatal s o) as [[q1 r]| | |]; cbn [bind fst snd]; auto.
      rewrite IH. destruct (spec_run cap fatal q1 os) as [[q2 rs]| | |]; cbn [bind fst snd]; auto.
      destruct (spec_run cap fatal q2 ops2) as [[q3 rs']| | |]; cbn [bind fst snd]; auto.
  Qed.

  Lemma spec_drain cap fatal n : forall (s : @jspec A), exists s',
    spec_run cap fatal s (repeat JWait n) =
      Ok (s', map (fun p => RWait (Some (job_of p))) (firstn n (sp_pending s)) ++
              repeat (RWait None) (n - length (sp_pending s))) /\
    sp_pending s' = skipn n (sp_pending s) /\ sp_open s' = sp_open s.
  Proof.
    induction n as [|n IH]; intros s; cbn [repeat spec_run].
    - exists s. cbn. auto.
    - cbn [spec_step]. destruct (sp_pending s) as [|p l] eqn:Es; cbn [bind fst snd].
      + destruct (IH s) as (s' & E & E1 & E2). rewrite E. cbn [bind fst snd]. exists s'.
        rewrite Es in *. rewrite firstn_nil, skipn_nil in *. cbn [map app length] in *.
        rewrite Nat.sub_0_r in *. cbn. auto.
      + match goal with |- context [spec_run cap fatal ?s1 _] => destruct (IH s1) as (s' & E & E1 & E2) end.
        rewrite E. cbn [bind fst snd sp_pending sp_open] in *. exists s'.
        cbn [firstn map app length skipn Nat.sub]. auto.
  Qed.

  Lemma jobqueue_drain cap fatal (ops : list (jop A)) q outs n :
    0 < cap -> jrun fatal (jq_new cap) ops = Ok (q, outs) ->
    length (accepted false ops outs) <= length (handed_out outs) + n ->
    exists q', jrun fatal q (repeat JWait n) =
      Ok (q', map (fun j => RWait (Some j))
                  (skipn (length (handed_out outs)) (number_from 0 (accepted false ops outs))) ++
              repeat (RWait None) (n - (length (accepted false ops outs) - length (handed_out outs)))).
  Proof.
    intros H E Hn.
    pose proof (jobqueue_refines_fifo cap fatal (ops ++ repeat JWait n) H) as R.
    pose proof (jobqueue_refines_fifo cap fatal ops H) as R0.
    rewrite spec_run_app in R.
    destruct (spec_run (cap - 1) fatal _ ops) as [[s' o']| | |] eqn:Es; try contradiction; try congruence.
    destruct R0 as (q0 & R0). rewrite E in R0. inversion R0; subst; clear R0.
    cbn [bind fst snd] in R.
    destruct (spec_drain (cap - 1) fatal n s') as (s'' & Ed & _ & _). rewrite Ed in R. cbn [bind fst snd] in R.
    destruct R as (q' & R). rewrite jrun_app, E in R. cbn [bind fst snd] in R.
    destruct (jrun fatal q0 (repeat JWait n)) as [[q2 r2]| | |]; cbn [bind fst snd] in R; try discriminate.
    inversion R as [[R1 R2]]. apply app_inv_head in R2. subst. exists q'. f_equal. f_equal.
    apply spec_order in Es; [|cbn; lia]. cbn [sp_pending sp_next sp_open map app] in Es. destruct Es as [_ Es].
    rewrite Es. rewrite skipn_app, skipn_all, Nat.sub_diag. cbn [skipn app].
    assert (length (accepted false ops o') = length (handed_out o') + length (sp_pending s')) as L.
    { apply (f_equal (@length _)) in Es. rewrite app_length, map_length in Es. rewrite <- Es.
      symmetry. apply number_from_length. }
    f_equal.
    - rewrite firstn_all2 by lia. rewrite map_map. reflexivity.
    - f_equal. lia.
  Qed.
End Facts.
