From Verif Require Import Base IrregularQueue IrregularQueueSpec.
Open Scope Z_scope.

Definition pend (a : list report) : list report := filter has_finite_time a.

Record IInv (q : irq) : Prop := {
  ii_len : length (arr q) = max_irregular_callback_pending;
  ii_next : match it_next q with
            | None => next_time q = undefined_late /\ Forall (fun y => has_finite_time y = false) (arr q)
            | Some i => exists x, nth_error (arr q) i = Some x /\ has_finite_time x = true /\
                          call_after x = next_time q /\ Forall (fun y => call_after x <= call_after y) (arr q)
            end }.

Lemma find_pos_some f l i : find_pos f l = Some i -> exists x, nth_error l i = Some x /\ f x = true.
Proof.
  revert i; induction l as [|x t IH]; intros i; cbn; [discriminate|]. destruct (f x) eqn:E.
  - intros H. injection H as <-. exists x. auto.
  - destruct (find_pos f t) as [j|]; cbn; [|discriminate]. intros H. injection H as <-. cbn. auto.
Qed.

Lemma find_pos_none f l : find_pos f l = None -> Forall (fun x => f x = false) l.
Proof.
  induction l as [|x t IH]; cbn; [constructor|]. destruct (f x) eqn:E; [discriminate|].
  destruct (find_pos f t); cbn; [discriminate|]. constructor; auto.
Qed.

Lemma min_pos_some l : l <> [] -> exists i m, min_pos l = Some (i, m) /\ nth_error l i = Some m /\
  Forall (fun y => call_after m <= call_after y) l.
Proof.
  induction l as [|x t IH]; [congruence|]. intros _. cbn [min_pos]. destruct t as [|y t'].
  - cbn. exists O, x. repeat split. constructor; [lia|constructor].
  - destruct IH as (i & m & E & N & F); [discriminate|]. rewrite E.
    destruct (Z.ltb_spec (call_after m) (call_after x)).
    + exists (S i), m. repeat split; auto. constructor; [lia|exact F].
    + exists O, x. repeat split. constructor; [lia|].
      eapply Forall_impl; [|exact F]. intros z Hz; cbn beta in Hz; lia.
Qed.

Lemma upd_split_at {X} (l : list X) i x y : nth_error l i = Some y ->
  exists l1 l2, l = l1 ++ y :: l2 /\ upd l i x = l1 ++ x :: l2.
Proof.
  revert i; induction l as [|h t IH]; intros [|i]; cbn; try discriminate.
  - intros H. injection H as <-. exists [], t. auto.
  - intros H. destruct (IH i H) as (l1 & l2 & -> & ->). exists (h :: l1), l2. auto.
Qed.

Lemma pend_all_empty a : Forall (fun y => has_finite_time y = false) a -> pend a = [].
Proof. induction 1 as [|x l Hx Hl IH]; cbn; [reflexivity|]. rewrite Hx. exact IH. Qed.

Lemma pend_in a x : In x (pend a) <-> In x a /\ has_finite_time x = true.
Proof. apply filter_In. Qed.

Lemma finite_le a x : Forall (fun y => call_after x <= call_after y) a -> Forall (fun y => call_after x <= call_after y) (pend a).
Proof. rewrite !Forall_forall. intros H y Hy. apply pend_in in Hy. apply H. tauto. Qed.

(** The abstraction relation: the pending bag is the set of finite slots. *)
Definition IRel (q : irq) (l : list report) : Prop := IInv q /\ Permutation (pend (arr q)) l.

Lemma pend_length a : (length (pend a) <= length a)%nat.
Proof. unfold pend. induction a as [|x t IH]; cbn; [lia|]. destruct (has_finite_time x); cbn; lia. Qed.

Lemma pend_full a : length (pend a) = length a -> Forall (fun x => has_finite_time x = true) a.
Proof.
  induction a as [|x t IH]; cbn; [constructor|]. pose proof (pend_length t). unfold pend in *.
  destruct (has_finite_time x) eqn:E; cbn; intros; [|lia]. constructor; auto.
Qed.

Lemma push_spec q l r : IRel q l ->
  match push q r with
  | Ok q' => IRel q' (r :: l) /\ has_finite_time r = true /\ (length l < max_irregular_callback_pending)%nat
  | Abort => has_finite_time r = false \/ length l = max_irregular_callback_pending
  | _ => False
  end.
Proof.
  intros (HI & HP). destruct HI. unfold push. destruct (has_finite_time r) eqn:Er; cbn [guard]; [|auto].
  destruct (find_pos (fun e => negb (has_finite_time e)) (arr q)) as [i|] eqn:Ef.
  - apply find_pos_some in Ef. destruct Ef as (y & Hy & Ny). apply negb_true_iff in Ny.
    destruct (upd_split_at (arr q) i r y Hy) as (l1 & l2 & Ea & Eu).
    assert (Hp : Permutation (pend (upd (arr q) i r)) (r :: l)).
    { rewrite Eu. unfold pend in *. rewrite filter_app. cbn. rewrite Er.
      rewrite <- Permutation_middle. constructor. rewrite <- HP, Ea, filter_app. cbn. rewrite Ny. reflexivity. }
    assert (Hlt : (length l < max_irregular_callback_pending)%nat).
    { apply Permutation_length in HP. rewrite <- HP, <- ii_len0. 
      pose proof (pend_length (arr q)). destruct (Nat.eq_dec (length (pend (arr q))) (length (arr q))) as [E|E]; [|lia].
      apply pend_full in E. rewrite Forall_forall in E. rewrite E in Ny; [discriminate|]. eapply nth_error_In; eauto. }
    assert (Hi : (i < length (arr q))%nat) by (apply nth_error_Some; congruence).
    assert (Hlen : length (upd (arr q) i r) = max_irregular_callback_pending) by (rewrite upd_length; exact ii_len0).
    assert (Hall : forall P : report -> Prop, Forall P (arr q) -> P r -> Forall P (upd (arr q) i r)).
    { intros P HF HPr. rewrite Eu. rewrite Ea in HF. apply Forall_app in HF. destruct HF as (F1 & F2).
      apply Forall_app. split; [exact F1|]. inversion F2; subst. constructor; assumption. }
    destruct (Z.ltb_spec (call_after r) (next_time q)).
    + split; [split; [|exact Hp]|auto]. constructor; cbn [arr it_next next_time]; [exact Hlen|].
      exists r. split; [apply nth_error_upd_same; exact Hi|]. split; [exact Er|]. split; [reflexivity|].
      apply Hall; [|lia]. destruct (it_next q) as [j|].
      * destruct ii_next0 as (x & _ & _ & Ex & F). eapply Forall_impl; [|exact F]. intros z Hz; cbn beta in *; lia.
      * destruct ii_next0 as (_ & F). eapply Forall_impl; [|exact F]. intros z Hz; cbn beta in Hz.
        unfold has_finite_time in *. apply Z.ltb_ge in Hz. apply Z.ltb_lt in Er. lia.
    + split; [split; [|exact Hp]|auto]. constructor; cbn [arr it_next next_time]; [exact Hlen|].
      destruct (it_next q) as [j|].
      * destruct ii_next0 as (x & Hx & Fx & Ex & F). exists x. split.
        { rewrite nth_error_upd_other; [exact Hx|]. intros ->. rewrite Hy in Hx. injection Hx as ->. congruence. }
        split; [exact Fx|]. split; [exact Ex|]. apply Hall; [exact F|lia].
      * exfalso. destruct ii_next0 as (E & _). unfold has_finite_time in Er. apply Z.ltb_lt in Er. lia.
  - right. apply find_pos_none in Ef. apply Permutation_length in HP. rewrite <- HP, <- ii_len0.
    assert (E : pend (arr q) = arr q); [|rewrite E; reflexivity].
    clear -Ef. induction Ef as [|x t Hx Ht IH]; cbn; [reflexivity|]. apply negb_false_iff in Hx. rewrite Hx.
    f_equal. exact IH.
Qed.

Lemma pop_spec q l : IRel q l ->
  match pop q with
  | Ok (q', x) => exists l', IRel q' l' /\ takes_earliest l x l' /\ call_after x = next_time q
  | Abort => l = []
  | _ => False
  end.
Proof.
  intros (HI & HP). destruct HI. unfold pop. destruct (it_next q) as [i|] eqn:En.
  - destruct ii_next0 as (x & Hx & Fx & Ex & F).
    assert (Hi : (i < length (arr q))%nat) by (apply nth_error_Some; congruence).
    apply Nat.ltb_lt in Hi as Hb. rewrite Hb. cbn [guard]. unfold rd. rewrite Hx. cbn [bind].
    destruct (upd_split_at (arr q) i report_default x Hx) as (l1 & l2 & Ea & Eu).
    assert (Hlen : length (upd (arr q) i report_default) = max_irregular_callback_pending) by (rewrite upd_length; exact ii_len0).
    destruct (min_pos_some (upd (arr q) i report_default)) as (j & m & Em & Nm & Fm).
    { intros E. rewrite E in Hlen. discriminate. }
    rewrite Em.
    assert (Hp : Permutation l (x :: pend (upd (arr q) i report_default))).
    { rewrite <- HP, Ea at 1. rewrite Eu. unfold pend. rewrite !filter_app. cbn [filter]. rewrite Fx.
      change (has_finite_time report_default) with false. cbn [filter]. symmetry. apply Permutation_middle. }
    assert (Hte : takes_earliest l x (pend (upd (arr q) i report_default))).
    { split; [exact Hp|]. eapply Permutation_Forall; [exact HP|]. apply finite_le. exact F. }
    destruct (has_finite_time m) eqn:Fm'.
    + exists (pend (upd (arr q) i report_default)). split; [|auto]. split; [|reflexivity].
      constructor; cbn [arr it_next next_time]; [exact Hlen|]. exists m. auto.
    + exists (pend (upd (arr q) i report_default)). split; [|auto]. split; [|reflexivity].
      constructor; cbn [arr it_next next_time]; [exact Hlen|]. split; [reflexivity|].
      eapply Forall_impl; [|exact Fm]. intros z Hz; cbn beta in Hz. unfold has_finite_time in *.
      apply Z.ltb_ge in Fm'. apply Z.ltb_ge. lia.
  - destruct ii_next0 as (_ & F). rewrite (pend_all_empty _ F) in HP. apply Permutation_nil in HP. exact HP.
Qed.

Lemma next_spec q l : IRel q l ->
  (l = [] /\ next_time q = undefined_late) \/
  (next_time q < undefined_late /\ exists x l', takes_earliest l x l' /\ call_after x = next_time q).
Proof.
  intros HR. pose proof (pop_spec q l HR) as P. destruct HR as (HI & HP). destruct HI.
  destruct (it_next q) as [i|] eqn:En.
  - right. destruct ii_next0 as (x & Hx & Fx & Ex & F). split; [unfold has_finite_time in Fx; lia|].
    unfold pop in P. rewrite En in P.
    assert (Hi : (i < length (arr q))%nat) by (apply nth_error_Some; congruence).
    apply Nat.ltb_lt in Hi as Hb. rewrite Hb in P. cbn [guard] in P. unfold rd in P. rewrite Hx in P. cbn [bind] in P.
    destruct (min_pos (upd (arr q) i report_default)) as [(j & m)|]; [|destruct P].
    destruct (has_finite_time m); destruct P as (l' & _ & T & E); exists x, l'; auto.
  - left. destruct ii_next0 as (E & F). rewrite (pend_all_empty _ F) in HP. apply Permutation_nil in HP. auto.
Qed.

Lemma get_next_time_eq q l : IRel q l -> get_next_time q = next_time q.
Proof.
  intros HR. unfold get_next_time. destruct (next_spec q l HR) as [(_ & E)|(L & _)].
  - rewrite E. reflexivity.
  - apply Z.ltb_lt in L. rewrite L. reflexivity.
Qed.

Lemma istep_spec q l o : IRel q l ->
  match istep q o with
  | Ok (q', r) => exists l', IRel q' l' /\ spec_step l o l' r
  | Abort => refused l o
  | _ => False
  end.
Proof.
  intros HR. destruct o as [r| | |h now]; cbn [istep].
  - pose proof (push_spec q l r HR) as P. destruct (push q r); cbn [bind]; auto.
    destruct P as (P1 & P2 & P3). eexists; split; [exact P1|]. constructor; assumption.
  - pose proof (pop_spec q l HR) as P. destruct (pop q) as [(q', x)| | |]; cbn [bind fst snd]; auto.
    destruct P as (l' & P1 & P2 & _). exists l'. split; [exact P1|]. constructor; exact P2.
  - exists l. split; [exact HR|]. rewrite (get_next_time_eq q l HR).
    destruct (next_spec q l HR) as [(E1 & E2)|(_ & x & l' & T & E)].
    + rewrite E2. constructor. exact E1.
    + rewrite <- E. econstructor. exact T.
  - unfold enqueue_if_due. destruct h; cbn [negb bind fst snd].
    + rewrite (get_next_time_eq q l HR). destruct (next_spec q l HR) as [(E1 & E2)|(L & x & l' & T & E)].
      * rewrite E2, Z.eqb_refl. cbn [bind fst snd]. exists l. split; [exact HR|]. subst l. constructor. intros _. constructor.
      * assert (Enq : (next_time q =? undefined_late) = false) by (apply Z.eqb_neq; lia). rewrite Enq.
        destruct (Z.ltb_spec now (next_time q)); cbn [bind fst snd].
        -- exists l. split; [exact HR|]. constructor. intros _. destruct T as (_ & F).
           eapply Forall_impl; [|exact F]. intros z Hz; cbn beta in Hz; lia.
        -- pose proof (pop_spec q l HR) as P. destruct (pop q) as [(q', y)| | |]; cbn [bind fst snd]; auto.
           ++ destruct P as (l2 & P1 & P2 & P3). replace (0 <=? now - call_after y) with true by lia.
              cbn [guard bind fst snd]. exists l2. split; [exact P1|]. constructor; [exact P2|lia].
           ++ subst l. destruct T as (T & _). apply Permutation_nil in T. discriminate.
    + exists l. split; [exact HR|]. constructor. discriminate.
Qed.

Lemma irel_new : IRel irq_new [].
Proof. split; [|reflexivity]. constructor; [reflexivity|]. cbn. split; [reflexivity|]. repeat constructor. Qed.

Lemma irun_spec ops : forall q l, IRel q l ->
  match irun q ops with
  | Ok (q', outs) => exists l', IRel q' l' /\ spec_run l ops l' outs
  | Abort => exists pre o rest outs l', ops = pre ++ o :: rest /\ spec_run l pre l' outs /\ refused l' o
  | _ => False
  end.
Proof.
  induction ops as [|o os IH]; intros q l HR; cbn [irun].
  - exists l. split; [exact HR|constructor].
  - pose proof (istep_spec q l o HR) as S. destruct (istep q o) as [(q1, r)| | |]; cbn [bind fst snd]; auto.
    + destruct S as (l1 & R1 & S1). specialize (IH q1 l1 R1).
      destruct (irun q1 os) as [(q2, outs)| | |]; cbn [bind fst snd]; auto.
      * destruct IH as (l2 & R2 & S2). exists l2. split; [exact R2|]. econstructor; eauto.
      * destruct IH as (pre & o' & rest & outs & l' & E & S2 & Rf). subst os.
        exists (o :: pre), o', rest, (r :: outs), l'. split; [reflexivity|]. split; [|exact Rf]. econstructor; eauto.
    + exists [], o, os, [], l. split; [reflexivity|]. split; [constructor|exact S].
Qed.

Lemma irregular_queue_refines ops :
  match irun irq_new ops with
  | Ok (_, outs) => exists pending, spec_run [] ops pending outs
  | Abort => exists pre o rest outs pending, ops = pre ++ o :: rest /\ spec_run [] pre pending outs /\ refused pending o
  | _ => False
  end.
Proof.
  pose proof (irun_spec ops irq_new [] irel_new) as H. destruct (irun irq_new ops) as [(q, outs)| | |]; auto.
  destruct H as (l & _ & S). eauto.
Qed.

Lemma spec_run_bag l ops l' outs : spec_run l ops l' outs ->
  Permutation (pushed_of ops ++ l) (popped_of outs ++ l').
Proof.
  induction 1 as [l|l o l1 r os l2 rs S R IH]; [reflexivity|].
  unfold pushed_of, popped_of in *. cbn [flat_map].
  inversion S; subst; cbn [app]; try exact IH.
  - rewrite <- IH. apply Permutation_middle.
  - match goal with T : takes_earliest _ _ _ |- _ => destruct T as (T0 & _); rewrite <- IH, T0 end.
    symmetry. apply Permutation_middle.
  - match goal with T : takes_earliest _ _ _ |- _ => destruct T as (T0 & _); rewrite <- IH, T0 end.
    symmetry. apply Permutation_middle.
Qed.

Lemma spec_run_bound l ops l' outs : spec_run l ops l' outs -> (length l <= max_irregular_callback_pending)%nat ->
  (length l' <= max_irregular_callback_pending)%nat.
Proof.
  induction 1 as [l|l o l1 r os l2 rs S R IH]; [auto|]. intros H. apply IH.
  inversion S; subst; cbn [length]; auto; try lia;
    match goal with T : takes_earliest _ _ _ |- _ => destruct T as (T0 & _); apply Permutation_length in T0; cbn in T0; lia end.
Qed.

Lemma irregular_each_once ops q outs : irun irq_new ops = Ok (q, outs) ->
  exists pending, Permutation (pushed_of ops) (popped_of outs ++ pending) /\
    (length pending <= max_irregular_callback_pending)%nat.
Proof.
  intros H. pose proof (irregular_queue_refines ops) as R. rewrite H in R. destruct R as (p & R).
  exists p. split.
  - pose proof (spec_run_bag _ _ _ _ R) as B. rewrite app_nil_r in B. exact B.
  - eapply spec_run_bound; eauto. cbn. lia.
Qed.

Lemma increment_finite r inc : same_with_time_increment r inc <> Abort ->
  exists r', same_with_time_increment r inc = Ok r' /\ call_after r < call_after r' /\ handle r' = handle r.
Proof.
  unfold same_with_time_increment. destruct (has_finite_time r); cbn [guard]; [|congruence].
  destruct (0 <? inc) eqn:E1; cbn [guard]; [|congruence]. destruct (inc <? undefined_late); cbn [guard]; [|congruence].
  intros _. eexists; split; [reflexivity|]. cbn. split; [lia|reflexivity].
Qed.
