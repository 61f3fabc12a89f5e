(** Facts about the job queue of the default build. *)
From Verif Require Import Base JobQueue JobQueueSpec JobQueueMc JobQueueMcSpec.
From Coq Require Import Lia.

Section Facts.
  Context {A : Type}.
  Notation job := (job A). Notation ppc := (ppc A). Notation mcq := (mcq A). Notation mcev := (mcev A). Notation mcact := (mcact A).

  Lemma entered_app (a b : list mcev) : entered (a ++ b) = entered a ++ entered b.
  Proof. induction a as [|e a IH]; [reflexivity|]. destruct e; cbn [entered app]; rewrite IH; reflexivity. Qed.
  Lemma handed_app (a b : list mcev) : handed (a ++ b) = handed a ++ handed b.
  Proof. induction a as [|e a IH]; [reflexivity|]. destruct e; cbn [handed app]; rewrite IH; reflexivity. Qed.
  Lemma number_from_app z (a b : list A) : number_from z (a ++ b) = number_from z a ++ number_from (z + Z.of_nat (length a)) b.
  Proof.
    revert z. induction a as [|x a IH]; intros z.
    - cbn [app number_from length]. rewrite Z.add_0_r. reflexivity.
    - cbn [app number_from length]. rewrite IH. do 2 f_equal. f_equal. lia.
  Qed.

  Definition b2n (b : bool) : nat := if b then 1 else 0.
  Lemma count_cons {B} (f : B -> bool) x l : count f (x :: l) = b2n (f x) + count f l.
  Proof. unfold count. cbn [filter]. destruct (f x); reflexivity. Qed.
  Lemma count_upd {B} (f : B -> bool) d x : forall l p, p < length l ->
    count f (upd l p x) + b2n (f (nth p l d)) = count f l + b2n (f x).
  Proof.
    induction l as [|y l IH]; intros p H; [cbn [length] in H; lia|]. destruct p as [|p]; cbn [upd nth].
    - rewrite !count_cons. lia.
    - rewrite !count_cons. cbn [length] in H. specialize (IH p ltac:(lia)). lia.
  Qed.
  Lemma count_repeat_false {B} (f : B -> bool) x n : f x = false -> count f (repeat x n) = 0.
  Proof. intros H. induction n as [|n IH]; [reflexivity|]. cbn [repeat]. rewrite count_cons, H, IH. reflexivity. Qed.

  Definition hpc (q : mcq) : ppc := match mc_holder q with Some p => nth p (mc_prods q) PIdle | None => PIdle end.
  Definition uncounted (x : ppc) : Z := match x with PSignal | PCount => 1 | _ => 0 end.
  Definition unsignalled (x : ppc) : nat := match x with PSignal => 1 | _ => 0 end.

  Record Inv (q : mcq) (P H : list job) : Prop := {
    i_split : P = H ++ mc_fifo q;
    i_num : P = number_from 0 (map content P);
    i_lock : forall p, crit (nth p (mc_prods q) PIdle) = true <-> mc_holder q = Some p;
    i_cnt : (mc_cnt q = Z.of_nat (length P) - uncounted (hpc q))%Z;
    i_job : forall p j, nth p (mc_prods q) PIdle = PPush j -> fifo_cnt_of j = mc_cnt q;
    i_sem : mc_sem q + count taking (mc_cons q) + unsignalled (hpc q) = length (mc_fifo q)
  }.

  Lemma inv_new np nc : Inv (mc_new np nc) [] [].
  Proof.
    assert (N : forall p, nth p (repeat (@PIdle A) np) PIdle = PIdle) by (intros p; apply nth_repeat).
    constructor; cbn [mc_new mc_fifo mc_prods mc_holder mc_cnt mc_sem mc_cons]; try reflexivity.
    - intros p. rewrite N. cbn. split; discriminate.
    - intros p j. rewrite N. discriminate.
    - rewrite count_repeat_false by reflexivity. reflexivity.
  Qed.

  (** A producer that moves outside the lock, or inside it, without touching anything else. *)
  Lemma nth_upd (l : list ppc) p x p' : p < length l -> nth p' (upd l p x) PIdle = if p' =? p then x else nth p' l PIdle.
  Proof.
    intros H. destruct (Nat.eqb_spec p' p) as [->|N]; [apply nth_upd_same; exact H|].
    apply nth_upd_other. congruence.
  Qed.

  Lemma step_inv fatal q x P H : Inv q P H ->
    match mcstep fatal q x with
    | Ok None => True
    | Ok (Some (q', e)) => Inv q' (P ++ entered e) (H ++ handed e)
    | Abort => fatal = true
    | Throw | Oob => False
    end.
  Proof.
    intros [Sp Nu Lo Cn Jo Se].
    destruct x as [p a|p ok|c|c|b]; cbn [mcstep].
    - (* ACall *)
      destruct (Nat.ltb_spec p (length (mc_prods q))) as [Lp|]; [|exact I].
      destruct (nth p (mc_prods q) PIdle) eqn:E; try exact I.
      assert (Hp : mc_holder q <> Some p) by (intros K; apply Lo in K; rewrite E in K; discriminate).
      assert (Eh : hpc (set_prod q p (PCheck a)) = hpc q).
      { unfold hpc. cbn [set_prod mc_holder mc_prods]. destruct (mc_holder q) as [h|]; [|reflexivity].
        rewrite nth_upd by exact Lp. destruct (Nat.eqb_spec h p); [congruence|reflexivity]. }
      cbn [entered handed]. rewrite !app_nil_r. constructor; try rewrite Eh; cbn [set_prod mc_fifo mc_prods mc_holder mc_cnt mc_sem mc_cons]; try assumption.
      + intros p'. rewrite nth_upd by exact Lp. destruct (Nat.eqb_spec p' p) as [->|]; [|apply Lo]. cbn. split; [discriminate|contradiction].
      + intros p' j. rewrite nth_upd by exact Lp. destruct (Nat.eqb_spec p' p); [discriminate|apply Jo].
    - (* AProd *)
      destruct (Nat.ltb_spec p (length (mc_prods q))) as [Lp|]; [|exact I]. unfold prod_step.
      assert (HP : forall x q', mc_prods q' = upd (mc_prods q) p x -> mc_holder q' = mc_holder q ->
                hpc q' = if crit (nth p (mc_prods q) PIdle) then x else hpc q).
      { intros x q' E1 E2. unfold hpc. rewrite E1, E2. destruct (crit (nth p (mc_prods q) PIdle)) eqn:K.
        - apply Lo in K. rewrite K. apply nth_upd_same, Lp.
        - destruct (mc_holder q) as [h|] eqn:Eh; [|reflexivity]. rewrite nth_upd by exact Lp.
          destruct (Nat.eqb_spec h p) as [->|]; [|reflexivity]. exfalso. assert (F : Some p = Some p) by reflexivity.
          apply Lo in F. congruence. }
      assert (HC : hpc q = if crit (nth p (mc_prods q) PIdle) then nth p (mc_prods q) PIdle else hpc q).
      { destruct (crit (nth p (mc_prods q) PIdle)) eqn:K; [|reflexivity]. apply Lo in K. unfold hpc. rewrite K. reflexivity. }
      assert (LO : forall x, crit x = crit (nth p (mc_prods q) PIdle) ->
                forall p', crit (nth p' (upd (mc_prods q) p x) PIdle) = true <-> mc_holder q = Some p').
      { intros x E p'. rewrite nth_upd by exact Lp. destruct (Nat.eqb_spec p' p) as [->|]; [rewrite E|]; apply Lo. }
      destruct (nth p (mc_prods q) PIdle) as [|a|a|a|j| | | |r|r] eqn:E; cbn [crit] in HP, HC, LO.
      + exact I.
      + destruct (mc_gate q); cbn [entered handed]; rewrite !app_nil_r.
        * constructor; try rewrite (HP (PLock a)) by reflexivity; cbn [set_prod mc_fifo mc_prods mc_holder mc_cnt mc_sem mc_cons]; try assumption.
          -- apply LO; reflexivity.
          -- intros p' j. rewrite nth_upd by exact Lp. destruct (p' =? p); [discriminate|apply Jo].
        * constructor; try rewrite (HP (PReturn true)) by reflexivity; cbn [set_prod mc_fifo mc_prods mc_holder mc_cnt mc_sem mc_cons]; try assumption.
          -- apply LO; reflexivity.
          -- intros p' j. rewrite nth_upd by exact Lp. destruct (p' =? p); [discriminate|apply Jo].
      + destruct (mc_holder q) eqn:Eh; [exact I|]. cbn [entered handed]. rewrite !app_nil_r.
        assert (Z0 : hpc q = PIdle) by (unfold hpc; rewrite Eh; reflexivity). rewrite Z0 in Cn, Se.
        assert (Z1 : hpc (set_holder (set_prod q p (PNumber a)) (Some p)) = PNumber a).
        { unfold hpc. cbn [set_holder set_prod mc_holder mc_prods]. apply nth_upd_same, Lp. }
        constructor; try rewrite Z1; cbn [set_holder set_prod mc_fifo mc_prods mc_holder mc_cnt mc_sem mc_cons]; try assumption.
        * intros p'. rewrite nth_upd by exact Lp. destruct (Nat.eqb_spec p' p) as [->|N].
          -- cbn. split; reflexivity.
          -- rewrite Lo. split; [discriminate|congruence].
        * intros p' j. rewrite nth_upd by exact Lp. destruct (p' =? p); [discriminate|apply Jo].
      + cbn [entered handed]. rewrite !app_nil_r. rewrite HC in Cn, Se. cbn [uncounted unsignalled] in Cn, Se.
        constructor; try rewrite (HP (PPush {| fifo_cnt_of := mc_cnt q; content := a |})) by reflexivity;
          cbn [set_prod mc_fifo mc_prods mc_holder mc_cnt mc_sem mc_cons]; try assumption.
        * apply LO; reflexivity.
        * intros p' j. rewrite nth_upd by exact Lp. destruct (p' =? p); [intros K; injection K as <-; reflexivity|apply Jo].
      + rewrite HC in Cn, Se. cbn [uncounted unsignalled] in Cn, Se. assert (Ej := Jo _ _ E). destruct ok; cbn [entered handed].
        * rewrite app_nil_r.
          constructor; try rewrite (HP PSignal) by reflexivity; cbn [set_queue set_prod mc_fifo mc_prods mc_holder mc_cnt mc_sem mc_cons].
          -- rewrite Sp, app_assoc. reflexivity.
          -- rewrite map_app, number_from_app, <- Nu. f_equal. cbn [map number_from]. rewrite map_length. destruct j as [n x].
             cbn [content fifo_cnt_of] in *. rewrite Ej. do 2 f_equal. lia.
          -- apply LO; reflexivity.
          -- rewrite app_length. cbn [length uncounted]. lia.
          -- intros p' j'. rewrite nth_upd by exact Lp. destruct (p' =? p); [discriminate|apply Jo].
          -- rewrite app_length. cbn [length unsignalled]. lia.
        * rewrite !app_nil_r.
          constructor; try rewrite (HP PFatal) by reflexivity; cbn [set_prod mc_fifo mc_prods mc_holder mc_cnt mc_sem mc_cons]; try assumption.
          -- apply LO; reflexivity.
          -- intros p' j'. rewrite nth_upd by exact Lp. destruct (p' =? p); [discriminate|apply Jo].
      + rewrite HC in Cn, Se. cbn [uncounted unsignalled] in Cn, Se. cbn [entered handed]. rewrite !app_nil_r.
        constructor; try rewrite (HP PCount) by reflexivity; cbn [set_queue set_prod mc_fifo mc_prods mc_holder mc_cnt mc_sem mc_cons]; try assumption.
        * apply LO; reflexivity.
        * intros p' j'. rewrite nth_upd by exact Lp. destruct (p' =? p); [discriminate|apply Jo].
        * cbn [unsignalled]. lia.
      + rewrite HC in Cn, Se. cbn [uncounted unsignalled] in Cn, Se. cbn [entered handed]. rewrite !app_nil_r.
        constructor; try rewrite (HP (PUnlock true)) by reflexivity; cbn [set_cnt set_prod mc_fifo mc_prods mc_holder mc_cnt mc_sem mc_cons]; try assumption.
        * apply LO; reflexivity.
        * cbn [uncounted]. lia.
        * intros p' j'. rewrite nth_upd by exact Lp. destruct (Nat.eqb_spec p' p) as [->|N]; [discriminate|].
          intros K. exfalso. assert (C1 : crit (nth p' (mc_prods q) PIdle) = true) by (rewrite K; reflexivity).
          assert (C2 : crit (nth p (mc_prods q) PIdle) = true) by (rewrite E; reflexivity).
          apply Lo in C1. apply Lo in C2. congruence.
      + destruct fatal; [reflexivity|]. rewrite HC in Cn, Se. cbn [uncounted unsignalled] in Cn, Se. cbn [entered handed]. rewrite !app_nil_r.
        constructor; try rewrite (HP (PUnlock false)) by reflexivity; cbn [set_prod mc_fifo mc_prods mc_holder mc_cnt mc_sem mc_cons]; try assumption.
        * apply LO; reflexivity.
        * intros p' j'. rewrite nth_upd by exact Lp. destruct (p' =? p); [discriminate|apply Jo].
      + rewrite HC in Cn, Se. cbn [uncounted unsignalled] in Cn, Se. cbn [entered handed]. rewrite !app_nil_r.
        assert (Hh : mc_holder q = Some p) by (apply Lo; rewrite E; reflexivity).
        constructor; cbn [set_holder set_prod mc_fifo mc_prods mc_holder mc_cnt mc_sem mc_cons]; unfold hpc; cbn [set_holder set_prod mc_holder]; try assumption.
        * intros p'. rewrite nth_upd by exact Lp. destruct (Nat.eqb_spec p' p) as [->|N]; [cbn; split; discriminate|].
          rewrite Lo. split; [congruence|discriminate].
        * intros p' j'. rewrite nth_upd by exact Lp. destruct (p' =? p); [discriminate|apply Jo].
      + cbn [entered handed]. rewrite !app_nil_r.
        constructor; try rewrite (HP PIdle) by reflexivity; cbn [set_prod mc_fifo mc_prods mc_holder mc_cnt mc_sem mc_cons]; try assumption.
        * apply LO; reflexivity.
        * intros p' j'. rewrite nth_upd by exact Lp. destruct (p' =? p); [discriminate|apply Jo].
    - (* ACons *)
      destruct (Nat.ltb_spec c (length (mc_cons q))) as [Lc|]; [|exact I]. unfold cons_step.
      assert (CU : forall x, count taking (upd (mc_cons q) c x) + b2n (taking (nth c (mc_cons q) CWait)) = count taking (mc_cons q) + b2n (taking x))
        by (intros x; apply count_upd, Lc).
      destruct (nth c (mc_cons q) CWait) eqn:E; cbn [taking b2n] in CU.
      + destruct (mc_sem q) as [|n] eqn:Es; [exact I|]. cbn [entered handed]. rewrite !app_nil_r. specialize (CU CTake). cbn [taking b2n] in CU.
        constructor; unfold hpc in *; cbn [set_queue set_con mc_fifo mc_prods mc_holder mc_cnt mc_sem mc_cons]; try assumption. lia.
      + specialize (CU CWait). cbn [taking b2n] in CU. destruct (mc_fifo q) as [|j l] eqn:Ef; [cbn [length] in Se; lia|].
        cbn [entered handed]. rewrite app_nil_r. cbn [length] in Se.
        constructor; unfold hpc in *; cbn [set_queue set_con mc_fifo mc_prods mc_holder mc_cnt mc_sem mc_cons]; try assumption.
        * rewrite <- app_assoc. exact Sp.
        * lia.
    - (* ATimeout *)
      destruct (c <? length (mc_cons q)); [|exact I]. destruct (nth c (mc_cons q) CWait); [|exact I]. destruct (mc_sem q) eqn:Es; [|exact I].
      cbn [entered handed]. rewrite !app_nil_r. constructor; try assumption. rewrite Es. exact Se.
    - cbn [entered handed]. rewrite !app_nil_r. constructor; unfold hpc in *; cbn [set_gate mc_fifo mc_prods mc_holder mc_cnt mc_sem mc_cons]; assumption.
  Qed.

  Lemma run_inv fatal : forall xs q P H, Inv q P H ->
    match mcrun fatal q xs with
    | Ok (q', e) => Inv q' (P ++ entered e) (H ++ handed e)
    | Abort => fatal = true
    | Throw | Oob => False
    end.
  Proof.
    induction xs as [|x xs IH]; intros q P H I0; cbn [mcrun].
    - cbn [entered handed]. rewrite !app_nil_r. exact I0.
    - pose proof (step_inv fatal q x P H I0) as S. destruct (mcstep fatal q x) as [[[q1 e]|]| | |]; cbn [bind]; try exact S.
      + specialize (IH q1 _ _ S). destruct (mcrun fatal q1 xs) as [[q' e']| | |]; cbn [bind fst snd]; try exact IH.
        rewrite entered_app, handed_app, !app_assoc. exact IH.
      + apply IH, I0.
  Qed.

  (** ** Calls *)
  Definition pcall (g : bool) (x : ppc) (c : call) : Prop :=
    match x with
    | PIdle => c = Idle
    | PCheck a => exists o, c = Called a o /\ (g = true -> o = true)
    | PLock a | PNumber a => c = Called a true
    | PPush j => c = Called (content j) true
    | PSignal | PCount => c = Decided true
    | PFatal => c = Decided false
    | PUnlock r | PReturn r => c = Decided r
    end.
  Lemma pcall_open x c g : pcall g x c -> pcall true x (opened c).
  Proof.
    destruct x as [|a|a|a|j| | | |r|r]; cbn [pcall]; intros H; try (subst c; reflexivity).
    destruct H as (o & -> & _). exists true. split; reflexivity.
  Qed.
  Lemma pcall_close x c g : pcall g x c -> pcall false x c.
  Proof.
    destruct x as [|a|a|a|j| | | |r|r]; cbn [pcall]; intros H; try exact H.
    destruct H as (o & -> & _). exists o. split; [reflexivity|discriminate].
  Qed.

  Lemma run_calls fatal p : forall xs q c q' e, pcall (mc_gate q) (nth p (mc_prods q) PIdle) c ->
    mcrun fatal q xs = Ok (q', e) -> calls_ok p (mc_gate q) c e.
  Proof.
    induction xs as [|x xs IH]; intros q c q' e M R; cbn [mcrun] in R; [injection R as <- <-; exact I|].
    apply bind_ok_inv in R. destruct R as (r & S & R). destruct r as [[q1 e1]|]; [|exact (IH _ _ _ _ M R)].
    apply bind_ok_inv in R. destruct R as ([q2 e2] & R2 & R). cbn [fst snd] in R. injection R as <- <-.
    assert (K : forall c1, pcall (mc_gate q1) (nth p (mc_prods q1) PIdle) c1 -> calls_ok p (mc_gate q1) c1 e2)
      by (intros c1 M1; exact (IH _ _ _ _ M1 R2)).
    clear IH R2. destruct x as [p0 a|p0 ok|c0|c0|b]; cbn [mcstep] in S.
    - destruct (Nat.ltb_spec p0 (length (mc_prods q))) as [Lp|]; [|discriminate].
      destruct (nth p0 (mc_prods q) PIdle) eqn:E; try discriminate. injection S as <- <-. cbn [app calls_ok].
      cbn [set_prod mc_gate mc_prods] in K. rewrite nth_upd in K by exact Lp. rewrite (Nat.eqb_sym p p0) in K.
      destruct (Nat.eqb_spec p0 p) as [->|N]; [|exact (K _ M)]. rewrite E in M. split; [exact M|]. apply K. exists (mc_gate q). split; [reflexivity|trivial].
    - destruct (Nat.ltb_spec p0 (length (mc_prods q))) as [Lp|]; [|discriminate]. unfold prod_step in S.
      destruct (nth p0 (mc_prods q) PIdle) as [|a|a|a|j| | | |r|r] eqn:E.
      + discriminate.
      + destruct (mc_gate q) eqn:G; injection S as <- <-; cbn [app calls_ok]; cbn [set_prod mc_gate mc_prods] in K; rewrite G in K;
          rewrite nth_upd in K by exact Lp; rewrite (Nat.eqb_sym p p0) in K; destruct (Nat.eqb_spec p0 p) as [->|N]; try exact (K _ M);
          rewrite E in M; destruct M as (o & -> & Ho).
        * rewrite (Ho eq_refl) in *. apply K. reflexivity.
        * split; [reflexivity|]. split; [eexists _, _; reflexivity|]. apply K. reflexivity.
      + destruct (mc_holder q); [discriminate|]. injection S as <- <-. cbn [app].
        cbn [set_holder set_prod mc_gate mc_prods] in K. rewrite nth_upd in K by exact Lp. rewrite (Nat.eqb_sym p p0) in K.
        destruct (Nat.eqb_spec p0 p) as [->|N]; [|exact (K _ M)]. rewrite E in M. apply K. exact M.
      + injection S as <- <-. cbn [app].
        cbn [set_prod mc_gate mc_prods] in K. rewrite nth_upd in K by exact Lp. rewrite (Nat.eqb_sym p p0) in K.
        destruct (Nat.eqb_spec p0 p) as [->|N]; [|exact (K _ M)]. rewrite E in M. apply K. exact M.
      + destruct ok; injection S as <- <-; cbn [app calls_ok]; cbn [set_queue set_prod mc_gate mc_prods] in K;
          rewrite nth_upd in K by exact Lp; rewrite (Nat.eqb_sym p p0) in K;
          destruct (Nat.eqb_spec p0 p) as [->|N]; try exact (K _ M); rewrite E in M.
        * split; [exact M|]. apply K. reflexivity.
        * split; [eexists; exact M|]. apply K. reflexivity.
      + injection S as <- <-. cbn [app].
        cbn [set_queue set_prod mc_gate mc_prods] in K. rewrite nth_upd in K by exact Lp. rewrite (Nat.eqb_sym p p0) in K.
        destruct (Nat.eqb_spec p0 p) as [->|N]; [|exact (K _ M)]. rewrite E in M. apply K. exact M.
      + injection S as <- <-. cbn [app].
        cbn [set_cnt set_prod mc_gate mc_prods] in K. rewrite nth_upd in K by exact Lp. rewrite (Nat.eqb_sym p p0) in K.
        destruct (Nat.eqb_spec p0 p) as [->|N]; [|exact (K _ M)]. rewrite E in M. apply K. exact M.
      + destruct fatal; [discriminate|]. injection S as <- <-. cbn [app].
        cbn [set_prod mc_gate mc_prods] in K. rewrite nth_upd in K by exact Lp. rewrite (Nat.eqb_sym p p0) in K.
        destruct (Nat.eqb_spec p0 p) as [->|N]; [|exact (K _ M)]. rewrite E in M. apply K. exact M.
      + injection S as <- <-. cbn [app].
        cbn [set_holder set_prod mc_gate mc_prods] in K. rewrite nth_upd in K by exact Lp. rewrite (Nat.eqb_sym p p0) in K.
        destruct (Nat.eqb_spec p0 p) as [->|N]; [|exact (K _ M)]. rewrite E in M. apply K. exact M.
      + injection S as <- <-. cbn [app calls_ok].
        cbn [set_prod mc_gate mc_prods] in K. rewrite nth_upd in K by exact Lp. rewrite (Nat.eqb_sym p p0) in K.
        destruct (Nat.eqb_spec p0 p) as [->|N]; [|exact (K _ M)]. rewrite E in M. split; [exact M|]. apply K. reflexivity.
    - destruct (c0 <? length (mc_cons q)); [|discriminate]. unfold cons_step in S. destruct (nth c0 (mc_cons q) CWait).
      + destruct (mc_sem q); [discriminate|]. injection S as <- <-. exact (K _ M).
      + destruct (mc_fifo q); [discriminate|]. injection S as <- <-. exact (K _ M).
    - destruct (c0 <? length (mc_cons q)); [|discriminate]. destruct (nth c0 (mc_cons q) CWait); [|discriminate].
      destruct (mc_sem q); [|discriminate]. injection S as <- <-. exact (K _ M).
    - injection S as <- <-. cbn [app calls_ok]. destruct b; apply K; cbn [set_gate mc_gate mc_prods];
        [exact (pcall_open _ _ _ M)|exact (pcall_close _ _ _ M)].
  Qed.

  (** ** The gate *)
  Lemma run_closed fatal : forall (xs : list mcact) (q q' : mcq) (e : list mcev), mc_gate q = false -> never_opens xs -> mcrun fatal q xs = Ok (q', e) ->
    length (entered e) + count in_flight (mc_prods q') <= count in_flight (mc_prods q).
  Proof.
    induction xs as [|x xs IH]; intros q q' e G N R; cbn [mcrun] in R; [injection R as <- <-; cbn; lia|].
    assert (N' : never_opens xs) by (intros K; apply N; right; exact K).
    apply bind_ok_inv in R. destruct R as (r & S & R). destruct r as [[q1 e1]|]; [|exact (IH _ _ _ G N' R)].
    apply bind_ok_inv in R. destruct R as ([q2 e2] & R2 & R). cbn [fst snd] in R. injection R as <- <-.
    rewrite entered_app, app_length.
    cut (mc_gate q1 = false /\ length (entered e1) + count in_flight (mc_prods q1) <= count in_flight (mc_prods q)).
    { intros [G1 C1]. specialize (IH _ _ _ G1 N' R2). lia. }
    clear IH R2. destruct x as [p0 a|p0 ok|c0|c0|b]; cbn [mcstep] in S.
    - destruct (Nat.ltb_spec p0 (length (mc_prods q))) as [Lp|]; [|discriminate].
      destruct (nth p0 (mc_prods q) PIdle) eqn:E; try discriminate. injection S as <- <-. split; [exact G|].
      cbn [set_prod mc_prods entered length]. pose proof (count_upd in_flight PIdle (PCheck a) _ _ Lp) as C. rewrite E in C. cbn [in_flight b2n] in C. lia.
    - destruct (Nat.ltb_spec p0 (length (mc_prods q))) as [Lp|]; [|discriminate]. unfold prod_step in S. rewrite G in S.
      assert (C : forall x, count in_flight (upd (mc_prods q) p0 x) + b2n (in_flight (nth p0 (mc_prods q) PIdle)) = count in_flight (mc_prods q) + b2n (in_flight x))
        by (intros x; apply count_upd, Lp).
      destruct (nth p0 (mc_prods q) PIdle) as [|a|a|a|j| | | |r|r]; try discriminate;
        repeat match type of S with
        | context [match mc_holder q with _ => _ end] => destruct (mc_holder q); try discriminate
        | context [if ok then _ else _] => destruct ok
        | context [if fatal then _ else _] => destruct fatal; try discriminate
        end;
        injection S as <- <-; (split; [exact G|]);
        cbn [set_prod set_queue set_cnt set_holder mc_prods entered length];
        match goal with |- context [upd _ _ ?x] => specialize (C x) end; cbn [in_flight b2n] in C; lia.
    - destruct (c0 <? length (mc_cons q)); [|discriminate]. unfold cons_step in S. destruct (nth c0 (mc_cons q) CWait).
      + destruct (mc_sem q); [discriminate|]. injection S as <- <-. split; [exact G|]. cbn [set_queue set_con set_gate mc_prods entered length]. lia.
      + destruct (mc_fifo q); [discriminate|]. injection S as <- <-. split; [exact G|]. cbn [set_queue set_con set_gate mc_prods entered length]. lia.
    - destruct (c0 <? length (mc_cons q)); [|discriminate]. destruct (nth c0 (mc_cons q) CWait); [|discriminate].
      destruct (mc_sem q); [|discriminate]. injection S as <- <-. split; [exact G|]. cbn [set_queue set_con set_gate mc_prods entered length]. lia.
    - injection S as <- <-. destruct b; [exfalso; apply N; left; reflexivity|]. split; [reflexivity|]. cbn [set_queue set_con set_gate mc_prods entered length]. lia.
  Qed.
End Facts.
