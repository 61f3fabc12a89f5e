From Coq Require Import Sorting.Sorted.
From Verif Require Import Base Callbacks CallbacksSpec.
Open Scope Z_scope.

(** First minimum. *)
Definition is_first_min (l : list entry) (k : nat) : Prop :=
  exists e, nth_error l k = Some e /\
    (forall j f, nth_error l j = Some f -> next e <= next f) /\
    (forall j f, nth_error l j = Some f -> (j < k)%nat -> next e < next f).

Lemma min_from_spec r : forall p e best,
  nth_error p best = Some e ->
  (forall j f, nth_error p j = Some f -> next e <= next f) ->
  (forall j f, nth_error p j = Some f -> (j < best)%nat -> next e < next f) ->
  is_first_min (p ++ r) (min_from best (next e) (length p) r).
Proof.
  induction r as [|g r IH]; intros p e best Hb Hm Hl.
  - rewrite app_nil_r. exists e. auto.
  - cbn [min_from].
    replace (p ++ g :: r) with ((p ++ [g]) ++ r) by now rewrite <- app_assoc.
    assert (Hlen : length (p ++ [g]) = S (length p)) by (rewrite app_length; cbn; lia).
    assert (Hsplit : forall j f, nth_error (p ++ [g]) j = Some f ->
              (nth_error p j = Some f) \/ (j = length p /\ f = g)).
    { intros j f Hj. destruct (Nat.lt_ge_cases j (length p)).
      - rewrite nth_error_app1 in Hj; auto.
      - rewrite nth_error_app2 in Hj by lia.
        destruct (j - length p)%nat as [|k] eqn:Ek; cbn in Hj.
        + injection Hj as <-. right. split; [lia|reflexivity].
        + now destruct k. }
    destruct (Z.ltb_spec (next g) (next e)).
    + rewrite <- Hlen. apply IH.
      * rewrite nth_error_app2 by lia. now rewrite Nat.sub_diag.
      * intros j f Hj. destruct (Hsplit j f Hj) as [H1|[-> ->]]; [|lia].
        specialize (Hm j f H1). lia.
      * intros j f Hj Hlt. destruct (Hsplit j f Hj) as [H1|[-> ->]]; [|lia].
        specialize (Hm j f H1). lia.
    + rewrite <- Hlen. apply IH.
      * rewrite nth_error_app1; auto. apply nth_error_Some. congruence.
      * intros j f Hj. destruct (Hsplit j f Hj) as [H1|[-> ->]]; eauto.
      * intros j f Hj Hlt. destruct (Hsplit j f Hj) as [H1|[-> ->]]; eauto.
        assert (best < length p)%nat by (apply nth_error_Some; congruence). lia.
Qed.

Lemma min_element_spec l : l <> [] -> is_first_min l (min_element l).
Proof.
  destruct l as [|e r]; [congruence|]. intros _. unfold min_element.
  apply (min_from_spec r [e] e 0%nat); auto.
  - intros [|[|j]] f Hf; try discriminate. injection Hf as <-. lia.
  - intros j f _ Hj. lia.
Qed.

(** [it] is up to date. *)
Definition good (st : cbs) : Prop := ents st <> [] /\ it st = Some (min_element (ents st)).

Definition count_due (now : Z) (l : list entry) : nat :=
  length (filter (fun e => next e <=? now) l).

Lemma count_due_le now l : (count_due now l <= length l)%nat.
Proof. unfold count_due. induction l; cbn; [lia|]. destruct (_ <=? _); cbn; lia. Qed.

Lemma count_due_upd now l i e x :
  nth_error l i = Some e -> next e <= now -> now < next x ->
  S (count_due now (upd l i x)) = count_due now l.
Proof.
  unfold count_due. revert i; induction l as [|h t IH]; intros [|i] He H1 H2; try discriminate.
  - cbn in He. injection He as ->. cbn.
    destruct (Z.leb_spec (next e) now), (Z.leb_spec (next x) now); cbn; lia.
  - cbn in He. cbn [upd filter]. specialize (IH i He H1 H2).
    destruct (next h <=? now); cbn; lia.
Qed.

Lemma after_idem_upd now l i e x :
  nth_error l i = Some e -> after now e = x -> now < next x ->
  map (after now) (upd l i x) = map (after now) l.
Proof.
  revert i; induction l as [|h t IH]; intros [|i] He H1 H2; try discriminate.
  - cbn in He. injection He as ->. cbn. f_equal. rewrite H1. unfold after.
    destruct (Z.leb_spec (next x) now); [lia|auto].
  - cbn in He. cbn [upd map]. f_equal. eauto.
Qed.

Lemma fire_ok_dec now e : {fire_ok now e} + {~ fire_ok now e}.
Proof.
  unfold fire_ok. destruct (Z_lt_dec now (next e + period e)); [|right; tauto].
  destruct (cb e) as [b|]; [|right; tauto].
  destruct (b now (next e) (period e)) as [n p].
  destruct (Z_lt_dec 0 n), (Z_lt_dec 0 p), (Z_lt_dec now (n + p)); (left; tauto) || (right; lia).
Qed.

Lemma due_none now l : count_due now l = 0%nat -> forall i e, nth_error l i = Some e -> now < next e.
Proof.
  unfold count_due. revert l; induction l as [|h t IH]; intros H [|i] e He; try discriminate; cbn in *.
  - injection He as ->. destruct (Z.leb_spec (next e) now); [discriminate|lia].
  - destruct (next h <=? now); [discriminate|]. eauto.
Qed.

Lemma map_after_none now l :
  (forall i e, nth_error l i = Some e -> now < next e) -> map (after now) l = l.
Proof.
  induction l as [|h t IH]; intros H; cbn; auto. f_equal.
  - unfold after. specialize (H 0%nat h eq_refl). destruct (Z.leb_spec (next h) now); [lia|auto].
  - apply IH. intros i e He. apply (H (S i) e He).
Qed.

Lemma loop_spec now : forall fuel st acc,
  good st -> (count_due now (ents st) < fuel)%nat ->
  exists r, loop fuel now st acc = Some r /\
    (all_fire_ok now (ents st) ->
       exists st' cs, r = Ok (st', acc ++ cs) /\ good st' /\
         ents st' = map (after now) (ents st) /\ due_calls (ents st) now cs) /\
    (~ all_fire_ok now (ents st) -> is_ok r = false).
Proof.
  induction fuel as [|f IH]; intros st acc [Hne Hit] Hc; [lia|].
  cbn [loop]. rewrite Hit.
  destruct (min_element_spec (ents st) Hne) as (e & He & Hmin & Hfirst). rewrite He.
  destruct (Z.leb_spec (next e) now) as [Hdue|Hnot]; cbn [negb].
  - destruct (fire_ok_dec now e) as [Hok|Hbad].
    + (* fires *)
      pose proof Hok as Hok'. unfold fire_ok in Hok. destruct Hok as [H1 H2].
      destruct (Z.ltb_spec now (next e + period e)); [|lia]. cbn [negb].
      destruct (cb e) as [b|] eqn:Ecb; [|tauto].
      destruct (b now (next e) (period e)) as [n p] eqn:Eb. destruct H2 as (Hn & Hp & Hnp).
      destruct (Z.ltb_spec 0 n); [|lia]. destruct (Z.ltb_spec 0 p); [|lia].
      destruct (Z.ltb_spec now (n + p)); [|lia]. cbn [negb].
      set (x := {| cb := Some b; next := n + p; period := p |}).
      set (k := min_element (ents st)) in *.
      assert (Haft : after now e = x).
      { unfold after. destruct (Z.leb_spec (next e) now); [|lia]. rewrite Ecb, Eb. reflexivity. }
      set (c := {| cnow := now; cidx := k; cdue := next e |}).
      assert (Hk : (k < length (ents st))%nat) by (apply nth_error_Some; congruence).
      assert (Hoth : forall j, j <> k -> nth_error (upd (ents st) k x) j = nth_error (ents st) j).
      { intros j Hj. apply nth_error_upd_other. auto. }
      assert (Hsame : nth_error (upd (ents st) k x) k = Some x) by (apply nth_error_upd_same; auto).
      edestruct (IH (set_it_next (upd (ents st) k x)) (acc ++ [c])) as (r & Er & Hgood & Hfail).
      * split; cbn [ents it set_it_next]; [|reflexivity]. intros E. apply (f_equal (@length _)) in E.
        rewrite upd_length in E. cbn in E. lia.
      * cbn [ents set_it_next]. pose proof (count_due_upd now (ents st) k e x He Hdue ltac:(cbn; lia)). lia.
      * cbn [ents set_it_next] in *. exists r. split; [exact Er|]. split.
        -- intros Hall. destruct Hgood as (st' & cs & -> & Hg' & Hent & Hcs).
           { intros j g Hj Hjd. destruct (Nat.eq_dec j k) as [->|Hne'].
             - rewrite Hsame in Hj. injection Hj as <-. cbn in Hjd. lia.
             - rewrite Hoth in Hj by auto. eauto. }
           exists st', (c :: cs). split; [now rewrite <- app_assoc|]. split; [auto|].
           split; [rewrite Hent; eapply after_idem_upd; eauto; cbn; lia|].
           destruct Hcs as [Hsort Hin]. split.
           ++ constructor; auto. rewrite Forall_forall. intros d Hd. apply Hin in Hd.
              destruct Hd as (Hd1 & Hd2 & g & Hg & Hgd).
              unfold before. cbn. destruct (Nat.eq_dec (cidx d) k) as [E|E].
              ** rewrite E, Hsame in Hg. injection Hg as <-. cbn in Hgd. lia.
              ** rewrite Hoth in Hg by auto.
                 pose proof (Hmin _ _ Hg).
                 destruct (Nat.lt_ge_cases (cidx d) k) as [Hlt|Hge].
                 --- specialize (Hfirst _ _ Hg Hlt). lia.
                 --- lia.
           ++ intros d. cbn [In]. rewrite Hin. split.
              ** intros [<-|(Hd1 & Hd2 & g & Hg & Hgd)].
                 --- cbn. repeat split; auto. exists e. auto.
                 --- repeat split; auto. exists g. split; auto.
                     destruct (Nat.eq_dec (cidx d) k) as [E|E].
                     +++ rewrite E, Hsame in Hg. injection Hg as <-. cbn in Hgd. lia.
                     +++ now rewrite Hoth in Hg.
              ** intros (Hd1 & Hd2 & g & Hg & Hgd).
                 destruct (Nat.eq_dec (cidx d) k) as [E|E].
                 --- left. rewrite E, He in Hg. injection Hg as <-.
                     destruct d; cbn in *; subst. reflexivity.
                 --- right. repeat split; auto. exists g. now rewrite Hoth.
        -- intros Hnall. apply Hfail. intros Hall. apply Hnall.
           intros j g Hj Hjd. destruct (Nat.eq_dec j k) as [->|Hne'].
           ++ rewrite He in Hj. injection Hj as <-. exact Hok'.
           ++ apply (Hall j g); auto. now rewrite Hoth.
    + (* a rule is broken *)
      assert (Hna : ~ all_fire_ok now (ents st)) by (intros Ha; apply Hbad; eapply Ha; eauto).
      unfold fire_ok in Hbad.
      destruct (Z.ltb_spec now (next e + period e)); cbn [negb].
      2:{ eexists; split; [reflexivity|]. split; [tauto|reflexivity]. }
      destruct (cb e) as [b|]; [|eexists; split; [reflexivity|]; split; [tauto|reflexivity]].
      destruct (b now (next e) (period e)) as [n p].
      destruct (Z.ltb_spec 0 n); cbn [negb];
        [|eexists; split; [reflexivity|]; split; [tauto|reflexivity]].
      destruct (Z.ltb_spec 0 p); cbn [negb];
        [|eexists; split; [reflexivity|]; split; [tauto|reflexivity]].
      destruct (Z.ltb_spec now (n + p)); cbn [negb];
        [|eexists; split; [reflexivity|]; split; [tauto|reflexivity]].
      exfalso. apply Hbad. auto.
  - (* nothing is due *)
    assert (Hnone : forall i g, nth_error (ents st) i = Some g -> now < next g)
      by (intros i g Hg; specialize (Hmin i g Hg); lia).
    eexists. split; [reflexivity|]. split.
    + intros _. exists st, []. rewrite app_nil_r. split; [auto|]. split; [split; auto|].
      split; [symmetry; now apply map_after_none|].
      split; [constructor|]. intros c. split; [intros []|].
      intros (_ & H1 & g & Hg & H2). specialize (Hnone _ _ Hg). lia.
    + intros Hn. exfalso. apply Hn. intros i g Hg Hd. specialize (Hnone i g Hg). lia.
Qed.

Lemma run_spec st now :
  good st ->
  (all_fire_ok now (ents st) ->
     exists st' cs, run st now = Ok (st', cs) /\ good st' /\
       ents st' = map (after now) (ents st) /\ due_calls (ents st) now cs) /\
  (~ all_fire_ok now (ents st) -> is_ok (run st now) = false).
Proof.
  intros Hg. unfold run.
  pose proof (count_due_le now (ents st)).
  destruct (loop_spec now (S (length (ents st))) st [] Hg ltac:(lia)) as (r & -> & H1 & H2).
  auto.
Qed.

Lemma loop_total st now : good st -> loop (S (length (ents st))) now st [] <> None.
Proof.
  intros Hg. pose proof (count_due_le now (ents st)).
  destruct (loop_spec now (S (length (ents st))) st [] Hg ltac:(lia)) as (r & -> & _). congruence.
Qed.

Lemma run_ok_inv st now st' cs :
  good st -> run st now = Ok (st', cs) ->
  all_fire_ok now (ents st) /\ good st' /\ ents st' = map (after now) (ents st) /\
  due_calls (ents st) now cs.
Proof.
  intros Hg E. destruct (run_spec st now Hg) as [H1 H2].
  assert (Hall : all_fire_ok now (ents st)).
  { intros i e He Hd. destruct (fire_ok_dec now e); auto. exfalso.
    rewrite E in H2. cbn in H2. assert (true = false); [|discriminate].
    apply H2. intros Ha. specialize (Ha i e He Hd). auto. }
  split; auto. destruct (H1 Hall) as (s & c & E' & ?). rewrite E in E'. injection E' as <- <-. auto.
Qed.

Lemma after_next now e : fire_ok now e \/ now < next e -> now < next (after now e).
Proof.
  unfold after, fire_ok. intros H.
  destruct (Z.leb_spec (next e) now); [|lia].
  destruct H as [[? H]|?]; [|lia].
  destruct (cb e) as [b|]; [|tauto]. destruct (b now (next e) (period e)) as [n p]. cbn. lia.
Qed.

Lemma run_future st now st' cs :
  good st -> run st now = Ok (st', cs) ->
  forall i e, nth_error (ents st') i = Some e -> now < next e.
Proof.
  intros Hg E i e He. destruct (run_ok_inv st now st' cs Hg E) as (Hall & _ & Hent & _).
  rewrite Hent, nth_error_map in He.
  destruct (nth_error (ents st) i) as [g|] eqn:Eg; [|discriminate]. cbn in He. injection He as <-.
  apply after_next. destruct (Z.leb_spec (next g) now); [left|right; lia].
  eapply Hall; eauto.
Qed.

(** Reachable states after the first add. *)
Lemma find_free_lt l : forall i k, find_free i l = Some k -> (i <= k < i + length l)%nat.
Proof.
  induction l as [|e r IH]; intros i k; cbn; [discriminate|].
  destruct (cb e); [|intros H; injection H as <-; lia].
  intros H. apply IH in H. lia.
Qed.

Lemma upd_nonnil {A} (l : list A) i x : l <> [] -> upd l i x <> [].
Proof. intros H E. apply (f_equal (@length _)) in E. rewrite upd_length in E. now destruct l. Qed.

Lemma add_good st b n p : ents st <> [] -> good st \/ snd (add_callback st b n p) <> None ->
  good (fst (add_callback st b n p)).
Proof.
  unfold add_callback. intros Hne H. destruct (find_free 0 (ents st)); cbn in *.
  - split; cbn; auto. now apply upd_nonnil.
  - destruct H; [auto|congruence].
Qed.

Lemma min_from_next_ext l1 : forall l2 best v i,
  map next l1 = map next l2 -> min_from best v i l1 = min_from best v i l2.
Proof.
  induction l1 as [|e r IH]; intros [|f s] best v i H; try discriminate; cbn; auto.
  injection H as H1 H2. rewrite H1. destruct (_ <? _); auto.
Qed.

Lemma min_element_next_ext l1 l2 : map next l1 = map next l2 -> min_element l1 = min_element l2.
Proof.
  destruct l1 as [|e r], l2 as [|f s]; intros H; try discriminate; auto.
  injection H as H1 H2. unfold min_element. rewrite H1. now apply min_from_next_ext.
Qed.

Lemma map_upd_same {A B} (f : A -> B) l i e x :
  nth_error l i = Some e -> f x = f e -> map f (upd l i x) = map f l.
Proof.
  revert i; induction l as [|h t IH]; intros [|i] He Hf; try discriminate; cbn in *.
  - injection He as ->. now rewrite Hf.
  - f_equal. eauto.
Qed.

Lemma step_good st o st' cs : good st -> step st o = Ok (st', cs) -> good st'.
Proof.
  intros Hg E. destruct o; cbn in E.
  - injection E as <- _. apply add_good; [apply Hg|auto].
  - unfold update_next in E. destruct (nth_error (ents st) i); [|discriminate].
    cbn in E. injection E as <- _. split; cbn; auto. apply upd_nonnil, Hg.
  - unfold adjust_next in E. destruct (nth_error (ents st) i); [|discriminate].
    cbn in E. injection E as <- _. split; cbn; auto. apply upd_nonnil, Hg.
  - unfold update_period in E. destruct (nth_error (ents st) i) eqn:Ei; [|discriminate].
    cbn in E. injection E as <- _. destruct Hg as [H1 H2]. split; cbn; [now apply upd_nonnil|].
    rewrite H2. f_equal. apply min_element_next_ext. symmetry. eapply map_upd_same; eauto.
  - unfold adjust_period in E. destruct (nth_error (ents st) i) eqn:Ei; [|discriminate].
    cbn in E. injection E as <- _. destruct Hg as [H1 H2]. split; cbn; [now apply upd_nonnil|].
    rewrite H2. f_equal. apply min_element_next_ext. symmetry. eapply map_upd_same; eauto.
  - destruct (run_ok_inv st now st' cs Hg E) as (_ & ? & _). auto.
Qed.

Lemma exec_good os : forall st st' cs, good st -> exec st os = Ok (st', cs) -> good st'.
Proof.
  induction os as [|o r IH]; intros st st' cs Hg E; cbn in E.
  - injection E as <- _. auto.
  - apply bind_ok_inv in E. destruct E as ([s1 c1] & E1 & E).
    apply bind_ok_inv in E. destruct E as ([s2 c2] & E2 & E). cbn in *.
    injection E as <- _. eapply IH; [|eauto]. eapply step_good; eauto.
Qed.

(** Before the first callback is added run() follows a null iterator. *)
Lemma run_before_add n now : run (init n) now = Oob.
Proof. reflexivity. Qed.

(** One periodic timer seen through a history. *)

Lemma ticks_app n p a b : ticks n p (a + b) = ticks n p a ++ ticks (n + Z.of_nat a * p) p b.
Proof.
  revert n; induction a as [|a IH]; intros n; cbn [Nat.add ticks app].
  - f_equal. lia.
  - f_equal. rewrite IH. f_equal. f_equal. lia.
Qed.

Lemma of_slot_app i a b : of_slot i (a ++ b) = of_slot i a ++ of_slot i b.
Proof. apply filter_app. Qed.

Lemma due_calls_slot es now cs i e :
  due_calls es now cs -> nth_error es i = Some e ->
  of_slot i cs = if next e <=? now then [{| cnow := now; cidx := i; cdue := next e |}] else [].
Proof.
  intros [Hs Hin] He.
  assert (Hfil : forall c, In c (of_slot i cs) -> c = {| cnow := now; cidx := i; cdue := next e |}
                                              /\ next e <= now).
  { intros c Hc. apply filter_In in Hc. destruct Hc as [Hc Hi]. apply Nat.eqb_eq in Hi.
    apply Hin in Hc. destruct Hc as (H1 & H2 & g & Hg & H3).
    rewrite Hi, He in Hg. injection Hg as <-. split; [|lia].
    destruct c; cbn in *; subst. reflexivity. }
  assert (Hss : StronglySorted before (of_slot i cs)).
  { clear -Hs. unfold of_slot. induction Hs as [|c l Hs IH Hf]; cbn; [constructor|].
    destruct (Nat.eqb _ _); auto. constructor; auto.
    rewrite Forall_forall in *. intros d Hd. apply filter_In in Hd. apply Hf, Hd. }
  destruct (Z.leb_spec (next e) now).
  - assert (Hx : In {| cnow := now; cidx := i; cdue := next e |} (of_slot i cs)).
    { apply filter_In. split; [|apply Nat.eqb_refl]. apply Hin. cbn. repeat split; auto. eauto. }
    destruct (of_slot i cs) as [|c [|d l]]; [destruct Hx| |].
    + destruct (Hfil c (or_introl eq_refl)) as [-> _]. reflexivity.
    + exfalso. destruct (Hfil c (or_introl eq_refl)) as [-> _].
      destruct (Hfil d (or_intror (or_introl eq_refl))) as [-> _].
      inversion Hss as [|? ? _ Hf]; subst. rewrite Forall_forall in Hf.
      specialize (Hf _ (or_introl eq_refl)). unfold before in Hf. cbn in Hf. lia.
  - destruct (of_slot i cs) as [|c l]; auto.
    destruct (Hfil c (or_introl eq_refl)). lia.
Qed.

Lemma nth_error_upd_case {A} (l : list A) i j x e :
  nth_error l j = Some e -> nth_error (upd l i x) j = if Nat.eqb i j then Some x else Some e.
Proof.
  intros H. destruct (Nat.eqb_spec i j) as [->|Hn].
  - apply nth_error_upd_same. apply nth_error_Some. congruence.
  - rewrite nth_error_upd_other; auto.
Qed.

Lemma find_free_null l : forall i k, find_free i l = Some k ->
  exists e, nth_error l (k - i) = Some e /\ cb e = None.
Proof.
  induction l as [|e r IH]; intros i k H; cbn in H; [discriminate|].
  destruct (cb e) eqn:Ec.
  - pose proof (find_free_lt _ _ _ H). destruct (IH _ _ H) as (g & Hg & Hc).
    exists g. split; auto. replace (k - i)%nat with (S (k - S i)) by lia. auto.
  - injection H as <-. rewrite Nat.sub_diag. exists e. auto.
Qed.

Lemma other_ops_keep st o st' cs i e :
  good st -> step st o = Ok (st', cs) -> nth_error (ents st) i = Some e -> cb e <> None ->
  ~ touches i o -> (forall t, o <> Run t) -> nth_error (ents st') i = Some e /\ cs = [].
Proof.
  intros Hg E He Hcb Ht Hr. destruct o; cbn in E, Ht.
  - injection E as <- <-. unfold add_callback.
    destruct (find_free 0 (ents st)) as [k|] eqn:Ef; cbn; auto. split; auto.
    destruct (find_free_null _ _ _ Ef) as (g & Hgk & Hn). rewrite Nat.sub_0_r in Hgk.
    rewrite (nth_error_upd_case _ k i _ e He). destruct (Nat.eqb_spec k i); auto. subst. congruence.
  - unfold update_next in E. destruct (nth_error (ents st) i0); [|discriminate]. cbn in E.
    injection E as <- <-. cbn. split; auto. rewrite (nth_error_upd_case _ _ i _ e He).
    destruct (Nat.eqb_spec i0 i); [congruence|auto].
  - unfold adjust_next in E. destruct (nth_error (ents st) i0); [|discriminate]. cbn in E.
    injection E as <- <-. cbn. split; auto. rewrite (nth_error_upd_case _ _ i _ e He).
    destruct (Nat.eqb_spec i0 i); [congruence|auto].
  - unfold update_period in E. destruct (nth_error (ents st) i0); [|discriminate]. cbn in E.
    injection E as <- <-. cbn. split; auto. rewrite (nth_error_upd_case _ _ i _ e He).
    destruct (Nat.eqb_spec i0 i); [congruence|auto].
  - unfold adjust_period in E. destruct (nth_error (ents st) i0); [|discriminate]. cbn in E.
    injection E as <- <-. cbn. split; auto. rewrite (nth_error_upd_case _ _ i _ e He).
    destruct (Nat.eqb_spec i0 i); [congruence|auto].
  - exfalso. eapply Hr. reflexivity.
Qed.

Definition is_run (o : op) : bool := match o with Run _ => true | _ => false end.

Lemma periodic_history os : forall st st' cs i n p,
  good st -> exec st os = Ok (st', cs) ->
  nth_error (ents st) i = Some {| cb := Some plain; next := n; period := p |} ->
  Forall (fun o => ~ touches i o) os ->
  exists k,
    map cdue (of_slot i cs) = ticks n p k /\
    nth_error (ents st') i = Some {| cb := Some plain; next := n + Z.of_nat k * p; period := p |} /\
    Forall (fun t => t < n + Z.of_nat k * p) (run_times os) /\
    Forall (fun c => find (fun t => cdue c <=? t) (run_times os) = Some (cnow c)) (of_slot i cs).
Proof.
  induction os as [|o r IH]; intros st st' cs i n p Hg E He Ht.
  - cbn in E. injection E as <- <-. exists 0%nat. cbn [ticks of_slot filter map run_times flat_map].
    repeat split; auto. rewrite He. do 2 f_equal. lia.
  - cbn in E. apply bind_ok_inv in E. destruct E as ([s1 c1] & E1 & E).
    apply bind_ok_inv in E. destruct E as ([s2 c2] & E2 & E). cbn [fst snd] in *.
    injection E as <- <-.
    pose proof (step_good _ _ _ _ Hg E1) as Hg1.
    pose proof (Forall_inv Ht) as Ht1. pose proof (Forall_inv_tail Ht) as Ht2.
    destruct (is_run o) eqn:Eo.
    + destruct o; try discriminate. cbn [step] in E1.
      destruct (run_ok_inv _ _ _ _ Hg E1) as (Hall & _ & Hent & Hdue).
      pose proof (due_calls_slot _ _ _ _ _ Hdue He) as Hc1. cbn [next] in Hc1.
      assert (He1 : nth_error (ents s1) i =
                Some (if n <=? now then {| cb := Some plain; next := n + p; period := p |}
                      else {| cb := Some plain; next := n; period := p |})).
      { rewrite Hent, nth_error_map, He. cbn. unfold after. cbn. now destruct (n <=? now). }
      destruct (Z.leb_spec n now) as [Hd|Hd].
      * destruct (IH _ _ _ _ _ _ Hg1 E2 He1 Ht2) as (k & Hk1 & Hk2 & Hk3 & Hk4).
        destruct (Hall _ _ He Hd) as [Hper Hpos]. cbn in Hper, Hpos.
        exists (S k). rewrite of_slot_app, Hc1. cbn [app map cdue ticks]. rewrite Hk1.
        split; [reflexivity|]. split; [rewrite Hk2; do 2 f_equal; lia|].
        cbn [run_times flat_map app]. split.
        -- constructor; [lia|]. eapply Forall_impl; [|exact Hk3]. cbn. intros; lia.
        -- constructor.
           ++ cbn. destruct (Z.leb_spec n now); [reflexivity|lia].
           ++ assert (Hdues : Forall (fun c => n + p <= cdue c) (of_slot i c2)).
              { rewrite Forall_forall. intros c Hc.
                apply (in_map cdue) in Hc. rewrite Hk1 in Hc.
                assert (Hpp : 0 < p) by lia. clear -Hc Hpp.
                revert Hc. generalize (n + p) as m. induction k as [|k IHk]; intros m Hc; [destruct Hc|].
                cbn in Hc. destruct Hc as [<-|Hc]; [lia|]. apply IHk in Hc. lia. }
              rewrite Forall_forall in *. intros c Hc. cbn [find].
              specialize (Hdues c Hc). destruct (Z.leb_spec (cdue c) now); [lia|].
              apply (Hk4 c Hc).
      * destruct (IH _ _ _ _ _ _ Hg1 E2 He1 Ht2) as (k & Hk1 & Hk2 & Hk3 & Hk4).
        exists k. rewrite of_slot_app, Hc1. cbn [app]. split; [auto|]. split; [auto|].
        cbn [run_times flat_map app]. split.
        -- constructor; [|auto]. destruct k as [|k]; [lia|].
           (* fired later in this history: the period was checked positive there *)
           assert (Hp : 0 < p \/ p <= 0) by lia. destruct Hp; [nia|].
           exfalso. assert (Hx : In n (map cdue (of_slot i c2))) by (rewrite Hk1; left; auto).
           apply in_map_iff in Hx. destruct Hx as (c & Hcn & Hc).
           rewrite Forall_forall in Hk4, Hk3. specialize (Hk4 c Hc). apply find_some in Hk4.
           destruct Hk4 as [Hin Hle]. specialize (Hk3 _ Hin). apply Z.leb_le in Hle. nia.
        -- rewrite Forall_forall in *. intros c Hc. cbn [find].
           assert (Hdue' : now < cdue c).
           { destruct k as [|k]; [apply (in_map cdue) in Hc; rewrite Hk1 in Hc; destruct Hc|].
             assert (Hp : 0 < p).
             { destruct (Z.leb_spec p 0); [|lia]. exfalso.
               assert (Hx : In n (map cdue (of_slot i c2))) by (rewrite Hk1; left; auto).
               apply in_map_iff in Hx. destruct Hx as (c' & Hcn & Hc').
               specialize (Hk4 c' Hc'). apply find_some in Hk4.
               destruct Hk4 as [Hin Hle]. specialize (Hk3 _ Hin). apply Z.leb_le in Hle. nia. }
             apply (in_map cdue) in Hc. rewrite Hk1 in Hc.
             assert (Hge : n <= cdue c).
             { clear -Hc Hp. revert Hc. generalize n as m. generalize (S k) as kk.
               induction kk as [|kk IHk]; intros m Hc; [destruct Hc|].
               cbn in Hc. destruct Hc as [<-|Hc]; [lia|]. apply IHk in Hc. lia. }
             lia. }
           destruct (Z.leb_spec (cdue c) now); [lia|]. auto.
    + destruct (other_ops_keep _ _ _ _ i _ Hg E1 He ltac:(discriminate) Ht1) as [He1 ->].
      { intros t ->. discriminate. }
      destruct (IH _ _ _ _ _ _ Hg1 E2 He1 Ht2) as (k & Hk1 & Hk2 & Hk3 & Hk4).
      exists k. cbn [app]. repeat split; auto.
      all: assert (Er : run_times (o :: r) = run_times r) by (destruct o; try discriminate; reflexivity);
        now rewrite Er.
Qed.

(** States reached from the constructor. *)
Definition early (st : cbs) : Prop :=
  ents st <> [] /\ it st = None /\ Forall (fun e => cb e = None) (ents st).

Lemma early_add st b n p : early st -> good (fst (add_callback st b n p)).
Proof.
  intros (Hne & _ & Hf). apply add_good; auto. right. unfold add_callback.
  destruct (ents st) as [|e r]; [congruence|]. cbn. rewrite (Forall_inv Hf). cbn. discriminate.
Qed.

Lemma Forall_upd {A} (P : A -> Prop) l i x : Forall P l -> P x -> Forall P (upd l i x).
Proof.
  intros H Hx. revert i; induction H; intros [|i]; cbn; constructor; auto.
Qed.

Lemma step_early st o st' cs : early st -> step st o = Ok (st', cs) ->
  good st' \/ (early st' /\ forall b n p, o <> Add b n p).
Proof.
  intros He E. destruct o; cbn in E.
  - injection E as <- _. left. now apply early_add.
  - unfold update_next in E. destruct (nth_error (ents st) i); [|discriminate].
    cbn in E. injection E as <- _. left. split; cbn; auto. apply upd_nonnil, He.
  - unfold adjust_next in E. destruct (nth_error (ents st) i); [|discriminate].
    cbn in E. injection E as <- _. left. split; cbn; auto. apply upd_nonnil, He.
  - unfold update_period in E. destruct (nth_error (ents st) i) eqn:Ei; [|discriminate].
    cbn in E. injection E as <- _. destruct He as (H1 & H2 & H3). right.
    split; [|discriminate]. split; [now apply upd_nonnil|]. split; auto. cbn.
    apply Forall_upd; auto. cbn. rewrite Forall_forall in H3. apply H3. eapply nth_error_In; eauto.
  - unfold adjust_period in E. destruct (nth_error (ents st) i) eqn:Ei; [|discriminate].
    cbn in E. injection E as <- _. destruct He as (H1 & H2 & H3). right.
    split; [|discriminate]. split; [now apply upd_nonnil|]. split; auto. cbn.
    apply Forall_upd; auto. cbn. rewrite Forall_forall in H3. apply H3. eapply nth_error_In; eauto.
  - destruct He as (H1 & H2 & _). unfold run in E. cbn in E. rewrite H2 in E. discriminate.
Qed.

Lemma exec_early os : forall st st' cs, early st -> exec st os = Ok (st', cs) ->
  good st' \/ (early st' /\ forall b n p, ~ In (Add b n p) os).
Proof.
  induction os as [|o r IH]; intros st st' cs He E; cbn in E.
  - injection E as <- _. right. auto.
  - apply bind_ok_inv in E. destruct E as ([s1 c1] & E1 & E).
    apply bind_ok_inv in E. destruct E as ([s2 c2] & E2 & E). cbn in *.
    injection E as <- _. destruct (step_early _ _ _ _ He E1) as [Hg|[He1 Hna]].
    + left. eapply exec_good; eauto.
    + destruct (IH _ _ _ He1 E2) as [Hg|[He2 Hna2]]; [auto|]. right. split; auto.
      intros b n p [->|Hin]; [eapply Hna; eauto|eapply Hna2; eauto].
Qed.

Lemma init_early n : (0 < n)%nat -> early (init n).
Proof.
  intros H. unfold early, init; cbn. destruct n; [lia|]. split; [discriminate|]. split; auto.
  apply Forall_forall. intros e He. apply repeat_spec in He. now subst.
Qed.

Lemma reachable_good n st : (0 < n)%nat -> reachable n st -> good st.
Proof.
  intros Hn (os & cs & E & b & x & p & Hin).
  destruct (exec_early _ _ _ _ (init_early n Hn) E) as [?|[_ Hna]]; [auto|].
  exfalso. eapply Hna; eauto.
Qed.

Lemma run_exact n st now : (0 < n)%nat -> reachable n st ->
  (all_fire_ok now (ents st) ->
     exists st' cs, run st now = Ok (st', cs) /\
       ents st' = map (after now) (ents st) /\ due_calls (ents st) now cs) /\
  (~ all_fire_ok now (ents st) -> is_ok (run st now) = false).
Proof.
  intros Hn Hr. destruct (run_spec st now (reachable_good n st Hn Hr)) as [H1 H2].
  split; auto. intros Ha. destruct (H1 Ha) as (s & c & ? & ? & ? & ?). eauto.
Qed.

Lemma run_future_reach n st now st' cs : (0 < n)%nat -> reachable n st ->
  run st now = Ok (st', cs) -> forall i e, nth_error (ents st') i = Some e -> now < next e.
Proof. intros Hn Hr. apply run_future. eapply reachable_good; eauto. Qed.

Lemma periodic_reach n st os st' cs i nx p : (0 < n)%nat -> reachable n st ->
  nth_error (ents st) i = Some {| cb := Some plain; next := nx; period := p |} ->
  Forall (fun o => ~ touches i o) os -> exec st os = Ok (st', cs) ->
  exists k,
    map cdue (of_slot i cs) = ticks nx p k /\
    nth_error (ents st') i = Some {| cb := Some plain; next := nx + Z.of_nat k * p; period := p |} /\
    Forall (fun t => t < nx + Z.of_nat k * p) (run_times os) /\
    Forall (fun c => find (fun t => cdue c <=? t) (run_times os) = Some (cnow c)) (of_slot i cs).
Proof.
  intros Hn Hr Hi Ht E. eapply periodic_history; eauto. eapply reachable_good; eauto.
Qed.

(** Adding. *)
Lemma find_free_none l i : find_free i l = None <-> Forall (fun e => cb e <> None) l.
Proof.
  revert i; induction l as [|e r IH]; intros i; cbn.
  - split; auto.
  - destruct (cb e) eqn:Ec.
    + rewrite IH. split; [constructor; auto; congruence|apply Forall_inv_tail].
    + split; [discriminate|]. intros H. apply Forall_inv in H. congruence.
Qed.

Lemma add_spec st b n p :
  match snd (add_callback st b n p) with
  | None => Forall (fun e => cb e <> None) (ents st) /\ fst (add_callback st b n p) = st
  | Some i =>
      (exists e, nth_error (ents st) i = Some e /\ cb e = None) /\
      nth_error (ents (fst (add_callback st b n p))) i =
        Some {| cb := Some b; next := n; period := p |} /\
      forall j, j <> i -> nth_error (ents (fst (add_callback st b n p))) j = nth_error (ents st) j
  end.
Proof.
  unfold add_callback. destruct (find_free 0 (ents st)) as [i|] eqn:E; cbn.
  - destruct (find_free_null _ _ _ E) as (e & He & Hc). rewrite Nat.sub_0_r in He.
    split; [eauto|]. split.
    + apply nth_error_upd_same. apply nth_error_Some. congruence.
    + intros j Hj. apply nth_error_upd_other. auto.
  - split; auto. now apply find_free_none in E.
Qed.
