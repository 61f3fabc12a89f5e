From Verif Require Import Base Ring Sync SyncSpec.
Open Scope Z_scope.

  Lemma upd_inv {X} (l : list X) i j (y z : X) :
    nth_error (upd l i y) j = Some z -> (i = j /\ y = z) \/ (i <> j /\ nth_error l j = Some z).
  Proof.
    intros H. destruct (Nat.eq_dec i j) as [->|Hne].
    - left. destruct (Nat.lt_ge_cases j (length l)) as [L|L].
      + rewrite nth_error_upd_same in H by exact L. inversion H; auto.
      + assert (nth_error (upd l j y) j = None) by (apply nth_error_None; rewrite upd_length; lia). congruence.
    - right. rewrite nth_error_upd_other in H by exact Hne. auto.
  Qed.

  Lemma idx_lt {X} (l : list X) i x : nth_error l i = Some x -> (i < length l)%nat.
  Proof. intros H. apply nth_error_Some. congruence. Qed.

Section Facts.
  Variable det : oracle.
  Variable len : Z.
  Variable maxbuf n : nat.
  Variable limit : Z.
  Variable period : nat.
  Variable T : Z.
  Hypothesis Hn : (0 < n)%nat.
  Hypothesis Hlen : 0 < len.
  Hypothesis HT : 0 <= T.
  Hypothesis HTm : T mod (len * Z.of_nat n) = 0.
  Hypothesis Hdet : n = 1%nat \/ forall start, snd (det start) = false.

  Notation at_ k := (chunk_at T len k).
  Notation found k := (fst (det (chunk_at T len k))).
  Notation scan_ := (scan det len limit period T).

  Definition nxt (K i : nat) : nat := (K + (i + n - K mod n) mod n)%nat.

  Local Arguments nxt : simpl never.

  Lemma mod_succ K : (S K mod n = if (K mod n + 1 <? n) then K mod n + 1 else 0)%nat.
  Proof.
    replace (S K) with (K + 1)%nat by lia. rewrite Nat.add_mod by lia.
    pose proof (Nat.mod_upper_bound K n ltac:(lia)).
    destruct (Nat.eq_dec n 1) as [E|E].
    - rewrite E in *. rewrite !Nat.mod_1_r. reflexivity.
    - rewrite (Nat.mod_small 1) by lia. rewrite mod_small_or by lia.
      destruct (Nat.ltb_spec (K mod n + 1) n); lia.
  Qed.

  Lemma nxt_holder K i : (i = K mod n)%nat -> nxt K i = K.
  Proof.
    intros ->. unfold nxt. replace (K mod n + n - K mod n)%nat with n by lia.
    rewrite Nat.mod_same by lia. lia.
  Qed.

  Lemma nxt_other K i : (i < n)%nat -> (i <> K mod n)%nat -> nxt (S K) i = nxt K i.
  Proof.
    intros Hi Hne. unfold nxt. rewrite mod_succ.
    pose proof (Nat.mod_upper_bound K n ltac:(lia)).
    set (h := (K mod n)%nat) in *.
    destruct (Nat.ltb_spec (h + 1) n); rewrite !mod_small_or by lia;
      repeat match goal with |- context [(?a <? ?b)%nat] => destruct (Nat.ltb_spec a b) end; lia.
  Qed.

  Lemma nxt_after K i : (i = K mod n)%nat -> nxt (S K) i = (K + n)%nat.
  Proof.
    intros ->. unfold nxt. rewrite mod_succ.
    pose proof (Nat.mod_upper_bound K n ltac:(lia)).
    set (h := (K mod n)%nat) in *.
    destruct (Nat.ltb_spec (h + 1) n); rewrite mod_small_or by lia;
      match goal with |- context [(?a <? ?b)%nat] => destruct (Nat.ltb_spec a b) end; lia.
  Qed.

  Lemma nxt_0 i : (i < n)%nat -> nxt 0 i = i.
  Proof.
    intros H. unfold nxt. rewrite Nat.mod_0_l by lia. rewrite mod_small_or by lia.
    destruct (Nat.ltb_spec (i + n - 0) n); lia.
  Qed.

  Lemma at_stride k : at_ (k + n) = at_ k + len * Z.of_nat n.
  Proof. unfold chunk_at. lia. Qed.

  (** Baton fields against the scan state. *)
  Record BRel (b : baton) (jobs : list sjob) (sc : scan_state) : Prop := {
    br_n : b_n b = n; br_limit : b_limit b = limit; br_period : b_period b = period;
    br_last : b_last b = sc_last sc; br_cnt : b_cnt b = sc_cnt sc; br_jobs : jobs = sc_jobs sc }.

  Lemma enqueue_rel b jobs sc ts : BRel b jobs sc ->
    let bj := fold_left enqueue_job ts (b, jobs) in
    BRel (fst bj) (snd bj) (fold_left (scan_packet limit) ts sc) /\
    b_holder (fst bj) = b_holder b /\ b_end (fst bj) = b_end b.
  Proof.
    revert b jobs sc; induction ts as [|t ts IH]; intros b jobs sc H; cbn [fold_left].
    - auto.
    - unfold enqueue_job at 2 4 6 8; unfold is_sync_time_unique; cbn [fst snd]. unfold scan_packet at 2.
      destruct H. rewrite br_limit0, br_last0.
      destruct (limit <? t - sc_last sc); cbn [fst snd].
      + destruct (IH {| b_n := b_n b; b_limit := limit; b_period := b_period b; b_holder := b_holder b;
                        b_last := t; b_cnt := b_cnt b; b_end := b_end b |} (jobs ++ [JPacket t])
                     {| sc_last := t; sc_cnt := sc_cnt sc; sc_jobs := sc_jobs sc ++ [JPacket t] |}) as (I1 & I2 & I3).
        * constructor; cbn; auto. congruence.
        * auto.
      + apply IH. constructor; auto.
  Qed.

  Lemma due_rel b jobs sc e : BRel b jobs sc ->
    let r := is_job_regular_due b in
    BRel (fst r) (if snd r then jobs ++ [JRegular e (b_last b)] else jobs) (scan_chunk_end period e sc) /\
    b_holder (fst r) = b_holder b /\ b_end (fst r) = b_end b.
  Proof.
    intros []. unfold is_job_regular_due, scan_chunk_end. rewrite br_period0, br_cnt0, br_last0.
    destruct period as [|per] eqn:Eper; cbn [Nat.eqb fst snd].
    - split; [constructor|]; auto; congruence.
    - destruct (sc_cnt sc =? per)%nat; cbn [fst snd b_holder b_end]; (split; [constructor; cbn|]); auto; congruence.
  Qed.

  Definition WInv (K : nat) (p : list Z) (i : nat) (w : sworker) : Prop :=
    let k := nxt K i in
    let c := w_chunk w in
    match w_pc w with
    | SSearch =>
        (c_done c = true /\ c_start c + len * Z.of_nat n = at_ k /\ w_buf w = [] /\ w_cur w = None) \/
        (c_done c = false /\ c_start c = at_ k /\ w_cur w = None /\ w_buf w ++ c_todo c = found k)
    | SAwait =>
        c_start c = at_ k /\ w_buf w ++ opt_list (w_cur w) ++ c_todo c = found k /\
        (c_done c = true -> c_todo c = [])
    | SHold =>
        i = (K mod n)%nat /\ c_start c = at_ k /\ p ++ c_todo c = found k /\ (c_done c = true -> c_todo c = []) /\
        w_buf w = [] /\ w_cur w = None
    | SGone => True
    end.

  Record SInv (s : ssys) (K : nat) (p : list Z) : Prop := {
    si_len : length (s_workers s) = n;
    si_fin : s_fin s = tiling T len n K;
    si_holder : b_holder (s_baton s) = (K mod n)%nat;
    si_end : b_end (s_baton s) = match K with O => None | S _ => Some (at_ K - 1) end;
    si_rel : BRel (s_baton s) (s_jobs s) (fold_left (scan_packet limit) p (scan_ K));
    si_w : forall i w, nth_error (s_workers s) i = Some w -> WInv K p i w;
    si_p : (exists w, nth_error (s_workers s) (K mod n)%nat = Some w /\ w_pc w = SHold) \/ p = [] }.

  Lemma winv_p K p p' i w : w_pc w <> SHold -> WInv K p i w -> WInv K p' i w.
  Proof. unfold WInv. destruct (w_pc w); congruence || auto. Qed.

  Lemma winv_hold K p i w : WInv K p i w -> w_pc w = SHold -> i = (K mod n)%nat.
  Proof. unfold WInv. intros H E. rewrite E in H. tauto. Qed.

  (** Updating worker i without finishing a chunk. *)
  Lemma sinv_upd s K p p' i w w' b jobs :
    SInv s K p -> nth_error (s_workers s) i = Some w ->
    WInv K p' i w' ->
    b_holder b = b_holder (s_baton s) -> b_end b = b_end (s_baton s) ->
    BRel b jobs (fold_left (scan_packet limit) p' (scan_ K)) ->
    (p' = p /\ w_pc w <> SHold /\ w_pc w' <> SHold \/ i = (K mod n)%nat /\ w_pc w' = SHold) ->
    SInv (sset s b i w' jobs (s_fin s)) K p'.
  Proof.
    intros [] Hw HW Hb He HR Hp. unfold sset. constructor; cbn [s_baton s_workers s_jobs s_fin]; auto.
    - rewrite upd_length. exact si_len0.
    - congruence.
    - congruence.
    - intros j v H. apply upd_inv in H. destruct H as [(-> & <-)|(Hne & H)]; [exact HW|].
      specialize (si_w0 j v H). destruct Hp as [(-> & _ & _)|(-> & _)]; [exact si_w0|].
      apply winv_p with (p := p); [|exact si_w0]. intro E. apply Hne. symmetry. eapply winv_hold; eauto.
    - destruct Hp as [(-> & N1 & N2)|(-> & E)].
      + destruct si_p0 as [(v & Hv & Ev)|E]; [left|right; exact E].
        destruct (Nat.eq_dec i (K mod n)%nat) as [->|Hne].
        * rewrite Hw in Hv. inversion Hv; subst. contradiction.
        * exists v. rewrite nth_error_upd_other by exact Hne. auto.
      + left. exists w'. rewrite nth_error_upd_same by (eapply idx_lt; eauto). auto.
  Qed.

  Lemma opt_app (t : Z) (b l : list Z) : b ++ t :: l = b ++ opt_list (Some t) ++ l.
  Proof. reflexivity. Qed.

  Lemma search_fresh c : c_done c = false ->
    search det (len * Z.of_nat n) c =
    match c_todo c with
    | [] => ({| c_start := c_start c; c_todo := []; c_done := true |}, None)
    | t :: l => ({| c_start := c_start c; c_todo := l;
                    c_done := match l with [] => snd (det (c_start c)) | _ => false end |}, Some t)
    end.
  Proof. intros H. unfold search. rewrite H. reflexivity. Qed.

  Lemma search_done c : c_done c = true ->
    search det (len * Z.of_nat n) c = search det (len * Z.of_nat n) (load det (c_start c + len * Z.of_nat n)).
  Proof. intros H. unfold search. rewrite H. reflexivity. Qed.

  Lemma tiling_S K : tiling T len n (S K) = tiling T len n K ++ [((K mod n)%nat, at_ K)].
  Proof. unfold tiling. rewrite seq_S, map_app. reflexivity. Qed.

  Lemma step_sinv s K p a : SInv s K p ->
    exists o, sstep det len maxbuf s a = Ok o /\
      match o with
      | None => True
      | Some s' => (exists p', SInv s' K p') \/ SInv s' (S K) []
      end.
  Proof.
    intros HI. pose proof HI as []. pose proof si_rel0 as [].
    assert (Hst : stride len (s_baton s) = len * Z.of_nat n) by (unfold stride; rewrite br_n0; reflexivity).
    destruct a as [i|i|i|i]; cbn [sstep].
    - (* first loop *)
      destruct (nth_error (s_workers s) i) as [w|] eqn:Ew; [|eexists; split; [reflexivity|exact I]].
      destruct (w_pc w) eqn:Epc; try (eexists; split; [reflexivity|exact I]).
      eexists; split; [reflexivity|]. left. exists p. rewrite Hst, si_holder0.
      assert (i < n)%nat as Hi by (rewrite <- si_len0; eapply idx_lt; eauto).
      assert (exists c, c_done c = false /\ c_start c = at_ (nxt K i) /\
                search det (len * Z.of_nat n) (w_chunk w) = search det (len * Z.of_nat n) c /\
                w_buf w ++ c_todo c = found (nxt K i)) as (c & D & S & E & F).
      { specialize (si_w0 i w Ew). unfold WInv in si_w0. rewrite Epc in si_w0.
        destruct si_w0 as [(D & S & B & C)|(D & S & C & B)].
        - exists (load det (c_start (w_chunk w) + len * Z.of_nat n)). unfold load; cbn [c_done c_start c_todo].
          repeat split; auto. apply search_done; exact D. rewrite B, S. reflexivity.
        - exists (w_chunk w). auto. }
      rewrite E, (search_fresh c D).
      set (c' := fst _).
      assert (HR : BRel (s_baton s) (s_jobs s) (fold_left (scan_packet limit) p (scan_ K))) by exact si_rel0.
      destruct (c_todo c) as [|t l] eqn:Et; cbn [fst snd] in *.
      + eapply sinv_upd; eauto; [|left; split; [reflexivity|split; cbn; congruence]].
        unfold WInv; cbn. subst c'. cbn. auto.
      + assert (HA : forall pcx bufx curx, pcx = SAwait -> bufx = w_buf w -> curx = Some t ->
                  WInv K p i {| w_pc := pcx; w_chunk := c'; w_buf := bufx; w_cur := curx |}).
        { intros pcx bufx curx -> -> ->. unfold WInv; cbn. subst c'; cbn. split; [exact S|]. split; [exact F|].
          destruct l; [reflexivity|discriminate]. }
        destruct (Nat.eqb_spec i (K mod n)) as [Eh|Eh].
        * eapply sinv_upd; eauto; left; split; [reflexivity|split; cbn; congruence].
        * destruct (Nat.ltb_spec (length (w_buf w)) maxbuf).
          -- eapply sinv_upd; eauto; [|left; split; [reflexivity|split; cbn; congruence]].
             unfold WInv; cbn. right. subst c'; cbn. split; [|split; [exact S|split; [reflexivity|]]].
             ++ destruct l; [|reflexivity]. destruct Hdet as [E1|Hd]; [|apply Hd].
                exfalso. apply Eh. rewrite E1, Nat.mod_1_r. lia.
             ++ rewrite <- app_assoc. exact F.
          -- eapply sinv_upd; eauto; left; split; [reflexivity|split; cbn; congruence].
    - (* acquire *)
      destruct (nth_error (s_workers s) i) as [w|] eqn:Ew; [|eexists; split; [reflexivity|exact I]].
      destruct (w_pc w) eqn:Epc; try (eexists; split; [reflexivity|exact I]).
      rewrite si_holder0. destruct (Nat.eqb_spec i (K mod n)) as [Eh|Eh]; [|eexists; split; [reflexivity|exact I]].
      eexists; split; [reflexivity|]. left. exists (w_buf w ++ opt_list (w_cur w)).
      assert (p = []) as ->.
      { destruct si_p0 as [(v & Hv & Ev)|E]; [|exact E]. rewrite <- Eh, Ew in Hv. inversion Hv; subst. congruence. }
      destruct (enqueue_rel (s_baton s) (s_jobs s) _ (w_buf w ++ opt_list (w_cur w)) si_rel0) as (R1 & R2 & R3).
      cbn [fold_left] in R1.
      eapply sinv_upd; eauto.
      specialize (si_w0 i w Ew). unfold WInv in si_w0 |- *. rewrite Epc in si_w0. cbn.
      destruct si_w0 as (S & F & D). repeat split; auto. rewrite <- app_assoc. exact F.
    - (* second loop *)
      destruct (nth_error (s_workers s) i) as [w|] eqn:Ew; [|eexists; split; [reflexivity|exact I]].
      destruct (w_pc w) eqn:Epc; try (eexists; split; [reflexivity|exact I]).
      pose proof (si_w0 i w Ew) as HW. unfold WInv in HW. rewrite Epc in HW.
      destruct HW as (Hi & S & F & D & B & C).
      rewrite (nxt_holder K i Hi) in *.
      destruct (c_done (w_chunk w)) eqn:Ed.
      + rewrite (D eq_refl), app_nil_r in F.
        destruct (due_rel (s_baton s) (s_jobs s) _ (chunk_time_end len (w_chunk w)) si_rel0) as (R & Hb & He).
        assert (ES : scan_chunk_end period (chunk_time_end len (w_chunk w)) (fold_left (scan_packet limit) p (scan_ K))
                     = scan_ (Datatypes.S K)).
        { cbn [scan]. rewrite <- F. unfold chunk_time_end. rewrite S. reflexivity. }
        rewrite ES in R. unfold finish_chunk. rewrite He, si_end0.
        assert (Econt : match match K with O => None | Datatypes.S _ => Some (at_ K - 1) end with
                       | None => true | Some e => c_start (w_chunk w) - e =? 1 end = true).
        { destruct K; [reflexivity|]. rewrite S. apply Z.eqb_eq. lia. }
        rewrite Econt. cbn [guard]. unfold pass_on. cbn [b_holder]. rewrite Hb, si_holder0, <- Hi, Nat.eqb_refl.
        cbn [guard bind fst snd].
        eexists; split; [reflexivity|]. right. unfold sset.
        destruct R. constructor; cbn [s_baton s_workers s_jobs s_fin b_holder b_end].
        * rewrite upd_length; exact si_len0.
        * rewrite si_fin0, tiling_S, S, Hi. reflexivity.
        * cbn [b_n]. rewrite br_n1, Hi, mod_succ.
          pose proof (Nat.mod_upper_bound K n ltac:(lia)). rewrite mod_small_or by lia.
          destruct (Nat.ltb_spec (K mod n + 1) n); lia.
        * unfold chunk_time_end. rewrite S. f_equal. unfold chunk_at. lia.
        * cbn [fold_left]. constructor; cbn [b_n b_limit b_period b_last b_cnt]; auto.
        * intros j v H. apply upd_inv in H. destruct H as [(Ej & <-)|(Hne & H)].
          -- subst j. unfold WInv; cbn. left. rewrite (nxt_after K i Hi), at_stride, S. auto.
          -- specialize (si_w0 j v H). assert (j < n)%nat by (rewrite <- si_len0; eapply idx_lt; eauto).
             unfold WInv in si_w0 |- *. rewrite nxt_other by (congruence || assumption).
             destruct (w_pc v); auto. destruct si_w0 as (Ej & _). congruence.
        * right; reflexivity.
      + eexists; split; [reflexivity|]. left. rewrite Hst, (search_fresh _ Ed).
        destruct (c_todo (w_chunk w)) as [|t l] eqn:Et; cbn [fst snd opt_list].
        * exists p. cbn [fold_left fst snd].
          eapply sinv_upd; eauto.
          unfold WInv; cbn. rewrite (nxt_holder K i Hi). repeat split; auto.
        * exists (p ++ [t]).
          destruct (enqueue_rel (s_baton s) (s_jobs s) _ [t] si_rel0) as (R1 & R2 & R3).
          eapply sinv_upd; eauto.
          -- unfold WInv; cbn. rewrite (nxt_holder K i Hi). repeat split; auto.
             ++ rewrite <- app_assoc. exact F.
             ++ destruct l; [reflexivity|discriminate].
          -- rewrite fold_left_app. exact R1.
    - (* quit *)
      destruct (nth_error (s_workers s) i) as [w|] eqn:Ew; [|eexists; split; [reflexivity|exact I]].
      assert (HQ : w_pc w <> SHold -> SInv (sset s (s_baton s) i
                 {| w_pc := SGone; w_chunk := w_chunk w; w_buf := w_buf w; w_cur := w_cur w |} (s_jobs s) (s_fin s)) K p).
      { intros Hp. eapply sinv_upd; eauto; [exact I|]. left. split; [reflexivity|]. split; [exact Hp|discriminate]. }
      destruct (w_pc w) eqn:Epc; eexists; (split; [reflexivity|]); try exact I; left; exists p; apply HQ; congruence.
  Qed.

  Lemma sinv_init : SInv (ssys_new det len n limit period T) 0 [].
  Proof.
    unfold ssys_new. constructor; cbn [s_baton s_workers s_jobs s_fin baton_new b_holder b_end fold_left scan].
    - rewrite map_length, seq_length. reflexivity.
    - reflexivity.
    - rewrite Nat.mod_0_l by lia. reflexivity.
    - reflexivity.
    - constructor; reflexivity.
    - intros i w H. apply nth_error_In in H as Hin.
      assert (i < n)%nat as Hi.
      { apply idx_lt in H. rewrite map_length, seq_length in H. exact H. }
      rewrite (map_nth_error _ i (seq 0 n) (d := i)) in H.
      2:{ rewrite (nth_error_nth' _ 0%nat) by (rewrite seq_length; exact Hi). rewrite seq_nth by exact Hi. reflexivity. }
      inversion H; subst. unfold WInv; cbn. right. rewrite nxt_0 by exact Hi. unfold first_chunk.
      assert (Z.rem T (len * Z.of_nat n) = 0) as ->.
      { rewrite Z.rem_mod_nonneg by (try lia; nia). exact HTm. }
      replace (T - 0 + len * Z.of_nat i + len <=? T) with false by (symmetry; apply Z.leb_gt; nia).
      unfold load; cbn. unfold chunk_at. rewrite Z.sub_0_r. auto.
    - right; reflexivity.
  Qed.

  Lemma run_sinv acts : forall s K p, SInv s K p ->
    exists s' K' p', srun det len maxbuf s acts = Ok s' /\ SInv s' K' p' /\ (K <= K')%nat.
  Proof.
    induction acts as [|a r IH]; intros s K p H; cbn [srun]; [eauto 6|].
    destruct (step_sinv s K p a H) as (o & E & R). rewrite E. cbn [bind].
    destruct o as [s1|]; [|exact (IH s K p H)].
    destruct R as [(p' & R)|R].
    - destruct (IH _ _ _ R) as (s' & K' & p'' & H1 & H2 & H3). eauto 6.
    - destruct (IH _ _ _ R) as (s' & K' & p'' & H1 & H2 & H3). exists s', K', p''. split; [exact H1|]. split; [exact H2|lia].
  Qed.

  (** What a reachable state looks like from outside. *)
  Lemma sync_refines_scan acts :
    exists s K p r,
      srun det len maxbuf (ssys_new det len n limit period T) acts = Ok s /\
      s_fin s = tiling T len n K /\ b_holder (s_baton s) = (K mod n)%nat /\
      found K = p ++ r /\
      s_jobs s = sc_jobs (fold_left (scan_packet limit) p (scan_ K)).
  Proof.
    destruct (run_sinv acts _ _ _ sinv_init) as (s & K & p & R & HI & _).
    exists s, K, p. destruct HI. pose proof si_rel0 as [].
    destruct si_p0 as [(w & Hw & Ew)|E].
    - specialize (si_w0 _ _ Hw). unfold WInv in si_w0. rewrite Ew in si_w0.
      destruct si_w0 as (_ & _ & F & _). rewrite nxt_holder in F by reflexivity.
      exists (c_todo (w_chunk w)). auto.
    - subst p. exists (found K). auto.
  Qed.

  (** The holder is never stuck: without quits it can always finish its chunk. *)
  Definition nobody_gone (s : ssys) : Prop := forall i w, nth_error (s_workers s) i = Some w -> w_pc w <> SGone.

  Lemma holder_exists s K p : SInv s K p -> exists w, nth_error (s_workers s) (K mod n)%nat = Some w.
  Proof.
    intros []. destruct (nth_error (s_workers s) (K mod n)%nat) as [w|] eqn:E; [eauto|].
    apply nth_error_None in E. pose proof (Nat.mod_upper_bound K n ltac:(lia)). lia.
  Qed.

  Lemma hold_finishes l : forall s K p w, SInv s K p -> nth_error (s_workers s) (K mod n)%nat = Some w ->
    w_pc w = SHold -> c_todo (w_chunk w) = l ->
    exists m s', srun det len maxbuf s (repeat (SStepA (K mod n)) m) = Ok s' /\ SInv s' (S K) [].
  Proof.
    assert (Done : forall s K p w, SInv s K p -> nth_error (s_workers s) (K mod n)%nat = Some w ->
              w_pc w = SHold -> c_done (w_chunk w) = true ->
              exists s', sstep det len maxbuf s (SStepA (K mod n)) = Ok (Some s') /\ SInv s' (S K) []).
    { intros s K p w HI Hw Hp Hd. destruct (step_sinv s K p (SStepA (K mod n)) HI) as (o & E & R).
      pose proof E as E'. cbn [sstep] in E'. rewrite Hw, Hp, Hd in E'.
      destruct (finish_chunk len s (K mod n) (w_chunk w)) as [bj| | |] eqn:Ef; cbn [bind] in E'; try discriminate.
      inversion E'; subst o; clear E'. eexists; split; [exact E|].
      destruct R as [(p' & R)|R]; [exfalso|exact R].
      destruct R, HI. cbn [s_fin sset] in *. rewrite si_fin1 in si_fin0. apply (f_equal (@length _)) in si_fin0.
      rewrite app_length in si_fin0. cbn in si_fin0. lia. }
    assert (Step : forall s K p w, SInv s K p -> nth_error (s_workers s) (K mod n)%nat = Some w ->
              w_pc w = SHold -> c_done (w_chunk w) = false ->
              exists s' p' w', sstep det len maxbuf s (SStepA (K mod n)) = Ok (Some s') /\ SInv s' K p' /\
                nth_error (s_workers s') (K mod n)%nat = Some w' /\ w_pc w' = SHold /\
                c_todo (w_chunk w') = tl (c_todo (w_chunk w)) /\
                (c_todo (w_chunk w) = [] -> c_done (w_chunk w') = true)).
    { intros s K p w HI Hw Hp Hd. destruct (step_sinv s K p (SStepA (K mod n)) HI) as (o & E & R).
      pose proof E as E'. cbn [sstep] in E'. rewrite Hw, Hp, Hd in E'. inversion E'; subst o; clear E'.
      destruct R as [(p' & R)|R].
      - eexists; exists p'; eexists. split; [exact E|]. split; [exact R|].
        assert (Hst : stride len (s_baton s) = len * Z.of_nat n).
        { destruct HI. destruct si_rel0. unfold stride; rewrite br_n0; reflexivity. }
        split; [cbn; apply nth_error_upd_same; eapply idx_lt; eauto|]. cbn. rewrite Hst, search_fresh by exact Hd.
        split; [reflexivity|]. destruct (c_todo (w_chunk w)); cbn; split; auto; discriminate.
      - exfalso. destruct R, HI. cbn [s_fin sset] in *. rewrite si_fin1 in si_fin0. apply (f_equal (@length _)) in si_fin0.
        unfold tiling in si_fin0. rewrite !map_length, !seq_length in si_fin0. lia. }
    assert (Fin : forall s K p w, SInv s K p -> nth_error (s_workers s) (K mod n)%nat = Some w ->
              w_pc w = SHold -> c_done (w_chunk w) = true ->
              exists m s', srun det len maxbuf s (repeat (SStepA (K mod n)) m) = Ok s' /\ SInv s' (S K) []).
    { intros s K p w HI Hw Hp Hd. destruct (Done s K p w HI Hw Hp Hd) as (s' & E & R). exists 1%nat, s'.
      cbn [repeat srun]. rewrite E. cbn [bind]. auto. }
    induction l as [|t l IH]; intros s K p w HI Hw Hp El.
    - destruct (c_done (w_chunk w)) eqn:Ed; [eapply Fin; eauto|].
      destruct (Step s K p w HI Hw Hp Ed) as (s' & p' & w' & E & R & Hw' & Hp' & _ & Hd').
      specialize (Hd' El). destruct (Fin s' K p' w' R Hw' Hp' Hd') as (m & s'' & E2 & R2).
      exists (S m), s''. cbn [repeat srun]. rewrite E. cbn [bind]. auto.
    - destruct (c_done (w_chunk w)) eqn:Ed; [eapply Fin; eauto|].
      destruct (Step s K p w HI Hw Hp Ed) as (s' & p' & w' & E & R & Hw' & Hp' & Ht & _).
      rewrite El in Ht. cbn in Ht. destruct (IH s' K p' w' R Hw' Hp' Ht) as (m & s'' & E2 & R2).
      exists (S m), s''. cbn [repeat srun]. rewrite E. cbn [bind]. auto.
  Qed.

  Lemma srun_app a1 a2 s : srun det len maxbuf s (a1 ++ a2) = do s1 <- srun det len maxbuf s a1 ; srun det len maxbuf s1 a2.
  Proof.
    revert s; induction a1 as [|a r IH]; intros s; cbn [app srun]; [reflexivity|].
    destruct (sstep det len maxbuf s a) as [o| | |]; cbn [bind]; auto.
  Qed.

  Definition acts_of (i : nat) (a : saction) : Prop :=
    a = SSearchA i \/ a = SAcquireA i \/ a = SStepA i.

  Lemma forall_repeat {X} (P : X -> Prop) x m : P x -> Forall P (repeat x m).
  Proof. intros H. induction m; cbn; constructor; auto. Qed.

  Lemma chunk_can_finish s K p : SInv s K p -> nobody_gone s ->
    exists acts s', Forall (acts_of (K mod n)) acts /\ srun det len maxbuf s acts = Ok s' /\ SInv s' (S K) [].
  Proof.
    intros HI HG. destruct (holder_exists s K p HI) as (w & Hw).
    assert (FromAwait : forall s p w, SInv s K p -> nth_error (s_workers s) (K mod n)%nat = Some w -> w_pc w = SAwait ->
      exists acts s', Forall (acts_of (K mod n)) acts /\ srun det len maxbuf s acts = Ok s' /\ SInv s' (S K) []).
    { clear s p HI HG w Hw. intros s p w HI Hw Hp.
      destruct (step_sinv s K p (SAcquireA (K mod n)) HI) as (o & E & R).
      pose proof E as E'. cbn [sstep] in E'. rewrite Hw, Hp in E'. destruct HI. rewrite si_holder0, Nat.eqb_refl in E'.
      inversion E'; subst o; clear E'.
      destruct R as [(p' & R)|R].
      2:{ exfalso. destruct R. cbn [s_fin sset] in *. rewrite si_fin1 in si_fin0. apply (f_equal (@length _)) in si_fin0.
        unfold tiling in si_fin0. rewrite !map_length, !seq_length in si_fin0. lia. }
      match type of R with SInv ?s1 _ _ =>
        destruct (hold_finishes (c_todo (w_chunk w)) s1 K p' {| w_pc := SHold; w_chunk := w_chunk w; w_buf := []; w_cur := None |} R)
          as (m & s' & E2 & R2) end; auto.
      { cbn. apply nth_error_upd_same. eapply idx_lt; eauto. }
      exists (SAcquireA (K mod n) :: repeat (SStepA (K mod n)) m), s'. split; [|split; [|exact R2]].
      - constructor; [right; left; reflexivity|]. apply forall_repeat. right; right; reflexivity.
      - cbn [srun]. rewrite E. cbn [bind]. exact E2. }
    destruct (w_pc w) eqn:Ep.
    - (* one search of the holder always leaves the first loop *)
      destruct (step_sinv s K p (SSearchA (K mod n)) HI) as (o & E & R).
      pose proof E as E'. cbn [sstep] in E'. rewrite Hw, Ep in E'.
      pose proof HI as []. rewrite si_holder0, Nat.eqb_refl in E'.
      inversion E'; subst o; clear E'.
      destruct R as [(p' & R)|R].
      2:{ exfalso. destruct R. cbn [s_fin sset] in *. rewrite si_fin1 in si_fin0. apply (f_equal (@length _)) in si_fin0.
        unfold tiling in si_fin0. rewrite !map_length, !seq_length in si_fin0. lia. }
      match type of R with SInv ?s1 _ _ =>
        destruct (FromAwait s1 p' (match snd (search det (stride len (s_baton s)) (w_chunk w)) with
           | Some t => {| w_pc := SAwait; w_chunk := fst (search det (stride len (s_baton s)) (w_chunk w)); w_buf := w_buf w; w_cur := Some t |}
           | None => {| w_pc := SAwait; w_chunk := fst (search det (stride len (s_baton s)) (w_chunk w)); w_buf := w_buf w; w_cur := None |}
           end) R) as (acts & s' & F & E2 & R2) end.
      { cbn. apply nth_error_upd_same. eapply idx_lt; eauto. }
      { destruct (snd (search det (stride len (s_baton s)) (w_chunk w))); reflexivity. }
      exists (SSearchA (K mod n) :: acts), s'. split; [|split; [|exact R2]].
      + constructor; [left; reflexivity|exact F].
      + cbn [srun]. rewrite E. cbn [bind]. exact E2.
    - eapply FromAwait; eauto.
    - destruct (hold_finishes (c_todo (w_chunk w)) s K p w HI Hw Ep eq_refl) as (m & s' & E & R).
      exists (repeat (SStepA (K mod n)) m), s'. split; [|auto]. apply forall_repeat. right; right; reflexivity.
    - exfalso. exact (HG _ _ Hw Ep).
  Qed.
End Facts.

(** Start-up registration: the agreed start time is the latest proposal, and work_start runs exactly once. *)
Fixpoint register_all (n cnt : nat) (now : Z) (nows : list Z) : nat * Z * list bool :=
  match nows with
  | [] => (cnt, now, [])
  | x :: r =>
      let '(cnt1, now1, last) := register n cnt now x in
      let '(cnt2, now2, l) := register_all n cnt1 now1 r in
      (cnt2, now2, last :: l)
  end.

Lemma register_all_time n nows : forall cnt now,
  snd (fst (register_all n cnt now nows)) = fold_left Z.max nows now.
Proof.
  induction nows as [|x r IH]; intros cnt now; cbn [register_all fold_left]; [reflexivity|].
  unfold register. specialize (IH (S cnt) (if now <? x then x else now)).
  destruct (register_all n (S cnt) (if now <? x then x else now) r) as [[c2 n2] l] eqn:E.
  cbn [fst snd] in *. rewrite IH. f_equal. destruct (Z.ltb_spec now x); lia.
Qed.

Lemma register_all_last n nows : forall cnt now,
  snd (register_all n cnt now nows) = map (fun k => (S (cnt + k) =? n)%nat) (seq 0 (length nows)).
Proof.
  induction nows as [|x r IH]; intros cnt now; cbn [register_all]; [reflexivity|].
  unfold register. specialize (IH (S cnt) (if now <? x then x else now)).
  destruct (register_all n (S cnt) (if now <? x then x else now) r) as [[c2 n2] l] eqn:E.
  cbn [fst snd length seq map] in *. rewrite IH. f_equal; [rewrite Nat.add_0_r; reflexivity|].
  rewrite <- seq_shift, map_map. apply map_ext. intros k. rewrite Nat.add_succ_r. reflexivity.
Qed.

Lemma fold_max_spec nows : forall now, In (fold_left Z.max nows now) (now :: nows) /\
  Forall (fun x => x <= fold_left Z.max nows now) (now :: nows).
Proof.
  induction nows as [|x r IH]; intros now; cbn [fold_left].
  - split; [left; reflexivity|]. constructor; [lia|constructor].
  - destruct (IH (Z.max now x)) as (H1 & H2). inversion H2; subst. split.
    + destruct H1 as [E|H1]; [|right; right; exact H1].
      destruct (Z.max_spec now x) as [(_ & Em)|(_ & Em)]; rewrite Em in E at 1; rewrite <- E; [right; left|left]; reflexivity.
    + constructor; [lia|]. constructor; [lia|assumption].
Qed.

Definition worker_start (n : nat) (nows : list Z) (T0 : Z) : Z := snd (fst (register_all n 0 T0 nows)).

Lemma registration_agrees n T0 buflen nows :
  length nows = n -> (0 < n)%nat -> Forall (fun x => T0 < x /\ x mod buflen = 0) nows ->
  exists pre, snd (register_all n 0 T0 nows) = pre ++ [true] /\ Forall (fun b => b = false) pre /\
  In (worker_start n nows T0) nows /\ Forall (fun x => x <= worker_start n nows T0) nows /\
  worker_start n nows T0 mod buflen = 0.
Proof.
  intros Hl Hn F. unfold worker_start.
  exists (map (fun k => (S (0 + k) =? n)%nat) (seq 0 (n - 1))).
  rewrite register_all_last, register_all_time, Hl. destruct n as [|m]; [lia|].
  replace (S m - 1)%nat with m by lia. split.
  - rewrite seq_S, map_app. cbn [map]. do 2 f_equal. rewrite !Nat.add_0_l. apply Nat.eqb_refl.
  - split.
    + apply Forall_forall. intros b Hb. apply in_map_iff in Hb. destruct Hb as (k & <- & Hk). apply in_seq in Hk.
      apply Nat.eqb_neq. lia.
    + destruct (fold_max_spec nows T0) as (H1 & H2). inversion H2 as [|? ? G1 G2]; subst.
      assert (In (fold_left Z.max nows T0) nows) as Hin.
      { destruct H1 as [E|H1]; [|exact H1]. destruct nows as [|x r]; [discriminate|].
        inversion F as [|? ? (F1 & _)]; subst. inversion G2; subst. rewrite <- E in *. lia. }
      split; [exact Hin|]. split; [exact G2|]. rewrite Forall_forall in F. apply F; exact Hin.
Qed.

(** Facts about the sequential scan. *)
Section ScanFacts.
  Variable det : oracle.
  Variable len limit : Z.
  Variable period : nat.
  Variable T : Z.

  Definition spaced (l : list Z) : Prop :=
    forall l1 a b l2, l = l1 ++ a :: b :: l2 -> limit < b - a.

  Lemma packet_times_app l1 l2 : packet_times (l1 ++ l2) = packet_times l1 ++ packet_times l2.
  Proof. unfold packet_times. apply flat_map_app. Qed.

  Definition last_known (sc : scan_state) : Prop :=
    packet_times (sc_jobs sc) = [] \/ exists l, packet_times (sc_jobs sc) = l ++ [sc_last sc].

  Lemma snoc_split {X} (l : list X) (x : X) l1 (r : list X) : l ++ [x] = l1 ++ r -> r <> [] ->
    exists r', r = r' ++ [x] /\ l = l1 ++ r'.
  Proof.
    intros E Hr. destruct (exists_last Hr) as (r' & y & ->). rewrite app_assoc in E.
    apply app_inj_tail in E. destruct E as (E & <-). eauto.
  Qed.

  Lemma spaced_snoc l a t : spaced (l ++ [a]) -> limit < t - a -> spaced ((l ++ [a]) ++ [t]).
  Proof.
    intros H Ht l1 x y l2 E. apply snoc_split in E; [|discriminate]. destruct E as (r' & E1 & E2).
    destruct r' as [|r0 r1]; [discriminate|]. cbn in E1. injection E1 as <- E1.
    destruct r1 as [|r1 r2].
    - cbn in E1. injection E1 as -> ->. apply app_inj_tail in E2. destruct E2 as (_ & ->). exact Ht.
    - cbn in E1. injection E1 as <- ->. apply (H l1 x y r2 E2).
  Qed.

  Lemma scan_spaced_fold ts : forall sc, last_known sc -> spaced (packet_times (sc_jobs sc)) ->
    let sc' := fold_left (scan_packet limit) ts sc in last_known sc' /\ spaced (packet_times (sc_jobs sc')).
  Proof.
    induction ts as [|t ts IH]; intros sc HL HS; cbn [fold_left]; [auto|].
    apply IH; unfold scan_packet; destruct (Z.ltb_spec limit (t - sc_last sc)); auto.
    - unfold last_known; cbn [sc_jobs sc_last]. right. rewrite packet_times_app. eexists. reflexivity.
    - cbn [sc_jobs]. rewrite packet_times_app. cbn [packet_times flat_map app].
      destruct HL as [E|(l & E)]; fold (packet_times (sc_jobs sc)); rewrite E.
      + intros l1 a b l2 E2. destruct l1 as [|? [|]]; cbn in E2; discriminate.
      + apply spaced_snoc; [rewrite <- E; exact HS|lia].
  Qed.

  Lemma scan_chunk_end_times e sc : packet_times (sc_jobs (scan_chunk_end period e sc)) = packet_times (sc_jobs sc) /\
    sc_last (scan_chunk_end period e sc) = sc_last sc.
  Proof.
    unfold scan_chunk_end. destruct period; [auto|]. destruct (_ =? _)%nat; cbn [sc_jobs sc_last]; [|auto].
    rewrite packet_times_app. cbn. rewrite app_nil_r. auto.
  Qed.

  Lemma scan_spaced K : last_known (scan det len limit period T K) /\
    spaced (packet_times (sc_jobs (scan det len limit period T K))).
  Proof.
    induction K as [|K (IH1 & IH2)]; cbn [scan].
    - split; [left; reflexivity|]. intros l1 a b l2 E. destruct l1; discriminate.
    - destruct (scan_spaced_fold (fst (det (chunk_at T len K))) _ IH1 IH2) as (H1 & H2). cbv zeta in *.
      match goal with |- context [scan_chunk_end period ?e ?s] =>
        destruct (scan_chunk_end_times e s) as (E1 & E2) end.
      unfold last_known. rewrite E1, E2. auto.
  Qed.

  (** Barrier. *)
  Hypothesis Hlim : 0 <= limit.
  Hypothesis Hlen : 0 < len.
  Hypothesis Hcausal : forall k t, In t (fst (det (chunk_at T len k))) -> chunk_at T len k <= t.

  Definition barriers_ok (jobs : list sjob) : Prop :=
    forall l1 e l l2, jobs = l1 ++ JRegular e l :: l2 ->
    forall t, In t (packet_times l2) -> barrier_time e l < t.

  Definition regulars_old (K : nat) (sc : scan_state) : Prop :=
    forall e l, In (JRegular e l) (sc_jobs sc) -> e < chunk_at T len K /\ l <= sc_last sc.

  Lemma barriers_snoc_packet jobs t : barriers_ok jobs ->
    (forall e l, In (JRegular e l) jobs -> barrier_time e l < t) -> barriers_ok (jobs ++ [JPacket t]).
  Proof.
    intros H Ht l1 e l l2 E x Hx. apply snoc_split in E; [|discriminate]. destruct E as (r' & E1 & E2).
    destruct r' as [|r0 r1]; [discriminate|]. cbn in E1. injection E1 as <- ->.
    rewrite packet_times_app in Hx. apply in_app_or in Hx. destruct Hx as [Hx|[<-|[]]].
    - eapply H; eauto.
    - apply Ht. rewrite E2. apply in_or_app. right; left; reflexivity.
  Qed.

  Lemma barriers_snoc_regular jobs e0 l0 : barriers_ok jobs -> barriers_ok (jobs ++ [JRegular e0 l0]).
  Proof.
    intros H l1 e l l2 E x Hx. apply snoc_split in E; [|discriminate]. destruct E as (r' & E1 & E2).
    destruct r' as [|r0 r1].
    - cbn in E1. injection E1 as -> -> ->. destruct Hx.
    - cbn in E1. injection E1 as <- ->. rewrite packet_times_app in Hx. cbn in Hx. rewrite app_nil_r in Hx.
      eapply H; eauto.
  Qed.

  Lemma scan_barrier_fold K ts : (forall t, In t ts -> chunk_at T len K <= t) ->
    forall sc, regulars_old K sc -> barriers_ok (sc_jobs sc) ->
    let sc' := fold_left (scan_packet limit) ts sc in regulars_old K sc' /\ barriers_ok (sc_jobs sc').
  Proof.
    induction ts as [|t ts IH]; intros Hts sc HO HB; cbn [fold_left]; [auto|].
    apply IH; [intros x Hx; apply Hts; right; exact Hx| |]; unfold scan_packet; destruct (Z.ltb_spec limit (t - sc_last sc)); auto.
    - intros e l Hin. cbn [sc_jobs sc_last] in *. apply in_app_or in Hin. destruct Hin as [Hin|[Hin|[]]]; [|discriminate].
      specialize (HO e l Hin). lia.
    - cbn [sc_jobs]. apply barriers_snoc_packet; [exact HB|]. intros e l Hin. specialize (HO e l Hin).
      specialize (Hts t (or_introl eq_refl)). unfold barrier_time. lia.
  Qed.

  Lemma scan_barrier K : regulars_old K (scan det len limit period T K) /\
    barriers_ok (sc_jobs (scan det len limit period T K)).
  Proof.
    induction K as [|K (IH1 & IH2)]; cbn [scan].
    - split; [intros e l []|]. intros l1 e l l2 E. destruct l1; discriminate.
    - destruct (scan_barrier_fold K (fst (det (chunk_at T len K))) (Hcausal K) _ IH1 IH2) as (H1 & H2). cbv zeta in *.
      assert (EK : chunk_at T len (S K) = chunk_at T len K + len) by (unfold chunk_at; lia).
      unfold scan_chunk_end. destruct period.
      + split; [|exact H2]. intros e l Hin. specialize (H1 e l Hin). lia.
      + destruct (_ =? _)%nat; cbn [sc_jobs].
        * split; [|apply barriers_snoc_regular; exact H2].
          intros e l Hin. cbn [sc_jobs sc_last] in *. apply in_app_or in Hin. destruct Hin as [Hin|[Hin|[]]].
          -- specialize (H1 e l Hin). lia.
          -- injection Hin as <- <-. lia.
        * split; [|exact H2]. intros e l Hin. specialize (H1 e l Hin). cbn [sc_last]. lia.
  Qed.
End ScanFacts.

(** Each time from T on lies in exactly one chunk. *)
Lemma chunk_unique T len t : 0 < len -> T <= t ->
  exists k, (chunk_at T len k <= t < chunk_at T len (S k)) /\
    forall k', (chunk_at T len k' <= t < chunk_at T len (S k')) -> k' = k.
Proof.
  intros Hl Ht. exists (Z.to_nat ((t - T) / len)).
  pose proof (Z.div_pos (t - T) len ltac:(lia) Hl).
  pose proof (Z.mul_div_le (t - T) len Hl). pose proof (Z.mul_succ_div_gt (t - T) len Hl).
  split.
  - unfold chunk_at. rewrite Nat2Z.inj_succ, Z2Nat.id by lia. lia.
  - intros k' H'. unfold chunk_at in H'. rewrite Nat2Z.inj_succ in H'.
    assert (Z.of_nat k' = (t - T) / len); [|lia].
    apply Z.div_unique with (r := t - T - len * Z.of_nat k'); lia.
Qed.

Lemma tiling_nth T len n K k : (k < K)%nat ->
  nth_error (tiling T len n K) k = Some ((k mod n)%nat, chunk_at T len k).
Proof.
  intros H. unfold tiling. rewrite (map_nth_error _ k (seq 0 K) (d := k)); [reflexivity|].
  rewrite (nth_error_nth' _ 0%nat) by (rewrite seq_length; exact H). rewrite seq_nth by exact H. reflexivity.
Qed.

Lemma step_holder det len maxbuf s a s' : sstep det len maxbuf s a = Ok (Some s') ->
  b_holder (s_baton s') = b_holder (s_baton s) \/
  (a = SStepA (b_holder (s_baton s)) /\ b_holder (s_baton s') = ((b_holder (s_baton s) + 1) mod b_n (s_baton s))%nat).
Proof.
  assert (HE : forall ts b jobs, b_holder (fst (fold_left enqueue_job ts (b, jobs))) = b_holder b).
  { induction ts as [|t ts IH]; intros b jobs; cbn [fold_left]; [reflexivity|].
    unfold enqueue_job at 2. unfold is_sync_time_unique; cbn [fst snd].
    destruct (b_limit b <? t - b_last b); cbn [fst snd]; rewrite IH; reflexivity. }
  destruct a as [i|i|i|i]; cbn [sstep]; (destruct (nth_error (s_workers s) i) as [w|]; [|discriminate]);
    destruct (w_pc w); try discriminate.
  - intros H. injection H as <-. left. reflexivity.
  - destruct (i =? _)%nat; [|discriminate]. intros H. injection H as <-. left. apply HE.
  - destruct (c_done (w_chunk w)).
    + intros H. apply bind_ok_inv in H. destruct H as (bj & H1 & H2). injection H2 as <-.
      unfold finish_chunk in H1.
      assert (Hh : b_holder (fst (is_job_regular_due (s_baton s))) = b_holder (s_baton s) /\
                   b_n (fst (is_job_regular_due (s_baton s))) = b_n (s_baton s)).
      { unfold is_job_regular_due. destruct (_ =? 0)%nat; auto. }
      destruct Hh as (Hh & Hn).
      match type of H1 with guard ?c _ = _ => destruct c; cbn [guard] in H1; [|discriminate] end.
      apply bind_ok_inv in H1. destruct H1 as (b' & H1 & H2). injection H2 as <-.
      unfold pass_on in H1. cbn [b_holder b_n] in H1. rewrite Hh, Hn in H1.
      destruct (Nat.eqb_spec i (b_holder (s_baton s))) as [->|]; cbn [guard] in H1; [|discriminate].
      injection H1 as <-. right. auto.
    + intros H. injection H as <-. left. apply HE.
  - intros H. injection H as <-. left. reflexivity.
  - intros H. injection H as <-. left. reflexivity.
Qed.

Definition is_quit (a : saction) : bool := match a with SQuitA _ => true | _ => false end.

Lemma step_not_gone det len maxbuf s a s' : is_quit a = false -> nobody_gone s ->
  sstep det len maxbuf s a = Ok (Some s') -> nobody_gone s'.
Proof.
  intros Hq HG. destruct a as [i|i|i|i]; cbn [sstep]; try discriminate;
    (destruct (nth_error (s_workers s) i) as [w|] eqn:Ew; [|discriminate]);
    destruct (w_pc w); try discriminate.
  - intros H. injection H as <-. intros j v Hv. cbn [sset s_workers] in Hv.
    apply upd_inv in Hv. destruct Hv as [(_ & <-)|(_ & Hv)]; [|eauto].
    destruct (snd (search det (stride len (s_baton s)) (w_chunk w))); cbn; [|discriminate].
    repeat match goal with |- context [if ?c then _ else _] => destruct c end; discriminate.
  - destruct (i =? _)%nat; [|discriminate]. intros H. injection H as <-. intros j v Hv. cbn [sset s_workers] in Hv.
    apply upd_inv in Hv. destruct Hv as [(_ & <-)|(_ & Hv)]; [discriminate|eauto].
  - destruct (c_done (w_chunk w)).
    + intros H. apply bind_ok_inv in H. destruct H as (bj & H1 & H2). injection H2 as <-. intros j v Hv. cbn [sset s_workers] in Hv.
      apply upd_inv in Hv. destruct Hv as [(_ & <-)|(_ & Hv)]; [discriminate|eauto].
    + intros H. injection H as <-. intros j v Hv. cbn [sset s_workers] in Hv.
      apply upd_inv in Hv. destruct Hv as [(_ & <-)|(_ & Hv)]; [discriminate|eauto].
Qed.

Lemma run_not_gone det len maxbuf acts : forall s s', Forall (fun a => is_quit a = false) acts -> nobody_gone s ->
  srun det len maxbuf s acts = Ok s' -> nobody_gone s'.
Proof.
  induction acts as [|a r IH]; intros s s' F HG; cbn [srun].
  - intros H. injection H as <-. exact HG.
  - inversion F; subst. intros H. apply bind_ok_inv in H. destruct H as (o & Ho & Hr).
    destruct o as [s1|]; [|exact (IH s s' H2 HG Hr)]. refine (IH s1 s' H2 _ Hr). eapply step_not_gone; eauto.
Qed.

Lemma init_not_gone det len n limit period T : nobody_gone (ssys_new det len n limit period T).
Proof.
  intros i w H. apply nth_error_In in H. cbn in H. apply in_map_iff in H. destruct H as (k & <- & _). discriminate.
Qed.

Section Top.
  Variable det : oracle.
  Variable len : Z.
  Variable maxbuf n : nat.
  Variable limit : Z.
  Variable period : nat.
  Variable T : Z.
  Hypothesis Hn : (0 < n)%nat.
  Hypothesis Hlen : 0 < len.
  Hypothesis HT : 0 <= T.
  Hypothesis HTm : T mod (len * Z.of_nat n) = 0.
  Hypothesis Hdet : n = 1%nat \/ forall start, snd (det start) = false.

  Lemma chunk_progress acts s : Forall (fun a => is_quit a = false) acts ->
    srun det len maxbuf (ssys_new det len n limit period T) acts = Ok s ->
    exists more s', Forall (acts_of (b_holder (s_baton s))) more /\ srun det len maxbuf s more = Ok s' /\
      length (s_fin s') = S (length (s_fin s)) /\ b_holder (s_baton s') = ((b_holder (s_baton s) + 1) mod n)%nat.
  Proof.
    intros F R.
    destruct (run_sinv det len maxbuf n limit period T Hn Hlen HTm Hdet acts _ _ _ (sinv_init det len n limit period T Hn Hlen HT HTm Hdet))
      as (s1 & K & p & R1 & HI & _).
    rewrite R in R1. injection R1 as <-.
    destruct (chunk_can_finish det len maxbuf n limit period T Hn Hlen HTm Hdet s K p HI) as (more & s' & F' & R' & HI').
    { eapply run_not_gone; eauto. apply init_not_gone. }
    exists more, s'. destruct HI, HI'. rewrite si_holder0, si_holder1, si_fin0, si_fin1.
    split; [exact F'|]. split; [exact R'|]. split.
    - unfold tiling. rewrite !map_length, !seq_length. reflexivity.
    - rewrite (mod_succ det len n T Hn Hlen HTm Hdet). pose proof (Nat.mod_upper_bound K n ltac:(lia)). rewrite (mod_small_or n (K mod n + 1)) by lia.
      destruct (Nat.ltb_spec (K mod n + 1) n); lia.
  Qed.

  Lemma jobs_spaced acts s : srun det len maxbuf (ssys_new det len n limit period T) acts = Ok s ->
    spaced limit (packet_times (s_jobs s)).
  Proof.
    intros R. destruct (sync_refines_scan det len maxbuf n limit period T Hn Hlen HT HTm Hdet acts)
      as (s1 & K & p & r & R1 & _ & _ & _ & J).
    rewrite R in R1. injection R1 as <-. rewrite J.
    destruct (scan_spaced det len limit period T K) as (H1 & H2).
    apply (scan_spaced_fold limit p _ H1 H2).
  Qed.

  Lemma jobs_barrier acts s : 0 <= limit ->
    (forall k t, In t (fst (det (chunk_at T len k))) -> chunk_at T len k <= t) ->
    srun det len maxbuf (ssys_new det len n limit period T) acts = Ok s ->
    barriers_ok (s_jobs s).
  Proof.
    intros Hlim Hc R. destruct (sync_refines_scan det len maxbuf n limit period T Hn Hlen HT HTm Hdet acts)
      as (s1 & K & p & r & R1 & _ & _ & F & J).
    rewrite R in R1. injection R1 as <-. rewrite J.
    destruct (scan_barrier det len limit period T Hlim Hlen Hc K) as (H1 & H2).
    refine (proj2 (scan_barrier_fold det len limit T Hlim Hc K p _ _ H1 H2)).
    intros t Ht. apply Hc. rewrite F. apply in_or_app. left; exact Ht.
  Qed.

  Lemma finished_cover acts s t : srun det len maxbuf (ssys_new det len n limit period T) acts = Ok s ->
    T <= t < T + len * Z.of_nat (length (s_fin s)) ->
    exists k i start, nth_error (s_fin s) k = Some (i, start) /\ start <= t <= start + (len - 1) /\ (i < n)%nat /\
      forall k' i' start', nth_error (s_fin s) k' = Some (i', start') -> start' <= t <= start' + (len - 1) -> k' = k.
  Proof.
    intros R Ht. destruct (sync_refines_scan det len maxbuf n limit period T Hn Hlen HT HTm Hdet acts)
      as (s1 & K & p & r & R1 & FI & _ & _ & _).
    rewrite R in R1. injection R1 as <-. rewrite FI in *.
    assert (EL : length (tiling T len n K) = K) by (unfold tiling; rewrite map_length, seq_length; reflexivity).
    rewrite EL in Ht.
    destruct (chunk_unique T len t Hlen (proj1 Ht)) as (k & Hk & Hu).
    assert (k < K)%nat as HkK by (unfold chunk_at in Hk; nia).
    exists k, (k mod n)%nat, (chunk_at T len k). split; [apply tiling_nth; exact HkK|].
    assert (EC : forall j, chunk_at T len (S j) = chunk_at T len j + len) by (intros; unfold chunk_at; lia).
    rewrite EC in Hk. split; [lia|]. split; [apply Nat.mod_upper_bound; lia|].
    intros k' i' st' Hn' Ht'. apply Hu. rewrite EC.
    assert (k' < K)%nat by (rewrite <- EL; eapply idx_lt; eauto).
    rewrite tiling_nth in Hn' by assumption. injection Hn' as <- <-. lia.
  Qed.
End Top.
