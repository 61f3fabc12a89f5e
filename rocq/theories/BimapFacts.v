From Verif Require Import Base Bimap BimapSpec.
Open Scope Z_scope.

(** The list represents the function. *)
Definition rep (u : bool) (m : bm) (f : fn) : Prop :=
  NoDup (map fst m) /\ (u = true -> NoDup (map snd m)) /\
  forall k v, In (k, v) m <-> f k = Some v.

Lemma find_key m k : NoDup (map fst m) ->
  match left_find m k with
  | Some p => In p m /\ fst p = k
  | None => forall v, ~ In (k, v) m
  end.
Proof.
  intros _. unfold left_find. destruct (find _ m) as [p|] eqn:E.
  - apply find_some in E. destruct E as [H1 H2]. split; [auto|lia].
  - intros v Hin. apply (find_none _ _ E) in Hin. cbn in Hin. lia.
Qed.

Lemma rep_left u m f k : rep u m f ->
  match left_find m k with Some p => f k = Some (snd p) /\ fst p = k | None => f k = None end.
Proof.
  intros (H1 & H2 & H3). pose proof (find_key m k H1) as H.
  destruct (left_find m k) as [[a b]|]; cbn in *.
  - destruct H as [Hin <-]. split; auto. now apply H3.
  - destruct (f k) as [v|] eqn:E; auto. exfalso. apply (H v). now apply H3.
Qed.

Lemma rep_right u m f v : rep u m f ->
  match right_find m v with Some p => f (fst p) = Some v /\ snd p = v | None => ~ has_value f v end.
Proof.
  intros (H1 & H2 & H3). unfold right_find. destruct (find _ m) as [[a b]|] eqn:E; cbn.
  - apply find_some in E. destruct E as [Hin Hb]. cbn in Hb.
    assert (b = v) by lia. subst. split; auto. now apply H3.
  - intros [k Hk]. apply H3 in Hk. apply (find_none _ _ E) in Hk. cbn in Hk. lia.
Qed.

Lemma NoDup_snoc {A} (l : list A) x : NoDup l -> ~ In x l -> NoDup (l ++ [x]).
Proof.
  intros H Hx. induction H as [|a l Ha Hl IH]; cbn.
  - constructor; auto. constructor.
  - constructor.
    + rewrite in_app_iff. cbn. intros [?|[<-|[]]]; auto. apply Hx. now left.
    + apply IH. intros ?. apply Hx. now right.
Qed.

Lemma NoDup_map_filter {A B} (g : A -> B) (h : A -> bool) l : NoDup (map g l) -> NoDup (map g (filter h l)).
Proof.
  induction l as [|a l IH]; cbn; intros H; [constructor|].
  inversion H as [|? ? Ha Hl]; subst. destruct (h a); cbn; auto.
  constructor; auto. rewrite in_map_iff in *. intros (x & E & Hin). apply Ha. exists x.
  split; auto. apply filter_In in Hin. tauto.
Qed.

Lemma step_rep u m f o : rep u m f ->
  (allowed u f o -> exists m', step u m o = Ok m' /\ rep u m' (effect f o)) /\
  (~ allowed u f o -> step u m o = Abort).
Proof.
  intros Hr. destruct o as [k v|k|k v]; cbn [step allowed effect].
  - unfold insert, guard, is_k_known, is_v_known.
    pose proof (rep_left u m f k Hr) as Hk. pose proof (rep_right u m f v Hr) as Hv.
    unfold boost_insert, is_k_known, is_v_known.
    destruct (left_find m k) as [p|]; cbn.
    { split; [intros [H _]; destruct Hk; congruence|auto]. }
    destruct (right_find m v) as [q|]; cbn.
    + destruct u; cbn.
      { split; [intros [_ H]; exfalso; apply H; auto; exists (fst q); tauto|auto]. }
      split; [|intros H; exfalso; apply H; split; [auto|discriminate]].
      intros _. eexists. split; [reflexivity|]. destruct Hr as (H1 & H2 & H3). split; [|split].
      * rewrite map_app. cbn. apply NoDup_snoc; auto. intros Hin.
        apply in_map_iff in Hin. destruct Hin as ([a b] & E & Hin). cbn in E. subst.
        apply H3 in Hin. congruence.
      * discriminate.
      * intros a b. rewrite in_app_iff. unfold fset. cbn [In].
        destruct (Z.eqb_spec a k) as [->|Hne].
        -- rewrite H3, Hk. split; [intros [?|[E|[]]]; congruence|intros E; right; left; congruence].
        -- rewrite H3. split; [intros [?|[E|[]]]; congruence|auto].
    + rewrite Bool.andb_false_r. cbn.
      split; [|intros H; exfalso; apply H; split; auto].
      intros _. eexists. split; [reflexivity|]. destruct Hr as (H1 & H2 & H3). split; [|split].
      * rewrite map_app. cbn. apply NoDup_snoc; auto. intros Hin.
        apply in_map_iff in Hin. destruct Hin as ([a b] & E & Hin). cbn in E. subst.
        apply H3 in Hin. congruence.
      * intros Hu. rewrite map_app. cbn. apply NoDup_snoc; auto. intros Hin.
        apply in_map_iff in Hin. destruct Hin as ([a b] & E & Hin). cbn in E. subst.
        apply H3 in Hin. apply Hv. eexists; eauto.
      * intros a b. rewrite in_app_iff. unfold fset. cbn [In].
        destruct (Z.eqb_spec a k) as [->|Hne].
        -- rewrite H3, Hk. split; [intros [?|[E|[]]]; congruence|intros E; right; left; congruence].
        -- rewrite H3. split; [intros [?|[E|[]]]; congruence|auto].
  - unfold erase, guard, is_k_known. pose proof (rep_left u m f k Hr) as Hk.
    destruct (left_find m k) as [p|]; cbn.
    + split; [|intros H; destruct Hk; exfalso; apply H; congruence].
      intros _. eexists. split; [reflexivity|]. destruct Hr as (H1 & H2 & H3).
      unfold boost_erase. split; [|split].
      * now apply NoDup_map_filter.
      * intros. apply NoDup_map_filter; auto.
      * intros a b. rewrite filter_In, H3. unfold fset. cbn [fst].
        destruct (Z.eqb_spec a k); cbn; intuition congruence.
    + split; [congruence|auto].
  - unfold set_v, guard, is_k_known, is_v_known.
    pose proof (rep_left u m f k Hr) as Hk. pose proof (rep_right u m f v Hr) as Hv.
    destruct (left_find m k) as [p|]; cbn; [|split; [intros [H _]; congruence|auto]].
    assert (Hmap : forall m', m' = map (fun p : Z * Z => if fst p =? k then (k, v) else p) m ->
              (u = true -> ~ has_value f v) -> rep u m' (fset f k (Some v))).
    { intros m' -> Hnv. destruct Hr as (H1 & H2 & H3).
      assert (Hfst : map fst (map (fun p : Z * Z => if fst p =? k then (k, v) else p) m) = map fst m).
      { rewrite map_map. apply map_ext. intros [a b]; cbn. destruct (Z.eqb_spec a k); auto. }
      split; [now rewrite Hfst|]. split.
      - intros Hu. specialize (H2 Hu). specialize (Hnv Hu).
        assert (Hv' : ~ In v (map snd m)).
        { intros Hin. apply in_map_iff in Hin. destruct Hin as ([a b] & E & Hin). cbn in E. subst.
          apply H3 in Hin. apply Hnv. eexists; eauto. }
        clear Hfst Hk Hv H3 Hnv. induction m as [|[a b] r IH]; cbn; [constructor|].
        cbn in H1, H2, Hv'. inversion H1 as [|? ? Ha Hl]; subst. inversion H2 as [|? ? Hb Hl2]; subst.
        assert (Hnv' : ~ In v (map snd r)) by tauto.
        specialize (IH Hl ltac:(auto) Hnv').
        destruct (Z.eqb_spec a k) as [->|Hne]; cbn; constructor; auto.
        + intros Hin. apply in_map_iff in Hin. destruct Hin as (y & E & Hin).
          apply in_map_iff in Hin. destruct Hin as ([a' b'] & E2 & Hin). cbn in E2.
          destruct (Z.eqb_spec a' k) as [->|]; subst; cbn in *.
          * apply Ha. apply in_map_iff. exists (k, b'). auto.
          * apply Hnv'. apply in_map_iff. exists (a', b'). auto.
        + intros Hin. apply in_map_iff in Hin. destruct Hin as (y & E & Hin).
          apply in_map_iff in Hin. destruct Hin as ([a' b'] & E2 & Hin). cbn in E2.
          destruct (Z.eqb_spec a' k) as [->|]; subst; cbn in *.
          * apply Hv'. left. auto.
          * apply Hb. apply in_map_iff. exists (a', b'). auto.
      - intros a b. rewrite in_map_iff. unfold fset. split.
        + intros ([a' b'] & E & Hin). cbn in E. destruct (Z.eqb_spec a' k) as [->|Hne].
          * injection E as <- <-. now rewrite Z.eqb_refl.
          * injection E as <- <-. destruct (Z.eqb_spec a' k); [congruence|]. now apply H3.
        + destruct (Z.eqb_spec a k) as [->|Hne].
          * intros E; injection E as <-. exists (k, snd p). cbn. rewrite Z.eqb_refl.
            split; auto. apply H3. tauto.
          * intros E. exists (a, b). cbn. destruct (Z.eqb_spec a k); [congruence|].
            split; auto. now apply H3. }
    destruct (right_find m v) as [q|] eqn:Eq; cbn.
    + destruct u; cbn.
      { split; [intros [_ H]; exfalso; apply H; auto; exists (fst q); tauto|auto]. }
      split; [|intros H; exfalso; apply H; split; [destruct Hk; congruence|discriminate]].
      intros _. eexists. split; [reflexivity|]. apply Hmap; auto. discriminate.
    + rewrite Bool.andb_false_r. cbn.
      split; [|intros H; exfalso; apply H; split; [destruct Hk; congruence|auto]].
      intros _. unfold boost_replace.
      assert (Hex : existsb (fun p0 : Z * Z => (snd p0 =? v) && negb (fst p0 =? k)) m = false).
      { apply Bool.not_true_is_false. rewrite existsb_exists. intros ([a b] & Hin & Hb).
        cbn in Hb. apply Hv. exists a. apply Hr. replace v with b by lia. auto. }
      rewrite Hex, Bool.andb_false_r. eexists. split; [reflexivity|]. apply Hmap; auto.
Qed.

Lemma allowed_dec u m f o : rep u m f -> {allowed u f o} + {~ allowed u f o}.
Proof.
  intros Hr. destruct (step u m o) as [m'| | |] eqn:E.
  - left. destruct (step_rep u m f o Hr) as [_ H2].
    destruct o as [k v|k|k v]; cbn in *.
    all: pose proof (rep_left u m f k Hr) as Hk.
    all: try pose proof (rep_right u m f v Hr) as Hv.
    all: unfold insert, erase, set_v, guard, is_k_known, is_v_known in E.
    all: destruct (left_find m k) as [p|]; cbn in E; try discriminate.
    + split; auto. destruct (right_find m v); cbn in E; auto.
      destruct u; cbn in E; [discriminate|]. discriminate.
    + destruct Hk; congruence.
    + split; [destruct Hk; congruence|]. destruct (right_find m v); cbn in E; auto.
      destruct u; cbn in E; [discriminate|]. discriminate.
  - right. intros Ha. destruct (step_rep u m f o Hr) as [H1 _]. destruct (H1 Ha) as (? & ? & _). congruence.
  - right. intros Ha. destruct (step_rep u m f o Hr) as [H1 _]. destruct (H1 Ha) as (? & ? & _). congruence.
  - right. intros Ha. destruct (step_rep u m f o Hr) as [H1 _]. destruct (H1 Ha) as (? & ? & _). congruence.
Qed.

Lemma exec_rep u os : forall m f, rep u m f ->
  (all_allowed u f os -> exists m', exec u m os = Ok m' /\ rep u m' (fold_left effect os f)) /\
  (~ all_allowed u f os -> exec u m os = Abort).
Proof.
  induction os as [|o r IH]; intros m f Hr; cbn [exec all_allowed fold_left].
  - split; [eauto|tauto].
  - destruct (step_rep u m f o Hr) as [H1 H2].
    destruct (allowed_dec u m f o Hr) as [Ha|Hna].
    + destruct (H1 Ha) as (m1 & E & Hr1). rewrite E. cbn [bind].
      destruct (IH m1 (effect f o) Hr1) as [H3 H4]. split.
      * intros [_ Hall]. auto.
      * intros Hn. apply H4. tauto.
    + rewrite (H2 Hna). split; [tauto|auto].
Qed.

Lemma rep_empty u : rep u [] fempty.
Proof.
  split; [constructor|]. split; [constructor|]. intros k v. cbn. unfold fempty. split; [tauto|discriminate].
Qed.

Lemma history_exact u os :
  (all_allowed u fempty os -> is_ok (exec u [] os) = true) /\
  (~ all_allowed u fempty os -> exec u [] os = Abort).
Proof.
  destruct (exec_rep u os [] fempty (rep_empty u)) as [H1 H2]. split; auto.
  intros Ha. destruct (H1 Ha) as (m & -> & _). reflexivity.
Qed.

Lemma exec_rep_ok u os m : exec u [] os = Ok m -> rep u m (effects os) /\ all_allowed u fempty os.
Proof.
  intros E. destruct (exec_rep u os [] fempty (rep_empty u)) as [H1 H2].
  assert (Hdec : all_allowed u fempty os \/ ~ all_allowed u fempty os).
  { clear. generalize (rep_empty u). generalize ([] : bm). generalize fempty.
    induction os as [|o r IH]; intros f m Hr; cbn; [auto|].
    destruct (allowed_dec u m f o Hr) as [Ha|Ha]; [|tauto].
    destruct (step_rep u m f o Hr) as [H1 _]. destruct (H1 Ha) as (m1 & _ & Hr1).
    destruct (IH _ _ Hr1); tauto. }
  destruct Hdec as [Ha|Ha].
  - destruct (H1 Ha) as (m' & E' & Hr). rewrite E in E'. injection E' as <-. auto.
  - rewrite (H2 Ha) in E. discriminate.
Qed.

Lemma rep_get_v u m f k : rep u m f ->
  get_v m k = match f k with Some v => Ok v | None => Abort end.
Proof.
  intros Hr. pose proof (rep_left u m f k Hr) as Hk. unfold get_v, guard, is_k_known.
  destruct (left_find m k) as [p|]; cbn.
  - destruct Hk as [-> _]. reflexivity.
  - now rewrite Hk.
Qed.

Lemma rep_get_k m f v : rep true m f ->
  (forall k, get_k m v = Ok k <-> f k = Some v) /\
  (get_k m v = Abort <-> ~ has_value f v).
Proof.
  intros Hr. pose proof (rep_right true m f v Hr) as Hv. unfold get_k, guard, is_v_known.
  destruct (right_find m v) as [p|] eqn:Ep; cbn.
  - destruct Hv as [Hv1 Hv2]. split.
    + intros k. split; [intros E; injection E as <-; auto|].
      intros Hk. destruct Hr as (H1 & H2 & H3). specialize (H2 eq_refl).
      apply H3 in Hk, Hv1. f_equal.
      clear -H2 Hk Hv1. induction m as [|[a b] r IH]; [destruct Hk|].
      cbn in H2. inversion H2 as [|? ? Hb Hl]; subst. cbn in Hk, Hv1.
      destruct Hk as [E1|Hk], Hv1 as [E2|Hv1].
      * congruence.
      * exfalso. apply Hb. injection E1 as -> ->. apply in_map_iff. eexists; split; [|eauto]. auto.
      * exfalso. apply Hb. injection E2 as -> ->. apply in_map_iff. eexists; split; [|eauto]. auto.
      * auto.
    + split; [discriminate|]. intros H. exfalso. apply H. eexists; eauto.
  - split.
    + intros k. split; [discriminate|]. intros Hk. exfalso. apply Hv. eexists; eauto.
    + tauto.
Qed.

Lemma rep_size u m f : rep u m f -> size_is f (length m).
Proof.
  intros (H1 & H2 & H3). exists (map fst m). split; auto. split; [apply map_length|].
  intros k. rewrite in_map_iff. split.
  - intros ([a b] & <- & Hin). apply H3 in Hin. cbn. congruence.
  - destruct (f k) as [v|] eqn:E; [|congruence]. intros _. exists (k, v). split; auto. now apply H3.
Qed.

Lemma rep_range u m f v : rep u m f ->
  match get_k_range m v with
  | Ok ks => NoDup ks /\ ks <> [] /\ forall k, In k ks <-> f k = Some v
  | Abort => ~ has_value f v
  | _ => False
  end.
Proof.
  intros Hr. pose proof (rep_right u m f v Hr) as Hv. unfold get_k_range, guard, is_v_known.
  destruct (right_find m v) as [p|] eqn:Ep; cbn; auto.
  destruct Hr as (H1 & H2 & H3).
  assert (Hin : forall k, In k (map fst (filter (fun p0 : Z * Z => snd p0 =? v) m)) <-> f k = Some v).
  { intros k. rewrite in_map_iff. split.
    - intros ([a b] & <- & Hin). apply filter_In in Hin. destruct Hin as [Hin Hb]. cbn in *.
      apply H3. replace v with b by lia. auto.
    - intros Hk. exists (k, v). split; auto. apply filter_In. cbn. rewrite Z.eqb_refl.
      split; auto. now apply H3. }
  split; [now apply NoDup_map_filter|]. split; auto.
  intros E. rewrite E in Hin. destruct (Hin (fst p)) as [_ H]. destruct Hv as [Hv _].
  destruct (H Hv).
Qed.

Lemma bimap_ok u os m : exec u [] os = Ok m ->
  (forall k, get_v m k = match effects os k with Some v => Ok v | None => Abort end) /\
  (u = true -> forall k v, get_v m k = Ok v <-> get_k m v = Ok k) /\
  (u = true -> forall v, get_k m v = Abort <-> ~ has_value (effects os) v) /\
  (forall k, is_k_known m k = true <-> effects os k <> None) /\
  (forall v, is_v_known m v = true <-> has_value (effects os) v) /\
  size_is (effects os) (get_k_cnt m) /\ get_v_cnt m = get_k_cnt m.
Proof.
  intros E. destruct (exec_rep_ok u os m E) as [Hr _].
  split; [intros; eapply rep_get_v; eauto|]. split.
  { intros -> k v. rewrite (rep_get_v _ _ _ k Hr). destruct (rep_get_k m _ v Hr) as [H _].
    rewrite H. destruct (effects os k); intuition congruence. }
  split.
  { intros -> v. apply (rep_get_k m _ v Hr). }
  split.
  { intros k. pose proof (rep_left u m _ k Hr) as Hk. unfold is_k_known.
    destruct (left_find m k); cbn; intuition congruence. }
  split.
  { intros v. pose proof (rep_right u m _ v Hr) as Hv. unfold is_v_known.
    destruct (right_find m v); cbn; split; intros; try discriminate; auto; try tauto.
    eexists; apply Hv. }
  split; [|reflexivity]. unfold get_k_cnt. eapply rep_size; eauto.
Qed.

Lemma bimap_range os m v : exec false [] os = Ok m ->
  match get_k_range m v with
  | Ok ks => NoDup ks /\ ks <> [] /\ forall k, In k ks <-> effects os k = Some v
  | Abort => ~ has_value (effects os) v
  | _ => False
  end.
Proof. intros E. destruct (exec_rep_ok false os m E) as [Hr _]. eapply rep_range; eauto. Qed.
