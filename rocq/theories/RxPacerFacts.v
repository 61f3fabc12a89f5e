From Verif Require Import Base IntHelpers Cells CellsFacts RxRing RxRingFacts Resampler ResamplerSpec ResamplerFacts RxPacer RxPacerSpec.
Open Scope N_scope.

(** ** Lists *)
Lemma upto_app m n : upto (m + n) = upto m ++ nseq m (N.to_nat n).
Proof. unfold upto. rewrite N2Nat.inj_add, nseq_app. do 2 f_equal. lia. Qed.
Lemma nseq_map a n : nseq a n = map (fun i => a + i) (nseq 0 n).
Proof.
  revert a. assert (G : forall n a b, nseq (a + b) n = map (fun i => a + i) (nseq b n)).
  { clear. induction n; intros; cbn; [reflexivity|]. f_equal. rewrite <- IHn. f_equal. lia. }
  intros a. rewrite <- G. f_equal. lia.
Qed.
Lemma map_nseq {A} (f : N -> A) a n : map f (nseq a (N.to_nat n)) = map (fun i => f (a + i)) (upto n).
Proof. rewrite nseq_map, map_map. reflexivity. Qed.
Lemma len_map {A B} (f : A -> B) l : len (map f l) = len l.
Proof. unfold len. now rewrite map_length. Qed.
Lemma len_upto n : len (upto n) = n.
Proof. unfold upto, len. rewrite nseq_length. lia. Qed.
Lemma mapM_seq {A B} (d : A) (f : A -> res B) (g : nat -> B) l n :
  (n <= length l)%nat -> (forall a, (a < n)%nat -> f (nth a l d) = Ok (g a)) ->
  mapM f (firstn n l) = Ok (map g (seq 0 n)).
Proof.
  revert l g. induction n as [|n IH]; intros l g Hl Hf; [reflexivity|].
  destruct l as [|x l]; [cbn in Hl; lia|]. cbn [firstn mapM].
  pose proof (Hf O ltac:(lia)) as E. cbn [nth] in E. rewrite E. cbn [bind].
  rewrite (IH l (fun a => g (S a))).
  - cbn [bind seq map]. rewrite <- seq_shift, map_map. reflexivity.
  - cbn in Hl. lia.
  - intros a Ha. exact (Hf (S a) ltac:(lia)).
Qed.
Lemma nth_map_seq {A} (g : nat -> list A) n a : (a < n)%nat -> nth a (map g (seq 0 n)) [] = g a.
Proof.
  intros H. assert (E : nth_error (map g (seq 0 n)) a = Some (g a)).
  { apply map_nth_error. rewrite nth_error_nth' with (d := O) by (rewrite seq_length; exact H). now rewrite seq_nth. }
  exact (nth_error_nth _ _ _ E).
Qed.
Lemma list_by_nth {A} (l : list (list A)) n : length l = n -> l = map (fun a => nth a l []) (seq 0 n).
Proof.
  revert n. induction l as [|x l IH]; intros n E; subst n; [reflexivity|]. cbn [length seq map nth]. f_equal.
  rewrite (IH (length l) eq_refl) at 1. rewrite <- seq_shift, map_map. apply map_ext. reflexivity.
Qed.
Lemma slice_map {A} (d : A) (m : list A) i n f : i + n <= len m ->
  (forall k, k < n -> nth (N.to_nat (i + k)) m d = f k) -> slice _ m i n = Ok (map f (upto n)).
Proof.
  intros B E. unfold slice. replace (i + n <=? len m) with true by (symmetry; apply N.leb_le; exact B). f_equal.
  apply nth_ext with (d := d) (d' := d).
  - rewrite firstn_length, skipn_length, map_length. unfold upto. rewrite nseq_length. unfold len in B. lia.
  - intros k Hk. rewrite firstn_length, skipn_length in Hk.
    assert (K : (k < N.to_nat n)%nat) by (unfold len in B; lia).
    assert (X : nth_error (map f (upto n)) k = Some (f (N.of_nat k))).
    { apply map_nth_error. unfold upto. rewrite nseq_nth by exact K. f_equal. }
    rewrite (nth_error_nth _ _ _ X). rewrite <- E by lia.
    replace (N.to_nat (i + N.of_nat k)) with (N.to_nat i + k)%nat by lia.
    clear -K. revert m k n K. induction (N.to_nat i) as [|j IH]; intros m k n K.
    + cbn [skipn Nat.add]. revert m k K. induction (N.to_nat n) as [|q IHq]; intros m k K; [lia|].
      destruct m as [|x m]; [cbn; destruct k; reflexivity|]. destruct k; [reflexivity|]. cbn. apply IHq. lia.
    + destruct m as [|x m]; [cbn; rewrite firstn_nil; now destruct k|]. cbn [skipn Nat.add nth]. apply IH. exact K.
Qed.
Lemma slice_app_mid {A} (x y z : list A) i n : i = len x -> n = len y -> slice _ (x ++ y ++ z) i n = Ok y.
Proof.
  intros -> ->. unfold slice. replace (len x + len y <=? len (x ++ y ++ z)) with true.
  - f_equal. unfold len. rewrite !Nat2N.id. rewrite skipn_app, skipn_all, Nat.sub_diag. cbn [skipn app].
    rewrite firstn_app, firstn_all, Nat.sub_diag, firstn_O. apply app_nil_r.
  - symmetry. apply N.leb_le. unfold len. rewrite !app_length. lia.
Qed.

Section buffers.
Context {smp : Type} (s0 : smp).

(** ** Buffers: for each antenna [C a] is written, of [cnt] samples, in a buffer of [cap]. *)
Definition binv (ant : nat) (cap cnt : N) (C : nat -> list smp) (m : list (list smp)) : Prop :=
  length m = ant /\ forall a, (a < ant)%nat -> len (C a) = cnt /\ exists rest, nth a m [] = C a ++ rest /\ len (nth a m []) = cap.

Lemma binv_ext ant cap cnt C C' m : (forall a, (a < ant)%nat -> C a = C' a) -> binv ant cap cnt C m -> binv ant cap cnt C' m.
Proof. intros E (A & B). split; [exact A|]. intros a Ha. rewrite <- E by exact Ha. apply B; exact Ha. Qed.
Lemma binv_cap ant cap cnt C m : (1 <= ant)%nat -> binv ant cap cnt C m -> cnt <= cap.
Proof.
  intros H (_ & B). destruct (B O ltac:(lia)) as (E & r & E1 & E2). rewrite E1 in E2. rewrite len_app in E2. lia.
Qed.
Lemma binv_zero ant cap cnt C m : binv ant cap cnt C m -> binv ant cap 0 (fun _ => []) m.
Proof.
  intros (A & B). split; [exact A|]. intros a Ha. split; [reflexivity|]. destruct (B a Ha) as (_ & r & _ & E).
  exists (nth a m []). split; [reflexivity|exact E].
Qed.
Lemma create_binv ant n (junk : smp) : binv ant n 0 (fun _ => []) (b_mem _ (create_lbuf _ ant n junk)).
Proof.
  cbn [create_lbuf b_mem]. split; [apply repeat_length|]. intros a Ha. split; [reflexivity|].
  exists (nth a (repeat (repeat junk (N.to_nat n)) ant) []). split; [reflexivity|].
  assert (E : nth_error (repeat (repeat junk (N.to_nat n)) ant) a = Some (repeat junk (N.to_nat n))) by (apply nth_error_repeat; exact Ha).
  rewrite (nth_error_nth _ _ _ E). unfold len. rewrite repeat_length. lia.
Qed.

Lemma stores_shift cap cnt n : forall k (m : list (list smp)) (C g : nat -> list smp), cnt + n <= cap ->
  length m = k -> (forall a, (a < k)%nat -> len (C a) = cnt /\ len (g a) = n /\ exists rest, nth a m [] = C a ++ rest /\ len (nth a m []) = cap) ->
  exists m', stores _ m cnt (map g (seq 0 k)) = Ok m' /\ length m' = k /\
    forall a, (a < k)%nat -> exists rest, nth a m' [] = (C a ++ g a) ++ rest /\ len (nth a m' []) = cap.
Proof.
  induction k as [|k IH]; intros m C g B Lm Hm.
  - destruct m; [|discriminate]. exists []. split; [reflexivity|]. split; [reflexivity|]. intros; lia.
  - destruct m as [|x m]; [discriminate|]. cbn [length] in Lm.
    destruct (IH m (fun a => C (S a)) (fun a => g (S a)) B ltac:(lia)) as (m' & E1 & E2 & E3).
    { intros a Ha. exact (Hm (S a) ltac:(lia)). }
    destruct (Hm O ltac:(lia)) as (C0 & G0 & rest & X1 & X2). cbn [nth] in X1, X2.
    exists (put x (N.to_nat cnt) (g O) :: m'). split; [|split].
    + cbn [seq map stores]. unfold store. rewrite G0. replace (cnt + n <=? len x) with true by (symmetry; apply N.leb_le; lia).
      cbn [bind]. rewrite <- seq_shift, map_map, E1. reflexivity.
    + cbn. lia.
    + intros a Ha. destruct a as [|a]; [|exact (E3 a ltac:(lia))]. cbn [nth].
      exists (skipn (N.to_nat cnt + length (g O)) x). unfold put. rewrite <- app_assoc.
      assert (F : firstn (N.to_nat cnt) x = C O).
      { rewrite X1. replace (N.to_nat cnt) with (length (C O)) by (unfold len in C0; lia).
        rewrite firstn_app, firstn_all, Nat.sub_diag, firstn_O. apply app_nil_r. }
      rewrite F. split; [reflexivity|]. rewrite !len_app. unfold len in *. rewrite skipn_length. lia.
Qed.
Lemma stores_binv ant cap cnt n C g m : binv ant cap cnt C m -> (forall a, (a < ant)%nat -> len (g a) = n) -> cnt + n <= cap ->
  exists m', stores _ m cnt (map g (seq 0 ant)) = Ok m' /\ binv ant cap (cnt + n) (fun a => C a ++ g a) m'.
Proof.
  intros (A & B) G Hc. destruct (stores_shift cap cnt n ant m C g Hc A) as (m' & E1 & E2 & E3).
  { intros a Ha. destruct (B a Ha) as (B1 & B2). split; [exact B1|]. split; [apply G; exact Ha|exact B2]. }
  exists m'. split; [exact E1|]. split; [exact E2|]. intros a Ha. split; [|apply E3; exact Ha].
  rewrite len_app, G by exact Ha. destruct (B a Ha) as (-> & _). reflexivity.
Qed.
Lemma binv_slice ant cap cnt C m x y z : binv ant cap cnt C m -> (forall a, (a < ant)%nat -> C a = x a ++ y a ++ z a) ->
  forall i n, (forall a, (a < ant)%nat -> len (x a) = i /\ len (y a) = n) ->
  mapM (fun r => slice _ r i n) m = Ok (map y (seq 0 ant)).
Proof.
  intros (A & B) E i n F. rewrite <- (firstn_all m), A. apply (mapM_seq []); [lia|]. intros a Ha.
  destruct (B a Ha) as (_ & r & X & _). rewrite X, E by exact Ha. destruct (F a Ha) as (<- & <-).
  rewrite <- !app_assoc. apply slice_app_mid; reflexivity.
Qed.

(** ** One unit of the ring buffer *)
Variables (c : cfg) (p : pacer).
Hypothesis (PL : p_len p = N.of_nat (cL c)) (PB : p_len p < 2 ^ 32) (PU : 1 <= p_unit p <= p_len p) (PA : (1 <= p_ant p <= cant c)%nat).

Definition uni (t : Z) (o : ring smp) (n : N) (a : nat) : list smp := map (ring_at s0 c o a) (times t n).
Lemma uni_len t o n a : len (uni t o n a) = n.
Proof. unfold uni, times. rewrite !len_map. apply len_upto. Qed.
Lemma times_app t m n : times t (m + n) = times t m ++ times (t + Z.of_N m) n.
Proof.
  unfold times. rewrite upto_app, map_app. f_equal. rewrite map_nseq. apply map_ext. intros. lia.
Qed.
Lemma uni_app t o m n a : uni t o (m + n) a = uni t o m a ++ uni (t + Z.of_N m) o n a.
Proof. unfold uni. now rewrite times_app, map_app. Qed.
Lemma index_ok t : (0 <= t)%Z -> Z.of_N (index p t) = (t mod Z.of_N (p_len p))%Z /\ index p t < p_len p /\
  right p t = p_len p - index p t /\ 1 <= right p t.
Proof.
  intros T. unfold index. rewrite Z.rem_mod_nonneg by lia.
  pose proof (Z.mod_pos_bound t (Z.of_N (p_len p)) ltac:(lia)) as B.
  rewrite Z.mod_small by lia. set (i := (t mod Z.of_N (p_len p))%Z) in *.
  unfold right, index. rewrite Z.rem_mod_nonneg by lia. fold i. rewrite Z.mod_small by lia.
  assert (E : w32 (p_len p + (2 ^ 32 - Z.to_N i)) = p_len p - Z.to_N i).
  { unfold w32. replace (p_len p + (2 ^ 32 - Z.to_N i)) with ((p_len p - Z.to_N i) + 1 * 2 ^ 32) by lia.
    rewrite N.mod_add by lia. apply N.mod_small. lia. }
  rewrite E. lia.
Qed.
Lemma ring_slice o t n i : ring_ok c o -> (0 <= t)%Z -> Z.of_N i = (t mod Z.of_N (p_len p))%Z -> i + n <= p_len p ->
  mapM (fun r => slice _ r i n) (firstn (p_ant p) (mem o)) = Ok (map (uni t o n) (seq 0 (p_ant p))).
Proof.
  intros (R1 & R2) T I B. apply (mapM_seq []); [lia|]. intros a Ha. unfold uni, times. rewrite map_map.
  assert (LM : length (nth a (mem o) []) = (cL c + cM c)%nat).
  { rewrite Forall_forall in R2. apply R2. apply nth_In. lia. }
  apply (slice_map s0).
  - unfold len. rewrite LM. lia.
  - intros k Hk. unfold ring_at. f_equal. rewrite PL in I, B. rewrite nat_N_Z in I.
    rewrite (Z.add_mod t (Z.of_N k)) by lia. rewrite <- I. rewrite (Z.mod_small (Z.of_N k)) by lia. rewrite Z.mod_small by lia. lia.
Qed.
Lemma wrap_slice o t : ring_ok c o -> (0 <= t)%Z -> right p t < p_unit p ->
  mapM (fun r => slice _ r (index p t) (right p t)) (firstn (p_ant p) (mem o)) = Ok (map (uni t o (right p t)) (seq 0 (p_ant p))) /\
  mapM (fun r => slice _ r 0 (p_unit p - right p t)) (firstn (p_ant p) (mem o)) =
    Ok (map (uni (t + Z.of_N (right p t)) o (p_unit p - right p t)) (seq 0 (p_ant p))).
Proof.
  intros R T H. destruct (index_ok t T) as (I1 & I2 & I3 & I4). split.
  - apply ring_slice; [exact R|exact T|exact I1|lia].
  - apply ring_slice; [exact R|lia| |lia]. rewrite I3.
    replace (t + Z.of_N (p_len p - index p t))%Z with ((t - Z.of_N (index p t)) + 1 * Z.of_N (p_len p))%Z by lia.
    rewrite Z.mod_add by lia. rewrite I1, Zminus_mod, Z.mod_mod, Z.sub_diag by lia. rewrite Z.mod_0_l by lia. reflexivity.
Qed.

Lemma filter_unit_ok cap cnt C b rs o : cap < 2 ^ 32 ->
  binv (p_ant p) cap cnt C (b_mem _ b) -> b_cnt _ b = cnt -> cnt + p_unit p <= cap -> (0 <= b_time _ b)%Z -> ring_ok c o ->
  exists m, filter_single_unit smp p (b, rs) (mem o) = Ok (mkLb _ (b_time _ b) (cnt + p_unit p) m, rs) /\
    binv (p_ant p) cap (cnt + p_unit p) (fun a => C a ++ uni (b_time _ b) o (p_unit p) a) m.
Proof.
  intros HC B BC HB T R. unfold filter_single_unit. cbn [fst snd]. set (t := b_time smp b) in *. rewrite BC.
  destruct (index_ok t T) as (I1 & I2 & I3 & I4). destruct (N.leb_spec (p_unit p) (right p t)) as [U|U].
  - rewrite (ring_slice o t (p_unit p) (index p t) R T I1) by lia. cbn [bind].
    destruct (stores_binv _ _ _ (p_unit p) _ (uni t o (p_unit p)) _ B) as (m & E1 & E2); [intros; apply uni_len|lia|].
    rewrite E1. cbn [bind]. rewrite w32_id by lia. exists m. split; [reflexivity|exact E2].
  - destruct (wrap_slice o t R T U) as (W1 & W2). rewrite W1. cbn [bind]. rewrite W2. cbn [bind].
    destruct (stores_binv _ _ _ (right p t) _ (uni t o (right p t)) _ B) as (m & E1 & E2); [intros; apply uni_len|lia|].
    rewrite E1. cbn [bind]. rewrite (w32_id (cnt + right p t)) by lia.
    destruct (stores_binv _ _ _ (p_unit p - right p t) _ (uni (t + Z.of_N (right p t)) o (p_unit p - right p t)) _ E2) as (m' & E3 & E4);
      [intros; apply uni_len|lia|].
    rewrite E3. cbn [bind]. rewrite w32_id by lia. exists m'. split; [reflexivity|].
    replace (cnt + p_unit p) with (cnt + right p t + (p_unit p - right p t)) by lia.
    eapply binv_ext; [|exact E4]. intros a _. cbv beta. rewrite <- app_assoc. f_equal.
    rewrite <- uni_app. f_equal. lia.
Qed.

(** What resample_single_unit hands to the resampler *)
Lemma resample_input_ok o t : ring_ok c o -> (0 <= t)%Z ->
  (if p_unit p <=? right p t then mapM (fun r => slice _ r (index p t) (p_unit p)) (firstn (p_ant p) (mem o))
   else mapM (fun r => do x <- slice _ r (index p t) (right p t) ; do y <- slice _ r 0 (p_unit p - right p t) ; Ok (x ++ y)) (firstn (p_ant p) (mem o))) =
  Ok (map (uni t o (p_unit p)) (seq 0 (p_ant p))).
Proof.
  intros R T. destruct (index_ok t T) as (I1 & I2 & I3 & I4). destruct (N.leb_spec (p_unit p) (right p t)) as [U|U].
  - apply ring_slice; [exact R|exact T|exact I1|lia].
  - destruct R as (R1 & R2). apply (mapM_seq []); [lia|]. intros a Ha.
    assert (LM : length (nth a (mem o) []) = (cL c + cM c)%nat).
    { rewrite Forall_forall in R2. apply R2. apply nth_In. lia. }
    replace (uni t o (p_unit p) a) with (uni t o (right p t) a ++ uni (t + Z.of_N (right p t)) o (p_unit p - right p t) a)
      by (rewrite <- uni_app; f_equal; lia). unfold uni, times. rewrite !map_map.
    rewrite (slice_map s0 _ _ _ (fun k => ring_at s0 c o a (t + Z.of_N k))).
    + cbn [bind]. rewrite (slice_map s0 _ _ _ (fun k => ring_at s0 c o a (t + Z.of_N (right p t) + Z.of_N k))).
      * reflexivity.
      * unfold len. rewrite LM. lia.
      * intros k Hk. unfold ring_at. f_equal. rewrite PL in *. rewrite nat_N_Z in I1. rewrite I3.
        replace (t + Z.of_N (N.of_nat (cL c) - index p t) + Z.of_N k)%Z with (t - Z.of_N (index p t) + Z.of_N k + 1 * Z.of_nat (cL c))%Z by lia.
        rewrite Z.mod_add by lia. rewrite I1. rewrite (Z.div_mod t (Z.of_nat (cL c))) at 1 by lia.
        replace (Z.of_nat (cL c) * (t / Z.of_nat (cL c)) + t mod Z.of_nat (cL c) - t mod Z.of_nat (cL c) + Z.of_N k)%Z
          with (Z.of_N k + (t / Z.of_nat (cL c)) * Z.of_nat (cL c))%Z by lia.
        rewrite Z.mod_add by lia. rewrite Z.mod_small by lia. lia.
    + unfold len. rewrite LM. lia.
    + intros k Hk. unfold ring_at. f_equal. rewrite PL in *. rewrite nat_N_Z in I1.
      rewrite (Z.add_mod t (Z.of_N k)) by lia. rewrite <- I1. rewrite (Z.mod_small (Z.of_N k)) by lia. rewrite Z.mod_small by lia. lia.
Qed.

(** ** Waiting *)
Lemma wait_loop_ok target : forall (obs obs' : list (ring smp)) v, wait_loop _ target obs = Some (v, obs') ->
  exists used o, obs = used ++ o :: obs' /\ rxt o = v /\ (target <= v)%Z.
Proof using. clear PL PB PU PA.
  induction obs as [|o obs IH]; intros obs' v E; [discriminate|]. cbn in E. destruct (Z.ltb_spec (rxt o) target).
  - destruct (IH _ _ E) as (used & o' & -> & A & B). exists (o :: used), o'. auto.
  - injection E as <- <-. exists [], o. auto.
Qed.
Lemma wait_ok target (obs obs' : list (ring smp)) v : wait_until_nto _ target obs = Some (v, obs') ->
  exists used o, obs = used ++ o :: obs' /\ rxt o = v /\ (target <= v)%Z.
Proof using. clear PL PB PU PA.
  destruct obs as [|o obs]; [discriminate|]. cbn. destruct (Z.ltb_spec target (rxt o)).
  - intros E. injection E as <- <-. exists [], o. repeat split. lia.
  - intros E. destruct (wait_loop_ok _ _ _ _ E) as (used & o' & -> & A & B). exists (o :: used), o'. auto.
Qed.
Lemma rising_app (a b : list (ring smp)) : rising (a ++ b) -> rising b.
Proof using. clear PL PB PU PA. induction a; intros H; [exact H|]. inversion H; subst. auto. Qed.
Lemma rising_mid a (o : ring smp) b : rising (a ++ o :: b) -> rising b /\ Forall (fun o' => (rxt o <= rxt o')%Z) b.
Proof using. clear PL PB PU PA. intros H. apply rising_app in H. inversion H; subst. auto. Qed.

(** ** The loops *)
Section loops.
Variables (unit : st smp -> list (list smp) -> res (st smp)) (I : list (Z * ring smp) -> st smp -> Prop) (max : N).
Hypothesis (UNIT : forall l s o, I l s -> b_cnt _ (fst s) < max -> ring_ok c o ->
  exists b rs, unit s (mem o) = Ok (b, rs) /\
    I (l ++ [(b_time _ (fst s), o)]) (mkLb _ (b_time _ (fst s) + Z.of_N (p_unit p)) (b_cnt _ b) (b_mem _ b), rs)).

Definition done (l : list (Z * ring smp)) (s : st smp) (obs : list (ring smp)) (min : N) (r : outcome smp) : Prop :=
  match r with
  | None => True
  | Some (s', obs', l') =>
      I (l ++ l') s' /\ min <= b_cnt _ (fst s') /\ (exists used, obs = used ++ obs') /\
      consecutive (p_unit p) (b_time _ (fst s)) l' /\
      b_time _ (fst s') = (b_time _ (fst s) + Z.of_N (p_unit p) * Z.of_nat (length l'))%Z /\
      (rising obs -> complete (p_unit p) l') /\
      (l' = [] /\ s' = s \/ exists l'' e s'', l' = l'' ++ [e] /\ I (l ++ l'') s'' /\ b_cnt _ (fst s'') < min)
  end.
Lemma rounds_ok : forall fuel min now obs s l, I l s -> min <= max -> Forall (ring_ok c) obs ->
  exists r, rounds _ fuel p unit min now obs s = Ok r /\
    match r with
    | None => True
    | Some (s', obs', l') =>
      I (l ++ l') s' /\ min <= b_cnt _ (fst s') /\ (exists used, obs = used ++ obs') /\
      consecutive (p_unit p) (b_time _ (fst s)) l' /\
      b_time _ (fst s') = (b_time _ (fst s) + Z.of_N (p_unit p) * Z.of_nat (length l'))%Z /\
      (rising obs -> Forall (fun o => (now <= rxt o)%Z) obs -> complete (p_unit p) l') /\
      (l' = [] /\ s' = s \/ exists l'' e s'', l' = l'' ++ [e] /\ I (l ++ l'') s'' /\ b_cnt _ (fst s'') < min)
    end.
Proof using UNIT. clear PL PB PU PA.
  induction fuel as [|fuel IH]; intros min now obs s l HI HM HR; cbn [rounds].
  - destruct (N.leb_spec min (b_cnt smp (fst s))) as [D|D]; [|exists None; auto].
    eexists. split; [reflexivity|]. cbv beta iota. rewrite app_nil_r. split; [exact HI|]. split; [exact D|].
    split; [exists []; reflexivity|]. split; [exact Logic.I|]. split; [cbn; lia|]. split; [intros; constructor|]. left; auto.
  - destruct (N.leb_spec min (b_cnt smp (fst s))) as [D|D].
    { eexists. split; [reflexivity|]. cbv beta iota. rewrite app_nil_r. split; [exact HI|]. split; [exact D|].
      split; [exists []; reflexivity|]. split; [exact Logic.I|]. split; [cbn; lia|]. split; [intros; constructor|]. left; auto. }
    set (target := (b_time smp (fst s) + Z.of_N (p_unit p))%Z).
    assert (W : forall x, (if (now <? target)%Z then wait_until_nto _ target obs else Some (now, obs)) = Some x ->
      exists used, obs = used ++ snd x /\ (target <= fst x)%Z /\
        (rising obs -> Forall (fun o => (now <= rxt o)%Z) obs -> rising (snd x) /\ Forall (fun o => (fst x <= rxt o)%Z) (snd x))).
    { intros (v, ob) E. cbn [fst snd]. destruct (Z.ltb_spec now target) as [N|N].
      - apply wait_ok in E. destruct E as (used & o & E1 & E2 & E3). exists (used ++ [o]). rewrite <- app_assoc. cbn [app].
        split; [exact E1|]. split; [exact E3|]. intros Rs _. rewrite E1 in Rs. apply rising_mid in Rs. rewrite <- E2. exact Rs.
      - injection E as <- <-. exists []. split; [reflexivity|]. split; [lia|]. auto. }
    destruct (if (now <? target)%Z then wait_until_nto _ target obs else Some (now, obs)) as [[v [|o ob]]|] eqn:EW;
      [exists None; auto| |exists None; auto].
    destruct (W _ eq_refl) as (used & OB & TV & RI). cbn [fst snd] in *. clear W EW.
    assert (RO : ring_ok c o /\ Forall (ring_ok c) ob).
    { rewrite OB in HR. apply Forall_app in HR. destruct HR as [_ HR]. inversion HR; auto. }
    destruct RO as [RO ROB].
    destruct (UNIT l s o HI ltac:(lia) RO) as (b & rs & E & HI'). rewrite E. cbn [bind]. fold target in HI'.
    destruct (IH min v ob _ _ HI' HM ROB) as (r & Er & P). rewrite Er. cbn [bind].
    eexists. split; [reflexivity|]. destruct r as [[[s' obs'] l']|]; [|exact Logic.I]. cbn [fst b_time b_cnt] in P.
    destruct P as (P1 & P2 & (u & P3) & P4 & PT & P5 & P6). rewrite <- app_assoc in P1. cbn [app] in P1.
    split; [exact P1|]. split; [exact P2|]. split.
    { exists (used ++ o :: u). rewrite OB, P3, <- app_assoc. reflexivity. }
    split. { cbn [consecutive]. split; [reflexivity|]. exact P4. }
    split. { rewrite PT. subst target. cbn [length]. lia. }
    split.
    { intros R1 R2. destruct (RI R1 R2) as (R3 & R4). inversion R3; subst. inversion R4; subst.
      constructor; [cbn [fst snd]; subst target; lia|]. apply P5; assumption. }
    right. destruct P6 as [(-> & ->)|(l'' & e & s'' & -> & Q1 & Q2)].
    + exists [], (b_time smp (fst s), o), s. split; [reflexivity|]. rewrite app_nil_r. auto.
    + exists ((b_time smp (fst s), o) :: l''), e, s''. split; [reflexivity|]. rewrite <- app_assoc in Q1. auto.
Qed.
Lemma until_ok min obs s l : I l s -> min <= max -> Forall (ring_ok c) obs ->
  exists r, until_nto _ p unit min obs s = Ok r /\ done l s obs min r.
Proof using UNIT. clear PL PB PU PA.
  intros HI HM HR. unfold until_nto. destruct (N.leb_spec min (b_cnt smp (fst s))) as [D|D].
  - eexists. split; [reflexivity|]. cbv beta iota delta [done]. rewrite app_nil_r. split; [exact HI|]. split; [exact D|].
    split; [exists []; reflexivity|]. split; [exact Logic.I|]. split; [cbn; lia|]. split; [intros; constructor|]. left; auto.
  - destruct obs as [|o obs]; [exists None; split; [reflexivity|exact Logic.I]|].
    assert (HR2 : Forall (ring_ok c) obs) by (inversion HR; assumption).
    destruct (rounds_ok (length obs) min (rxt o) obs s l HI HM HR2) as (r & E & P). exists r. split; [exact E|].
    destruct r as [[[s' obs'] l']|]; [|exact Logic.I]. destruct P as (P1 & P2 & (u & P3) & P4 & PT & P5 & P6). cbv beta iota delta [done].
    split; [exact P1|]. split; [exact P2|]. split; [exists (o :: u); rewrite P3; reflexivity|]. split; [exact P4|].
    split; [exact PT|]. split; [|exact P6]. intros Rs. inversion Rs; subst. auto.
Qed.

(** A call returns without waiting when the clock of the radio is far enough. *)
Hypothesis (GROW : forall l s o b rs, I l s -> b_cnt _ (fst s) < max -> ring_ok c o -> unit s (mem o) = Ok (b, rs) ->
  b_cnt _ (fst s) + (if l then 0 else 1) <= b_cnt _ b).
Definition enough (l : list (Z * ring smp)) (s : st smp) (min : N) : nat :=
  (N.to_nat (min - b_cnt _ (fst s)) + (if l then 1 else 0))%nat.
Lemma rounds_return : forall fuel min now obs s l, I l s -> min <= max -> Forall (ring_ok c) obs ->
  (enough l s min <= fuel)%nat -> (enough l s min <= length obs)%nat ->
  (b_time _ (fst s) + Z.of_N (p_unit p) * Z.of_nat (enough l s min) <= now)%Z ->
  exists x, rounds _ fuel p unit min now obs s = Ok (Some x).
Proof using UNIT GROW. clear PL PB PU PA.
  induction fuel as [|fuel IH]; intros min now obs s l HI HM HR F O T; cbn [rounds].
  - destruct (N.leb_spec min (b_cnt smp (fst s))) as [D|D]; [eexists; reflexivity|]. unfold enough in F. lia.
  - destruct (N.leb_spec min (b_cnt smp (fst s))) as [D|D]; [eexists; reflexivity|].
    assert (K : (1 <= enough l s min)%nat) by (unfold enough; lia).
    destruct (Z.ltb_spec now (b_time smp (fst s) + Z.of_N (p_unit p))) as [W|W]; [nia|].
    destruct obs as [|o obs]; [cbn in O; lia|]. inversion HR; subst.
    destruct (UNIT l s o HI ltac:(lia) ltac:(assumption)) as (b & rs & E & HI').
    pose proof (GROW l s o b rs HI ltac:(lia) ltac:(assumption) E) as G. rewrite E. cbn [bind].
    set (s' := (mkLb smp (b_time smp (fst s) + Z.of_N (p_unit p)) (b_cnt smp b) (b_mem smp b), rs)) in *.
    assert (Q : (enough (l ++ [(b_time smp (fst s), o)]) s' min + 1 <= enough l s min)%nat).
    { unfold enough, s'. cbn [fst b_cnt]. destruct l; cbn [app]; lia. }
    cbn [length] in O.
    destruct (IH min now obs s' _ HI' HM ltac:(assumption) ltac:(lia) ltac:(lia)) as (x & X).
    { subst s'. cbn [fst b_time]. nia. }
    rewrite X. cbn [bind]. destruct x as [[s1 o1] l1]. eexists. reflexivity.
Qed.
Lemma until_returns min o obs s l : I l s -> min <= max -> Forall (ring_ok c) (o :: obs) ->
  (enough l s min <= length obs)%nat ->
  (b_time _ (fst s) + Z.of_N (p_unit p) * Z.of_nat (enough l s min) <= rxt o)%Z ->
  exists x, until_nto _ p unit min (o :: obs) s = Ok (Some x).
Proof using UNIT GROW. clear PL PB PU PA.
  intros HI HM HR O T. unfold until_nto. destruct (N.leb_spec min (b_cnt smp (fst s))); [eexists; reflexivity|].
  inversion HR; subst. apply (rounds_return (length obs) min (rxt o) obs s l); assumption.
Qed.
End loops.
End buffers.
