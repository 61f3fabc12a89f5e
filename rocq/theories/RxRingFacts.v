From Verif Require Import Base RxRing RxRingSpec.
Open Scope Z_scope.

Section Facts.
  Context {S : Type}.

  Lemma put_length (m : list S) i xs :
    (i + length xs <= length m)%nat -> length (put m i xs) = length m.
  Proof. intros H. unfold put. rewrite !app_length, firstn_length, skipn_length. lia. Qed.

  Lemma nth_error_skipn' (l : list S) n k : nth_error (skipn n l) k = nth_error l (n + k).
  Proof.
    revert n; induction l as [|h t IH]; intros [|n]; cbn; auto.
    now destruct k.
  Qed.

  Lemma nth_error_firstn' (l : list S) n k :
    nth_error (firstn n l) k = if Nat.ltb k n then nth_error l k else None.
  Proof.
    revert n k; induction l as [|h t IH]; intros n k.
    - rewrite firstn_nil. destruct k; cbn [nth_error]; now destruct (Nat.ltb _ _).
    - destruct n as [|n]; destruct k as [|k]; cbn [firstn nth_error]; auto.
      rewrite IH.
      destruct (Nat.ltb_spec k n), (Nat.ltb_spec (Datatypes.S k) (Datatypes.S n)); auto; lia.
  Qed.

  Lemma put_nth (m : list S) i xs p :
    (i + length xs <= length m)%nat ->
    nth_error (put m i xs) p =
    if Nat.ltb p i then nth_error m p
    else if Nat.ltb p (i + length xs) then nth_error xs (p - i)
    else nth_error m p.
  Proof.
    intros H. unfold put. destruct (Nat.ltb_spec p i).
    - rewrite nth_error_app1 by (rewrite firstn_length; lia).
      rewrite nth_error_firstn'. destruct (Nat.ltb_spec p i); [auto|lia].
    - rewrite nth_error_app2 by (rewrite firstn_length; lia).
      rewrite firstn_length, Nat.min_l by lia.
      destruct (Nat.ltb_spec p (i + length xs)).
      + now rewrite nth_error_app1 by lia.
      + rewrite nth_error_app2 by lia. rewrite nth_error_skipn'. f_equal. lia.
  Qed.

  (** Position of sample number [t + d] when [t] is at position [i]. *)
  Lemma rem_pos t L : 0 <= t -> (0 < L)%nat ->
    Z.rem t (Z.of_nat L) = t mod Z.of_nat L /\ 0 <= t mod Z.of_nat L < Z.of_nat L.
  Proof. intros. split; [apply Z.rem_mod_nonneg; lia | apply Z.mod_pos_bound; lia]. Qed.

  Lemma mod_shift t d L : 0 < L -> 0 <= t mod L + d < L -> (t + d) mod L = t mod L + d.
  Proof.
    intros HL H. rewrite (Z.div_mod t L) at 1 by lia.
    replace (L * (t / L) + t mod L + d) with ((t mod L + d) + (t / L) * L) by lia.
    rewrite Z.mod_add by lia. apply Z.mod_small; lia.
  Qed.

  Lemma mod_shift_wrap t d L : 0 < L -> L <= t mod L + d < 2 * L -> (t + d) mod L = t mod L + d - L.
  Proof.
    intros HL H. rewrite (Z.div_mod t L) at 1 by lia.
    replace (L * (t / L) + t mod L + d) with ((t mod L + d - L) + (t / L + 1) * L) by lia.
    rewrite Z.mod_add by lia. apply Z.mod_small; lia.
  Qed.

  Lemma mod_shift_neg t d L : 0 < L -> - L <= t mod L + d < 0 -> (t + d) mod L = t mod L + d + L.
  Proof.
    intros HL H. rewrite (Z.div_mod t L) at 1 by lia.
    replace (L * (t / L) + t mod L + d) with ((t mod L + d + L) + (t / L - 1) * L) by lia.
    rewrite Z.mod_add by lia. apply Z.mod_small; lia.
  Qed.

  (** One antenna. *)
  Definition ant_ok (L M : nat) (from n : Z) (data : list S) (m : list S) : Prop :=
    length m = (L + M)%nat /\ n = from + Z.of_nat (length data) /\
    forall t, from <= t -> n - Z.of_nat L <= t -> t < n ->
      nth_error m (Z.to_nat (t mod Z.of_nat L)) = nth_error data (Z.to_nat (t - from)).

  Definition advanced (L : nat) (n : Z) (k : nat) (m : list S) : list S :=
    let idx := Z.to_nat (n mod Z.of_nat L) in
    if Nat.ltb L (idx + k) then wrap L (idx + k - L) m else m.

  Lemma advanced_length L M n k (m : list S) :
    length m = (L + M)%nat -> (k <= M)%nat -> (8 * M <= L)%nat -> (0 < L)%nat -> 0 <= n ->
    length (advanced L n k m) = (L + M)%nat.
  Proof.
    intros Hm Hk HM HL Hn. unfold advanced.
    destruct (Nat.ltb_spec L (Z.to_nat (n mod Z.of_nat L) + k)); auto.
    pose proof (Z.mod_pos_bound n (Z.of_nat L) ltac:(lia)).
    unfold wrap. rewrite put_length; auto.
    rewrite firstn_length, skipn_length. lia.
  Qed.

  Lemma ant_step L M from n data m xs :
    (8 * M <= L)%nat -> (0 < L)%nat -> 0 <= from ->
    (length xs <= M)%nat -> ant_ok L M from n data m ->
    ant_ok L M from (n + Z.of_nat (length xs)) (data ++ xs)
      (advanced L n (length xs) (put m (Z.to_nat (n mod Z.of_nat L)) xs)).
  Proof.
    intros HM HL Hf Hxs (Hlen & Hn & Hrd).
    set (idx := Z.to_nat (n mod Z.of_nat L)).
    pose proof (Z.mod_pos_bound n (Z.of_nat L) ltac:(lia)) as Hb.
    assert (Hidx : Z.of_nat idx = n mod Z.of_nat L) by (unfold idx; lia).
    assert (Hpl : length (put m idx xs) = (L + M)%nat) by (rewrite put_length; lia).
    split; [apply advanced_length; auto; lia|].
    split; [rewrite app_length; lia|].
    intros t Ht1 Ht2 Ht3.
    assert (Hpos : forall p, (p < L)%nat ->
      nth_error (advanced L n (length xs) (put m idx xs)) p =
      if andb (Nat.leb idx p) (Nat.ltb p (idx + length xs)) then nth_error xs (p - idx)
      else if Nat.ltb (p + L) (idx + length xs) then nth_error xs (p + L - idx)
      else nth_error m p).
    { intros p Hp. unfold advanced. fold idx.
      destruct (Nat.ltb_spec L (idx + length xs)) as [Hw|Hw].
      - unfold wrap.
        assert (Hwl : length (firstn (idx + length xs - L) (skipn L (put m idx xs))) =
                      (idx + length xs - L)%nat)
          by (rewrite firstn_length, skipn_length; lia).
        rewrite put_nth by lia. rewrite Hwl, Nat.sub_0_r. cbn [Nat.add].
        destruct (Nat.ltb_spec p 0); [lia|].
        destruct (Nat.ltb_spec p (idx + length xs - L)).
        + rewrite nth_error_firstn'. destruct (Nat.ltb_spec p (idx + length xs - L)); [|lia].
          rewrite nth_error_skipn', put_nth by lia.
          destruct (Nat.ltb_spec (L + p) idx); [lia|].
          destruct (Nat.ltb_spec (L + p) (idx + length xs)); [|lia].
          destruct (Nat.leb_spec idx p); cbn [andb]; [lia|].
          destruct (Nat.ltb_spec (p + L) (idx + length xs)); [|lia]. f_equal; lia.
        + rewrite put_nth by lia.
          destruct (Nat.ltb_spec p idx); destruct (Nat.leb_spec idx p); try lia; cbn [andb].
          * destruct (Nat.ltb_spec (p + L) (idx + length xs)); [lia|auto].
          * destruct (Nat.ltb_spec p (idx + length xs)); auto.
            destruct (Nat.ltb_spec (p + L) (idx + length xs)); [lia|auto].
      - rewrite put_nth by lia.
        destruct (Nat.ltb_spec p idx); destruct (Nat.leb_spec idx p); try lia; cbn [andb].
        * destruct (Nat.ltb_spec (p + L) (idx + length xs)); [lia|auto].
        * destruct (Nat.ltb_spec p (idx + length xs)); auto.
          destruct (Nat.ltb_spec (p + L) (idx + length xs)); [lia|auto]. }
    pose proof (Z.mod_pos_bound t (Z.of_nat L) ltac:(lia)) as Htb.
    rewrite Hpos by lia. clear Hpos.
    destruct (Z.ltb_spec t n) as [Hold|Hnew].
    - (* an old sample, not overwritten *)
      rewrite nth_error_app1 by lia. rewrite <- Hrd by lia.
      set (d := n - t) in *.
      assert (t = n + - d) by lia.
      destruct (Z.leb_spec 0 (n mod Z.of_nat L + - d)).
      + pose proof (mod_shift n (- d) (Z.of_nat L) ltac:(lia) ltac:(lia)) as E.
        replace (n + - d) with t in E by lia.
        destruct (Nat.leb_spec idx (Z.to_nat (t mod Z.of_nat L))); cbn [andb]; [lia|].
        destruct (Nat.ltb_spec (Z.to_nat (t mod Z.of_nat L) + L) (idx + length xs)); [lia|auto].
      + pose proof (mod_shift_neg n (- d) (Z.of_nat L) ltac:(lia) ltac:(lia)) as E.
        replace (n + - d) with t in E by lia.
        destruct (Nat.leb_spec idx (Z.to_nat (t mod Z.of_nat L))); cbn [andb].
        * destruct (Nat.ltb_spec (Z.to_nat (t mod Z.of_nat L)) (idx + length xs)); [lia|].
          destruct (Nat.ltb_spec (Z.to_nat (t mod Z.of_nat L) + L) (idx + length xs)); [lia|auto].
        * destruct (Nat.ltb_spec (Z.to_nat (t mod Z.of_nat L) + L) (idx + length xs)); [lia|auto].
    - (* a sample of the block *)
      rewrite nth_error_app2 by lia.
      assert (Et : t = n + (t - n)) by lia.
      destruct (Z.ltb_spec (n mod Z.of_nat L + (t - n)) (Z.of_nat L)).
      + pose proof (mod_shift n (t - n) (Z.of_nat L) ltac:(lia) ltac:(lia)) as E.
        rewrite <- Et in E.
        destruct (Nat.leb_spec idx (Z.to_nat (t mod Z.of_nat L))); cbn [andb]; [|lia].
        destruct (Nat.ltb_spec (Z.to_nat (t mod Z.of_nat L)) (idx + length xs)); [|lia].
        f_equal; lia.
      + pose proof (mod_shift_wrap n (t - n) (Z.of_nat L) ltac:(lia) ltac:(lia)) as E.
        rewrite <- Et in E.
        destruct (Nat.leb_spec idx (Z.to_nat (t mod Z.of_nat L))); cbn [andb]; [lia|].
        destruct (Nat.ltb_spec (Z.to_nat (t mod Z.of_nat L) + L) (idx + length xs)); [|lia].
        f_equal; lia.
  Qed.

  Definition datas (good : list (block S)) (a : nat) : list S :=
    flat_map (fun b => nth a (bdata b) []) good.

  Definition inv (c : cfg) (from : Z) (good : list (block S)) (st : ring S) : Prop :=
    (8 * cM c <= cL c)%nat /\ (0 < cL c)%nat /\ 0 <= from /\ 0 <= cnt st /\
    length (mem st) = cant c /\
    ptr st = Z.to_nat (cnt st mod Z.of_nat (cL c)) /\
    forall a m, nth_error (mem st) a = Some m ->
      ant_ok (cL c) (cM c) from (cnt st) (datas good a) m.

  Lemma put_all_nth (l : list (list S)) (ds : list (list S)) p k a :
    length l = length ds ->
    nth_error (map (fun q => put (fst q) p (firstn k (snd q))) (combine l ds)) a =
    match nth_error l a with
    | Some m => Some (put m p (firstn k (nth a ds [])))
    | None => None
    end.
  Proof.
    revert ds a; induction l as [|h t IH]; intros [|d ds] [|a] H; try discriminate; try reflexivity.
    cbn [combine map nth_error nth]. apply IH. now injection H.
  Qed.

  Lemma hw_write_ok c st (b : block S) from good k :
    inv c from good st -> (k <= cM c)%nat -> length (bdata b) = cant c ->
    exists st1, hw_write c st b k = Ok st1 /\
      mem st1 = map (fun q => put (fst q) (ptr st) (firstn k (snd q))) (combine (mem st) (bdata b)) /\
      cnt st1 = cnt st /\ pre st1 = pre st /\ rxt st1 = rxt st /\ nxt st1 = nxt st /\
      notes st1 = notes st.
  Proof.
    intros (HM & HL & Hf & Hc & Hlen & Hp & Ha) Hk Hd.
    pose proof (Z.mod_pos_bound (cnt st) (Z.of_nat (cL c)) ltac:(lia)) as Hb.
    unfold hw_write. destruct (Nat.ltb_spec (cL c + cM c) (ptr st + k)); [lia|].
    eexists. repeat split.
  Qed.

  Lemma get_next_ok c (st : ring S) time n :
    (0 < cL c)%nat -> (n <= cM c)%nat -> 0 <= cnt st -> 0 <= time ->
    let t := if Z.abs (cnt st - time) <=? 1 then cnt st else time in
    exists st', get_next c st time n = Ok st' /\
      cnt st' = t + Z.of_nat n /\
      ptr st' = Z.to_nat ((t + Z.of_nat n) mod Z.of_nat (cL c)) /\
      mem st' = map (advanced (cL c) t n) (mem st) /\
      pre st' = pre st - Z.of_nat n /\
      rxt st' = (if 0 <=? pre st - Z.of_nat n then rxt st else t + Z.of_nat n).
  Proof.
    intros HL Hn Hc Ht t. unfold get_next, guard.
    destruct (Nat.leb_spec n (cM c)); [|lia].
    assert (Et : (if ((cnt st - time <? - jitter) || (jitter <? cnt st - time))%bool
                  then time else cnt st) = t).
    { unfold t, jitter.
      destruct (Z.ltb_spec (cnt st - time) (- (1)));
        destruct (Z.ltb_spec 1 (cnt st - time)); cbn [orb];
        destruct (Z.leb_spec (Z.abs (cnt st - time)) 1); auto; lia. }
    assert (H0 : (negb ((cnt st - time <? - jitter) || (jitter <? cnt st - time))
                  || (0 <=? cnt st))%bool = true).
    { destruct (Z.leb_spec 0 (cnt st)); [|lia]. now rewrite Bool.orb_true_r. }
    rewrite H0, Et.
    assert (Htp : 0 <= t) by (unfold t; destruct (Z.leb_spec (Z.abs (cnt st - time)) 1); lia).
    destruct (Z.ltb_spec t 0); [lia|].
    destruct (rem_pos t (cL c) Htp HL) as [E1 B1].
    destruct (rem_pos (t + Z.of_nat n) (cL c) ltac:(lia) HL) as [E2 B2].
    rewrite E1, E2.
    assert (Em : (if Nat.ltb (cL c) (Z.to_nat (t mod Z.of_nat (cL c)) + n)
                  then map (wrap (cL c) (Z.to_nat (t mod Z.of_nat (cL c)) + n - cL c)) (mem st)
                  else mem st) = map (advanced (cL c) t n) (mem st)).
    { unfold advanced. destruct (Nat.ltb_spec (cL c) (Z.to_nat (t mod Z.of_nat (cL c)) + n)); auto.
      now rewrite map_id. }
    rewrite Em.
    destruct (Z.leb_spec 0 (pre st - Z.of_nat n)); [eexists; repeat split|].
    destruct (Z.leb_spec (nxt st) (t + Z.of_nat n)); eexists; repeat split.
  Qed.

  Lemma flat_map_snoc a (good : list (block S)) b :
    datas (good ++ [b]) a = datas good a ++ nth a (bdata b) [].
  Proof. unfold datas. rewrite flat_map_app. cbn. now rewrite app_nil_r. Qed.

  Lemma deliver_inv c st (b : block S) from good :
    inv c from good st -> block_ok c b ->
    exists st', deliver c st b = Ok st' /\
      pre st' = pre st - Z.of_nat (blen b) /\
      rxt st' = (if 0 <=? pre st - Z.of_nat (blen b) then rxt st else cnt st') /\
      if Z.abs (cnt st - btime b) <=? 1
      then cnt st' = cnt st + Z.of_nat (blen b) /\ inv c from (good ++ [b]) st'
      else cnt st' = btime b + Z.of_nat (blen b) /\ inv c (btime b + Z.of_nat (blen b)) [] st'.
  Proof.
    intros Hinv (Hn & Hd & Hl & Ht).
    destruct (hw_write_ok c st b from good (blen b) Hinv Hn Hd)
      as (st1 & E1 & Hm1 & Hc1 & Hpre1 & Hrx1 & Hnx1 & Hno1).
    destruct Hinv as (HM & HL & Hf & Hc & Hlen & Hp & Ha).
    destruct (get_next_ok c st1 (btime b) (blen b) HL Hn ltac:(lia) Ht)
      as (st' & E2 & Hc2 & Hp2 & Hm2 & Hpre2 & Hrx2).
    rewrite Hc1, Hpre1, Hrx1 in *.
    exists st'. split; [unfold deliver; rewrite E1; cbn [bind]; exact E2|].
    split; [auto|]. split; [rewrite Hrx2, Hc2; reflexivity|].
    assert (Hl' : length (mem st) = length (bdata b)) by lia.
    assert (Hml : length (mem st') = cant c).
    { rewrite Hm2, map_length, Hm1, map_length, combine_length. lia. }
    assert (Hx : forall a m, nth_error (mem st) a = Some m ->
              length (nth a (bdata b) []) = blen b).
    { intros a m Em. assert (a < length (bdata b))%nat
        by (rewrite <- Hl'; apply nth_error_Some; congruence).
      rewrite Forall_forall in Hl. apply Hl. now apply nth_In. }
    pose proof (Z.mod_pos_bound (cnt st) (Z.of_nat (cL c)) ltac:(lia)) as Hb.
    destruct (Z.leb_spec (Z.abs (cnt st - btime b)) 1) as [Hj|Hj].
    - split; [auto|]. unfold inv. rewrite Hc2.
      do 4 (split; [auto; lia|]). split; [exact Hml|]. split; [exact Hp2|].
      intros a m H.
      rewrite Hm2, nth_error_map, Hm1, put_all_nth in H by auto.
      destruct (nth_error (mem st) a) as [m0|] eqn:Em; [|discriminate].
      cbn in H; injection H as <-.
      pose proof (ant_step (cL c) (cM c) from (cnt st) (datas good a) m0
                    (nth a (bdata b) []) HM HL Hf ltac:(rewrite (Hx a m0 Em); lia) (Ha a m0 Em)) as Hs.
      rewrite (Hx a m0 Em) in Hs; rewrite <- Hp in Hs.
      rewrite flat_map_snoc.
      rewrite (firstn_all2 (nth a (bdata b) [])) by (rewrite (Hx a m0 Em); lia).
      exact Hs.
    - split; [auto|]. unfold inv. rewrite Hc2.
      do 4 (split; [auto; lia|]). split; [exact Hml|]. split; [exact Hp2|].
      intros a m H.
      rewrite Hm2, nth_error_map, Hm1, put_all_nth in H by auto.
      destruct (nth_error (mem st) a) as [m0|] eqn:Em; [|discriminate].
      cbn in H; injection H as <-.
      specialize (Ha a m0 Em). destruct Ha as [Hlm _].
      split; [|split; [cbn; lia | intros; lia]].
      apply advanced_length; auto; try lia.
      rewrite put_length; [auto|].
      rewrite firstn_length, (Hx a m0 Em). lia.
  Qed.

  Lemma init_inv c zero st : (0 < cL c)%nat -> init c zero = Ok st -> inv c 0 [] st /\ cnt st = 0.
  Proof.
    unfold init, guard. intros HL. destruct (Nat.leb_spec (cM c * 8) (cL c)); [|discriminate].
    intros H0; injection H0 as <-. cbn. unfold inv; cbn.
    split; [|auto]. repeat split; auto; try lia.
    all: try (rewrite repeat_length; auto).
    all: try (apply nth_error_In, repeat_spec in H0; subst m; rewrite repeat_length; lia).
  Qed.

  Lemma run_inv c bs : forall st from (good : list (block S)),
    inv c from good st -> Forall (block_ok c) bs ->
    exists st', run c st bs = Ok st' /\
      (let '(f, n, g) := timeline from (cnt st) good bs in
       cnt st' = n /\ inv c f g st').
  Proof.
    induction bs as [|b r IH]; intros st from good Hinv Hok; cbn [run timeline].
    - eauto.
    - pose proof (Forall_inv Hok) as Hb. pose proof (Forall_inv_tail Hok) as Hr.
      destruct (deliver_inv c st b from good Hinv Hb) as (st1 & E1 & _ & _ & Hcase).
      rewrite E1. cbn [bind].
      destruct (Z.leb_spec (Z.abs (cnt st - btime b)) 1).
      + destruct Hcase as [Hc Hi]. rewrite <- Hc. now apply IH.
      + destruct Hcase as [Hc Hi]. rewrite <- Hc. apply IH; auto. now rewrite Hc.
  Qed.

  Lemma ring_holds c zero st0 bs :
    (0 < cL c)%nat -> init c zero = Ok st0 -> Forall (block_ok c) bs ->
    exists st : ring S, run c st0 bs = Ok st /\
      let '(from, n, good) := timeline 0 0 [] bs in
      cnt st = n /\
      forall a t, (a < cant c)%nat -> from <= t -> n - Z.of_nat (cL c) <= t -> t < n ->
        read c st a t = sample_at from good a t /\ sample_at from good a t <> None.
  Proof.
    intros HL Hi Hok. destruct (init_inv c zero st0 HL Hi) as [Hinv Hc0].
    destruct (run_inv c bs st0 0 [] Hinv Hok) as (st & E & H). rewrite Hc0 in H.
    exists st. split; [auto|].
    destruct (timeline 0 0 [] bs) as [[from n] good]. destruct H as [Hc Hv].
    split; [auto|]. intros a t Ha H1 H2 H3.
    destruct Hv as (_ & _ & Hf & _ & Hlen & _ & Hants).
    unfold read, sample_at. destruct (nth_error (mem st) a) as [m|] eqn:Em.
    2:{ apply nth_error_None in Em. lia. }
    destruct (Hants a m Em) as (Hl & Hn & Hr).
    destruct (Z.ltb_spec t from); [lia|]. fold (datas good a).
    split; [apply Hr; lia|]. apply nth_error_Some. lia.
  Qed.

  (** While the hardware is in the middle of writing the next block. *)
  Lemma ring_holds_midwrite c zero st0 bs b k :
    (0 < cL c)%nat -> init c zero = Ok st0 -> Forall (block_ok c) bs ->
    block_ok c b -> (k <= cM c)%nat ->
    exists st st' : ring S, run c st0 bs = Ok st /\ hw_write c st b k = Ok st' /\
      let '(from, n, good) := timeline 0 0 [] bs in
      forall a t, (a < cant c)%nat -> from <= t -> n - Z.of_nat (cL c) + Z.of_nat (cM c) <= t ->
        t < n -> read c st' a t = sample_at from good a t.
  Proof.
    intros HL Hi Hok Hb Hk. destruct (init_inv c zero st0 HL Hi) as [Hinv Hc0].
    destruct (run_inv c bs st0 0 [] Hinv Hok) as (st & E & H). rewrite Hc0 in H.
    destruct (timeline 0 0 [] bs) as [[from n] good] eqn:Etl. destruct H as [Hc Hv].
    destruct Hb as (Hn & Hd & Hl & Ht).
    destruct (hw_write_ok c st b from good k Hv Hk Hd) as (st' & E' & Hm' & _).
    exists st, st'. split; [auto|]. split; [auto|].
    intros a t Ha H1 H2 H3.
    destruct Hv as (HM & _ & Hf & Hcn & Hlen & Hp & Hants).
    unfold read, sample_at. rewrite Hm', put_all_nth by lia.
    destruct (nth_error (mem st) a) as [m|] eqn:Em.
    2:{ apply nth_error_None in Em. lia. }
    destruct (Hants a m Em) as (Hlm & Hln & Hr).
    destruct (Z.ltb_spec t from); [lia|].
    fold (datas good a). rewrite <- (Hr t) by lia.
    pose proof (Z.mod_pos_bound (cnt st) (Z.of_nat (cL c)) ltac:(lia)) as Hbd.
    pose proof (Z.mod_pos_bound t (Z.of_nat (cL c)) ltac:(lia)) as Htd.
    assert (length (firstn k (nth a (bdata b) [])) <= cM c)%nat as Hfl by (rewrite firstn_length; lia).
    rewrite put_nth by lia.
    destruct (Nat.ltb_spec (Z.to_nat (t mod Z.of_nat (cL c))) (ptr st)); auto.
    destruct (Nat.ltb_spec (Z.to_nat (t mod Z.of_nat (cL c)))
                (ptr st + length (firstn k (nth a (bdata b) [])))); auto.
    exfalso.
    assert (Et : t = cnt st + (t - cnt st)) by lia.
    destruct (Z.leb_spec 0 (cnt st mod Z.of_nat (cL c) + (t - cnt st))).
    - pose proof (mod_shift (cnt st) (t - cnt st) (Z.of_nat (cL c)) ltac:(lia) ltac:(lia)) as E2.
      rewrite <- Et in E2. lia.
    - pose proof (mod_shift_neg (cnt st) (t - cnt st) (Z.of_nat (cL c)) ltac:(lia) ltac:(lia)) as E2.
      rewrite <- Et in E2. lia.
  Qed.

  (** Published clock. *)
  Definition total (bs : list (block S)) : Z := fold_right (fun b s => Z.of_nat (blen b) + s) 0 bs.

  Lemma run_clock c bs : forall st from (good : list (block S)),
    inv c from good st -> Forall (block_ok c) bs ->
    (pre st < 0 -> rxt st = cnt st) -> (0 <= pre st -> rxt st = 0) ->
    exists st', run c st bs = Ok st' /\ pre st' = pre st - total bs /\
      rxt st' = (if 0 <=? pre st - total bs then 0 else cnt st').
  Proof.
    induction bs as [|b r IH]; intros st from good Hinv Hok Hr1 Hr2; cbn [run total fold_right].
    - exists st. split; [auto|]. split; [lia|]. rewrite Z.sub_0_r.
      destruct (Z.leb_spec 0 (pre st)); auto.
    - pose proof (Forall_inv Hok) as Hb. pose proof (Forall_inv_tail Hok) as Hrr.
      destruct (deliver_inv c st b from good Hinv Hb) as (st1 & E1 & Hp1 & Hx1 & Hcase).
      rewrite E1. cbn [bind].
      assert (exists f g, inv c f g st1) as (f & g & Hinv1).
      { destruct (Z.abs (cnt st - btime b) <=? 1); destruct Hcase; eauto. }
      destruct (IH st1 f g Hinv1 Hrr) as (st' & E2 & Hp2 & Hx2).
      + intros Hneg. rewrite Hx1. destruct (Z.leb_spec 0 (pre st - Z.of_nat (blen b))); lia.
      + intros Hpos. rewrite Hx1. destruct (Z.leb_spec 0 (pre st - Z.of_nat (blen b))); [|lia].
        apply Hr2. lia.
      + exists st'. split; [auto|]. fold (total r). split; [lia|].
        rewrite Hx2, Hp1. replace (pre st - Z.of_nat (blen b) - total r)
          with (pre st - (Z.of_nat (blen b) + total r)) by lia. reflexivity.
  Qed.

  Lemma clock_published c zero st0 bs :
    (0 < cL c)%nat -> 0 <= cpre c -> init c zero = Ok st0 -> Forall (block_ok c) bs ->
    exists st : ring S, run c st0 bs = Ok st /\
      rxt st = if total bs <=? cpre c then 0 else snd (fst (timeline 0 0 [] bs)).
  Proof.
    intros HL Hpre Hi Hok. destruct (init_inv c zero st0 HL Hi) as [Hinv Hc0].
    destruct (run_inv c bs st0 0 [] Hinv Hok) as (st & E & H). rewrite Hc0 in H.
    assert (Hpr0 : pre st0 = cpre c /\ rxt st0 = 0).
    { unfold init, guard in Hi. destruct (Nat.leb _ _); [|discriminate]. now injection Hi as <-. }
    destruct Hpr0 as [Hp0 Hx0].
    destruct (run_clock c bs st0 0 [] Hinv Hok ltac:(lia) ltac:(lia)) as (st' & E' & Hp & Hx).
    rewrite E in E'. injection E' as <-.
    exists st. split; [auto|]. rewrite Hx, Hp0.
    destruct (timeline 0 0 [] bs) as [[f n] g]. cbn. destruct H as [Hc _].
    destruct (Z.leb_spec 0 (cpre c - total bs)), (Z.leb_spec (total bs) (cpre c)); auto; lia.
  Qed.
End Facts.

Lemma wait_loop_spec target loads v :
  wait_loop target loads = Some v <->
  exists pre_ post, loads = pre_ ++ v :: post /\ Forall (fun x => x < target) pre_ /\ target <= v.
Proof.
  split.
  - induction loads as [|x r IH]; cbn; [discriminate|].
    destruct (Z.ltb_spec x target).
    + intros Hw. destruct (IH Hw) as (p & q & -> & Hp & Hv). exists (x :: p), q. auto.
    + intros Hw; injection Hw as <-. exists [], r. auto.
  - intros (p & q & -> & Hp & Hv). induction Hp as [|y p Hy Hp IH]; cbn.
    + destruct (Z.ltb_spec v target); [lia|auto].
    + destruct (Z.ltb_spec y target); [auto|lia].
Qed.

Lemma wait_until_spec target first rest v :
  wait_until target (first :: rest) = Some v <->
  (target < first /\ v = first) \/
  (first <= target /\ exists p q, rest = p ++ v :: q /\ Forall (fun x => x < target) p /\ target <= v).
Proof.
  cbn. destruct (Z.ltb_spec target first).
  - split; [intros H0; injection H0 as <-; left; lia|].
    intros [[_ ->]|[? _]]; [auto|lia].
  - rewrite wait_loop_spec. split; [intros; right; split; [lia|auto]|].
    intros [[? _]|[_ ?]]; [lia|auto].
Qed.
