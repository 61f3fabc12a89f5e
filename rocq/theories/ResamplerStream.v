From Verif Require Import Base IntHelpers Cells CellsFacts Resampler ResamplerSpec ResamplerFacts.
Open Scope N_scope.

Lemma slice_ok {A} (b : list A) p n : p + n <= len b -> slice _ b p n = Ok (firstn (N.to_nat n) (skipn (N.to_nat p) b)).
Proof. intros. unfold slice. replace (p + n <=? len b) with true by lia. reflexivity. Qed.
Lemma slice_len {A} (b : list A) p n y : slice _ b p n = Ok y -> len y = n.
Proof.
  unfold slice. destruct (N.leb_spec (p + n) (len b)); [|discriminate]. intros E. inversion E.
  unfold len in *. rewrite firstn_length, skipn_length. lia.
Qed.
Lemma len_nat {A} (l : list A) n : len l = n -> length l = N.to_nat n.
Proof. unfold len. lia. Qed.
Lemma skipn_app_le {A} n (a b : list A) : (n <= length a)%nat -> skipn n (a ++ b) = skipn n a ++ b.
Proof. intros. rewrite skipn_app. replace (n - length a)%nat with O by lia. reflexivity. Qed.
Lemma skipn_app_ge {A} n (a b : list A) : (length a <= n)%nat -> skipn n (a ++ b) = skipn (n - length a) b.
Proof. intros. rewrite skipn_app. rewrite skipn_all2 by lia. reflexivity. Qed.
Lemma skipn_skipn' {A} (l : list A) : forall n m, skipn n (skipn m l) = skipn (m + n) l.
Proof.
  intros n m; revert l; induction m; intros l; [reflexivity|]. destruct l; cbn [skipn Nat.add]; [now rewrite skipn_nil|]. apply IHm.
Qed.
Lemma mid {A} (a : list A) (k : nat) b : (k <= length a)%nat -> length a = length a -> firstn k (a ++ b) = firstn k a.
Proof. intros. rewrite firstn_app. replace (k - length a)%nat with O by lia. now rewrite firstn_O, app_nil_r. Qed.

Lemma antennas_ok {smp} (f : list smp -> list smp -> res (list smp * list smp * N)) g g' cnt' : forall xs vs cnt,
  (length xs <= length vs)%nat -> (forall v x, In (v, x) (combine vs xs) -> f v x = Ok (g v x, g' v x, cnt')) ->
  antennas _ f vs xs cnt = Ok (map (fun p => g (fst p) (snd p)) (combine vs xs),
    map (fun p => g' (fst p) (snd p)) (combine vs xs) ++ skipn (length xs) vs, match xs with [] => cnt | _ => cnt' end).
Proof.
  induction xs as [|x xs IH]; intros vs cnt Hl Hf; [destruct vs; reflexivity|].
  destruct vs as [|v vs]; cbn in Hl; [lia|]. cbn [antennas combine map skipn length app].
  rewrite Hf by (left; reflexivity). cbn [bind].
  rewrite IH; [|lia|intros; apply Hf; right; assumption]. cbn [bind fst snd]. destruct xs; reflexivity.
Qed.
Lemma antennas_shape {smp} (f : list smp -> list smp -> res (list smp * list smp * N)) (P : list smp -> Prop) :
  (forall v x o v' n, f v x = Ok (o, v', n) -> P v') -> forall xs vs cnt os vs' n,
  antennas _ f vs xs cnt = Ok (os, vs', n) -> Forall P vs -> Forall P vs' /\ length vs' = length vs.
Proof.
  intros HP. induction xs as [|x xs IH]; intros vs cnt os vs' n E F.
  - destruct vs; inversion E; subst; auto.
  - destruct vs as [|v vs]; [discriminate|]. cbn [antennas] in E.
    apply bind_ok_inv in E as ([[o v'] k] & E1 & E). apply bind_ok_inv in E as ([[os2 vs2] k2] & E2 & E).
    inversion E; subst. inversion F; subst. destruct (IH _ _ _ _ _ E2 H2) as [A B]. split.
    + constructor; [eapply HP; eassumption|assumption].
    + cbn. congruence.
Qed.

Lemma combine_at {A B} (vs : list A) : forall (xs : list B) a v x, nth_error vs a = Some v -> nth_error xs a = Some x ->
  nth_error (combine vs xs) a = Some (v, x).
Proof.
  induction vs as [|v' vs IH]; intros [|x' xs] [|a] v x V X; try discriminate; cbn in *; [congruence|eauto].
Qed.

Lemma combine_repeat {A B} (y : B) : forall k (vs : list A) a v, nth_error vs a = Some v -> (a < k)%nat ->
  nth_error (combine vs (repeat y k)) a = Some (v, y).
Proof.
  induction k; intros vs a v V A1; [lia|]. destruct vs as [|v' vs]; [destruct a; discriminate|].
  destruct a; cbn in *; [congruence|]. apply IHk; [exact V|lia].
Qed.

Section stream.
Variables (smp coef : Type) (s0 : smp) (f0 : coef) (dot : list smp -> list coef -> smp).
Variables (L M r K skip : N) (sub : N -> list coef) (c : config coef).
Hypothesis (HL : 1 <= L) (HM : 1 <= M) (HK : 1 <= K) (Hr : r < M).
Hypothesis (CL : c_L _ c = L) (CM : c_M _ c = M) (CK : c_sub_len _ c = K) (CH : c_hist _ c = K - 1).
Hypothesis (CS : forall l, l < L -> at_idx (c_sub _ c) l = Ok (sub l) /\ len (sub l) = K).
Hypothesis (CT : forall w, w < M -> at_idx (c_tab _ c) w = Ok (rowspec L M r w)).
Hypothesis (CI : c_impl _ c = Generic \/
  c_impl _ c = Unrolled (concat (map row_instr (map (rowspec L M r) (upto M)))) K).
Hypothesis (CP : c_skip _ c = skip) (SK : skip <= K - 1) (N1 : (L =? 1) && (M =? 1) = false).

Notation win := (win smp K).
Notation blk := (blk smp coef dot L M r K sub).
Notation kc := (kc L M r).
Notation H := (K - 1).
Notation zeros := (repeat s0 (N.to_nat H)).

Lemma zeros_len : length zeros = N.to_nat H.
Proof. apply repeat_length. Qed.
Lemma win_pre b b' p : p + K <= len b -> win (b ++ b') p = win b p.
Proof.
  intros B. unfold win, len in *. rewrite skipn_app_le by lia. apply mid; [|reflexivity]. rewrite skipn_length. lia.
Qed.
Lemma win_hist pad x n j : len pad = n + H -> H <= len x -> j < H ->
  win (skipn (N.to_nat n) pad ++ firstn (N.to_nat H) x) j = win (pad ++ x) (n + j).
Proof.
  intros P X J. unfold win, len in *.
  rewrite skipn_app_le by (rewrite skipn_length; lia). rewrite skipn_skipn'.
  rewrite skipn_app_le by lia. replace (N.to_nat (n + j)) with (N.to_nat n + N.to_nat j)%nat by lia.
  rewrite !firstn_app, skipn_length. f_equal. rewrite firstn_firstn. f_equal. lia.
Qed.
Lemma win_new pad x n j : len pad = n + H -> win x j = win (pad ++ x) (n + H + j).
Proof.
  intros P. unfold win, len in *. rewrite skipn_app_ge by lia. do 2 f_equal. lia.
Qed.
Lemma win_flush pad z n j : len pad = n + H -> j < H -> win (skipn (N.to_nat n) pad ++ z) j = win (pad ++ z) (n + j).
Proof.
  intros P J. unfold win, len in *.
  rewrite skipn_app_le by (rewrite skipn_length; lia). rewrite skipn_skipn'.
  rewrite skipn_app_le by lia. replace (N.to_nat (n + j)) with (N.to_nat n + N.to_nat j)%nat by lia. reflexivity.
Qed.

Lemma antenna_ok pad n sk w v x : len pad = n + H -> H <= len v -> H <= len x -> sk <= H ->
  firstn (N.to_nat H) v = skipn (N.to_nat n) pad ->
  antenna _ _ dot c sk (w mod M) (len x) v x =
  Ok (blk (pad ++ x) (n + sk) w (N.to_nat (len x - sk)), skipn (N.to_nat (len x - H)) x ++ firstn (N.to_nat H) x,
      (w + (len x - sk)) mod M).
Proof.
  intros P V X S E. unfold antenna. rewrite CH.
  rewrite !slice_ok by lia. cbn [bind N.to_nat skipn]. rewrite E.
  assert (LB : len (skipn (N.to_nat n) pad ++ firstn (N.to_nat H) x) = H + H).
  { rewrite len_app. unfold len in *. rewrite skipn_length, firstn_length. lia. }
  rewrite (run_impl_ok smp coef dot L M r K sub c) by (try assumption; lia). cbn [bind].
  rewrite (run_impl_ok smp coef dot L M r K sub c) by (try assumption; lia). cbn [bind].
  replace (firstn (N.to_nat H) (skipn (N.to_nat (len x - H)) x)) with (skipn (N.to_nat (len x - H)) x)
    by (symmetry; apply firstn_all2; rewrite skipn_length; unfold len in *; lia).
  do 2 f_equal; [|f_equal; lia]. f_equal.
  replace (N.to_nat (len x - sk)) with (N.to_nat (H - sk) + N.to_nat (len x - H))%nat by lia.
  rewrite blk_app. f_equal.
  - apply blk_ext. intros j J. rewrite win_hist by lia. f_equal. lia.
  - replace (w + N.of_nat (N.to_nat (H - sk))) with (w + (H - sk)) by lia.
    apply blk_ext. intros j J. rewrite (win_new pad x n) by lia. f_equal. lia.
Qed.
Lemma flush_ok pad n w v x : len pad = n + H -> H <= len v -> firstn (N.to_nat H) v = skipn (N.to_nat n) pad ->
  flush_antenna _ _ s0 dot c (w mod M) v x =
  Ok (blk (pad ++ zeros) n w (N.to_nat H), skipn (N.to_nat n) pad ++ zeros, (w + H) mod M).
Proof.
  intros P V E. unfold flush_antenna. rewrite CH. rewrite slice_ok by lia. cbn [bind N.to_nat skipn]. rewrite E.
  assert (LB : len (skipn (N.to_nat n) pad ++ zeros) = H + H).
  { rewrite len_app. unfold len in *. rewrite skipn_length, zeros_len. lia. }
  rewrite (generic_ok smp coef dot L M r K sub c) by (try assumption; lia). cbn [bind]. do 2 f_equal; [|f_equal; lia].
  f_equal. apply blk_ext. intros j J. replace (0 + N.of_nat j) with (N.of_nat j) by lia. apply win_flush; lia.
Qed.

(** ** Streams of several antennas *)
Variable nant : nat.
Hypothesis (NA : (1 <= nant)%nat).
Definition chunk : Type := (N * list (list smp))%type.
Definition chunk_ok (ch : chunk) : Prop :=
  length (snd ch) = nant /\ Forall (fun x => len x = fst ch) (snd ch) /\ H <= fst ch.
Definition inv (s : state smp) (X : nat -> list smp) (n : N) : Prop :=
  (nant <= length (r_hist _ s))%nat /\
  (forall a, (a < nant)%nat -> len (X a) = n /\ exists v, nth_error (r_hist _ s) a = Some v /\ H <= len v /\
     firstn (N.to_nat H) v = skipn (N.to_nat n) (zeros ++ X a)) /\
  (r_skip _ s = 0 /\ skip <= n \/ n = 0 /\ r_skip _ s = skip) /\
  r_cnt _ s = (n + r_skip _ s - skip) mod M.
Definition sofar (s : state smp) (X : nat -> list smp) (n : N) (a : nat) : list smp :=
  blk (zeros ++ X a) skip 0 (N.to_nat (n + r_skip _ s - skip)).
Definition ext (X : nat -> list smp) (ch : chunk) (a : nat) : list smp := X a ++ nth a (snd ch) [].

Lemma len_pad (x : list smp) : len (zeros ++ x) = len x + H.
Proof. rewrite len_app. unfold len. rewrite zeros_len. lia. Qed.
Lemma bound_ok w k n q : k <= n -> n <= q * M -> kc (w + k) - kc w <= q * L.
Proof.
  intros A B. pose proof (kc_mono L M r HL HM (w + k) (w + q * M) ltac:(lia)).
  assert (E : kc (w + q * M) = kc w + q * L).
  { clear - HL HM Hr. induction q using N.peano_ind; [rewrite !N.mul_0_l, !N.add_0_r; reflexivity|].
    replace (w + N.succ q * M) with (w + q * M + M) by lia. rewrite kc_period by assumption. rewrite IHq. lia. }
  lia.
Qed.

Definition call_ok (ch : chunk) (o : list (list smp)) : Prop :=
  length o = nant /\ (exists k, Forall (fun y => len y = k) o) /\
  forall q, fst ch <= q * M -> Forall (fun y => len y <= q * L) o.

Lemma resample_ok s X n ch : inv s X n -> chunk_ok ch ->
  exists o s', resample _ _ dot c s (snd ch) (fst ch) = Ok (o, s') /\ inv s' (ext X ch) (n + fst ch) /\
    r_skip _ s' = 0 /\
    (forall a, (a < nant)%nat -> sofar s X n a ++ nth a o [] = sofar s' (ext X ch) (n + fst ch) a) /\ call_ok ch o.
Proof.
  intros (IL & IA & IS & IC) (CL1 & CF & CN). destruct ch as [m xs]. cbn [fst snd] in *.
  set (sk := r_skip _ s) in *. assert (S : sk <= H) by (destruct IS as [[? ?]|[? ?]]; lia).
  set (w := n + sk - skip) in *.
  unfold resample. fold sk. rewrite CL, CM, N1, CH. unfold guard. replace (H <=? m) with true by lia.
  assert (HF : forall a v x, nth_error (r_hist _ s) a = Some v -> nth_error xs a = Some x -> len x = m /\ (a < nant)%nat /\ len (X a) = n /\
     antenna _ _ dot c sk (w mod M) m v x =
     Ok (blk ((zeros ++ X a) ++ x) (n + sk) w (N.to_nat (m - sk)), skipn (N.to_nat (m - H)) x ++ firstn (N.to_nat H) x,
      (w + (m - sk)) mod M)).
  { intros a v x V Xx. assert (AA : (a < nant)%nat) by (rewrite <- CL1; apply nth_error_Some; congruence).
    assert (Lx : len x = m) by (rewrite Forall_forall in CF; apply CF; eapply nth_error_In; eassumption).
    destruct (IA a AA) as (E1 & v' & E2 & E3 & E4). split; [exact Lx|]. split; [exact AA|]. split; [exact E1|].
    rewrite V in E2. injection E2 as <-.
    rewrite <- Lx. apply antenna_ok; [rewrite len_pad; lia|assumption|lia|assumption|assumption]. }
  set (g := fun v x => match antenna _ _ dot c sk (w mod M) m v x with Ok (o, _, _) => o | _ => [] end).
  set (g' := fun v x : list smp => skipn (N.to_nat (m - H)) x ++ firstn (N.to_nat H) x).
  rewrite (antennas_ok _ g g' ((w + (m - sk)) mod M)).
  2: lia.
  2:{ intros v x I. apply In_nth_error in I as [a I].
      assert (V : nth_error (r_hist _ s) a = Some v /\ nth_error xs a = Some x).
      { clear - I. revert xs a I. induction (r_hist smp s) as [|v' vs IH]; intros xs a I; [destruct a; discriminate|].
        destruct xs as [|x' xs]; [destruct a; discriminate|]. destruct a; cbn in I.
        - inversion I. auto.
        - apply IH in I. exact I. }
      destruct V as [V Xx]. destruct (HF a v x V Xx) as (_ & _ & _ & E). rewrite IC. subst g g'. cbv beta. rewrite E. reflexivity. }
  cbn [bind]. eexists _, _. split; [reflexivity|].
  assert (CB : forall a v x, nth_error (r_hist _ s) a = Some v -> nth_error xs a = Some x ->
             nth_error (combine (r_hist _ s) xs) a = Some (v, x)).
  { intros. apply combine_at; assumption. }
  assert (XS : forall a, (a < nant)%nat -> exists x, nth_error xs a = Some x /\ nth a xs [] = x).
  { intros a A. destruct (nth_error xs a) eqn:E; [|apply nth_error_None in E; lia].
    exists l. split; [reflexivity|]. apply nth_error_nth. exact E. }
  assert (LC : length (combine (r_hist _ s) xs) = nant) by (rewrite combine_length; lia).
  cbn [r_hist r_skip r_cnt].
  assert (OUT : forall a, (a < nant)%nat -> exists x, nth a xs [] = x /\
     nth a (map (fun p => g (fst p) (snd p)) (combine (r_hist smp s) xs)) [] =
     blk ((zeros ++ X a) ++ x) (n + sk) w (N.to_nat (m - sk))).
  { intros a A. destruct (XS a A) as (x & E1 & E2). exists x. split; [exact E2|].
    destruct (IA a A) as (_ & v & E3 & _). apply nth_error_nth.
    rewrite (map_nth_error _ _ _ (CB a v x E3 E1)). cbn [fst snd]. subst g. cbv beta.
    destruct (HF a v x E3 E1) as (_ & _ & _ & ->). reflexivity. }
  split; [|split; [reflexivity|split]].
  - split; [|split; [|split]]; cbn [r_hist r_skip r_cnt].
    + rewrite app_length, map_length, LC. lia.
    + intros a A. destruct (XS a A) as (x & E1 & E2). destruct (IA a A) as (E3 & v & E4 & E5 & E6).
      destruct (HF a v x E4 E1) as (E7 & _ & _ & _). unfold ext. cbn [snd]. rewrite E2. rewrite len_app.
      split; [lia|]. exists (g' v x). split; [|split].
      * rewrite nth_error_app1 by (rewrite map_length; lia). rewrite (map_nth_error _ _ _ (CB a v x E4 E1)). reflexivity.
      * unfold g'. rewrite len_app. unfold len in *. rewrite skipn_length, firstn_length. lia.
      * unfold g'. unfold len in *. rewrite firstn_app, skipn_length.
        rewrite firstn_all2 by (rewrite skipn_length; lia).
        replace (N.to_nat H - (length x - N.to_nat (m - H)))%nat with O by lia. rewrite firstn_O, app_nil_r.
        rewrite app_assoc. rewrite skipn_app_ge by (rewrite app_length, zeros_len; lia).
        f_equal. rewrite app_length, zeros_len. lia.
    + left. split; [reflexivity|]. destruct IS as [[? ?]|[? ?]]; lia.
    + destruct xs as [|x0 xs0]; [cbn in CL1; lia|]. f_equal. destruct IS as [[? ?]|[? ?]]; lia.
  - intros a A. destruct (OUT a A) as (x & E2 & ->). unfold sofar, ext. cbn [snd r_skip]. rewrite E2.
    destruct (IA a A) as (E3 & _).
    replace (N.to_nat (n + m + 0 - skip)) with (N.to_nat w + N.to_nat (m - sk))%nat by (destruct IS as [[? ?]|[? ?]]; lia).
    rewrite blk_app. fold sk. fold w. rewrite <- app_assoc. f_equal.
    + apply blk_ext. intros j J. rewrite app_assoc. symmetry. apply win_pre. rewrite len_pad.
      destruct IS as [[? ?]|[? ?]]; lia.
    + f_equal; destruct IS as [[? ?]|[? ?]]; lia.
  - split; [|split]; cbn [fst].
    + rewrite map_length. exact LC.
    + exists (kc (w + (m - sk)) - kc w). apply Forall_forall. intros y I. apply In_nth with (d := []) in I as (a & A & <-).
      rewrite map_length, LC in A. destruct (OUT a A) as (x & _ & ->). rewrite blk_len by assumption. do 3 f_equal. lia.
    + intros q Q. apply Forall_forall. intros y I. apply In_nth with (d := []) in I as (a & A & <-).
      rewrite map_length, LC in A. destruct (OUT a A) as (x & _ & ->). rewrite blk_len by assumption.
      apply (bound_ok w _ m); lia.
Qed.

Lemma final_ok s X n : inv s X n -> r_skip _ s = 0 ->
  exists o s', resample_final_samples _ _ s0 dot c s nant = Ok (o, s') /\ length o = nant /\
    forall a, (a < nant)%nat -> sofar s X n a ++ nth a o [] = blk (zeros ++ X a ++ zeros) skip 0 (N.to_nat (n + H - skip)).
Proof.
  intros (IL & IA & IS & IC) S0. unfold resample_final_samples. rewrite CL, CM, N1.
  rewrite S0 in *. set (w := n + 0 - skip) in *.
  assert (SN : skip <= n) by (destruct IS as [[? ?]|[? ?]]; lia).
  set (g := fun v x => match flush_antenna _ _ s0 dot c (w mod M) v x with Ok (o, _, _) => o | _ => [] end).
  set (g' := fun v x => match flush_antenna _ _ s0 dot c (w mod M) v x with Ok (_, v, _) => v | _ => [] end).
  assert (HF : forall a v x, (a < nant)%nat -> nth_error (r_hist _ s) a = Some v ->
     flush_antenna _ _ s0 dot c (w mod M) v x =
     Ok (blk ((zeros ++ X a) ++ zeros) n w (N.to_nat H), skipn (N.to_nat n) (zeros ++ X a) ++ zeros, (w + H) mod M)).
  { intros a v x A V. destruct (IA a A) as (E1 & v' & E2 & E3 & E4). rewrite V in E2. injection E2 as <-.
    apply flush_ok; [rewrite len_pad; lia|assumption|assumption]. }
  assert (LC : length (combine (r_hist _ s) (repeat (@nil smp) nant)) = nant) by (rewrite combine_length, repeat_length; lia).
  assert (CB : forall k (vs : list (list smp)) a v, nth_error vs a = Some v -> (a < k)%nat -> nth_error (combine vs (repeat (@nil smp) k)) a = Some (v, [])).
  { intros. apply combine_repeat; assumption. }
  rewrite (antennas_ok _ g g' ((w + H) mod M)).
  2: rewrite repeat_length; lia.
  2:{ intros v x I. apply In_nth_error in I as [a I]. assert (A : (a < nant)%nat) by (rewrite <- LC; apply nth_error_Some; congruence).
      destruct (IA a A) as (_ & v' & E2 & _ & _). rewrite (CB _ _ _ _ E2 A) in I. injection I as <- <-.
      rewrite IC. subst g g'. cbv beta. rewrite (HF a v' [] A E2). reflexivity. }
  cbn [bind]. eexists _, _. split; [reflexivity|]. split; [rewrite map_length; exact LC|].
  intros a A. destruct (IA a A) as (E1 & v & E2 & _ & _).
  erewrite nth_error_nth by (apply map_nth_error; apply (CB _ _ _ _ E2 A)). cbn [fst snd]. subst g. cbv beta. rewrite (HF a v [] A E2).
  unfold sofar. rewrite S0. fold w.
  replace (N.to_nat (n + H - skip)) with (N.to_nat w + N.to_nat H)%nat by lia. rewrite blk_app. rewrite app_assoc. f_equal.
  - apply blk_ext. intros j J. symmetry. apply win_pre. rewrite len_pad. lia.
  - f_equal; lia.
Qed.

Definition chunk_op (ch : chunk) : op smp := Resample _ (snd ch) (fst ch).
Definition joined (chs : list chunk) (a : nat) : list smp := concat (map (fun ch => nth a (snd ch) []) chs).

Lemma inv_ext s X Y n : (forall a, (a < nant)%nat -> X a = Y a) -> inv s X n -> inv s Y n.
Proof.
  intros E (A & B & C & D). split; [exact A|]. split; [|split; [exact C|exact D]].
  intros a I. rewrite <- (E a I). apply B; exact I.
Qed.
Lemma chunks_ok : forall chs s X n, inv s X n -> Forall chunk_ok chs ->
  exists os s' n', run _ _ s0 dot c s (map chunk_op chs) = Ok (os, s') /\
    inv s' (fun a => X a ++ joined chs a) n' /\ (chs <> [] -> r_skip _ s' = 0) /\
    (forall a, (a < nant)%nat -> sofar s X n a ++ concat (map (fun o => nth a o []) os) = sofar s' (fun a => X a ++ joined chs a) n' a) /\
    Forall2 call_ok chs os.
Proof.
  induction chs as [|ch chs IH]; intros s X n I F.
  - exists [], s, n. split; [reflexivity|]. split; [|split; [|split]].
    + eapply inv_ext; [|exact I]. intros. cbn. now rewrite app_nil_r.
    + intros C; now contradiction C.
    + intros a A. unfold sofar. cbn. now rewrite !app_nil_r.
    + constructor.
  - assert (F1 : chunk_ok ch) by (inversion F; assumption). assert (F2 : Forall chunk_ok chs) by (inversion F; assumption).
    destruct (resample_ok s X n ch I F1) as (o & s1 & E & I1 & Z1 & O1 & B1).
    destruct (IH s1 (ext X ch) (n + fst ch) I1 F2) as (os & s2 & n2 & E2 & I2 & Z2 & O2 & B2).
    assert (EX : forall a, ext X ch a ++ joined chs a = X a ++ joined (ch :: chs) a).
    { intros. unfold ext, joined. cbn [map concat]. now rewrite app_assoc. }
    exists (o :: os), s2, n2. split; [|split; [|split; [|split]]].
    + cbn [map run chunk_op step]. rewrite E. cbn [bind]. fold (map chunk_op chs). rewrite E2. reflexivity.
    + eapply inv_ext; [|exact I2]. intros. apply EX.
    + intros _. destruct chs as [|c2 chs]; [|apply Z2; discriminate]. cbn in E2. injection E2 as <- <-. exact Z1.
    + intros a A. cbn [map concat]. rewrite app_assoc, O1, O2 by assumption. unfold sofar. now rewrite EX.
    + constructor; assumption.
Qed.

Definition shape (s : state smp) (m : nat) : Prop :=
  length (r_hist _ s) = m /\ Forall (fun v => len v = H + H) (r_hist _ s).
Lemma reset_inv s m : shape s m -> (nant <= m)%nat -> inv (reset _ _ s0 c s) (fun _ => []) 0.
Proof.
  intros (A & B) Nm. rewrite Forall_forall in B. unfold reset. rewrite CH, CP. split; [|split; [|split]]; cbn [r_hist r_skip r_cnt].
  - rewrite map_length. lia.
  - intros a I. split; [reflexivity|]. destruct (nth_error (r_hist _ s) a) as [v|] eqn:E; [|apply nth_error_None in E; lia].
    eexists. split; [apply map_nth_error; exact E|]. pose proof (B v (nth_error_In _ _ E)) as V.
    split.
    + rewrite len_app. unfold len in *. rewrite zeros_len, skipn_length. lia.
    + cbn [N.to_nat skipn]. rewrite app_nil_r. rewrite firstn_app, zeros_len, Nat.sub_diag, firstn_O, app_nil_r.
      apply firstn_all2. rewrite zeros_len. lia.
  - right. auto.
  - replace (0 + skip - skip) with 0 by lia. now rewrite N.mod_0_l by lia.
Qed.
Lemma reset_shape s m : shape s m -> shape (reset _ _ s0 c s) m.
Proof.
  intros (A & B). unfold reset. rewrite CH. split; cbn [r_hist].
  - rewrite map_length. exact A.
  - rewrite Forall_forall in *. intros v I. apply in_map_iff in I as (u & <- & I). apply B in I.
    rewrite len_app. unfold len in *. rewrite zeros_len, skipn_length. lia.
Qed.
Lemma step_shape s m o y s' : shape s m -> step _ _ s0 dot c s o = Ok (y, s') -> shape s' m.
Proof.
  intros (A & B) E. destruct o as [xs k|k|]; cbn [step] in E.
  - unfold resample in E. rewrite CL, CM, N1 in E. unfold guard in E. destruct (_ <=? _); [|discriminate].
    apply bind_ok_inv in E as ([[os vs] cnt] & E1 & E). injection E as <- <-.
    edestruct @antennas_shape with (P := fun v : list smp => len v = H + H) as [S1 S2]; [|exact E1|exact B|split; cbn; [congruence|exact S1]].
    intros v x o v' n E2. unfold antenna in E2. rewrite CH in E2.
    apply bind_ok_inv in E2 as (new & X1 & E2). apply bind_ok_inv in E2 as (old & X2 & E2).
    apply bind_ok_inv in E2 as ([o1 c1] & X3 & E2). apply bind_ok_inv in E2 as ([o2 c2] & X4 & E2).
    apply bind_ok_inv in E2 as (last & X5 & E2). injection E2 as <- <- <-. rewrite len_app.
    apply slice_len in X1. apply slice_len in X5. lia.
  - unfold resample_final_samples in E. rewrite CL, CM, N1 in E.
    apply bind_ok_inv in E as ([[os vs] cnt] & E1 & E). injection E as <- <-.
    edestruct @antennas_shape with (P := fun v : list smp => len v = H + H) as [S1 S2]; [|exact E1|exact B|split; cbn; [congruence|exact S1]].
    intros v x o v' n E2. unfold flush_antenna in E2. rewrite CH in E2.
    apply bind_ok_inv in E2 as (old & X2 & E2). apply bind_ok_inv in E2 as ([o1 c1] & X3 & E2). injection E2 as <- <- <-.
    rewrite len_app. apply slice_len in X2. unfold len in *. rewrite zeros_len. lia.
  - injection E as <- <-. apply reset_shape. split; assumption.
Qed.
Lemma run_shape m : forall ops s y s', shape s m -> run _ _ s0 dot c s ops = Ok (y, s') -> shape s' m.
Proof.
  induction ops as [|o ops IH]; intros s y s' S E; cbn [run] in E; [injection E as <- <-; exact S|].
  apply bind_ok_inv in E as ([y1 s1] & E1 & E). apply bind_ok_inv in E as ([y2 s2] & E2 & E). injection E as <- <-.
  eapply IH; [|exact E2]. eapply step_shape; eassumption.
Qed.
Lemma run_app : forall a b s, run _ _ s0 dot c s (a ++ b) =
  (do (y, s') <- run _ _ s0 dot c s a ; do (z, s'') <- run _ _ s0 dot c s' b ; Ok (y ++ z, s'')).
Proof.
  induction a as [|o a IH]; intros b s; cbn [run app].
  - cbn [bind]. destruct (run _ _ s0 dot c s b) as [[? ?]| | |]; reflexivity.
  - destruct (step _ _ s0 dot c s o) as [[y s']| | |]; cbn [bind]; try reflexivity. rewrite IH.
    destruct (run _ _ s0 dot c s' a) as [[? s2]| | |]; cbn [bind]; try reflexivity.
    destruct (run _ _ s0 dot c s2 b) as [[? ?]| | |]; reflexivity.
Qed.

Lemma whole_ok s m chs : shape s m -> (nant <= m)%nat -> chs <> [] -> Forall chunk_ok chs ->
  exists os fin s', run _ _ s0 dot c (reset _ _ s0 c s) (map chunk_op chs ++ [Final _ nant]) = Ok (os ++ [fin], s') /\
    Forall2 call_ok chs os /\ length fin = nant /\
    forall a, (a < nant)%nat -> concat (map (fun o => nth a o []) (os ++ [fin])) =
      blk (zeros ++ joined chs a ++ zeros) skip 0 (N.to_nat (len (joined chs a) + H - skip)).
Proof.
  intros S Nm NE F. pose proof (reset_inv s m S Nm) as I.
  destruct (chunks_ok chs _ _ _ I F) as (os & s1 & n1 & E1 & I1 & Z1 & O1 & B1). specialize (Z1 NE).
  destruct (final_ok s1 _ n1 I1 Z1) as (fin & s2 & E2 & LF & O2).
  exists os, fin, s2. split; [|split; [exact B1|split; [exact LF|]]].
  - rewrite run_app, E1. cbn [bind run step]. rewrite E2. reflexivity.
  - intros a A. rewrite map_app, concat_app. cbn [map concat]. rewrite app_nil_r.
    specialize (O1 a A). specialize (O2 a A). destruct I1 as (_ & IA & _ & _). destruct (IA a A) as (LA & _). cbn [app] in *.
    assert (Z0 : sofar (reset smp coef s0 c s) (fun _ => []) 0 a = []).
    { unfold sofar, reset. cbn [r_skip]. rewrite CP. replace (N.to_nat (0 + skip - skip)) with O by lia. reflexivity. }
    rewrite Z0 in O1. cbn [app] in O1. rewrite O1, O2. rewrite LA. reflexivity.
Qed.
End stream.
