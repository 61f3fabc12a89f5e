(** Lemmas for C56. *)
From Verif Require Import Base MovSum MovSumSpec MovSumFacts AutocorrFacts ChunkSearch ChunkSearchSpec.

Lemma stf_eq c : gstf c = stf c. Proof. unfold gstf, gP, stf. lia. Qed.
Lemma step_eq c : gstep c = quarter c.
Proof. unfold gstep, gP, quarter. replace (16 * gbos c) with (4 * gbos c * 4) by lia. apply Nat.div_mul. lia. Qed.
Lemma slen_eq c : gslen c = chunk_end c.
Proof. unfold gslen, gB, chunk_end. rewrite stf_eq. lia. Qed.
Lemma gsm_eq c : gsm c = 2 * gbos c + 1. Proof. unfold gsm, goff. lia. Qed.

Lemma last_max_range b f n : 0 < n -> b <= last_max f b n < b + n.
Proof.
  induction n as [|n IH]; intros H; [lia|]. cbn [last_max]. destruct (Nat.eq_dec n 0) as [->|N]; [cbn; destruct (Z.leb _ _); lia|].
  specialize (IH ltac:(lia)). cbv zeta. destruct (Z.leb _ _); lia.
Qed.

(** [last_max] is what its name says *)
Lemma last_max_is (f : nat -> Z) b n : forall j, b <= j < b + n ->
  (f j <= f (last_max f b n))%Z /\ (last_max f b n < j -> (f j < f (last_max f b n))%Z).
Proof.
  induction n as [|n IH]; intros j Hj; [lia|]. cbn [last_max]. cbv zeta.
  destruct (Nat.eq_dec n 0) as [->|N].
  { cbn [last_max]. rewrite Nat.add_0_r, Z.leb_refl. replace j with b by lia. split; [lia|lia]. }
  pose proof (last_max_range b f n ltac:(lia)).
  destruct (Z.leb_spec (f (last_max f b n)) (f (b + n))) as [L|L].
  - destruct (Nat.eq_dec j (b + n)) as [->|NE]; [lia|]. destruct (IH j ltac:(lia)). split; lia.
  - destruct (Nat.eq_dec j (b + n)) as [->|NE]; [lia|]. apply IH. lia.
Qed.

(** ** The peak search on one antenna *)
Section Ant.
Variables (c : scfg) (m : nat -> Z) (b : nat).
Let n_sm := 2 * gbos c + 1.

Definition smo (i : nat) : Z :=
  sumf Zops n_sm (fun t => if Nat.leb (b + n_sm) (i + 1 + t) then m (i + 1 + t - n_sm) else 0%Z).

Lemma recent_smo n t : t < n_sm -> 0 < n ->
  recent Zops n_sm (map m (seq b n)) t =
  if Nat.leb (b + n_sm) (b + n - 1 + 1 + t) then m (b + n - 1 + 1 + t - n_sm) else 0%Z.
Proof.
  intros T Hn. unfold recent. rewrite map_length, seq_length.
  destruct (Nat.leb_spec (b + n_sm) (b + n - 1 + 1 + t)) as [H|H].
  - rewrite app_nth2; rewrite repeat_length; [|lia].
    rewrite nth_indep with (d' := m 0) by (rewrite map_length, seq_length; lia).
    rewrite map_nth, seq_nth by lia. f_equal. lia.
  - rewrite app_nth1 by (rewrite repeat_length; lia). change (zero Zops) with 0%Z. apply nth_repeat.
Qed.

Lemma history_push (l : list Z) : history (map Push l) = l.
Proof.
  unfold history. assert (E : forall h, fold_left (fun h o => match o with Push v => h ++ [v] | Resum => h | Reset => [] end) (map Push l) h = h ++ l).
  { induction l as [|x l IH]; intros h; cbn [map fold_left]; [rewrite app_nil_r; reflexivity|]. rewrite IH, <- app_assoc. reflexivity. }
  apply E.
Qed.

Lemma run_app (o1 o2 : list op) s : run Zops (o1 ++ o2) s = do s' <- run Zops o1 s; run Zops o2 s'.
Proof.
  revert s. induction o1 as [|o o1 IH]; intros s; cbn [app run]; [reflexivity|].
  destruct (step Zops o s); cbn [bind]; auto.
Qed.

Definition loaded (n : nat) (sm : ms Z) : Prop := run Zops (map Push (map m (seq b n))) (make Zops n_sm) = Ok sm.

Lemma loaded_sum n sm : 0 < n -> loaded n sm -> sum sm = smo (b + n - 1).
Proof.
  intros Hn H. destruct Z_exact as [(one & mul & opp & RT) E1 En E2 Ea].
  assert (N0 : 0 < n_sm) by (unfold n_sm; lia).
  destruct (inv_run Zops one mul opp RT E1 En E2 Ea n_sm (map Push (map m (seq b n))) (make Zops n_sm) [] (inv_make Zops one mul opp RT E1 En E2 Ea n_sm _ N0 eq_refl) N0) as (m' & R' & [_ S]).
  unfold loaded in H. rewrite H in R'. injection R' as <-. rewrite S.
  pose proof (history_push (map m (seq b n))) as HP. unfold history in HP. unfold after. rewrite HP. unfold smo. apply sumf_ext. intros i Hi. apply recent_smo; assumption.
Qed.

Lemma loaded_push n sm : loaded n sm -> exists sm', pop_push Zops (m (b + n)) sm = Ok sm' /\ loaded (S n) sm'.
Proof.
  intros H. destruct Z_exact as [(one & mul & opp & RT) E1 En E2 Ea].
  assert (N0 : 0 < n_sm) by (unfold n_sm; lia).
  destruct (inv_run Zops one mul opp RT E1 En E2 Ea n_sm (map Push (map m (seq b (S n)))) (make Zops n_sm) [] (inv_make Zops one mul opp RT E1 En E2 Ea n_sm _ N0 eq_refl) N0) as (m' & R' & _).
  exists m'. split; [|exact R']. rewrite seq_S, !map_app, run_app in R'. unfold loaded in H. rewrite H in R'. cbn [bind map run step] in R'.
  destruct (pop_push Zops (m (b + n)) sm); cbn [bind] in R'; congruence.
Qed.

Fixpoint track (n : nat) : Z * nat :=
  match n with 0 => (0%Z, 0) | S k => peak_update (smo (b + k)) (b + k - gbos c) (track k) end.

Lemma push_loop_ok k : forall n sm, loaded n sm ->
  exists sm', push_loop c m k (b + n) (track n, sm) = Ok (track (n + k), sm') /\ loaded (n + k) sm'.
Proof.
  induction k as [|k IH]; intros n sm H.
  - exists sm. rewrite Nat.add_0_r. split; [reflexivity|exact H].
  - destruct (loaded_push n sm H) as (sm1 & P1 & L1). cbn [push_loop snd fst]. rewrite P1. cbn [bind].
    rewrite (loaded_sum (S n) sm1 ltac:(lia) L1). replace (b + S n - 1) with (b + n) by lia.
    replace (S (b + n)) with (b + S n) by lia.
    change (peak_update (smo (b + n)) (b + n - goff c) (track n)) with (track (S n)).
    destruct (IH (S n) sm1 L1) as (sm2 & P2 & L2). exists sm2. rewrite P2. replace (S n + k) with (n + S k) in * by lia. split; [reflexivity|exact L2].
Qed.

Hypothesis pos : forall i, (0 <= m i)%Z.

Lemma smo_pos i : (0 <= smo i)%Z.
Proof.
  assert (G : forall k F, (forall t, (0 <= F t)%Z) -> (0 <= sumf Zops k F)%Z).
  { intros k F HF. induction k as [|k IH]; cbn [sumf]; [cbn; lia|]. change (add Zops) with Z.add. specialize (HF k). lia. }
  apply G. intros t. destruct (Nat.leb _ _); [apply pos|lia].
Qed.

Lemma track_last n : 0 < n -> track n = (smo (last_max smo b n), last_max smo b n - gbos c).
Proof.
  induction n as [|n IH]; intros H; [lia|]. destruct n as [|n].
  - cbn [track last_max]. rewrite Nat.add_0_r. unfold peak_update. cbn [fst].
    pose proof (smo_pos b). destruct (Z.leb_spec 0 (smo b)); [|lia]. rewrite Z.leb_refl. reflexivity.
  - specialize (IH ltac:(lia)). change (track (S (S n))) with (peak_update (smo (b + S n)) (b + S n - gbos c) (track (S n))). rewrite IH.
    change (last_max smo b (S (S n))) with (let j := last_max smo b (S n) in if Z.leb (smo j) (smo (b + S n)) then b + S n else j).
    unfold peak_update. cbn [fst]. cbv zeta. destruct (Z.leb _ _); reflexivity.
Qed.

Lemma smo_grow i : i + 1 < b + n_sm -> (smo i <= smo (i + 1))%Z.
Proof.
  intros H2. pose (F := fun t => if Nat.leb (b + n_sm) (i + 1 + t) then m (i + 1 + t - n_sm) else 0%Z).
  assert (E : smo (i + 1) = sumf Zops n_sm (fun t => F (S t))).
  { unfold smo, F. apply sumf_ext. intros t _. replace (i + 1 + 1 + t) with (i + 1 + S t) by lia. reflexivity. }
  pose proof (sumf_head Zops 1%Z Z.mul Z.opp Z_ring n_sm F) as Hd. cbn [sumf] in Hd.
  change (add Zops) with Z.add in Hd. change (sumf Zops n_sm F) with (smo i) in Hd.
  assert (F0 : F 0 = 0%Z) by (unfold F; destruct (Nat.leb_spec (b + n_sm) (i + 1 + 0)); [lia|reflexivity]).
  assert (Fn : (0 <= F n_sm)%Z) by (unfold F; destruct (Nat.leb _ _); [apply pos|lia]).
  rewrite E. lia.
Qed.

Lemma last_max_fill n : 0 < n -> n <= n_sm -> last_max smo b n = b + n - 1.
Proof.
  induction n as [|n IH]; intros H L; [lia|]. cbn [last_max]. destruct (Nat.eq_dec n 0) as [->|N].
  - cbn [last_max]. rewrite Nat.add_0_r, Z.leb_refl. lia.
  - rewrite IH by lia. cbv zeta. pose proof (smo_grow (b + n - 1) ltac:(lia)) as G. replace (b + n - 1 + 1) with (b + n) in G by lia.
    destruct (Z.leb_spec (smo (b + n - 1)) (smo (b + n))); lia.
Qed.

Lemma last_max_late n : n_sm <= n -> b + 2 * gbos c <= last_max smo b n.
Proof.
  induction n as [|n IH]; intros H; [unfold n_sm in H; lia|]. destruct (Nat.eq_dec (S n) n_sm) as [E|N].
  - rewrite last_max_fill by lia. unfold n_sm in E. lia.
  - specialize (IH ltac:(lia)). cbn [last_max]. cbv zeta. pose proof (last_max_range b smo n). unfold n_sm in H. destruct (Z.leb _ _); lia.
Qed.
End Ant.

(** ** Averages *)
Lemma average (l : list (Z * nat)) lo hi : l <> [] -> (forall x, In x l -> (0 < fst x)%Z /\ lo <= snd x <= hi) ->
  lo <= Z.to_nat (round_div (weighted_index l) (metric_sum l)) <= hi.
Proof.
  intros NE H.
  assert (B : (0 <= metric_sum l /\ Z.of_nat lo * metric_sum l <= weighted_index l <= Z.of_nat hi * metric_sum l)%Z /\ (l <> [] -> (0 < metric_sum l)%Z)).
  { clear NE. induction l as [|x l IH]; [cbn; split; [lia|congruence]|].
    destruct IH as [[I1 I2] _]; [intros y Hy; apply H; right; exact Hy|]. destruct (H x (or_introl eq_refl)) as [V [L1 L2]].
    unfold metric_sum, weighted_index in *. cbn [map fold_right]. split; [|intros _; lia]. nia. }
  destruct B as [[B0 [B1 B2]] BP]. specialize (BP NE). set (W := weighted_index l) in *. set (S := metric_sum l) in *. clearbody W S. clear -B1 B2 BP.
  unfold round_div.
  assert (L : (Z.of_nat lo <= (2 * W + S) / (2 * S))%Z) by (apply Z.div_le_lower_bound; nia).
  assert (U : ((2 * W + S) / (2 * S) < Z.of_nat hi + 1)%Z) by (apply Z.div_lt_upper_bound; nia).
  lia.
Qed.

Lemma weighted_filter (l : list (Z * nat)) (f : Z * nat -> Z * nat) ok :
  (forall x, In x l -> (0 <= fst x)%Z /\ (ok x = true -> f x = x) /\ (ok x = false -> fst (f x) = 0%Z)) ->
  weighted_index (map f l) = weighted_index (filter ok l) /\ metric_sum (map f l) = metric_sum (filter ok l).
Proof.
  induction l as [|x l IH]; intros H; [split; reflexivity|].
  destruct IH as [I1 I2]; [intros y Hy; apply H; right; exact Hy|]. destruct (H x (or_introl eq_refl)) as (V & T & F).
  unfold weighted_index, metric_sum in *. cbn [map filter fold_right]. rewrite I1, I2.
  destruct (ok x) eqn:E; cbn [map fold_right].
  - rewrite (T eq_refl). split; reflexivity.
  - rewrite (F eq_refl). split; lia.
Qed.

(** ** Detection *)
Lemma forall_upd {A} (Q : A -> Prop) (l : list A) i x : Forall Q l -> Q x -> Forall Q (upd l i x).
Proof.
  revert i. induction l as [|y l IH]; intros i F X; [destruct i; constructor|].
  inversion F; subst. destruct i; cbn [upd]; constructor; auto.
Qed.

Definition fresh (c : scfg) (ss : list streak) : Prop := length ss = gant c /\ Forall (fun s => s_val s = gmin c) ss.

Lemma fresh_upd c ss a s : fresh c ss -> s_val s = gmin c -> fresh c (upd ss a s).
Proof. intros [L F] E. split; [rewrite upd_length; exact L|apply forall_upd; assumption]. Qed.

Lemma ants_loop_ok c o : (0 < gmin c)%Z -> forall k a ss, a + k = gant c -> fresh c ss ->
  exists ss', fresh c ss' /\ ants_loop c o k a ss =
    Ok (match find (fun a => match o a with Some m => Z.ltb (gmin c) m && Z.leb m (gmax c) | None => false end) (seq a k) with
        | Some a => match o a with Some m => Some (a, m) | None => None end
        | None => None end, ss').
Proof.
  intros MP. induction k as [|k IH]; intros a ss E F; [exists ss; split; [exact F|reflexivity]|].
  cbn [ants_loop seq find]. destruct (o a) as [m|] eqn:O; [|apply IH; [lia|exact F]].
  destruct F as [L FA]. assert (A : a < length ss) by lia.
  destruct (nth_error ss a) as [s|] eqn:NE; [|apply nth_error_None in NE; lia].
  assert (V : s_val s = gmin c) by (rewrite Forall_forall in FA; apply FA; eapply nth_error_In; exact NE).
  unfold rd. rewrite NE. cbn [bind].
  destruct (Z.ltb_spec m (gmin c)) as [M1|M1]; cbn [orb].
  { destruct (Z.ltb_spec (gmin c) m); [lia|]. cbn [andb]. apply IH; [lia|]. apply fresh_upd; [split; assumption|reflexivity]. }
  destruct (Z.ltb_spec (gmax c) m) as [M2|M2].
  { destruct (Z.leb_spec m (gmax c)); [lia|]. rewrite andb_false_r. apply IH; [lia|]. apply fresh_upd; [split; assumption|reflexivity]. }
  destruct (Z.leb_spec m (gmax c)); [|lia]. rewrite andb_true_r. unfold streak_check. rewrite V.
  destruct (Z.ltb_spec (gmin c) m) as [M3|M3]; cbn [fst snd s_cnt Nat.leb].
  - rewrite O. eexists. split; [|reflexivity]. apply fresh_upd; [split; assumption|]. cbn [s_val]. lia.
  - apply IH; [lia|]. apply fresh_upd; [split; assumption|reflexivity].
Qed.

Section Chunk.
Variables (c : scfg) (sg : sig).
Hypothesis GC : good_cfg c.
Hypothesis GS : good_sig sg.

Definition kpos (k : nat) : nat := 16 * gbos c + quarter c * k.
Definition kmax : nat := (chunk_end c - 16 * gbos c + quarter c - 1) / quarter c.
Definition rem (k : nat) : list nat := map (fun j => kpos (j + 1)) (seq k (kmax - k)).

Lemma bos_pos : 0 < gbos c. Proof. apply GC. Qed.
Lemma stf_bos : 112 * gbos c <= stf c. Proof. unfold stf. destruct GC as [[-> | ->] _]; lia. Qed.
Lemma kmax_iff k : k < kmax <-> kpos k < chunk_end c.
Proof.
  pose proof bos_pos as BP. pose proof stf_bos as SB. unfold kmax, kpos, chunk_end, quarter.
  set (q := 4 * gbos c). assert (Q : 0 < q) by (unfold q; lia).
  set (x := gA c + 4 * stf c - 16 * gbos c). assert (X : gA c + 4 * stf c = x + 16 * gbos c) by (unfold x; lia).
  rewrite X. clearbody x. clear X. replace (16 * gbos c + q * k < x + 16 * gbos c) with (16 * gbos c + q * k < 16 * gbos c + x) by (rewrite (Nat.add_comm x); reflexivity).
  pose proof (Nat.div_mod (x + q - 1) q ltac:(lia)) as DM. pose proof (Nat.mod_upper_bound (x + q - 1) q ltac:(lia)) as MU.
  set (d := (x + q - 1) / q) in *. set (m := (x + q - 1) mod q) in *. clearbody d m q. clear -DM MU Q. split; intros H; nia.
Qed.
Lemma rem_cons k : k < kmax -> rem k = kpos (k + 1) :: rem (k + 1).
Proof. intros H. unfold rem. replace (kmax - k) with (S (kmax - (k + 1))) by lia. cbn [seq map]. rewrite Nat.add_1_r. reflexivity. Qed.
Lemma rem_nil k : kmax <= k -> rem k = []. Proof. intros H. unfold rem. replace (kmax - k) with 0 by lia. reflexivity. Qed.
Lemma kpos_S k : kpos k + quarter c = kpos (k + 1). Proof. unfold kpos. nia. Qed.
Lemma kpos_mono k j : k < j -> kpos k < kpos j. Proof. pose proof bos_pos. unfold kpos, quarter. nia. Qed.
Lemma kpos_le k j : k <= j -> kpos k <= kpos j. Proof. unfold kpos, quarter. nia. Qed.
Lemma kmax_pos k : k <= kmax -> kpos k < chunk_end c + quarter c.
Proof.
  intros H. destruct k as [|k].
  - pose proof bos_pos. pose proof stf_bos. unfold kpos, chunk_end. lia.
  - assert (K : k < kmax) by lia. apply kmax_iff in K. replace (S k) with (k + 1) by lia. rewrite <- kpos_S. lia.
Qed.

Definition dinv (k : nat) (d : dst) : Prop :=
  d_r d = kpos k /\ k <= kmax /\ gstart c <= d_ign d /\ fresh c (d_streak d).

Lemma det_search_ok fuel : forall k d w, k < kmax -> dinv k d -> d_r d <= w -> w - d_r d < fuel ->
  exists o d' k', det_search c fuel sg w d = Ok (o, d') /\ dinv k' d' /\ d_ign d' = d_ign d /\ k <= k' /\ d_r d' <= w /\
    (d_r d + quarter c <= w -> k < k') /\
    match o with
    | None => scan c sg (rem k) (d_ign d) = scan c sg (rem k') (d_ign d)
    | Some h => k < k' /\ h_r h = kpos k' /\ d_ign d <= h_r h /\ detects c sg (h_r h) = Some (h_ant h, h_metric h) /\
        scan c sg (rem k) (d_ign d) = scan c sg (rem (k' - 1)) (d_ign d)
    end.
Proof.
  induction fuel as [|fuel IH]; intros k d w K D W F; [lia|].
  pose proof bos_pos as BP. assert (QP : 0 < quarter c) by (unfold quarter; lia).
  cbn [det_search]. rewrite step_eq. destruct D as (DR & DK & DI & DF).
  destruct (Nat.leb_spec (d_r d + quarter c) w) as [L|L].
  2: { exists None, d, k. split; [reflexivity|]. split; [repeat split; auto; apply DF|]. repeat (split; [first [reflexivity|lia]|]). reflexivity. }
  destruct (Nat.ltb_spec (d_r d) (gP c)) as [X|_]; [unfold gP, kpos in *; lia|].
  set (r := d_r d + quarter c) in *. assert (RK : r = kpos (k + 1)) by (unfold r; rewrite DR; apply kpos_S).
  set (act := if Nat.leb (d_ign d) r then ants_loop c (obs sg r) (gant c) 0 (d_streak d) else Ok (None, d_streak d)).
  assert (A : exists ss', fresh c ss' /\ act = Ok (if Nat.leb (d_ign d) r then detects c sg r else None, ss')).
  { unfold act. destruct (Nat.leb (d_ign d) r); [|exists (d_streak d); split; [exact DF|reflexivity]].
    apply ants_loop_ok; [apply GC|lia|exact DF]. }
  destruct A as (ss' & FS & A). rewrite A. cbn [bind fst snd].
  destruct (if Nat.leb (d_ign d) r then detects c sg r else None) as [[a m]|] eqn:DE.
  - exists (Some (Hit a m r)), (Dst r (d_ign d) ss'), (k + 1). cbn [d_r d_ign d_streak h_r h_ant h_metric].
    destruct (Nat.leb_spec (d_ign d) r) as [IG|IG]; [|discriminate].
    split; [reflexivity|]. split; [unfold dinv; cbn [d_r d_ign d_streak]; split; [lia|]; split; [lia|]; split; [lia|]; exact FS|]. repeat (split; [first [reflexivity|lia|auto]|]). replace (k + 1 - 1) with k by lia. reflexivity.
  - assert (SC : scan c sg (rem k) (d_ign d) = scan c sg (rem (k + 1)) (d_ign d)).
    { rewrite (rem_cons k K). cbn [scan]. rewrite <- RK, DE. reflexivity. }
    rewrite slen_eq. destruct (Nat.leb_spec (chunk_end c) r) as [CE|CE].
    + exists None, (Dst r (d_ign d) ss'), (k + 1). cbn [d_r d_ign d_streak].
      split; [reflexivity|]. split; [unfold dinv; cbn [d_r d_ign d_streak]; split; [lia|]; split; [lia|]; split; [lia|]; exact FS|]. repeat (split; [first [reflexivity|lia]|]). exact SC.
    + assert (K1 : k + 1 < kmax) by (apply kmax_iff; lia).
      destruct (IH (k + 1) (Dst r (d_ign d) ss') w K1) as (o & d' & k' & E & D' & I' & KK & W' & _ & M); cbn [d_r d_ign d_streak] in *.
      { unfold dinv; cbn [d_r d_ign d_streak]. split; [lia|]. split; [lia|]. split; [lia|]. exact FS. } { lia. } { lia. }
      exists o, d', k'. rewrite E. split; [reflexivity|]. split; [exact D'|]. split; [exact I'|]. split; [lia|]. split; [exact W'|]. split; [lia|].
      destruct o as [h|]; [|rewrite SC; exact M]. destruct M as (M1 & M2 & M3 & M4 & M5). split; [lia|]. repeat (split; [assumption|]). rewrite SC. exact M5.
Qed.

(** ** The peak search *)
Section Peak.
Variables (r : nat) (h : hit).
Hypothesis RS : gstart c <= r.
Hypothesis HR : h_r h = r.
Let jb := r - 16 * gbos c.

Definition ants_ok (n a0 : nat) (l : list ((Z * nat) * ms Z)) : Prop :=
  forall i x, nth_error l i = Some x -> fst x = track c (met sg (a0 + i)) jb n /\ loaded c (met sg (a0 + i)) jb n (snd x).

Lemma all_ants_ok k n l : forall a0, ants_ok n a0 l ->
  exists l', all_ants c sg k (jb + n) a0 l = Ok l' /\ ants_ok (n + k) a0 l' /\ length l' = length l.
Proof.
  induction l as [|x l IH]; intros a0 H; [exists []; split; [reflexivity|]; split; [intros j y E; destruct j; discriminate|reflexivity]|].
  cbn [all_ants]. destruct (H 0 x eq_refl) as [E L]. rewrite Nat.add_0_r in E, L.
  destruct (push_loop_ok c (met sg a0) jb k n (snd x) L) as (sm' & P & L'). rewrite <- E in P.
  destruct x as [pk sm]. cbn [fst snd] in *. rewrite P. cbn [bind].
  destruct (IH (S a0)) as (l' & A & O & Len). { intros i y Hy. specialize (H (S i) y Hy). replace (S a0 + i) with (a0 + S i) by lia. exact H. }
  rewrite A. cbn [bind]. eexists. split; [reflexivity|]. split; [|cbn [length]; lia].
  intros [|i] y Hy; cbn [nth_error] in Hy.
  - injection Hy as <-. rewrite Nat.add_0_r. split; [reflexivity|exact L'].
  - replace (a0 + S i) with (S a0 + i) by lia. apply O. exact Hy.
Qed.

Lemma ants_map n l : forall a0, ants_ok n a0 l -> map fst l = map (fun a => track c (met sg a) jb n) (seq a0 (length l)).
Proof.
  induction l as [|x l IH]; intros a0 H; [reflexivity|]. cbn [map length seq]. f_equal.
  - destruct (H 0 x eq_refl) as [E _]. rewrite Nat.add_0_r in E. exact E.
  - apply IH. intros i y Hy. specialize (H (S i) y Hy). replace (S a0 + i) with (a0 + S i) by lia. exact H.
Qed.

Lemma peak_range a : fst (peak_of c sg r a) = smoothed c sg jb a (last_max (smoothed c sg jb a) jb (stf c)) /\
  (0 <= fst (peak_of c sg r a))%Z /\ jb + gbos c <= snd (peak_of c sg r a) /\ snd (peak_of c sg r a) + gbos c + 1 <= jb + stf c.
Proof.
  clear RS HR h. pose proof bos_pos as BP. pose proof stf_bos as SB. unfold peak_of. fold jb. cbn [fst snd]. split; [reflexivity|].
  split; [apply (smo_pos c (met sg a) jb (GS a))|].
  pose proof (last_max_late c (met sg a) jb (GS a) (stf c) ltac:(lia)) as L.
  change (smo c (met sg a) jb) with (smoothed c sg jb a) in L.
  pose proof (last_max_range jb (smoothed c sg jb a) (stf c) ltac:(lia)). lia.
Qed.

Lemma post_ok p : p_max p = jb + stf c -> length (p_ants p) = gant c -> ants_ok (stf c) 0 (p_ants p) ->
  post_processing c h p = Ok (coarse c sg r (h_metric h)).
Proof.
  intros PM PL PA. pose proof bos_pos as BP. pose proof stf_bos as SB. unfold post_processing.
  rewrite (ants_map _ _ 0 PA), PL.
  assert (EM : map (fun a => track c (met sg a) jb (stf c)) (seq 0 (gant c)) = map (peak_of c sg r) (seq 0 (gant c))).
  { apply map_ext. intros a. rewrite (track_last c (met sg a) jb (GS a)) by lia. reflexivity. }
  rewrite EM. set (l := map (peak_of c sg r) (seq 0 (gant c))).
  assert (LR : forall x, In x l -> (0 <= fst x)%Z /\ jb + gbos c <= snd x /\ snd x + gbos c + 1 <= jb + stf c).
  { intros x Hx. apply in_map_iff in Hx as (a & <- & _). apply peak_range. }
  set (ok := fun x : Z * nat => (Z.of_nat (2 * gbos c + 1) * (h_metric h + gthr c) <? fst x)%Z && (0 <? fst x)%Z).
  assert (JB : gstf c <= jb) by (unfold gstart, gjump, gP in RS; unfold jb; lia).
  assert (AV : forall x, In x l -> ant_valid c h x = if (fst x <=? Z.of_nat (2 * gbos c + 1) * (h_metric h + gthr c))%Z then (0%Z, 0) else x).
  { intros x Hx. destruct (LR x Hx) as (L0 & L1 & L2). unfold ant_valid. rewrite gsm_eq. destruct (Z.leb _ _); [reflexivity|].
    destruct GC as (GN & _ & GB & _). rewrite HR.
    destruct (Z.leb_spec (Z.of_nat (snd x)) (Z.of_nat r - Z.of_nat (gback c))) as [X|X]; [exfalso|reflexivity].
    assert (R1 : r = jb + 16 * gbos c) by (unfold jb; unfold gstart, gjump, gP in RS; lia).
    rewrite stf_eq in GB. clear -X R1 GB SB L1 BP. lia. }
  assert (WF : weighted_index (map (ant_valid c h) l) = weighted_index (filter ok l) /\ metric_sum (map (ant_valid c h) l) = metric_sum (filter ok l)).
  { apply weighted_filter. intros x Hx. split; [apply LR; exact Hx|]. rewrite (AV x Hx). unfold ok. pose proof (LR x Hx) as [L0 _].
    destruct (Z.ltb_spec (Z.of_nat (2 * gbos c + 1) * (h_metric h + gthr c)) (fst x)) as [V|V], (Z.leb_spec (fst x) (Z.of_nat (2 * gbos c + 1) * (h_metric h + gthr c))) as [U|U]; cbn [andb]; try lia.
    - destruct (Z.ltb_spec 0 (fst x)); split; intros; try reflexivity; try discriminate; lia.
    - split; [discriminate|reflexivity]. }
  assert (EX : existsb (fun x => (0 <? fst x)%Z) (map (ant_valid c h) l) = negb (match filter ok l with [] => true | _ => false end)).
  { clear -AV LR. induction l as [|x l IH]; [reflexivity|]. cbn [map existsb filter].
    rewrite IH; [|intros y Hy; apply LR; right; exact Hy|intros y Hy; apply AV; right; exact Hy].
    remember (filter ok l) as fl eqn:FL. clear FL IH.
    rewrite (AV x (or_introl eq_refl)). unfold ok.
    destruct (Z.leb_spec (fst x) (Z.of_nat (2 * gbos c + 1) * (h_metric h + gthr c))), (Z.ltb_spec (Z.of_nat (2 * gbos c + 1) * (h_metric h + gthr c)) (fst x)); try lia; cbn [fst andb].
    - reflexivity.
    - destruct (Z.ltb 0 (fst x)); reflexivity. }
  cbv zeta. rewrite EX. destruct WF as [-> ->]. unfold coarse, peaks. fold l. fold ok.
  assert (FR : forall x, In x (filter ok l) -> (0 < fst x)%Z /\ jb + gbos c <= snd x <= jb + stf c - gbos c - 1).
  { intros x Hx. apply filter_In in Hx as [Hx O]. unfold ok in O. apply andb_prop in O as [_ O]. apply Z.ltb_lt in O. pose proof (LR x Hx). lia. }
  destruct (filter ok l) as [|y t] eqn:FE; [reflexivity|]. cbn [negb].
  pose proof (average (y :: t) (jb + gbos c) (jb + stf c - gbos c - 1) ltac:(discriminate) FR) as AVG.
  set (T := Z.to_nat (round_div (weighted_index (y :: t)) (metric_sum (y :: t)))) in *.
  rewrite !stf_eq in *. unfold guard. destruct (Nat.leb_spec (stf c - 1) T); [|lia].
  destruct (Nat.ltb_spec (p_max p) (T - (stf c - 1) + stf c)); [lia|]. reflexivity.
Qed.

Lemma coarse_range m s : coarse c sg r m = Some s -> r + 1 <= s + stf c + 15 * gbos c /\ s + 17 * gbos c <= r.
Proof.
  clear HR h. unfold coarse, peaks. pose proof bos_pos as BP. pose proof stf_bos as SB.
  set (ok := fun x : Z * nat => (Z.of_nat (2 * gbos c + 1) * (m + gthr c) <? fst x)%Z && (0 <? fst x)%Z).
  assert (FR : forall x, In x (filter ok (map (peak_of c sg r) (seq 0 (gant c)))) -> (0 < fst x)%Z /\ jb + gbos c <= snd x <= jb + stf c - gbos c - 1).
  { intros x Hx. apply filter_In in Hx as [Hx O]. unfold ok in O. apply andb_prop in O as [_ O]. apply Z.ltb_lt in O.
    apply in_map_iff in Hx as (a & <- & _). pose proof (peak_range a). lia. }
  destruct (filter ok (map (peak_of c sg r) (seq 0 (gant c)))) as [|y t] eqn:FE; [discriminate|].
  pose proof (average (y :: t) (jb + gbos c) (jb + stf c - gbos c - 1) ltac:(discriminate) FR) as AVG.
  intros E. injection E as <-. set (T := Z.to_nat (round_div (weighted_index (y :: t)) (metric_sum (y :: t)))) in *. clearbody T.
  assert (J : stf c <= jb /\ r = jb + 16 * gbos c) by (unfold gstart, gjump, gP in RS; rewrite stf_eq in RS; unfold jb; lia). lia.
Qed.

Lemma peak_loop_ok extra fuel : forall n p b, n <= stf c -> p_r p = jb + n -> p_max p = jb + stf c -> length (p_ants p) = gant c ->
  ants_ok n 0 (p_ants p) -> jb + n <= b_w b -> jb + stf c <= gcap c -> stf c - n < fuel ->
  exists p' b', peak_loop c fuel sg extra h p b = Ok (coarse c sg r (h_metric h), p', b') /\ p_r p' = jb + stf c /\ b_w b <= b_w b'.
Proof.
  pose proof bos_pos as BP. pose proof stf_bos as SB.
  induction fuel as [|fuel IH]; intros n p b N PR PM PL PA BW CAP F; [lia|].
  cbn [peak_loop]. unfold resample, peak_required. rewrite PR, PM.
  destruct (Nat.ltb_spec (gcap c) (Nat.min (jb + n + gP c) (jb + stf c))) as [X|_]; [lia|]. cbn [bind].
  set (req := Nat.min (jb + n + gP c) (jb + stf c)).
  set (b' := Buf (if Nat.leb req (b_w b) then b_w b else req + extra (b_n b)) (S (b_n b))).
  assert (W1 : req <= b_w b' /\ b_w b <= b_w b').
  { unfold b'. cbn [b_w]. destruct (Nat.leb_spec req (b_w b)); lia. }
  assert (RQ : jb + n <= req /\ (n < stf c -> jb + n < req)) by (unfold req, gP; lia). clearbody b'.
  unfold peak_search. rewrite PM, PR. cbv zeta.
  set (limit := Nat.min (jb + stf c) (b_w b')).
  destruct (Nat.ltb_spec limit (jb + n)) as [X|_]; [unfold limit in X; lia|].
  unfold guard, gD. rewrite stf_eq. destruct (Nat.leb_spec (limit - (jb + n)) (stf c)) as [_|X]; [|unfold limit in X; lia].
  destruct (all_ants_ok (limit - (jb + n)) n (p_ants p) 0 PA) as (l' & A & O & L'). rewrite A. cbn [bind].
  replace (n + (limit - (jb + n))) with (limit - jb) in O by (unfold limit; lia).
  destruct (Nat.eqb_spec limit (jb + stf c)) as [E|NE].
  - replace (limit - jb) with (stf c) in O by lia.
    rewrite post_ok; [|reflexivity|cbn [p_ants]; lia|exact O]. cbn [bind fst snd]. do 2 eexists. split; [reflexivity|]. cbn [p_r]. split; [exact E|]. lia.
  - cbn [bind fst snd].
    destruct (IH (limit - jb) (Pkst limit (jb + stf c) l') b') as (p2 & b2 & E2 & R2 & W2); cbn [p_r p_max p_ants]; try (unfold limit in *; lia); auto.
    exists p2, b2. split; [exact E2|]. split; [exact R2|]. lia.
Qed.
End Peak.

(** ** The whole chunk *)
Definition etime (e : event) : nat := match e with Callback t => t | Packet t _ => t end.
Inductive within : nat -> list event -> nat -> Prop :=
| within_nil lo hi : lo <= hi -> within lo [] hi
| within_cons lo e ev hi : lo < etime e -> within (etime e) ev hi -> within lo (e :: ev) hi.

Lemma within_app lo e1 mid e2 hi : within lo e1 mid -> within mid e2 hi -> within lo (e1 ++ e2) hi.
Proof.
  intros H1 H2. induction H1 as [lo hi1 L|lo e ev hi1 L H IH]; cbn [app].
  - inversion H2; subst; constructor; try lia; assumption.
  - constructor; [exact L|]. apply IH. exact H2.
Qed.

Lemma search_ok extra fuel : forall k d b, kmax - k < fuel -> dinv k d -> d_r d <= b_w b ->
  exists found k' d' b' ev, search c fuel sg extra d b = Ok (found, d', b', ev) /\ dinv k' d' /\ k <= k' /\ d_r d' <= b_w b' /\
    within (d_r d) ev (d_r d') /\ (k < kmax -> k < k') /\
    scan c sg (rem k) (d_ign d) = reported ev ++ scan c sg (rem k') (d_ign d').
Proof.
  pose proof bos_pos as BP. pose proof stf_bos as SB. assert (QP : 0 < quarter c) by (unfold quarter; lia).
  induction fuel as [|fuel IH]; intros k d b F D W; [lia|].
  cbn [search]. rewrite slen_eq. pose proof D as (DR & DK & DI & DF).
  destruct (Nat.ltb_spec (d_r d) (chunk_end c)) as [L|L].
  2: { exists false, k, d, b, []. split; [reflexivity|]. split; [exact D|]. split; [lia|]. split; [exact W|]. split; [constructor; lia|].
       split; [intros X; apply kmax_iff in X; lia|]. reflexivity. }
  assert (K : k < kmax) by (apply kmax_iff; lia).
  rewrite step_eq. unfold resample at 1.
  assert (CAP : gcap c = chunk_end c + 16 * gbos c + stf c) by (unfold gcap, gB, gD, gP, chunk_end; rewrite stf_eq; lia).
  destruct (Nat.ltb_spec (gcap c) (d_r d + quarter c)) as [X|_]; [unfold quarter in X; lia|]. cbn [bind].
  set (req := d_r d + quarter c).
  set (b1 := Buf (if Nat.leb req (b_w b) then b_w b else req + extra (b_n b)) (S (b_n b))).
  assert (W1 : req <= b_w b1) by (unfold b1; cbn [b_w]; destruct (Nat.leb_spec req (b_w b)); lia). clearbody b1. unfold req in W1.
  destruct (det_search_ok (S (b_w b1)) k d (b_w b1) K D ltac:(lia) ltac:(lia)) as (o & d1 & k1 & E & D1 & I1 & KK & W2 & AD & M).
  rewrite E. cbn [bind fst snd]. specialize (AD W1). pose proof D1 as (DR1 & DK1 & DI1 & DF1).
  assert (R1 : d_r d < d_r d1) by (rewrite DR, DR1; apply kpos_mono; exact AD).
  assert (CONT : forall b2, d_r d1 <= b_w b2 -> scan c sg (rem k) (d_ign d) = scan c sg (rem k1) (d_ign d) ->
    exists found k' d' b' ev, (do y <- search c fuel sg extra d1 b2; let '(found, d3, b3, ev) := y in Ok (found, d3, b3, Callback (d_r d1) :: ev)) = Ok (found, d', b', ev) /\
      dinv k' d' /\ k <= k' /\ d_r d' <= b_w b' /\ within (d_r d) ev (d_r d') /\ (k < kmax -> k < k') /\
      scan c sg (rem k) (d_ign d) = reported ev ++ scan c sg (rem k') (d_ign d')).
  { intros b2 WB SC. destruct (IH k1 d1 b2 ltac:(lia) D1 WB) as (found & k' & d' & b' & ev & E' & D' & KK' & W' & WI & ADV & SC').
    rewrite E'. cbn [bind]. do 5 eexists. split; [reflexivity|]. split; [exact D'|]. split; [lia|]. split; [exact W'|].
    split; [constructor; [exact R1|exact WI]|]. split; [lia|]. cbn [reported flat_map app]. rewrite SC, <- I1. exact SC'. }
  destruct o as [hh|]; [|apply CONT; [lia|exact M]].
  destruct M as (_ & HR & HI & HD & SC).
  assert (RS : gstart c <= h_r hh) by lia.
  assert (RS' : stf c + 16 * gbos c <= h_r hh) by (unfold gstart, gjump, gP in RS; rewrite stf_eq in RS; lia).
  unfold guard at 1. unfold gjump, gP at 1. destruct (Nat.leb_spec (gstf c) (h_r hh - 16 * gbos c)) as [_|X]; [|rewrite stf_eq in X; lia].
  unfold peak_init, guard at 1. unfold gP at 1. destruct (Nat.leb_spec (gstf c) (h_r hh - 16 * gbos c)) as [_|X]; [|rewrite stf_eq in X; lia]. cbn [bind].
  pose proof (kmax_pos k1 DK1) as KP. unfold quarter in KP.
  destruct (peak_loop_ok (h_r hh) hh RS eq_refl extra (S (gD c)) 0 (Pkst (h_r hh - gP c) (h_r hh - gP c + gD c) (repeat ((0%Z, 0), make Zops (gsm c)) (gant c))) b1) as (p' & b2 & PE & PR & PW);
    cbn [p_r p_max p_ants]; unfold gD, gP; rewrite ?stf_eq; try lia.
  { apply repeat_length. }
  { intros i x Hx. apply nth_error_In, repeat_spec in Hx. subst x. cbn [fst snd]. split; [reflexivity|]. unfold loaded. cbn [seq map run]. rewrite gsm_eq. reflexivity. }
  { pose proof (stf_eq c). lia. }
  unfold gD, gP in PE. rewrite ?stf_eq in PE. rewrite PE. cbn [bind]. unfold guard at 1.
  rewrite PR. destruct (Nat.leb_spec (h_r hh - 16 * gbos c + stf c) (chunk_end c + 16 * gbos c + stf c)) as [_|X]; [|lia].
  assert (SC1 : scan c sg (rem (k1 - 1)) (d_ign d) = match coarse c sg (h_r hh) (h_metric hh) with Some s => (h_r hh, s) :: scan c sg (rem k1) (s + 2 * stf c) | None => scan c sg (rem k1) (d_ign d) end).
  { rewrite (rem_cons (k1 - 1)) by lia. replace (k1 - 1 + 1) with k1 by lia. cbn [scan]. rewrite <- HR.
    destruct (Nat.leb_spec (d_ign d) (h_r hh)); [|lia]. rewrite HD. reflexivity. }
  destruct (coarse c sg (h_r hh) (h_metric hh)) as [s|] eqn:CO.
  - destruct (coarse_range (h_r hh) RS (h_metric hh) s CO) as [C1 C2].
    unfold skip_after_peak, guard, gskip. rewrite stf_eq. destruct (Nat.ltb_spec (d_ign d1) (s + 2 * stf c)) as [_|X]; [|lia]. cbn [bind].
    eexists _, k1, _, b2, _. split; [reflexivity|]. cbn [d_r d_ign d_streak]. split.
    { unfold dinv. cbn [d_r d_ign d_streak]. split; [exact DR1|]. split; [exact DK1|]. split.
      - assert (GE : gstart c = stf c + 16 * gbos c) by (unfold gstart, gjump, gP; rewrite stf_eq; lia). lia.
      - split; [rewrite map_length; apply DF1|].
        apply Forall_forall. intros x Hx. apply in_map_iff in Hx as (y & <- & _). reflexivity. }
    split; [lia|]. split; [lia|]. split; [constructor; cbn [etime]; [rewrite HR, <- DR1; exact R1|constructor; lia]|]. split; [lia|].
    cbn [reported flat_map app]. rewrite SC, SC1. reflexivity.
  - apply CONT; [lia|]. rewrite SC, SC1. reflexivity.
Qed.

Lemma calls_ok extra fuel : forall k d b, kmax - k < fuel -> dinv k d -> d_r d <= b_w b ->
  exists ev hi, calls c fuel sg extra d b = Ok ev /\ within (d_r d) ev hi /\ reported ev = scan c sg (rem k) (d_ign d).
Proof.
  induction fuel as [|fuel IH]; intros k d b F D W; [lia|]. cbn [calls]. rewrite slen_eq. pose proof D as (DR & DK & _).
  destruct (Nat.leb_spec (chunk_end c) (d_r d)) as [L|L].
  - exists [], (d_r d). split; [reflexivity|]. split; [constructor; lia|]. rewrite rem_nil; [reflexivity|].
    destruct (Nat.le_gt_cases kmax k) as [H|H]; [exact H|]. apply kmax_iff in H. lia.
  - assert (K : k < kmax) by (apply kmax_iff; lia).
    assert (KM : kmax <= chunk_end c).
    { destruct (Nat.le_gt_cases kmax (chunk_end c)) as [H|H]; [exact H|]. apply kmax_iff in H. pose proof bos_pos. unfold kpos, quarter in H. nia. }
    destruct (search_ok extra (S (chunk_end c)) k d b ltac:(lia) D W) as (found & k' & d' & b' & ev & E & D' & KK & W' & WI & ADV & SC).
    rewrite E. cbn [bind]. destruct (IH k' d' b' ltac:(lia) D' W') as (ev' & hi & E' & WI' & R'). rewrite E'. cbn [bind].
    exists (ev ++ ev'), hi. split; [reflexivity|]. split; [eapply within_app; eassumption|].
    unfold reported in *. rewrite flat_map_app, SC, R'. reflexivity.
Qed.

Lemma chunk_ok extra d : good_dst c d ->
  exists ev hi, chunk c sg extra d = Ok ev /\ within (16 * gbos c) ev hi /\ reported ev = packets c sg.
Proof.
  intros GD. pose proof bos_pos as BP. pose proof stf_bos as SB. unfold chunk, start_chunk, resample.
  assert (GP : gP c = 16 * gbos c) by reflexivity.
  destruct (Nat.ltb_spec (gcap c) (gP c)) as [X|_]; [unfold gcap in X; lia|]. cbn [bind b_w b_n]. unfold guard.
  destruct (Nat.leb_spec (gP c) 0) as [X|_]; [lia|].
  destruct (Nat.leb_spec (gP c) (gP c + extra 0)) as [_|X]; [|lia]. cbn [bind fst snd].
  assert (KM : kmax <= chunk_end c).
  { destruct (Nat.le_gt_cases kmax (chunk_end c)) as [H|H]; [exact H|]. apply kmax_iff in H. unfold kpos, quarter in H. nia. }
  destruct (calls_ok extra (S (gslen c)) 0 (Dst (gP c) (gstart c) (map (fun _ => streak_reset c) (d_streak d))) (Buf (gP c + extra 0) 1)) as (ev & hi & E & WI & R).
  { rewrite slen_eq. lia. }
  { unfold dinv. cbn [d_r d_ign d_streak]. split; [unfold kpos; lia|]. split; [lia|]. split; [lia|]. split.
    - rewrite map_length. exact GD.
    - apply Forall_forall. intros x Hx. apply in_map_iff in Hx as (y & <- & _). reflexivity. }
  { cbn [d_r b_w]. unfold gP. lia. }
  exists ev, hi. split; [exact E|]. split; [exact WI|]. rewrite R. cbn [d_ign]. unfold packets, rem, positions. rewrite Nat.sub_0_r.
  unfold gstart, gjump, gP. rewrite stf_eq. reflexivity.
Qed.

(** ** Properties of the packets *)
Lemma scan_in pos : forall ign r s, In (r, s) (scan c sg pos ign) -> gstart c <= ign ->
  In r pos /\ gstart c <= r /\ exists a m, detects c sg r = Some (a, m) /\ coarse c sg r m = Some s.
Proof.
  induction pos as [|x pos IH]; intros ign r s H G; [destruct H|]. cbn [scan] in H.
  assert (REC : forall ign', gstart c <= ign' -> In (r, s) (scan c sg pos ign') -> In r (x :: pos) /\ gstart c <= r /\ exists a m, detects c sg r = Some (a, m) /\ coarse c sg r m = Some s).
  { intros ign' G' H'. destruct (IH _ _ _ H' G') as (I1 & I2 & I3). split; [right; exact I1|]. split; assumption. }
  destruct (Nat.leb_spec ign x) as [L|L]; [|apply (REC ign G H)].
  destruct (detects c sg x) as [[a m]|] eqn:DE; [|apply (REC ign G H)].
  destruct (coarse c sg x m) as [s'|] eqn:CO; [|apply (REC ign G H)].
  destruct H as [H|H].
  - injection H as <- <-. split; [left; reflexivity|]. split; [lia|]. eauto.
  - apply (REC (s' + 2 * stf c)); [|exact H]. destruct (coarse_range x ltac:(lia) m s' CO). pose proof stf_bos. pose proof bos_pos. unfold gstart, gjump, gP in *. rewrite stf_eq in *. lia.
Qed.

Lemma scan_apart pos : forall ign, gstart c <= ign ->
  forall l1 r1 s1 r2 s2 l2, scan c sg pos ign = l1 ++ (r1, s1) :: (r2, s2) :: l2 -> s1 + 2 * stf c <= r2 /\ s1 + stf c + 1 <= s2 + 15 * gbos c.
Proof.
  induction pos as [|x pos IH]; intros ign G l1 r1 s1 r2 s2 l2 H; [destruct l1; discriminate|]. cbn [scan] in H.
  destruct (Nat.leb_spec ign x) as [L|L]; [|apply (IH ign G _ _ _ _ _ _ H)].
  destruct (detects c sg x) as [[a m]|] eqn:DE; [|apply (IH ign G _ _ _ _ _ _ H)].
  destruct (coarse c sg x m) as [s'|] eqn:CO; [|apply (IH ign G _ _ _ _ _ _ H)].
  assert (G' : gstart c <= s' + 2 * stf c).
  { destruct (coarse_range x ltac:(lia) m s' CO). pose proof stf_bos. pose proof bos_pos. unfold gstart, gjump, gP in *. rewrite stf_eq in *. lia. }
  destruct l1 as [|y l1]; cbn [app] in H.
  - injection H as H0 H1 H2. subst. assert (NXT : forall p ign, gstart c <= ign -> forall t, scan c sg p ign = (r2, s2) :: t -> ign <= r2 /\ exists a m, coarse c sg r2 m = Some s2 /\ detects c sg r2 = Some (a, m)).
    { clear. induction p as [|z p IHp]; intros ig G t H; [discriminate|]. cbn [scan] in H.
      destruct (Nat.leb_spec ig z) as [L|L]; [|apply (IHp _ G _ H)]. destruct (detects c sg z) as [[a m]|] eqn:DE; [|apply (IHp _ G _ H)].
      destruct (coarse c sg z m) as [s'|] eqn:CO; [|apply (IHp _ G _ H)]. injection H as H1 H2 H3. subst. split; [exact L|]. eauto. }
    destruct (NXT pos _ G' _ H2) as (N1 & a2 & m2 & C2 & _). destruct (coarse_range r2 ltac:(lia) m2 s2 C2). split; lia.
  - injection H as H1 H2. apply (IH _ G' _ _ _ _ _ _ H2).
Qed.
End Chunk.
