(** Lemmas on the TX thread of the simulated radio. *)
From Verif Require Import Base SimTx SimTxSpec.
Open Scope Z_scope.

Lemma nth_skipn {A} (d : A) k : forall n l, nth n (skipn k l) d = nth (k + n) l d.
Proof.
  induction k as [|k IH]; intros n l; [reflexivity|]. destruct l as [|a l]; [|apply IH].
  cbn [skipn]. destruct n; reflexivity.
Qed.

Section facts.
Variable smp : Type.
Variable zero : smp.
Variable hw : smp -> smp.
Variable spp : Z.
Variable P : list (packet smp).
Variable start : Z.
Hypothesis spp_pos : 0 < spp.
Hypothesis hw_zero : hw zero = zero.
Hypothesis WT : well_timed smp spp start P.
Hypothesis HL : forall i p q, nth_error P i = Some p -> nth_error P (S i) = Some q -> harmless smp spp start p q.

Notation lenp := (lenp smp).
Notation txt := (tx_time smp).
Notation signal := (signal smp zero hw P).
Notation run := (run smp zero hw spp P).
Notation next_spp := (next_spp smp zero hw spp P).
Notation send := (send smp zero hw spp P).

Lemma len_of i p : nth_error P i = Some p -> spp < lenp p.
Proof. intros E. apply (long_enough _ _ _ _ WT). eapply nth_error_In; eassumption. Qed.
Lemma ahead_of i p : nth_error P i = Some p -> visible_from smp p + spp <= txt p.
Proof. intros E. apply (ahead _ _ _ _ WT). eapply nth_error_In; eassumption. Qed.

Lemma order d : forall i p q, nth_error P i = Some p -> nth_error P (i + S d)%nat = Some q -> txt p + lenp p <= txt q.
Proof.
  induction d as [|d IH]; intros i p q Ep Eq.
  - replace (i + 1)%nat with (S i) in Eq by lia. exact (in_order _ _ _ _ WT _ _ _ Ep Eq).
  - destruct (nth_error P (i + S d)%nat) as [r|] eqn:Er.
    + pose proof (IH _ _ _ Ep Er). replace (i + S (S d))%nat with (S (i + S d)) in Eq by lia.
      pose proof (in_order _ _ _ _ WT _ _ _ Er Eq). pose proof (len_of _ _ Er). unfold lenp in *. lia.
    + apply nth_error_None in Er. assert (nth_error P (i + S (S d))%nat <> None) by congruence.
      apply nth_error_Some in H. lia.
Qed.
Lemma order' i j p q : (i < j)%nat -> nth_error P i = Some p -> nth_error P j = Some q -> txt p + lenp p <= txt q.
Proof. intros L Ep Eq. replace j with (i + S (j - i - 1))%nat in Eq by lia. eapply order; eassumption. Qed.

Lemma on_air_iff p t : on_air smp p t = true <-> txt p <= t < txt p + lenp p.
Proof. unfold on_air, SimTx.lenp. rewrite andb_true_iff, Z.leb_le, Z.ltb_lt. tauto. Qed.

Lemma signal_in i p t : nth_error P i = Some p -> txt p <= t < txt p + lenp p ->
  signal t = hw (nth (Z.to_nat (t - txt p)) (samples _ p) zero).
Proof.
  intros E R. unfold SimTxSpec.signal. destruct (find _ P) as [q|] eqn:F.
  - apply find_some in F as [I A]. apply on_air_iff in A. apply In_nth_error in I as [j Ej].
    destruct (Nat.lt_trichotomy i j) as [L|[->|L]].
    + pose proof (order' _ _ _ _ L E Ej). lia.
    + rewrite E in Ej. injection Ej as ->. reflexivity.
    + pose proof (order' _ _ _ _ L Ej E). lia.
  - exfalso. pose proof (find_none _ _ F p (nth_error_In _ _ E)) as A. cbv beta in A.
    rewrite (proj2 (on_air_iff p t) R) in A. discriminate.
Qed.
Lemma signal_out t : (forall i p, nth_error P i = Some p -> t < txt p \/ txt p + lenp p <= t) -> signal t = zero.
Proof.
  intros A. unfold SimTxSpec.signal. destruct (find _ P) as [q|] eqn:F; [|reflexivity].
  apply find_some in F as [I B]. apply on_air_iff in B. apply In_nth_error in I as [j Ej].
  pose proof (A _ _ Ej). lia.
Qed.

(** The blocks *)
Definition good_block (o : spp_out smp) : Prop :=
  o_spp _ o = map signal (times (o_now _ o) (Z.to_nat spp)) /\
  (forall x, 0 <= x < spp -> existsb (fun p => on_air smp p (o_now _ o + x)) P = true ->
     o_idx _ o <= x < o_idx _ o + o_length _ o) /\
  ((o_idx _ o = -1 /\ o_length _ o = -1 /\ forall x, 0 <= x < spp -> existsb (fun p => on_air smp p (o_now _ o + x)) P = false) \/
   (0 <= o_idx _ o /\ 0 < o_length _ o /\ o_idx _ o + o_length _ o <= spp /\ 
    exists x, 0 <= x < spp /\ existsb (fun p => on_air smp p (o_now _ o + x)) P = true)).

Lemma times_ext (b : list smp) t : length b = Z.to_nat spp ->
  (forall x, 0 <= x < spp -> nth (Z.to_nat x) b zero = signal (t + x)) ->
  b = map signal (times t (Z.to_nat spp)).
Proof.
  intros L A. apply (nth_ext _ _ zero zero).
  - unfold times. rewrite !map_length, seq_length. exact L.
  - intros n Hn. unfold times. rewrite map_map.
    rewrite (nth_indep (map _ _) zero ((fun i => signal (t + Z.of_nat i)) 0%nat))
      by (rewrite map_length, seq_length; lia).
    rewrite (map_nth (fun i => signal (t + Z.of_nat i))).
    rewrite seq_nth by lia. cbn [Nat.add].
    rewrite <- A by lia. f_equal. lia.
Qed.

Definition done (id : nat) (t : Z) : Prop := forall i p, (i < id)%nat -> nth_error P i = Some p -> txt p + lenp p <= t.
Definition later (id : nat) (t : Z) : Prop := forall p, nth_error P id = Some p -> t <= txt p.

Lemma later_all id t : later id t -> forall i p, (id <= i)%nat -> nth_error P i = Some p -> t <= txt p.
Proof.
  intros L i p Hi E. destruct (Nat.eq_dec id i) as [->|N]; [exact (L _ E)|].
  destruct (nth_error P id) as [q|] eqn:Eq.
  - pose proof (order' id i _ _ ltac:(lia) Eq E). pose proof (L _ Eq). pose proof (len_of _ _ Eq). lia.
  - apply nth_error_None in Eq. assert (nth_error P i <> None) by congruence. apply nth_error_Some in H. lia.
Qed.

Lemma exists_air_iff t : existsb (fun p => on_air smp p t) P = true <-> exists i p, nth_error P i = Some p /\ txt p <= t < txt p + lenp p.
Proof.
  rewrite existsb_exists. split.
  - intros [p [I A]]. apply In_nth_error in I as [i E]. apply on_air_iff in A. eauto.
  - intros (i & p & E & A). exists p. split; [eapply nth_error_In; eassumption|]. apply on_air_iff. exact A.
Qed.
Lemma exists_air_false t : existsb (fun p => on_air smp p t) P = false <-> forall i p, nth_error P i = Some p -> t < txt p \/ txt p + lenp p <= t.
Proof.
  rewrite <- not_true_iff_false, exists_air_iff. split.
  - intros A i p E. destruct (Z_lt_le_dec t (txt p)); [lia|]. destruct (Z_lt_le_dec t (txt p + lenp p)); [|lia].
    exfalso. apply A. eauto.
  - intros A (i & p & E & B). pose proof (A _ _ E). lia.
Qed.

Lemma zero_block id t : done id t -> later id (t + spp) ->
  good_block {| o_now := t; o_spp := zeros_spp smp zero spp; o_idx := -1; o_length := -1 |}.
Proof.
  intros D L. pose proof (later_all _ _ L) as LA.
  assert (Q : forall x, 0 <= x < spp -> forall i p, nth_error P i = Some p -> t + x < txt p \/ txt p + lenp p <= t + x).
  { intros x Hx i p E. destruct (Nat.lt_ge_cases i id) as [Hi|Hi]; [pose proof (D _ _ Hi E)|pose proof (LA _ _ Hi E)]; lia. }
  unfold good_block. cbn [o_now o_spp o_idx o_length]. split; [|split].
  - apply times_ext; [apply repeat_length|]. intros x Hx. unfold zeros_spp. rewrite (signal_out _ (Q x Hx)).
    assert (In (nth (Z.to_nat x) (repeat zero (Z.to_nat spp)) zero) (repeat zero (Z.to_nat spp))) as I
      by (apply nth_In; rewrite repeat_length; lia).
    exact (repeat_spec _ _ _ I).
  - intros x Hx A. rewrite (proj2 (exists_air_false _) (Q x Hx)) in A. discriminate.
  - left. split; [reflexivity|]. split; [reflexivity|]. intros x Hx. apply exists_air_false. exact (Q x Hx).
Qed.

(** spp_write *)
Lemma spp_write_ok (b d : list smp) off :
  length b = Z.to_nat spp -> (0 < length d)%nat -> 0 <= off -> off + Z.of_nat (length d) <= spp ->
  exists b', spp_write smp spp b off d = Ok b' /\ length b' = Z.to_nat spp /\
    (forall x, 0 <= x < spp -> nth (Z.to_nat x) b' zero =
       if (off <=? x) && (x <? off + Z.of_nat (length d)) then nth (Z.to_nat (x - off)) d zero else nth (Z.to_nat x) b zero).
Proof.
  intros L Ld O B. unfold spp_write.
  rewrite (proj2 (Z.ltb_lt _ _)), (proj2 (Z.leb_le _ _)) by lia. cbn [andb guard].
  eexists; split; [reflexivity|]. split.
  { rewrite !app_length, firstn_length, skipn_length. lia. }
  intros x Hx. destruct ((off <=? x) && (x <? off + Z.of_nat (length d))) eqn:R.
  - apply andb_true_iff in R as [R1 R2]. apply Z.leb_le in R1. apply Z.ltb_lt in R2.
    rewrite app_nth2 by (rewrite firstn_length; lia). rewrite app_nth1 by (rewrite firstn_length; lia).
    f_equal. rewrite firstn_length. lia.
  - apply andb_false_iff in R. destruct (Z_lt_le_dec x off) as [X|X].
    + rewrite app_nth1 by (rewrite firstn_length; lia).
      rewrite <- (firstn_skipn (Z.to_nat off) b) at 2. rewrite app_nth1 by (rewrite firstn_length; lia). reflexivity.
    + assert (off + Z.of_nat (length d) <= x) by (destruct R as [R|R]; [apply Z.leb_gt in R|apply Z.ltb_ge in R]; lia).
      rewrite app_nth2 by (rewrite firstn_length; lia). rewrite app_nth2 by (rewrite firstn_length; lia).
      rewrite nth_skipn. f_equal. rewrite !firstn_length. lia.
Qed.
Lemma take_ok p cnt n : 0 <= cnt -> 0 <= n -> cnt + n <= lenp p ->
  exists d, take smp p cnt n = Ok d /\ length d = Z.to_nat n /\
    (forall x, 0 <= x < n -> nth (Z.to_nat x) d zero = nth (Z.to_nat (cnt + x)) (samples _ p) zero).
Proof.
  clear. intros C N L. unfold take. rewrite (proj2 (Z.leb_le _ _)) by lia. cbn [guard]. eexists; split; [reflexivity|].
  unfold SimTx.lenp in L. split.
  - rewrite firstn_length, skipn_length. lia.
  - intros x Hx. 
    assert (E : nth (Z.to_nat x) (firstn (Z.to_nat n) (skipn (Z.to_nat cnt) (samples smp p))) zero =
                nth (Z.to_nat x) (skipn (Z.to_nat cnt) (samples smp p)) zero).
    { rewrite <- (firstn_skipn (Z.to_nat n) (skipn (Z.to_nat cnt) (samples smp p))) at 2.
      rewrite app_nth1; [reflexivity|]. rewrite firstn_length, skipn_length. lia. }
    rewrite E, nth_skipn. f_equal. lia.
Qed.

(** Invariant of the thread between two writes. *)
Definition aligned (t : Z) : Prop := exists k, t = start + k * spp.
Definition inv (t : thread) : Prop :=
  aligned (now t) /\ done (expected t) (now t) /\ later (expected t) (now t) /\
  match at_place t with
  | Outer => True
  | Zeros n => exists p, nth_error P (expected t) = Some p /\ n = (txt p - now t) / spp
  | Sending b len cnt => len <= cnt
  end \/
  aligned (now t) /\ done (expected t) (now t) /\
  exists p, nth_error P (expected t) = Some p /\ txt p < now t < txt p + lenp p /\
    at_place t = Sending (expected t) (lenp p) (now t - txt p).

Lemma aligned_next t : aligned t -> aligned (t + spp).
Proof. intros [k ->]. exists (k + 1). lia. Qed.

Lemma aligned_start t e : aligned t -> t <= e < t + spp -> spp_start spp start e = t.
Proof.
  intros [k ->] R. unfold spp_start. 
  replace ((e - start) / spp) with k; [reflexivity|].
  apply (Z.div_unique _ _ k (e - start - k * spp)); lia.
Qed.

Lemma available_some t i q : available smp P t i = Some q -> nth_error P i = Some q /\ visible_from smp q <= t.
Proof.
  unfold available. destruct (nth_error P i) as [r|]; [|discriminate].
  destruct (visible_from smp r <=? t) eqn:V; [|discriminate]. injection 1 as <-. apply Z.leb_le in V. auto.
Qed.
Lemma available_none t i q : available smp P t i = None -> nth_error P i = Some q -> t < visible_from smp q.
Proof.
  unfold available. intros A E. rewrite E in A. destruct (visible_from smp q <=? t) eqn:V; [discriminate|].
  apply Z.leb_gt in V. exact V.
Qed.

Lemma send_ok (t : thread) p off cnt :
  aligned (now t) -> done (expected t) (now t) -> nth_error P (expected t) = Some p ->
  0 <= cnt < lenp p -> 0 <= off < spp -> (cnt = 0 \/ off = 0) -> cnt - off = now t - txt p ->
  exists t' o, send t (expected t) (lenp p) cnt off = Ok (t', o) /\
    now t' = now t + spp /\ o_now _ o = now t /\ good_block o /\ inv t'.
Proof.
  intros AL D E C O CO T. set (id := expected t) in *. set (nw := now t) in *.
  pose proof (len_of _ _ E) as LP. unfold SimTx.send. fold id nw. unfold rd. rewrite E. cbn [bind].
  set (this := Z.min (lenp p - cnt) (spp - off)).
  assert (TH : 0 < this /\ this <= lenp p - cnt /\ this <= spp - off /\ (this = lenp p - cnt \/ this = spp - off)) by lia.
  clearbody this. destruct TH as (T1 & T2 & T3 & T4).
  destruct (take_ok p cnt this) as (d & -> & Ld & Nd); try lia. cbn [bind].
  destruct (spp_write_ok (zeros_spp smp zero spp) d off) as (buf & -> & Lb & Nb); try lia.
  { unfold zeros_spp. apply repeat_length. }
  cbn [bind]. rewrite (proj2 (Z.leb_le _ _)) by lia. cbn [guard].
  rewrite Ld, Z2Nat.id in Nb by lia.
  assert (Z0 : forall x, 0 <= x < spp -> nth (Z.to_nat x) (zeros_spp smp zero spp) zero = zero).
  { intros x Hx. unfold zeros_spp. apply (repeat_spec (Z.to_nat spp)). apply nth_In. rewrite repeat_length. lia. }
  (* samples of this packet and before *)
  assert (IN : forall x, off <= x < off + this -> hw (nth (Z.to_nat x) buf zero) = signal (nw + x)).
  { intros x Hx. rewrite Nb by lia. rewrite (proj2 (Z.leb_le _ _)), (proj2 (Z.ltb_lt _ _)) by lia. cbn [andb].
    rewrite Nd by lia. rewrite (signal_in _ _ (nw + x) E) by lia. f_equal. f_equal. lia. }
  assert (ZB : forall x, 0 <= x < spp -> x < off \/ off + this <= x -> hw (nth (Z.to_nat x) buf zero) = zero).
  { intros x Hx Hx2. rewrite Nb by lia. replace ((off <=? x) && (x <? off + this)) with false.
    - rewrite Z0 by lia. exact hw_zero.
    - symmetry. apply andb_false_iff. destruct Hx2; [left; apply Z.leb_gt|right; apply Z.ltb_ge]; lia. }
  assert (PRE : forall x, 0 <= x < off -> forall i q, nth_error P i = Some q -> nw + x < txt q \/ txt q + lenp q <= nw + x).
  { intros x Hx i q Eq. destruct (Nat.lt_trichotomy i id) as [Hi|[->|Hi]].
    - pose proof (D _ _ Hi Eq). lia.
    - rewrite E in Eq. injection Eq as <-. lia.
    - pose proof (order' _ _ _ _ Hi E Eq). lia. }
  assert (mapnth : forall (b : list smp) x, nth x (map hw b) zero = hw (nth x b zero)).
  { intros b x. rewrite <- hw_zero at 1. apply map_nth. }
  (* a block that ends with this packet or without further packets *)
  assert (BLOCK : later (S id) (nw + spp) -> (off + this < spp -> this = lenp p - cnt) ->
    good_block {| o_now := nw; o_spp := map hw buf; o_idx := off; o_length := this |}).
  { intros LT EE. pose proof (later_all _ _ LT) as LA.
    assert (POST : forall x, off + this <= x < spp -> forall i q, nth_error P i = Some q -> nw + x < txt q \/ txt q + lenp q <= nw + x).
    { intros x Hx i q Eq. destruct (Nat.lt_trichotomy i id) as [Hi|[->|Hi]].
      - pose proof (D _ _ Hi Eq). lia.
      - rewrite E in Eq. injection Eq as <-. lia.
      - pose proof (LA i q ltac:(lia) Eq). lia. }
    unfold good_block. cbn [o_now o_spp o_idx o_length]. split; [|split].
    - apply times_ext; [rewrite map_length; exact Lb|]. intros x Hx. rewrite mapnth.
      destruct (Z_lt_le_dec x off) as [X|X]; [rewrite ZB by lia; symmetry; apply signal_out, PRE; lia|].
      destruct (Z_lt_le_dec x (off + this)) as [Y|Y]; [apply IN; lia|].
      rewrite ZB by lia. symmetry; apply signal_out, POST; lia.
    - intros x Hx A. destruct (Z_lt_le_dec x off) as [X|X].
      { rewrite (proj2 (exists_air_false _) (PRE x ltac:(lia))) in A. discriminate. }
      destruct (Z_lt_le_dec x (off + this)) as [Y|Y]; [lia|].
      rewrite (proj2 (exists_air_false _) (POST x ltac:(lia))) in A. discriminate.
    - right. split; [lia|]. split; [lia|]. split; [lia|]. exists off. split; [lia|]. apply exists_air_iff.
      exists id, p. split; [exact E|lia]. }
  assert (DONE : cnt + this = lenp p -> done (S id) (nw + spp)).
  { intros EE i q Hi Eq. destruct (Nat.eq_dec i id) as [->|N].
    - rewrite E in Eq. injection Eq as <-. lia.
    - pose proof (D i q ltac:(lia) Eq). lia. }
  destruct (Z.eqb_spec (cnt + this) (lenp p)) as [EE|NE].
  - (* end of the packet *)
    destruct (Z.ltb_spec (off + this) spp) as [IN_SPP|AT_END].
    + destruct (available smp P nw (S id)) as [q|] eqn:AV.
      * apply available_some in AV as [Eq V]. pose proof (len_of _ _ Eq) as LQ.
        pose proof (in_order _ _ _ _ WT _ _ _ E Eq) as OR. fold (SimTx.lenp smp p) in OR.
        cbv zeta. rewrite (proj2 (Z.ltb_lt _ _)) by lia. cbn [guard].
        rewrite (proj2 (Z.leb_le _ _)) by lia. cbn [guard].
        destruct (Z.ltb_spec (txt q) (nw + spp)) as [SAME|LATER].
        -- (* the next packet starts in this spp *)
           rewrite (proj2 (Z.ltb_lt _ _)) by lia. cbn [guard].
           destruct (take_ok q 0 (spp - (txt q - nw))) as (d2 & -> & Ld2 & Nd2); try lia. cbn [bind].
           destruct (spp_write_ok buf d2 (txt q - nw)) as (buf2 & -> & Lb2 & Nb2); try lia. cbn [bind].
           rewrite Ld2, Z2Nat.id in Nb2 by lia.
           eexists _, _. split; [reflexivity|]. cbn [now o_now]. split; [reflexivity|]. split; [reflexivity|].
           assert (MID : forall x, off + this <= x < txt q - nw -> forall i r, nth_error P i = Some r -> nw + x < txt r \/ txt r + lenp r <= nw + x).
           { intros x Hx i r Er. destruct (Nat.lt_trichotomy i id) as [Hi|[->|Hi]].
             - pose proof (D _ _ Hi Er). lia.
             - rewrite E in Er. injection Er as <-. lia.
             - assert (later (S id) (txt q)) as LL by (intros r' Er'; rewrite Eq in Er'; injection Er' as <-; lia).
               pose proof (later_all _ _ LL i r ltac:(lia) Er). lia. }
           split.
           ++ unfold good_block. cbn [o_now o_spp o_idx o_length]. split; [|split].
              ** apply times_ext; [rewrite map_length; exact Lb2|]. intros x Hx. rewrite mapnth, Nb2 by lia.
                 destruct (Z.leb_spec (txt q - nw) x) as [X|X]; cbn [andb].
                 --- rewrite (proj2 (Z.ltb_lt _ _)) by lia. rewrite Nd2 by lia.
                     rewrite (signal_in _ _ (nw + x) Eq) by lia. f_equal. f_equal. lia.
                 --- destruct (Z_lt_le_dec x off) as [X1|X1]; [rewrite ZB by lia; symmetry; apply signal_out, PRE; lia|].
                     destruct (Z_lt_le_dec x (off + this)) as [Y|Y]; [apply IN; lia|].
                     rewrite ZB by lia. symmetry; apply signal_out, MID; lia.
              ** intros x Hx _. lia.
              ** right. split; [lia|]. split; [lia|]. split; [lia|]. exists off. split; [lia|]. apply exists_air_iff.
                 exists id, p. split; [exact E|lia].
           ++ right. cbn [now expected at_place]. split; [apply aligned_next; exact AL|]. split; [apply DONE; exact EE|].
              exists q. split; [exact Eq|]. split; [lia|]. f_equal. lia.
        -- (* it starts later *)
           assert (LT : later (S id) (nw + spp)) by (intros r Er; rewrite Eq in Er; injection Er as <-; lia).
           eexists _, _. split; [reflexivity|]. cbn [now o_now]. split; [reflexivity|]. split; [reflexivity|].
           split; [apply BLOCK; [exact LT|lia]|].
           left. cbn [now expected at_place]. split; [apply aligned_next; exact AL|]. split; [apply DONE; exact EE|].
           split; [exact LT|].
           pose proof (HL _ _ _ E Eq) as HH. unfold harmless in HH.
           rewrite (aligned_start nw) in HH; [|exact AL|unfold SimTx.lenp in *; lia].
           unfold SimTx.lenp in *. lia.
      * assert (LT : later (S id) (nw + spp)).
        { intros r Er. pose proof (available_none _ _ _ AV Er). pose proof (ahead_of _ _ Er). lia. }
        eexists _, _. split; [reflexivity|]. cbn [now o_now]. split; [reflexivity|]. split; [reflexivity|].
        split; [apply BLOCK; [exact LT|lia]|].
        left. cbn [now expected at_place]. split; [apply aligned_next; exact AL|]. split; [apply DONE; exact EE|].
        split; [exact LT|lia].
    + assert (LT : later (S id) (nw + spp)).
      { intros r Er. pose proof (in_order _ _ _ _ WT _ _ _ E Er) as OR. fold (SimTx.lenp smp p) in OR. lia. }
      eexists _, _. split; [reflexivity|]. cbn [now o_now]. split; [reflexivity|]. split; [reflexivity|].
      split; [apply BLOCK; [exact LT|lia]|].
      left. cbn [now expected at_place]. split; [apply aligned_next; exact AL|]. split; [apply DONE; exact EE|].
      split; [exact LT|lia].
  - assert (LT : later (S id) (nw + spp)).
    { intros r Er. pose proof (in_order _ _ _ _ WT _ _ _ E Er) as OR. fold (SimTx.lenp smp p) in OR. lia. }
    eexists _, _. split; [reflexivity|]. cbn [now o_now]. split; [reflexivity|]. split; [reflexivity|].
    split; [apply BLOCK; [exact LT|lia]|].
    right. cbn [now expected at_place]. split; [apply aligned_next; exact AL|].
    split. { intros i r Hi Er. pose proof (D i r Hi Er). lia. }
    exists p. split; [exact E|]. split; [lia|]. f_equal. lia.
Qed.

Lemma zeros_ok (t : thread) p :
  aligned (now t) -> done (expected t) (now t) -> later (expected t) (now t) -> nth_error P (expected t) = Some p ->
  exists t' o, zeros smp zero hw spp P t ((txt p - now t) / spp) = Ok (t', o) /\
    now t' = now t + spp /\ o_now _ o = now t /\ good_block o /\ inv t'.
Proof.
  intros AL D L E. pose proof (L _ E) as LE. unfold zeros.
  pose proof (Z.mul_div_le (txt p - now t) spp spp_pos).
  pose proof (Z.mul_succ_div_gt (txt p - now t) spp spp_pos).
  set (n := (txt p - now t) / spp) in *.
  assert (DIV : (txt p - (now t + spp)) / spp = n - 1).
  { unfold n. replace (txt p - (now t + spp)) with (txt p - now t + (-1) * spp) by lia. rewrite Z.div_add by lia. lia. }
  destruct (Z.ltb_spec 0 n) as [N|N].
  - assert (spp <= txt p - now t) by (clear - N H spp_pos; clearbody n; nia).
    eexists _, _. split; [reflexivity|]. cbn [now o_now]. split; [reflexivity|]. split; [reflexivity|]. split.
    + apply (zero_block (expected t)); [exact D|]. intros r Er. rewrite E in Er. injection Er as <-. lia.
    + left. cbn [now expected at_place]. split; [apply aligned_next; exact AL|].
      split. { intros i r Hi Er. pose proof (D i r Hi Er). lia. }
      split. { intros r Er. rewrite E in Er. injection Er as <-. lia. }
      exists p. split; [exact E|]. symmetry. exact DIV.
  - assert (txt p - now t < spp) by (clear - N H0 spp_pos; clearbody n; nia).
    unfold rd. rewrite E. cbn [bind]. rewrite (proj2 (Z.ltb_lt _ _)) by lia. cbn [guard].
    apply send_ok; try assumption; try lia. pose proof (len_of _ _ E). lia.
Qed.

Lemma outer_ok (t : thread) :
  aligned (now t) -> done (expected t) (now t) -> later (expected t) (now t) ->
  exists t' o, outer smp zero hw spp P t = Ok (t', o) /\
    now t' = now t + spp /\ o_now _ o = now t /\ good_block o /\ inv t'.
Proof.
  intros AL D L. unfold outer. destruct (available smp P (now t) (expected t)) as [p|] eqn:AV.
  - apply available_some in AV as [E V]. pose proof (len_of _ _ E). pose proof (L _ E).
    rewrite (proj2 (Z.ltb_lt _ _)) by lia. cbn [guard]. rewrite (proj2 (Z.leb_le _ _)) by lia. cbn [guard].
    apply zeros_ok; assumption.
  - assert (LT : later (expected t) (now t + spp)).
    { intros r Er. pose proof (available_none _ _ _ AV Er). pose proof (ahead_of _ _ Er). lia. }
    eexists _, _. split; [reflexivity|]. cbn [now o_now]. split; [reflexivity|]. split; [reflexivity|].
    split; [exact (zero_block _ _ D LT)|].
    left. cbn [now expected at_place]. split; [apply aligned_next; exact AL|].
    split. { intros i r Hi Er. pose proof (D i r Hi Er). lia. }
    split; [exact LT|exact I].
Qed.

Lemma next_ok (t : thread) : inv t ->
  exists t' o, next_spp t = Ok (t', o) /\ now t' = now t + spp /\ o_now _ o = now t /\ good_block o /\ inv t'.
Proof.
  intros I. unfold SimTx.next_spp. destruct I as [(AL & D & L & X)|(AL & D & p & E & R & X)].
  - destruct (at_place t) as [|n|b len cnt].
    + apply outer_ok; assumption.
    + destruct X as (p & E & ->). apply zeros_ok; assumption.
    + rewrite (proj2 (Z.ltb_ge _ _)) by lia. apply outer_ok; assumption.
  - rewrite X. rewrite (proj2 (Z.ltb_lt _ _)) by lia. apply send_ok; try assumption; lia.
Qed.

Lemma run_ok k : forall t, inv t ->
  exists t' os, run t k = Ok (t', os) /\ length os = k /\
    (forall i o, nth_error os i = Some o -> o_now _ o = now t + Z.of_nat i * spp /\ good_block o).
Proof.
  induction k as [|k IH]; intros t I.
  - exists t, []. split; [reflexivity|]. split; [reflexivity|]. intros [|i] o E; discriminate.
  - destruct (next_ok t I) as (t1 & o & E1 & N1 & O1 & G1 & I1).
    destruct (IH t1 I1) as (t2 & os & E2 & L2 & A2).
    exists t2, (o :: os). cbn [SimTx.run]. rewrite E1. cbn [bind]. rewrite E2. cbn [bind].
    split; [reflexivity|]. split; [cbn [length]; lia|]. intros [|i] o' E; cbn [nth_error] in E.
    + injection E as <-. split; [lia|exact G1].
    + destruct (A2 _ _ E) as [A B]. split; [lia|exact B].
Qed.

Lemma inv_new : inv (thread_new start).
Proof.
  left. cbn [thread_new now expected at_place]. split; [exists 0; lia|]. split; [intros i p Hi; lia|]. split; [|exact I].
  intros p E. apply (in_future _ _ _ _ WT). eapply nth_error_In; eassumption.
Qed.
End facts.

Lemma times_app t a b : times t (a + b) = times t a ++ times (t + Z.of_nat a) b.
Proof.
  unfold times. rewrite seq_app, map_app. f_equal. cbn [Nat.add].
  assert (G : forall b m, map (fun i => t + Z.of_nat i) (seq (a + m) b) = map (fun i => t + Z.of_nat a + Z.of_nat i) (seq m b)).
  { clear. induction b as [|b IH]; intros m; [reflexivity|]. cbn [seq map]. f_equal; [lia|].
    rewrite <- IH. replace (S (a + m)) with (a + S m)%nat by lia. reflexivity. }
  rewrite <- (G b 0%nat). replace (a + 0)%nat with a by lia. reflexivity.
Qed.

Lemma concat_blocks {smp} (f : Z -> smp) n : forall (os : list (spp_out smp)) t,
  (forall i o, nth_error os i = Some o -> o_spp _ o = map f (times (t + Z.of_nat i * Z.of_nat n) n)) ->
  concat (map (o_spp smp) os) = map f (times t (length os * n)).
Proof.
  induction os as [|o os IH]; intros t A; [reflexivity|].
  cbn [map concat length Nat.mul]. rewrite times_app, map_app. f_equal.
  - rewrite (A 0%nat o eq_refl). do 2 f_equal. lia.
  - apply IH. intros i o' E. rewrite (A (S i) o' E). do 2 f_equal. lia.
Qed.
