From Verif Require Import Base IntHelpers IntHelpersSpec IntHelpersFacts Ppx Pll PllSpec.
From Coq Require Import QArith Lqa.
Open Scope Z_scope.

(** The ring, newest beacon first. *)
Definition newest_first (p : pll) : list Z :=
  match pl_vec p, pl_idx p with
  | [a; b; c; d; e], 0%nat => [e; d; c; b; a]
  | [a; b; c; d; e], 1%nat => [a; e; d; c; b]
  | [a; b; c; d; e], 2%nat => [b; a; e; d; c]
  | [a; b; c; d; e], 3%nat => [c; b; a; e; d]
  | [a; b; c; d; e], 4%nat => [d; c; b; a; e]
  | _, _ => []
  end.
Definition ring_ok (p : pll) : Prop := length (pl_vec p) = 5%nat /\ (pl_idx p < 5)%nat.
Definition setup (sr P : Z) (p : pll) : Prop :=
  pl_rate p = sr /\ pl_period p = P /\ pl_accept p = sr /\ pl_min p = 5 * sr /\ pl_max p = longest sr P.
Definition tm (t : Z) : Prop := 0 <= t < 2 ^ 61.
Definition rel (sr P : Z) (p : pll) (s : est) : Prop :=
  ring_ok p /\ setup sr P p /\ newest_first p = firstn 5 (accepted s ++ repeat UNDEFINED_EARLY_64 5) /\
  Forall tm (accepted s) /\ (pl_warp p == warp s)%Q.

Lemma len5 {A} (l : list A) : length l = 5%nat -> exists a b c d e, l = [a; b; c; d; e].
Proof. destruct l as [|a [|b [|c [|d [|e [|]]]]]]; try discriminate. intros _. repeat eexists. Qed.

Lemma b63 : 2 ^ (Z.of_N 64 - 1) = 9223372036854775808. Proof. reflexivity. Qed.
Ltac in64 := apply in_signed_iff; rewrite b63; lia.

Lemma in_sync_iff w : in_sync w = true <-> synchronous w.
Proof.
  unfold in_sync, synchronous. rewrite andb_true_iff, !negb_true_iff. split.
  - intros (A & B). split; apply Qnot_le_lt; intros K; apply Qle_bool_iff in K; congruence.
  - intros (A & B). split; destruct Qle_bool eqn:E; auto; apply Qle_bool_iff in E; exfalso; lra.
Qed.
Lemma in_sync_comp w w' : (w == w')%Q -> synchronous w -> synchronous w'.
Proof. unfold synchronous. intros E (A & B). rewrite <- E. auto. Qed.

Definition good (sr P : Z) : Prop := 0 < sr < 2 ^ 32 /\ 0 < P < 2 ^ 32.

(** What one call does, on the level of the ring read as a list. *)
Lemma provide_ring sr P p t l0 l1 l2 l3 l4 : good sr P -> ring_ok p -> setup sr P p ->
  newest_first p = [l0; l1; l2; l3; l4] ->
  (Forall (fun x => x = UNDEFINED_EARLY_64 \/ tm x) [l0; l1; l2; l3; l4]) -> tm t ->
  let q w := pll_set p (upd (pl_vec p) (pl_idx p) t) (next_idx p) w in
  (forall w, ring_ok (q w) /\ setup sr P (q w) /\ newest_first (q w) = [t; l0; l1; l2; l3]) /\
  pll_provide p t =
    if t - l0 <? sr then Ok p
    else if l3 <? 0 then Ok (q (pl_warp p))
    else if longest sr P <? t - l3 then Ok (q (pl_warp p))
    else let e := round_z (t - l3) P * P in
         if e =? 0 then Abort
         else let w := ema_update (pl_warp p) (inject_Z (t - l3) / inject_Z e)%Q in
              guard (in_sync w) (Ok (q w)).
Proof.
  intros (G1 & G2) (R1 & R2) (S1 & S2 & S3 & S4 & S5) N F T q. unfold tm in *. unfold ring_ok, setup.
  change (2 ^ 61) with 2305843009213693952 in *. change (2 ^ 32) with 4294967296 in *.
  assert (U : UNDEFINED_EARLY_64 = -1152921504606846976) by reflexivity.
  destruct (len5 _ R1) as (a & b & c & d & e & V).
  assert (I : pl_idx p = 0%nat \/ pl_idx p = 1%nat \/ pl_idx p = 2%nat \/ pl_idx p = 3%nat \/ pl_idx p = 4%nat) by lia.
  inversion F as [|? ? F0 F']; subst. inversion F' as [|? ? F1 F'']; subst. inversion F'' as [|? ? F2 F3]; subst.
  inversion F3 as [|? ? F4 F5]; subst. inversion F5 as [|? ? F6 _]; subst. clear F F' F'' F3 F5.
  assert (B0 : -1152921504606846976 <= l0 < 2305843009213693952) by lia.
  assert (B3 : -1152921504606846976 <= l3 < 2305843009213693952) by lia.
  split.
  - intros w. subst q. unfold newest_first, next_idx, pll_set in *. cbn [pl_vec pl_idx pl_rate pl_period pl_accept pl_min pl_max].
    rewrite upd_length, R1. rewrite V in *.
    destruct I as [I|[I|[I|[I|I]]]]; rewrite I in *; cbn in *; injection N as <- <- <- <- <-; repeat split; auto; lia.
  - assert (L : get_beacon_time_last_known p = Ok l0).
    { unfold get_beacon_time_last_known, vat, prev_idx, newest_first in *. rewrite V in *.
      destruct I as [I|[I|[I|[I|I]]]]; rewrite I in *; cbn in *; congruence. }
    unfold pll_provide. rewrite L. cbn [bind]. rewrite sgn_ok by in64. cbn [bind]. rewrite S3.
    destruct (t - l0 <? pl_rate p) eqn:A; [now rewrite A||reflexivity|].
    assert (W : exists x, vat p (pl_idx p) = Ok x).
    { unfold vat. rewrite V. destruct I as [I|[I|[I|[I|I]]]]; rewrite I; cbn; eauto. }
    destruct W as (x & W). rewrite W. cbn [bind].
    set (p1 := pll_set p (upd (pl_vec p) (pl_idx p) t) (pl_idx p) (pl_warp p)).
    assert (O : get_beacon_time_oldest_known p1 = Ok l3).
    { unfold get_beacon_time_oldest_known, vat, next_idx, newest_first in *. subst p1. unfold pll_set. cbn [pl_vec pl_idx].
      rewrite upd_length, R1. rewrite V in *.
      destruct I as [I|[I|[I|[I|I]]]]; rewrite I in *; cbn in *; congruence. }
    rewrite O. cbn [bind]. change (pl_warp p1) with (pl_warp p). change (pl_vec p1) with (upd (pl_vec p) (pl_idx p) t).
    assert (NI : next_idx p1 = next_idx p). { unfold next_idx. subst p1. unfold pll_set. cbn [pl_vec pl_idx]. now rewrite upd_length. }
    rewrite NI. change (pll_set p1 (upd (pl_vec p) (pl_idx p) t) (next_idx p) (pl_warp p)) with (q (pl_warp p)).
    destruct (l3 <? 0) eqn:Neg; [reflexivity|].
    assert (X : vat p1 (pl_idx p1) = Ok t).
    { unfold vat. subst p1. unfold pll_set. cbn [pl_vec pl_idx]. rewrite V. destruct I as [I|[I|[I|[I|I]]]]; rewrite I; reflexivity. }
    rewrite X. cbn [bind]. rewrite sgn_ok by in64. cbn [bind].
    change (pl_max p1) with (pl_max p). change (pl_period p1) with (pl_period p). rewrite S5.
    destruct (longest (pl_rate p) (pl_period p) <? t - l3) eqn:M; [reflexivity|].
    rewrite round_integer_def by (rewrite ?b63; lia). cbn [bind].
    assert (D : 2 * Z.abs (t - l3 - round_z (t - l3) (pl_period p) * pl_period p) <= pl_period p).
    { destruct (round_z_nearest (t - l3) (pl_period p) ltac:(lia)) as (Nn & _). set (k := round_z _ _) in *.
      pose proof (Nn (k + 1)) as N1. pose proof (Nn (k - 1)) as N2.
      replace (t - l3 - (k + 1) * pl_period p) with (t - l3 - k * pl_period p - pl_period p) in N1 by ring.
      replace (t - l3 - (k - 1) * pl_period p) with (t - l3 - k * pl_period p + pl_period p) in N2 by ring. lia. }
    rewrite sgn_ok by in64. cbn [bind]. cbv zeta. destruct (_ =? 0); [reflexivity|]. reflexivity.
Qed.

Lemma rel_ring sr P p s : rel sr P p s -> exists l0 l1 l2 l3 l4, newest_first p = [l0; l1; l2; l3; l4] /\
  Forall (fun x => x = UNDEFINED_EARLY_64 \/ tm x) [l0; l1; l2; l3; l4] /\
  l0 = nth 0 (accepted s) UNDEFINED_EARLY_64 /\ l3 = nth 3 (accepted s) UNDEFINED_EARLY_64 /\
  forall t, firstn 5 ((t :: accepted s) ++ repeat UNDEFINED_EARLY_64 5) = [t; l0; l1; l2; l3].
Proof.
  intros (_ & _ & N & F & _). rewrite N.
  destruct (accepted s) as [|a [|b [|c [|d [|e r]]]]]; cbn [app firstn repeat nth] in *;
    repeat match goal with H : Forall _ (_ :: _) |- _ => inversion H; clear H; subst end;
    do 5 eexists; (split; [reflexivity|]); (split; [repeat (apply Forall_cons; [auto|]); apply Forall_nil|]); (split; [reflexivity|]); (split; [reflexivity|]); reflexivity.
Qed.

Lemma ema_smoothed w r : smoothed w r (ema_update w r).
Proof. unfold smoothed, ema_update. ring. Qed.
Lemma undef_neg : UNDEFINED_EARLY_64 < 0. Proof. reflexivity. Qed.
Lemma nth3_measured acc t d : measured acc t d -> (3 < length acc)%nat /\ d = t - nth 3 acc UNDEFINED_EARLY_64.
Proof. intros (o & N & ->). split; [apply nth_error_Some; congruence|]. now rewrite (nth_error_nth _ _ _ N). Qed.
Lemma measured_nth3 acc t : (3 < length acc)%nat -> measured acc t (t - nth 3 acc UNDEFINED_EARLY_64).
Proof. intros H. exists (nth 3 acc UNDEFINED_EARLY_64). split; [now apply nth_error_nth'|reflexivity]. Qed.

(** One call follows the specification; it aborts only when the estimate leaves the 150 ppm or no whole period fits. *)
Lemma provide_sim sr P p s t : good sr P -> rel sr P p s -> tm t ->
  (exists p' s', pll_provide p t = Ok p' /\ est_step sr P s (Provide t) s' /\ rel sr P p' s') \/
  (pll_provide p t = Abort /\ acceptable sr (accepted s) t /\ exists d, measured (accepted s) t d /\ d <= longest sr P /\
     ((is_nearest d P 0) \/ exists r w', ratio P d r /\ smoothed (warp s) r w' /\ ~ synchronous w')).
Proof.
  intros G R T. destruct (rel_ring _ _ _ _ R) as (l0 & l1 & l2 & l3 & l4 & N & F & L0 & L3 & Push).
  pose proof R as (R1 & R2 & _ & R4 & R5).
  destruct (provide_ring sr P p t l0 l1 l2 l3 l4 G R1 R2 N F T) as (Q & E). cbv zeta in Q, E. rewrite E. clear E.
  destruct s as [acc w]. cbn [accepted warp] in *.
  assert (Rq : forall v w', (v == w')%Q -> rel sr P (pll_set p (upd (pl_vec p) (pl_idx p) t) (next_idx p) v) (mkEst (t :: acc) w')).
  { intros v w' V. destruct (Q v) as (Q1 & Q2 & Q3). split; [exact Q1|]. split; [exact Q2|]. cbn [accepted warp].
    split; [rewrite Q3; symmetry; apply Push|]. split; [constructor; assumption|]. exact V. }
  unfold good, tm in *. change (2 ^ 61) with 2305843009213693952 in *. change (2 ^ 32) with 4294967296 in *.
  assert (U : UNDEFINED_EARLY_64 = -1152921504606846976) by reflexivity.
  destruct (Z.ltb_spec (t - l0) sr) as [A|A].
  { left. exists p, (mkEst acc w). split; [reflexivity|]. split; [|exact R]. apply E_ignore.
    unfold acceptable. destruct acc as [|a acc]; cbn [nth] in L0; subst; lia. }
  assert (Acc : acceptable sr acc t). { unfold acceptable. destruct acc as [|a acc]; [exact I|]. cbn [nth] in L0. subst. exact A. }
  destruct (Z.ltb_spec l3 0) as [B|B].
  { left. eexists. exists (mkEst (t :: acc) w). split; [reflexivity|]. split; [|now apply Rq]. apply E_collect; [exact Acc|].
    intros d M. exfalso. apply nth3_measured in M. destruct M as (M & _).
    rewrite Forall_forall in R4. specialize (R4 (nth 3 acc UNDEFINED_EARLY_64) (nth_In _ _ M)). rewrite <- L3 in R4. lia. }
  assert (Ln : (3 < length acc)%nat).
  { destruct (Nat.ltb_spec 3 (length acc)); [auto|]. rewrite nth_overflow in L3 by lia. lia. }
  assert (M : measured acc t (t - l3)) by (rewrite L3; now apply measured_nth3).
  destruct (Z.ltb_spec (longest sr P) (t - l3)) as [C|C].
  { left. eexists. exists (mkEst (t :: acc) w). split; [reflexivity|]. split; [|now apply Rq]. apply E_collect; [exact Acc|].
    intros d M'. apply nth3_measured in M'. destruct M' as (_ & ->). rewrite <- L3. exact C. }
  pose proof (round_z_nearest (t - l3) P ltac:(lia)) as Nn.
  destruct (Z.eqb_spec (round_z (t - l3) P * P) 0) as [Z0|Z0].
  { right. split; [reflexivity|]. split; [exact Acc|]. exists (t - l3). split; [exact M|]. split; [exact C|]. left.
    assert (round_z (t - l3) P = 0) as <- by nia. exact Nn. }
  set (r := (inject_Z (t - l3) / inject_Z (round_z (t - l3) P * P))%Q).
  assert (Rt : ratio P (t - l3) r) by (exists (round_z (t - l3) P); split; [exact Nn|]; split; [exact Z0|reflexivity]).
  assert (Sm : smoothed w r (ema_update (pl_warp p) r)).
  { unfold smoothed, ema_update. rewrite R5. ring. }
  destruct (in_sync (ema_update (pl_warp p) r)) eqn:Sy; cbn [guard].
  - left. eexists. exists (mkEst (t :: acc) (ema_update (pl_warp p) r)). split; [reflexivity|]. split; [|apply Rq; reflexivity].
    eapply E_measure; eauto. now apply in_sync_iff.
  - right. split; [reflexivity|]. split; [exact Acc|]. exists (t - l3). split; [exact M|]. split; [exact C|]. right.
    exists r, (ema_update (pl_warp p) r). split; [exact Rt|]. split; [exact Sm|]. intros K. apply in_sync_iff in K. congruence.
Qed.

Lemma pll_new_rel sr P p : 0 < sr < 2 ^ 32 -> 0 < P < 2 ^ 32 -> pll_new sr P = Ok p ->
  rel sr P p (mkEst [] 1) /\ 120 * longest sr P < 1000000 * P.
Proof.
  intros H1 H2 H. change (2 ^ 32) with 4294967296 in *. unfold pll_new in H.
  rewrite sgn_ok in H by in64. cbn [bind] in H. rewrite Z.quot_mul in H by lia.
  rewrite sgn_ok in H by in64. cbn [bind] in H.
  replace (sr * 5000) with (5 * sr * 1000) in H by ring. rewrite Z.quot_mul in H by lia.
  rewrite sgn_ok in H by in64. cbn [bind] in H. rewrite sgn_ok in H by in64. cbn [bind] in H.
  destruct (sr <? 5 * sr); [|discriminate]. cbn [guard] in H. destruct (sr =? 0) eqn:Z0; [lia|].
  rewrite Z.rem_mul in H by lia. cbn [Z.eqb guard] in H. destruct (5 * sr <? 5 * sr + P * 8); [|discriminate]. cbn [guard] in H.
  rewrite sgn_ok in H by in64. cbn [bind] in H.
  destruct (Z.ltb_spec (Z.quot ((5 * sr + P * 8) * 15) 1000000) (Z.quot P 8)) as [L|L]; [|discriminate]. cbn [guard] in H.
  injection H as <-. rewrite Z.quot_mul by lia. split.
  - split; [split; [reflexivity|cbn; lia]|]. split; [repeat split; cbn; unfold longest; lia|]. split; [reflexivity|]. split; [constructor|reflexivity].
  - destruct (quot_pos ((5 * sr + P * 8) * 15) 1000000 ltac:(lia) ltac:(lia)) as (r & E & B).
    destruct (quot_pos P 8 ltac:(lia) ltac:(lia)) as (r' & E' & B'). unfold longest. lia.
Qed.
Lemma reset_rel sr P p s : rel sr P p s -> rel sr P (pll_reset p) (mkEst [] 1).
Proof.
  intros ((R1 & R2) & (S1 & S2 & S3 & S4 & S5) & _). unfold pll_reset. rewrite R1.
  split; [split; [reflexivity|cbn; lia]|]. split; [repeat split; assumption|]. split; [reflexivity|]. split; [constructor|reflexivity].
Qed.
