(** Proofs about whole histories of the loopback firmwares. *)
From Coq Require Import QArith Qminmax Sorted.
From Verif Require Import Base Cells Loopback LoopbackSpec LoopbackFacts.
Open Scope nat_scope.

(** The entries after the last change of the SNR *)
Definition since (tr : list entry) : list entry :=
  fold_left (fun acc o => if tunes o then [] else acc ++ [o]) tr [].
Lemma since_snoc tr o : since (tr ++ [o]) = if tunes o then [] else since tr ++ [o].
Proof. unfold since. rewrite fold_left_app. reflexivity. Qed.
Lemma since_quiet b : forallb (fun o => negb (tunes o)) b = true -> forall tr,
  since (tr ++ b) = since tr ++ b.
Proof.
  induction b as [|o b IH]; intros H tr; [now rewrite !app_nil_r|].
  cbn [forallb] in H. apply andb_prop in H as (Ho & H). apply negb_true_iff in Ho.
  replace (tr ++ o :: b) with ((tr ++ [o]) ++ b) by now rewrite <- app_assoc.
  rewrite IH by exact H. rewrite since_snoc, Ho, <- app_assoc. reflexivity.
Qed.
Lemma since_seg a o b : tunes o = true -> forallb (fun o => negb (tunes o)) b = true -> since (a ++ o :: b) = b.
Proof.
  intros Ho H. replace (a ++ o :: b) with ((a ++ [o]) ++ b) by now rewrite <- app_assoc.
  rewrite since_quiet by exact H. rewrite since_snoc, Ho. reflexivity.
Qed.
Lemma count_snoc f tr o : count f (tr ++ [o]) = count f tr + (if f o then 1 else 0).
Proof. unfold count. rewrite filter_app, app_length. cbn. destruct (f o); reflexivity. Qed.
Lemma calls_snoc tr o : calls (tr ++ [o]) = calls tr ++ (if is_call o then [o] else []).
Proof. unfold calls. rewrite filter_app. cbn. destruct (is_call o); reflexivity. Qed.
Lemma all_sent_snoc tr o : all_sent (tr ++ [o]) = all_sent tr ++ sent o.
Proof. unfold all_sent. rewrite flat_map_app. cbn. now rewrite app_nil_r. Qed.
Lemma pending_snoc f tr o : pending f (tr ++ [o]) = if is_call o then snd o else pending f tr.
Proof. revert f. induction tr as [|x tr IH]; intros f; cbn; [destruct (is_call o); reflexivity|apply IH]. Qed.

Definition within (x : Q) (lo hi : option Q) : Prop :=
  exists l h, lo = Some l /\ hi = Some h /\ (l <= x)%Q /\ (x <= h)%Q.
Definition is_value (o : entry) (x : Q) : Prop := snd (fst o) = Decoded x.
(** [b] are the entries between a change of the SNR and the storing of cell [i], [j], the last one in [tr]. *)
Definition segment (tr : list entry) (i j : nat) (b : list entry) : Prop :=
  exists a o st d, tr = a ++ o :: b ++ st :: d /\ tunes o = true /\ forallb (fun o => negb (tunes o)) b = true /\
    stores i j st = true /\ forallb (fun o => negb (stores i j o)) d = true.
Lemma segment_snoc tr o i j b : segment (tr ++ [o]) i j b ->
  stores i j o = true /\ b = since tr \/ stores i j o = false /\ segment tr i j b.
Proof.
  intros (a & p & st & d & E & T & B & St & D). destruct d as [|y d _] using rev_ind.
  - left. replace (a ++ p :: b ++ [st]) with ((a ++ p :: b) ++ [st]) in E by now rewrite <- app_assoc.
    apply app_inj_tail in E as (-> & <-). split; [exact St|]. now rewrite since_seg.
  - right. replace (a ++ p :: b ++ st :: d ++ [y]) with ((a ++ p :: b ++ st :: d) ++ [y]) in E
      by (rewrite <- !app_assoc; cbn; now rewrite <- !app_assoc).
    apply app_inj_tail in E as (-> & <-). rewrite forallb_app in D. apply andb_prop in D as (D & Dy). cbn in Dy.
    split; [|exists a, p, st, d; auto].
    rewrite andb_true_r in Dy. now apply negb_true_iff in Dy.
Qed.

Section Config.
Variable c : config.
Variable t0 : Z.
Hypothesis sd : sound c.
Notation P := (length (params c)).
Notation S' := (length (snrs c)).

Definition stored_at (x : result) (i j a b d : nat) : Prop :=
  element (t_pcc x) i j = Some (lost a (n_exp c)) /\ element (t_plcf x) i j = Some (lost b (n_exp c)) /\
  element (t_pdc x) i j = Some (lost d (n_exp c)).
Definition spans (x : result) (i j : nat) (b : list entry) : Prop :=
  forall o v, In o b -> is_value o v -> within v (element (t_min x) i j) (element (t_max x) i j).

Record hist (s : fw) (tr : list entry) : Prop := {
  h_inv : inv c s;
  h_plan : exists ca ci don, calls tr = ca ++ ci /\ plan c = don ++ rest c s /\ Forall2 (fits c) ca don /\
             Forall (fun o => snd (fst o) = Idle /\ snd o = None) ci /\ (ci <> [] -> ph s = PEnd);
  h_pend : pending (Some (t0 + x_to_A c)%Z) tr = request s;
  h_order : order s = length (all_sent tr);
  h_orders : map k_order (all_sent tr) = seq 0 (length (all_sent tr));
  h_pcc : n_pcc (res_of s) = count hears (since tr);
  h_plcf : n_plcf (res_of s) = count hears_ours (since tr);
  h_pdc : n_pdc (res_of s) = count decodes (since tr);
  h_tries : match ph s with PA | PE | PEnd => True | _ => count tries (since tr) = cnt s end;
  h_span : match ph s with PA | PEnd => True | _ => spans (res_of s) (par s) (col s) (since tr) end;
  h_rates : forall i j b, segment tr i j b -> i < P /\ j < S' /\
              stored_at (res_of s) i j (count hears b) (count hears_ours b) (count decodes b) /\
              spans (res_of s) i j b /\ count tries b = n_exp c;
  h_empty : forall i j, i < P -> j < S' -> forallb (fun o => negb (stores i j o)) tr = true ->
              element (t_pcc (res_of s)) i j = Some (-1)%Q /\ element (t_plcf (res_of s)) i j = Some (-1)%Q /\
              element (t_pdc (res_of s)) i j = Some (-1)%Q }.

Lemma segment_nil i j b : ~ segment [] i j b.
Proof. intros (a & o & st & d & E & _). now destruct a. Qed.

Lemma start_hist : exists s, work_start c t0 = Ok s /\ hist s [].
Proof.
  destruct sd as (SP & SS & _). assert (HP : 0 < P) by (destruct (params c); cbn; [congruence|lia]).
  assert (HS : 0 < S') by (destruct (snrs c); cbn; [congruence|lia]).
  unfold work_start, result_new. replace (P =? 0) with false by lia. cbn [bind]. eexists. split; [reflexivity|].
  constructor; cbn [res_of A_reset ph par col cnt order me mcs reset t_pcc t_plcf t_pdc t_max t_min n_pcc n_plcf n_pdc]; try reflexivity.
  - constructor; cbn; auto; try discriminate. repeat split; try apply repeat_length; apply shaped_filled.
  - exists [], [], []. cbn. repeat split; auto; try congruence. now apply plan_start.
  - intros i j b H. now apply segment_nil in H.
  - intros i j Hi Hj _. rewrite element_filled by assumption. auto.
Qed.

(** ** The effect of one entry on the stored results *)
Lemma keep_rates s tr s' o : hist s tr ->
  t_pcc (res_of s') = t_pcc (res_of s) -> t_plcf (res_of s') = t_plcf (res_of s) ->
  t_pdc (res_of s') = t_pdc (res_of s) ->
  (forall i j b, i < P -> j < S' -> spans (res_of s) i j b -> spans (res_of s') i j b) ->
  (forall i j, stores i j o = false) ->
  (forall i j b, segment (tr ++ [o]) i j b -> i < P /\ j < S' /\
     stored_at (res_of s') i j (count hears b) (count hears_ours b) (count decodes b) /\ spans (res_of s') i j b /\
     count tries b = n_exp c) /\
  (forall i j, i < P -> j < S' -> forallb (fun o => negb (stores i j o)) (tr ++ [o]) = true ->
     element (t_pcc (res_of s')) i j = Some (-1)%Q /\ element (t_plcf (res_of s')) i j = Some (-1)%Q /\
     element (t_pdc (res_of s')) i j = Some (-1)%Q).
Proof.
  intros H E1 E2 E3 M N. split.
  - intros i j b G. apply segment_snoc in G as [(A & _)|(_ & G)]; [now rewrite N in A|].
    destruct (h_rates s tr H i j b G) as (Hi & Hj & (A1 & A2 & A3) & A4 & A5). split; [auto|]. split; [auto|].
    unfold stored_at. rewrite E1, E2, E3. auto.
  - intros i j Hi Hj G. rewrite forallb_app in G. apply andb_prop in G as (G & _).
    rewrite E1, E2, E3. now apply (h_empty s tr H).
Qed.

Lemma pcc_hist s tr h s' b : hist s tr -> work_pcc s h = (s', b) -> hist s' (tr ++ [(Pcc h, Heard b, None)]).
Proof.
  intros H E. unfold work_pcc in E.
  remember (match h with Some (fmt, from) => ((fmt =? 0) && (from =? me s))%N | None => false end) as b' eqn:Eb.
  clear Eb. inversion E; subst s' b'; clear E.
  destruct (keep_rates s tr (with_result s (counted (res_of s) 1 (if b then 1 else 0) 0)) (Pcc h, Heard b, None) H)
    as (K1 & K2); auto.
  pose proof (h_inv s tr H) as I.
  constructor; cbn [res_of with_result ph par col cnt order me mcs counted n_pcc n_plcf n_pdc]; auto.
  - destruct I. constructor; auto.
  - rewrite calls_snoc. cbn [is_call fst]. rewrite app_nil_r. exact (h_plan s tr H).
  - rewrite pending_snoc. cbn [is_call fst]. exact (h_pend s tr H).
  - rewrite all_sent_snoc. cbn [sent snd fst]. rewrite app_nil_r. exact (h_order s tr H).
  - rewrite all_sent_snoc. cbn [sent snd fst]. rewrite app_nil_r. exact (h_orders s tr H).
  - rewrite since_snoc. cbn [tunes snd fst]. rewrite count_snoc. cbn [hears snd fst].
    rewrite (h_pcc s tr H). lia.
  - rewrite since_snoc. cbn [tunes snd fst]. rewrite count_snoc. cbn [hears_ours snd fst].
    rewrite (h_plcf s tr H). lia.
  - rewrite since_snoc. cbn [tunes snd fst]. rewrite count_snoc. cbn [decodes snd fst].
    rewrite (h_pdc s tr H). lia.
  - rewrite since_snoc. cbn [tunes snd fst]. rewrite count_snoc. cbn [tries snd fst]. rewrite Nat.add_0_r.
    exact (h_tries s tr H).
  - rewrite since_snoc. cbn [tunes snd fst]. pose proof (h_span s tr H) as X.
    destruct (ph s); auto; intros o v Ho Hv; apply in_app_or in Ho as [Ho|[<-|[]]]; try discriminate Hv;
      apply (X o v Ho Hv).
Qed.

Lemma pdc_hist s tr x s' : hist s tr -> work_pdc s x = Ok s' -> hist s' (tr ++ [(Pdc x, Decoded x, None)]).
Proof.
  intros H E. pose proof (h_inv s tr H) as I. destruct (i_form c s I) as (F1 & F2 & F3 & F4 & F5).
  assert (HP : par s < P).
  { destruct (Nat.lt_ge_cases (par s) P) as [|G]; [auto|]. unfold work_pdc, raise_max in E. cbn [t_max counted] in E.
    rewrite (look_throw P S' _ _ _ F4 G) in E. discriminate E. }
  pose proof (i_col c s I) as HS.
  unfold work_pdc, raise_max, lower_min in E. cbn [t_max t_min counted] in E.
  destruct (look_ok _ _ _ _ _ F4 HP HS) as (hi & Lh & Eh). rewrite Lh in E. cbn [bind] in E.
  destruct (put_ok _ _ _ _ _ (Qmax hi x) F4 HP HS) as (tm & Pm & Sm & Em & Om). rewrite Pm in E. cbn [bind t_min t_max] in E.
  destruct (look_ok _ _ _ _ _ F5 HP HS) as (lo & Ll & El). rewrite Ll in E. cbn [bind] in E.
  destruct (put_ok _ _ _ _ _ (Qmin lo x) F5 HP HS) as (tn & Pn & Sn & En & On). rewrite Pn in E. cbn [bind] in E.
  inversion E; subst s'; clear E.
  match goal with |- hist ?s' _ => set (s1 := s') end.
  assert (M : forall i j b, spans (res_of s) i j b -> spans (res_of s1) i j b).
  { intros i j b Hs o v Ho Hv. destruct (Hs o v Ho Hv) as (l & h & E1 & E2 & B1 & B2).
    subst s1. cbn [res_of with_result t_min t_max]. unfold within.
    destruct (Nat.eq_dec i (par s)) as [->|Ni]; [destruct (Nat.eq_dec j (col s)) as [->|Nj]|].
    - rewrite Em, En. rewrite El in E1. rewrite Eh in E2. inversion E1; inversion E2; subst. do 2 eexists.
      split; [reflexivity|]. split; [reflexivity|]. split.
      + eapply Qle_trans; [apply Q.le_min_l|exact B1].
      + eapply Qle_trans; [exact B2|apply Q.le_max_l].
    - rewrite Om, On by congruence. eauto 6.
    - rewrite Om, On by congruence. eauto 6. }
  destruct (keep_rates s tr s1 (Pdc x, Decoded x, None) H) as (K1 & K2); auto.
  subst s1.
  constructor; cbn [res_of with_result ph par col cnt order me mcs counted n_pcc n_plcf n_pdc]; auto.
  - destruct I as [i1 i2 i3 i4 i5 i6 i7]. constructor; auto. cbn [res_of with_result]. split; [exact F1|].
    split; [exact F2|]. split; [exact F3|]. split; [exact Sm|exact Sn].
  - rewrite calls_snoc. cbn [is_call fst]. rewrite app_nil_r. exact (h_plan s tr H).
  - rewrite pending_snoc. cbn [is_call fst]. exact (h_pend s tr H).
  - rewrite all_sent_snoc. cbn [sent snd fst]. rewrite app_nil_r. exact (h_order s tr H).
  - rewrite all_sent_snoc. cbn [sent snd fst]. rewrite app_nil_r. exact (h_orders s tr H).
  - rewrite since_snoc. cbn [tunes snd fst]. rewrite count_snoc. cbn [hears snd fst].
    rewrite (h_pcc s tr H). lia.
  - rewrite since_snoc. cbn [tunes snd fst]. rewrite count_snoc. cbn [hears_ours snd fst].
    rewrite (h_plcf s tr H). lia.
  - rewrite since_snoc. cbn [tunes snd fst]. rewrite count_snoc. cbn [decodes snd fst].
    rewrite (h_pdc s tr H). lia.
  - rewrite since_snoc. cbn [tunes snd fst]. rewrite count_snoc. cbn [tries snd fst]. rewrite Nat.add_0_r.
    exact (h_tries s tr H).
  - rewrite since_snoc. cbn [tunes snd fst]. pose proof (h_span s tr H) as X.
    assert (W : within x (element tn (par s) (col s)) (element tm (par s) (col s))).
    { exists (Qmin lo x), (Qmax hi x). split; [exact En|]. split; [exact Em|]. split; [apply Q.le_min_r|apply Q.le_max_r]. }
    destruct (ph s); auto; intros o v Ho Hv; apply in_app_or in Ho as [Ho|[<-|[]]];
      try (inversion Hv; subst v; exact W); apply (M _ _ _ X o v Ho Hv).
Qed.

Lemma spans_eq x y i j b : t_max y = t_max x -> t_min y = t_min x -> spans x i j b -> spans y i j b.
Proof. intros E1 E2 H o v Ho Hv. rewrite E1, E2. apply (H o v Ho Hv). Qed.
Lemma spans_snoc x i j b o : (forall v, ~ is_value o v) -> spans x i j b -> spans x i j (b ++ [o]).
Proof. intros N H p v Ho Hv. apply in_app_or in Ho as [Ho|[<-|[]]]; [apply (H p v Ho Hv)|destruct (N v Hv)]. Qed.

Lemma call_hist s tr now w a b s' i r : hist s tr -> work_irregular c s now w a b = Ok (s', i, r) ->
  hist s' (tr ++ [(Call now w a b, i, r)]).
Proof.
  intros H E. pose proof (h_inv s tr H) as I. unfold work_irregular in E.
  apply bind_ok_inv in E as ((s1 & i1) & E & Q). inversion Q; subst s1 i1 r; clear Q.
  assert (HT : (ref_t s <= now)%Z).
  { unfold turn_state, guard in E. destruct (ref_t s <=? now)%Z eqn:L; [lia|discriminate]. }
  destruct (h_plan s tr H) as (ca & ci & don & C1 & C2 & C3 & C4 & C5).
  assert (D : ph s = PEnd \/ ph s <> PEnd) by (destruct (ph s); auto; right; discriminate).
  destruct D as [D|D].
  - (* nothing happens after the end *)
    unfold turn_state, guard in E. replace (ref_t s <=? now)%Z with true in E by lia. rewrite D in E.
    inversion E; subst s' i; clear E.
    destruct (keep_rates s tr (with_phase s PEnd (2 ^ 63 - 1)%Z)
      (Call now w a b, Idle, request (with_phase s PEnd (2 ^ 63 - 1)%Z)) H) as (K1 & K2); auto.
    constructor; cbn [res_of with_phase ph par col cnt order me mcs]; auto.
    + destruct I. constructor; cbn; auto; try congruence.
    + exists ca, (ci ++ [(Call now w a b, Idle, None)]), don. rewrite calls_snoc, C1. cbn [is_call fst].
      rewrite <- app_assoc. repeat split; auto.
      * unfold rest in *. cbn [ph with_phase]. now rewrite D in C2.
      * apply Forall_app. split; [exact C4|]. repeat constructor.
    + rewrite pending_snoc. reflexivity.
    + rewrite all_sent_snoc. cbn [sent snd fst]. rewrite app_nil_r. exact (h_order s tr H).
    + rewrite all_sent_snoc. cbn [sent snd fst]. rewrite app_nil_r. exact (h_orders s tr H).
    + rewrite since_snoc. cbn [tunes snd fst]. rewrite count_snoc. cbn. rewrite (h_pcc s tr H). lia.
    + rewrite since_snoc. cbn [tunes snd fst]. rewrite count_snoc. cbn. rewrite (h_plcf s tr H). lia.
    + rewrite since_snoc. cbn [tunes snd fst]. rewrite count_snoc. cbn. rewrite (h_pdc s tr H). lia.
  - destruct (call_ok c s now w a b I sd D HT) as (s1 & i1 & x & E1 & I1 & R1 & Ft & Ch).
    rewrite E in E1. inversion E1; subst s1 i1; clear E1.
    assert (Hp : exists ca ci don, calls (tr ++ [(Call now w a b, i, request s')]) = ca ++ ci /\
                   plan c = don ++ rest c s' /\ Forall2 (fits c) ca don /\
                   Forall (fun o => snd (fst o) = Idle /\ snd o = None) ci /\ (ci <> [] -> ph s' = PEnd)).
    { assert (ci = []) by (destruct ci; [auto|]; destruct (D (C5 ltac:(discriminate)))). subst ci.
      rewrite app_nil_r in C1. exists (ca ++ [(Call now w a b, i, request s')]), [], (don ++ [x]).
      rewrite calls_snoc, C1. cbn [is_call fst]. rewrite app_nil_r, <- !app_assoc. cbn [app].
      rewrite <- R1. repeat split; auto; try congruence. apply Forall2_app; auto. }
    assert (Pd : pending (Some (t0 + x_to_A c)%Z) (tr ++ [(Call now w a b, i, request s')]) = request s')
      by now rewrite pending_snoc.
    pose proof (h_span s tr H) as X.
    destruct (ph s) eqn:Ph; [| | | | |tauto].
    + destruct Ch as ((v & ->) & A1 & A2 & A3 & A4 & A5 & A6 & A7).
      destruct (keep_rates s tr s' (Call now w a b, Tuned v, request s') H) as (K1 & K2); try (rewrite A6; reflexivity).
      { intros ii jj bb _ _. apply spans_eq; rewrite A6; reflexivity. }
      { reflexivity. }
      constructor; auto; rewrite ?A6, ?A3, ?all_sent_snoc, ?since_snoc; cbn [sent tunes snd fst];
        rewrite ?app_nil_r; try apply H; try reflexivity.
      * now rewrite A1, A7.
      * rewrite A1. intros o y [].
    + destruct Ch as (-> & A1 & A2 & A3 & A4 & A5 & A6 & A7).
      destruct (keep_rates s tr s' (Call now w a b, Faded, request s') H) as (K1 & K2); try (rewrite A6; reflexivity).
      { intros ii jj bb _ _. apply spans_eq; rewrite A6; reflexivity. }
      { reflexivity. }
      constructor; auto; rewrite ?A6, ?A3, ?all_sent_snoc, ?since_snoc; cbn [sent tunes snd fst];
        rewrite ?app_nil_r, ?count_snoc; cbn [hears hears_ours decodes snd fst]; rewrite ?Nat.add_0_r; try apply H.
      * rewrite A1, A7. pose proof (h_tries s tr H) as Y. rewrite Ph in Y. rewrite ?count_snoc. cbn. lia.
      * rewrite A1, A4, A5. apply spans_snoc; [discriminate|exact X].
    + destruct Ch as ((l & -> & L1 & L2 & L3) & A7 & A1 & A4 & A5 & A6).
      destruct (keep_rates s tr s' (Call now w a b, Sent l, request s') H) as (K1 & K2); try (rewrite A6; reflexivity).
      { intros ii jj bb _ _. apply spans_eq; rewrite A6; reflexivity. }
      { reflexivity. }
      constructor; auto; rewrite ?A6, ?all_sent_snoc, ?since_snoc; cbn [sent tunes snd fst];
        rewrite ?app_length, ?count_snoc; cbn [hears hears_ours decodes snd fst]; rewrite ?Nat.add_0_r; try apply H.
      * rewrite L2, (h_order s tr H). reflexivity.
      * rewrite map_app, seq_app, (h_orders s tr H), L1, (h_order s tr H). reflexivity.
      * pose proof (h_tries s tr H) as Y. rewrite Ph in Y. rewrite A7.
        destruct A1 as [(A1 & _)|(A1 & _)]; rewrite A1, ?count_snoc; cbn; lia.
      * rewrite A4, A5. assert (spans (res_of s) (par s) (col s) (since tr ++ [(Call now w a b, Sent l, request s')])).
        { apply spans_snoc; [discriminate|exact X]. }
        destruct A1 as [(A1 & _)|(A1 & _)]; rewrite A1; assumption.
    + destruct Ch as (-> & A1 & A2 & A3 & A4 & A5 & A7 & A6).
      pose proof (i_par c s I ltac:(congruence)) as HP. pose proof (i_col c s I) as HS.
      destruct (set_PERs_ok c (res_of s) (par s) (col s) (n_exp c) (i_form c s I) HP HS)
        as (y & Hy & Fy & N1 & N2 & N3 & M1 & M2 & T1 & T2 & T3 & TO).
      rewrite A6 in Hy. inversion Hy; subst y; clear Hy.
      constructor; auto; rewrite ?all_sent_snoc, ?since_snoc; cbn [sent tunes snd fst];
        rewrite ?app_nil_r, ?count_snoc, ?A3, ?N1, ?N2, ?N3; cbn [hears hears_ours decodes snd fst];
        rewrite ?Nat.add_0_r; try apply H.
      * now rewrite A1.
      * rewrite A1, A4, A5. eapply spans_eq; [exact M1|exact M2|]. apply spans_snoc; [discriminate|exact X].
      * intros ii jj bb G. apply segment_snoc in G as [(G1 & ->)|(G1 & G2)].
        -- cbn [stores snd fst] in G1. apply andb_prop in G1 as (G1 & G3). apply Nat.eqb_eq in G1, G3. subst ii jj.
           split; [exact HP|]. split; [exact HS|].
           rewrite <- (h_pcc s tr H), <- (h_plcf s tr H), <- (h_pdc s tr H). split; [repeat split; assumption|].
           split; [eapply spans_eq; [exact M1|exact M2|exact X]|].
           pose proof (h_tries s tr H) as Y. rewrite Ph in Y. rewrite Y. pose proof (i_cnt c s I) as Z. now rewrite Ph in Z.
        -- destruct (h_rates s tr H ii jj bb G2) as (B0 & B0' & (B1 & B2 & B3) & B4 & B5).
           split; [exact B0|]. split; [exact B0'|].
           split; [|split; [eapply spans_eq; [exact M1|exact M2|exact B4]|exact B5]].
           assert (Nq : (ii, jj) <> (par s, col s)).
           { intros Q. inversion Q; subst. cbn [stores snd fst] in G1. now rewrite !Nat.eqb_refl in G1. }
           destruct (TO ii jj Nq) as (O1 & O2 & O3). unfold stored_at. rewrite O1, O2, O3. auto.
      * intros ii jj Hi Hj G. rewrite forallb_app in G. apply andb_prop in G as (G & G1).
        cbn in G1. rewrite andb_true_r in G1. apply negb_true_iff in G1.
        assert (Nq : (ii, jj) <> (par s, col s)).
        { intros Q. inversion Q; subst. now rewrite !Nat.eqb_refl in G1. }
        destruct (TO ii jj Nq) as (O1 & O2 & O3). rewrite O1, O2, O3. now apply (h_empty s tr H).
    + destruct Ch as (-> & A1 & A2 & A3 & A6).
      destruct (keep_rates s tr s' (Call now w a b, Moved, request s') H) as (K1 & K2); try (rewrite A6; reflexivity).
      { intros ii jj bb _ _. apply spans_eq; rewrite A6; reflexivity. }
      { reflexivity. }
      constructor; auto; rewrite ?A6, ?A3, ?all_sent_snoc, ?since_snoc; cbn [sent tunes snd fst];
        rewrite ?app_nil_r, ?count_snoc; cbn [hears hears_ours decodes snd fst]; rewrite ?Nat.add_0_r; try apply H.
      * destruct A1 as [A1|A1]; rewrite A1; exact Logic.I.
      * destruct A1 as [A1|A1]; rewrite A1; exact Logic.I.
Qed.

Lemma step_hist s tr e s' o : hist s tr -> step c s e = Ok (s', o) -> hist s' (tr ++ [o]).
Proof.
  intros H E. destruct e as [now w a b|h|x]; cbn [step] in E.
  - apply bind_ok_inv in E as (((s1 & i) & r) & E & Q). inversion Q; subst. eapply call_hist; eauto.
  - destruct (work_pcc s h) as (s1 & b) eqn:W. inversion E; subst. eapply pcc_hist; eauto.
  - apply bind_ok_inv in E as (s1 & E & Q). inversion Q; subst. eapply pdc_hist; eauto.
Qed.

(** What can go wrong in one call *)
Lemma step_total s tr e : hist s tr ->
  (exists s' o, step c s e = Ok (s', o)) \/
  (step c s e = Abort /\ premature (request s) e) \/
  (step c s e = Throw /\ ph s = PEnd /\ exists x, e = Pdc x).
Proof.
  intros H. pose proof (h_inv s tr H) as I. destruct e as [now w a b|h|x]; cbn [step].
  - unfold work_irregular. destruct (Z_le_gt_dec (ref_t s) now) as [L|L].
    + left. assert (D : ph s = PEnd \/ ph s <> PEnd) by (destruct (ph s); auto; right; discriminate).
      destruct D as [D|D].
      * unfold turn_state, guard. replace (ref_t s <=? now)%Z with true by lia. rewrite D. cbn [bind]. eauto.
      * destruct (call_ok c s now w a b I sd D L) as (s1 & i1 & x & -> & _). cbn [bind]. eauto.
    + right. left. unfold turn_state, guard. replace (ref_t s <=? now)%Z with false by lia. cbn [bind].
      split; [reflexivity|]. unfold request. destruct (ph s); cbn; auto; lia.
  - left. destruct (work_pcc s h) as (s1 & b). eauto.
  - destruct (i_form c s I) as (F1 & F2 & F3 & F4 & F5). pose proof (i_col c s I) as HS.
    unfold work_pdc, raise_max, lower_min. cbn [t_max t_min counted].
    assert (D : ph s = PEnd \/ ph s <> PEnd) by (destruct (ph s); auto; right; discriminate).
    destruct D as [D|D].
    + right. right. rewrite (look_throw P S' _ _ _ F4 (i_end c s I D)). cbn [bind]. eauto.
    + left. pose proof (i_par c s I D) as HP. destruct (look_ok _ _ _ _ _ F4 HP HS) as (hi & Lh & Eh). rewrite Lh. cbn [bind].
      destruct (put_ok _ _ _ _ _ (Qmax hi x) F4 HP HS) as (tm & Pm & _). rewrite Pm. cbn [bind t_min t_max].
      destruct (look_ok _ _ _ _ _ F5 HP HS) as (lo & Ll & El). rewrite Ll. cbn [bind].
      destruct (put_ok _ _ _ _ _ (Qmin lo x) F5 HP HS) as (tn & Pn & _). rewrite Pn. cbn [bind]. eauto.
Qed.

Lemma go_hist l : forall s tr s' tr', hist s tr -> go c s tr l = Ok (s', tr') -> hist s' tr'.
Proof.
  induction l as [|e l IH]; intros s tr s' tr' H E; cbn [go] in E; [inversion E; subst; exact H|].
  apply bind_ok_inv in E as ((s1 & o) & E1 & E2). eapply IH; [|exact E2]. eapply step_hist; eauto.
Qed.
Lemma run_hist l s tr : run c t0 l = Ok (s, tr) -> hist s tr.
Proof.
  destruct start_hist as (s0 & E0 & H0). unfold run. rewrite E0. cbn [bind]. intros E. eapply go_hist; eauto.
Qed.
Lemma go_app l1 l2 : forall s tr, go c s tr (l1 ++ l2) = (do (s, tr) <- go c s tr l1 ; go c s tr l2).
Proof.
  induction l1 as [|e l1 IH]; intros s tr; [reflexivity|]. cbn [app go].
  destruct (step c s e) as [(s1, o)| | |]; cbn [bind]; auto.
Qed.
Lemma run_snoc l e : run c t0 (l ++ [e]) = (do (s, tr) <- run c t0 l ; do (s, o) <- step c s e ; Ok (s, tr ++ [o])).
Proof.
  unfold run. destruct (work_start c t0) as [s0| | |]; cbn [bind]; auto. rewrite go_app.
  destruct (go c s0 [] l) as [(s, tr)| | |]; cbn [bind go]; auto;
  try (destruct (step c s e) as [(s1, o)| | |]; cbn [bind]; reflexivity).
Qed.
Lemma run_app_bad l1 l2 : match run c t0 l1 with Ok _ => True | r => run c t0 (l1 ++ l2) = r end.
Proof.
  unfold run. destruct (work_start c t0) as [s0| | |]; cbn [bind]; auto. rewrite go_app.
  destruct (go c s0 [] l1) as [(s, tr)| | |]; cbn [bind]; auto.
Qed.

Lemma run_total l :
  (exists s tr, run c t0 l = Ok (s, tr)) \/
  (exists l1 e l2 s tr, l = l1 ++ e :: l2 /\ run c t0 l1 = Ok (s, tr) /\
     (run c t0 l = Abort /\ premature (pending (Some (t0 + x_to_A c)%Z) tr) e \/
      run c t0 l = Throw /\ ph s = PEnd /\ exists x, e = Pdc x)).
Proof.
  induction l as [|e l IH] using rev_ind.
  - left. destruct start_hist as (s0 & E0 & _). unfold run. rewrite E0. cbn. eauto.
  - destruct IH as [(s & tr & E)|(l1 & e1 & l2 & s & tr & -> & E & B)].
    + pose proof (run_hist l s tr E) as H. rewrite run_snoc, E. cbn [bind].
      destruct (step_total s tr e H) as [(s1 & o & ->)|[(-> & Pm)|(-> & D)]]; cbn [bind].
      * left. eauto.
      * right. exists l, e, [], s, tr. rewrite (h_pend s tr H). repeat split; auto.
      * right. exists l, e, [], s, tr. repeat split; auto.
    + right. exists l1, e1, (l2 ++ [e]), s, tr. rewrite <- app_assoc. cbn [app]. split; [reflexivity|].
      split; [exact E|]. pose proof (run_app_bad (l1 ++ e1 :: l2) [e]) as X. rewrite <- app_assoc in X. cbn [app] in X.
      destruct B as [(B & B')|(B & B')]; rewrite B in X; auto.
Qed.

(** ** The packets on the air *)
Definition before (L : Z) (k k' : packet) : Prop := (k_time k + L <= k_time k')%Z.
Definition ends (s : fw) : Z :=
  match ph s with
  | PB => ref_t s + turn c + B_to_C c
  | PC => ref_t s + turn c
  | _ => ref_t s + turn c + A_to_B c + B_to_C c
  end%Z.
Definition aired (s : fw) (tr : list entry) : Prop :=
  StronglySorted (before (plen c)) (all_sent tr) /\
  Forall (fun k => (k_time k + plen c <= ends s)%Z) (all_sent tr).
Lemma sorted_app {A} (R : A -> A -> Prop) l1 l2 : StronglySorted R l1 -> StronglySorted R l2 ->
  (forall x y, In x l1 -> In y l2 -> R x y) -> StronglySorted R (l1 ++ l2).
Proof.
  intros S1 S2 H. induction S1 as [|x l1 S1 IH F]; [exact S2|]. cbn. constructor.
  - apply IH. intros; apply H; [now right|assumption].
  - apply Forall_app. split; [exact F|]. apply Forall_forall. intros y Hy. apply H; [now left|exact Hy].
Qed.
Lemma step_aired s tr e s' o : roomy c -> hist s tr -> aired s tr ->
  (forall now w a b, e = Call now w a b -> ph s <> PEnd) ->
  step c s e = Ok (s', o) -> aired s' (tr ++ [o]).
Proof.
  intros (RL & R1 & R2) H (S1 & F1) NE E. pose proof (h_inv s tr H) as I.
  destruct sd as (_ & _ & _ & G1 & G2 & G3 & G4).
  unfold aired. rewrite all_sent_snoc.
  destruct e as [now w a b|h|x]; cbn [step] in E.
  - apply bind_ok_inv in E as (((s1 & i) & r) & E & Q). inversion Q; subst s1 o; clear Q.
    unfold work_irregular in E. apply bind_ok_inv in E as ((s1 & i1) & E & Q). inversion Q; subst s1 i1 r; clear Q.
    assert (HT : (ref_t s <= now)%Z).
    { unfold turn_state, guard in E. destruct (ref_t s <=? now)%Z eqn:L; [lia|discriminate]. }
    specialize (NE now w a b eq_refl).
    destruct (call_ok c s now w a b I sd NE HT) as (s1 & i1 & x & E1 & I1 & Rx & Ft & Ch).
    rewrite E in E1. inversion E1; subst s1 i1; clear E1 E.
    unfold ends in *.
    destruct (ph s) eqn:Ph; [| | | | |congruence].
    + destruct Ch as ((v & ->) & A1 & A2 & _). cbn [sent snd fst]. rewrite app_nil_r, A1, A2. split; [exact S1|].
      eapply Forall_impl; [|exact F1]. cbn. intros k Hk. lia.
    + destruct Ch as (-> & A1 & A2 & _). cbn [sent snd fst]. rewrite app_nil_r, A1, A2. split; [exact S1|].
      eapply Forall_impl; [|exact F1]. cbn. intros k Hk. lia.
    + destruct Ch as ((l & -> & L1 & L2 & L3) & _ & A1 & _). cbn [sent snd fst].
      set (t := random_tx_time c now w) in *.
      assert (X : (now + turn c <= t <= now + turn c + Z.of_N (jit c))%Z).
      { unfold t, random_tx_time. pose proof (N.mod_upper_bound w (jit c + 1) ltac:(lia)). lia. }
      assert (Y : Forall (fun k => (t <= k_time k /\ k_time k <= t + plen c)%Z) l /\ StronglySorted (before (plen c)) l).
      { clear - L3 RL. unfold wanted in L3.
        destruct (kd c), a, b; cbn in L3; (destruct l as [|k1 [|k2 [|k3 l]]]; try discriminate L3);
          unfold facts_of in L3; cbn in L3; inversion L3; subst; repeat constructor; unfold before; lia. }
      destruct Y as (Y1 & Y2). rewrite Forall_forall in Y1, F1. split.
      * apply sorted_app; [exact S1|exact Y2|]. intros k k' Hk Hk'. specialize (F1 k Hk). specialize (Y1 k' Hk').
        unfold before. lia.
      * apply Forall_app. split; apply Forall_forall; intros k Hk.
        -- specialize (F1 k Hk). cbn in F1. destruct A1 as [(-> & ->)|(-> & ->)]; lia.
        -- specialize (Y1 k Hk). cbn in Y1. destruct A1 as [(-> & ->)|(-> & ->)]; lia.
    + destruct Ch as (-> & A1 & A2 & _). cbn [sent snd fst]. rewrite app_nil_r, A1, A2. split; [exact S1|exact F1].
    + destruct Ch as (-> & A1 & A2 & _). cbn [sent snd fst]. rewrite app_nil_r, A2. split; [exact S1|].
      destruct A1 as [-> | ->]; exact F1.
  - unfold work_pcc in E. inversion E; subst. cbn [sent snd fst]. rewrite app_nil_r. split; [exact S1|exact F1].
  - apply bind_ok_inv in E as (s1 & E & Q). inversion Q; subst. cbn [sent snd fst]. rewrite app_nil_r.
    split; [exact S1|]. unfold work_pdc in E. apply bind_ok_inv in E as (r1 & _ & E).
    apply bind_ok_inv in E as (r2 & _ & E). inversion E; subst. exact F1.
Qed.
Lemma step_ended s tr now w a b s' o : hist s tr -> ph s = PEnd -> step c s (Call now w a b) = Ok (s', o) ->
  ph s' = PEnd /\ sent o = [].
Proof.
  intros H D E. cbn [step] in E. apply bind_ok_inv in E as (((s1 & i) & r) & E & Q). inversion Q; subst s1 o; clear Q.
  unfold work_irregular in E. apply bind_ok_inv in E as ((s1 & i1) & E & Q). inversion Q; subst s1 i1 r; clear Q.
  unfold turn_state, guard in E. destruct (ref_t s <=? now)%Z; [|discriminate]. rewrite D in E. inversion E; subst. auto.
Qed.
Lemma run_aired l s tr : roomy c -> run c t0 l = Ok (s, tr) ->
  StronglySorted (before (plen c)) (all_sent tr) /\ (ph s <> PEnd -> aired s tr).
Proof.
  intros R. revert s tr. induction l as [|e l IH] using rev_ind; intros s tr E.
  - destruct start_hist as (s0 & E0 & _). unfold run in E. rewrite E0 in E. cbn in E. inversion E; subst.
    cbn. split; [constructor|]. intros _. split; constructor.
  - pose proof (run_hist _ _ _ E) as H'. rewrite run_snoc in E.
    destruct (run c t0 l) as [(s1, tr1)| | |] eqn:E1; cbn [bind] in E; try discriminate.
    apply bind_ok_inv in E as ((s2 & o) & E2 & Q). inversion Q; subst s2 tr; clear Q.
    pose proof (run_hist l s1 tr1 E1) as H1. destruct (IH s1 tr1 eq_refl) as (S1 & A1).
    assert (D : ph s1 = PEnd \/ ph s1 <> PEnd) by (destruct (ph s1); auto; right; discriminate).
    destruct D as [D|D].
    + assert (X : ph s = PEnd /\ sent o = []).
      { destruct e as [now w a b|h|x].
        - eapply step_ended; eauto.
        - cbn [step] in E2. unfold work_pcc in E2. inversion E2; subst. auto.
        - cbn [step] in E2. apply bind_ok_inv in E2 as (s2 & E & Q). inversion Q; subst.
          unfold work_pdc in E. apply bind_ok_inv in E as (r1 & _ & E). apply bind_ok_inv in E as (r2 & _ & E).
          inversion E; subst. auto. }
      destruct X as (X1 & X2). rewrite all_sent_snoc, X2, app_nil_r. split; [exact S1|congruence].
    + assert (aired s (tr1 ++ [o])) as A. { eapply step_aired; eauto. }
      split; [apply A|auto].
Qed.
End Config.

(** ** The length of the plan *)
Lemma experiments_len n p : length (experiments n p) = 2 * n.
Proof. induction n; [reflexivity|]. rewrite experiments_S. cbn [length]. lia. Qed.
Lemma flat_map_len {A B} (f : A -> list B) k l : (forall x, length (f x) = k) -> length (flat_map f l) = length l * k.
Proof. intros H. induction l; [reflexivity|]. cbn [flat_map]. rewrite app_length, H, IHl. cbn. lia. Qed.
Lemma plan_len c : length (plan c) = length (params c) * (length (snrs c) * (2 * n_exp c + 3)).
Proof.
  unfold plan. rewrite (flat_map_len _ (length (snrs c) * (2 * n_exp c + 3))); [now rewrite indexed_len|].
  intros (i & p). unfold per_parameter. rewrite (flat_map_len _ (2 * n_exp c + 3)); [now rewrite indexed_len|].
  intros (j & v). unfold measure. cbn [length]. rewrite app_length, experiments_len. cbn. lia.
Qed.

(** ** The end of a series *)
Lemma Forall2_length {A B} (R : A -> B -> Prop) l1 l2 : Forall2 R l1 l2 -> length l1 = length l2.
Proof. induction 1; cbn; congruence. Qed.
Lemma rest_nonempty c s : inv c s -> ph s <> PEnd -> rest c s <> [].
Proof.
  intros I D. unfold rest. destruct (ph s) eqn:Ph; try discriminate; [| |congruence].
  - rewrite more_col by apply I. discriminate.
  - destruct (experiments (n_exp c - cnt s) (cur c s)); discriminate.
Qed.
Lemma ended_iff c t0 s tr : hist c t0 s tr -> ph s = PEnd <-> length (plan c) <= length (calls tr).
Proof.
  intros H. destruct (h_plan c t0 s tr H) as (ca & ci & don & C1 & C2 & C3 & C4 & C5).
  pose proof (Forall2_length _ _ _ C3) as L. rewrite C1, C2, !app_length. split.
  - intros D. unfold rest. rewrite D. cbn. lia.
  - intros Le. assert (D : ph s = PEnd \/ ph s <> PEnd) by (destruct (ph s); auto; right; discriminate).
    destruct D as [D|D]; [exact D|]. exfalso. assert (ci = []) by (destruct ci; [auto|]; destruct (D (C5 ltac:(discriminate)))).
    subst ci. pose proof (rest_nonempty c s (h_inv c t0 s tr H) D) as N. destruct (rest c s); [congruence|cbn in Le; lia].
Qed.
Lemma split_last {A} (f : A -> bool) l : existsb f l = true ->
  exists a x d, l = a ++ x :: d /\ f x = true /\ forallb (fun y => negb (f y)) d = true.
Proof.
  induction l as [|x l IH] using rev_ind; [discriminate|]. rewrite existsb_app. intros H.
  destruct (f x) eqn:F.
  - exists l, x, []. auto.
  - cbn [existsb] in H. rewrite F in H. cbn [orb] in H. rewrite orb_false_r in H.
    destruct (IH H) as (a & y & d & -> & Fy & D). exists a, y, (d ++ [x]). rewrite <- app_assoc.
    split; [reflexivity|]. split; [exact Fy|]. rewrite forallb_app, D. cbn. now rewrite F.
Qed.
Lemma store_in_plan c i j : i < length (params c) -> j < length (snrs c) -> In (Store i j) (plan c).
Proof.
  intros Hi Hj. unfold plan. apply in_flat_map. exists (i, nth i (params c) 0%Z). split.
  - rewrite <- (nth_indexed (params c) i 0%Z Hi). apply nth_In. now rewrite indexed_len.
  - unfold per_parameter. apply in_flat_map. exists (j, nth j (snrs c) 0%Z). split.
    + rewrite <- (nth_indexed (snrs c) j 0%Z Hj). apply nth_In. now rewrite indexed_len.
    + unfold measure. right. apply in_or_app. right. now left.
Qed.
Lemma Forall2_in_r {A B} (R : A -> B -> Prop) l1 l2 y : Forall2 R l1 l2 -> In y l2 -> exists x, In x l1 /\ R x y.
Proof. induction 1; intros H1; [destruct H1|]. destruct H1 as [->|H1]; [eauto using in_eq|]. destruct (IHForall2 H1) as (z & ? & ?). eauto using in_cons. Qed.
Lemma calls_in o tr : In o (calls tr) -> In o tr.
Proof. unfold calls. intros H. now apply filter_In in H. Qed.
Lemma calls_app a b : calls (a ++ b) = calls a ++ calls b.
Proof. apply filter_app. Qed.

Definition sorted_out (o : entry) : Prop := is_call o = true \/ hears o || decodes o = true.
Lemma go_kinds c l : forall s tr s' tr', Forall sorted_out tr -> go c s tr l = Ok (s', tr') -> Forall sorted_out tr'.
Proof.
  induction l as [|e l IH]; intros s tr s' tr' F E; cbn [go] in E; [inversion E; subst; exact F|].
  apply bind_ok_inv in E as ((s1 & o) & E1 & E2). eapply IH; [|exact E2]. apply Forall_app. split; [exact F|].
  constructor; [|constructor]. unfold sorted_out. destruct e as [now w a b|h|x]; cbn [step] in E1.
  - apply bind_ok_inv in E1 as (((s2 & i) & r) & E & Q). inversion Q; subst. auto.
  - destruct (work_pcc s h) as (s2 & b). inversion E1; subst. auto.
  - apply bind_ok_inv in E1 as (s2 & E & Q). inversion Q; subst. auto.
Qed.
Lemma run_kinds c t0 l s tr : run c t0 l = Ok (s, tr) -> Forall sorted_out tr.
Proof. unfold run. intros E. apply bind_ok_inv in E as (s0 & _ & E). eapply go_kinds; [|exact E]. constructor. Qed.
Lemma finished_segment c t0 s tr i j : sound c -> hist c t0 s tr -> Forall sorted_out tr -> ph s = PEnd ->
  i < length (params c) -> j < length (snrs c) -> exists b, segment tr i j b.
Proof.
  intros sd H K D Hi Hj. destruct (h_plan c t0 s tr H) as (ca & ci & don & C1 & C2 & C3 & C4 & C5).
  unfold rest in C2. rewrite D, app_nil_r in C2. subst don.
  destruct (Forall2_in_r _ _ _ _ C3 (store_in_plan c i j Hi Hj)) as (o & Ho & Fo).
  assert (So : stores i j o = true).
  { destruct o as ((e & it) & r). unfold fits, stores in *. cbn in *. destruct e, it; try tauto. destruct Fo as (-> & ->).
    now rewrite !Nat.eqb_refl. }
  assert (Ho' : In o tr) by (apply calls_in; rewrite C1; apply in_or_app; now left).
  destruct (split_last (stores i j) tr) as (a & st & d & E & Ss & Ds).
  { apply existsb_exists. eauto. }
  assert (T : existsb tunes a = true).
  { assert (HP : 0 < length (params c)) by lia.
    rewrite (plan_start c HP), (more_col c 0 0 ltac:(lia)) in C3. unfold measure in C3. cbn [snd fst app] in C3.
    inversion C3 as [|x y l1 l2 Fx F2 E1 E2]; subst.
    assert (Hst : is_call st = true \/ is_call st = false) by (destruct (is_call st); auto).
    rewrite calls_app in C1.
    assert (In x a).
    { destruct (calls a) as [|z za] eqn:Ca.
      - cbn [app] in C1. unfold calls in C1. cbn [filter] in C1. destruct Hst as [Hst|Hst]; rewrite Hst in C1.
        + inversion C1; subst. destruct x as ((e & it) & r). unfold fits, stores in *. cbn in *.
          destruct e, it; try tauto; try discriminate.
        + exfalso. (* a storing entry is a call *)
          assert (Cst : In st (a ++ st :: d)) by (apply in_or_app; right; now left).
          destruct (proj1 (Forall_forall _ _) K st Cst) as [K1|K1]; [congruence|].
          destruct st as ((e & it) & r). unfold hears, decodes, stores in *. cbn in *. now destruct it.
      - cbn [app] in C1. inversion C1; subst. apply calls_in. rewrite Ca. now left. }
    apply existsb_exists. exists x. split; [assumption|].
    destruct x as ((e & it) & r). unfold fits, tunes in *. cbn in *. destruct e, it; tauto. }
  destruct (split_last tunes a T) as (a' & o' & b & -> & To & Tb).
  exists b, a', o', st, d. rewrite <- app_assoc in E. cbn [app] in E. auto.
Qed.
