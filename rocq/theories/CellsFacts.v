(** Lemmas on the positions of the cells. *)
From Verif Require Import Base PacketSizes PacketSizesSpec PacketSizesFacts Cells TxCells CellsSpec CellsCheck.
Open Scope N_scope.

(** * Lists *)
Lemma nseq_length a n : length (nseq a n) = n.
Proof. revert a; induction n; intros; cbn; auto. Qed.
Lemma nseq_app a m n : nseq a (m + n) = nseq a m ++ nseq (a + N.of_nat m) n.
Proof.
  revert a; induction m as [|m IH]; intros a; cbn.
  - f_equal; lia.
  - f_equal. rewrite IH. do 2 f_equal. lia.
Qed.
Lemma nseq_snoc a n : nseq a (S n) = nseq a n ++ [a + N.of_nat n].
Proof. replace (S n) with (n + 1)%nat by lia. rewrite nseq_app. reflexivity. Qed.
Lemma nseq_in x a n : In x (nseq a n) <-> a <= x < a + N.of_nat n.
Proof. revert a; induction n as [|n IH]; intros a; cbn; [lia|]. rewrite IH. lia. Qed.
Lemma nseq_nth a n i : (i < n)%nat -> nth_error (nseq a n) i = Some (a + N.of_nat i).
Proof.
  revert a i; induction n as [|n IH]; intros a i H; [lia|]. destruct i; cbn; [f_equal; lia|].
  rewrite IH by lia. f_equal; lia.
Qed.
Lemma nseq_nodup a n : NoDup (nseq a n).
Proof. revert a; induction n; intros; cbn; constructor; auto. rewrite nseq_in. lia. Qed.
Lemma upto_in x n : In x (upto n) <-> x < n.
Proof. unfold upto. rewrite nseq_in. lia. Qed.
Lemma upto_len n : len (upto n) = n.
Proof. unfold len, upto. rewrite nseq_length. lia. Qed.
Lemma len_app {A} (x y : list A) : len (x ++ y) = len x + len y.
Proof. unfold len. rewrite app_length. lia. Qed.
Lemma filter_split {A} (f : A -> bool) l : (length (filter f l) + length (filter (fun x => negb (f x)) l) = length l)%nat.
Proof. induction l as [|x l IH]; cbn; auto. destruct (f x); cbn; lia. Qed.

Lemma mapM_all {A B} (f : A -> res B) l : (forall x, In x l -> exists y, f x = Ok y) ->
  exists r, mapM f l = Ok r /\ Forall2 (fun x y => f x = Ok y) l r.
Proof.
  induction l as [|x l IH]; intros H; [exists []; split; [reflexivity|constructor]|].
  destruct (H x (or_introl eq_refl)) as (y & Y). destruct IH as (r & R & F); [intros; apply H; cbn; auto|].
  exists (y :: r). cbn. rewrite Y. cbn. rewrite R. cbn. split; [reflexivity|constructor; auto].
Qed.
Lemma mapM_inv {A B} (f : A -> res B) l r : mapM f l = Ok r -> Forall2 (fun x y => f x = Ok y) l r.
Proof.
  revert r; induction l as [|x l IH]; cbn; intros r H; [injection H as <-; constructor|].
  destruct (f x) eqn:E; try discriminate. cbn in H. destruct (mapM f l) eqn:F; try discriminate. cbn in H.
  injection H as <-. constructor; auto.
Qed.
Lemma mapM_map {A B} (f : A -> res B) (g : A -> B) l : (forall x, In x l -> f x = Ok (g x)) -> mapM f l = Ok (map g l).
Proof.
  induction l as [|x l IH]; intros H; [reflexivity|]. cbn. rewrite H by (cbn; auto). cbn. rewrite IH by (intros; apply H; cbn; auto).
  reflexivity.
Qed.
Lemma mapM_app {A B} (f : A -> res B) x y r : mapM f (x ++ y) = Ok r ->
  exists a c, mapM f x = Ok a /\ mapM f y = Ok c /\ r = a ++ c.
Proof.
  revert r; induction x as [|h x IH]; cbn; intros r H; [exists [], r; auto|].
  destruct (f h) as [v| | |]; try discriminate. cbn in H. destruct (mapM f (x ++ y)) eqn:E; try discriminate. cbn in H. injection H as <-.
  destruct (IH _ eq_refl) as (p & q & -> & -> & ->). cbn. exists (v :: p), q. auto.
Qed.
Lemma Forall2_at {A B} (R : A -> B -> Prop) l r i x : Forall2 R l r -> nth_error l i = Some x ->
  exists y, nth_error r i = Some y /\ R x y.
Proof.
  intros F; revert i; induction F as [|p q l' r' R0 F IH]; intros [|i] H; cbn in *; try discriminate; [injection H as <-; eauto|auto].
Qed.

(** * Comparison *)
Lemma list_eqb_sound {A} (f : A -> A -> bool) : (forall a b, f a b = true -> a = b) ->
  forall x y, list_eqb f x y = true -> x = y.
Proof.
  intros F x; induction x as [|a x IH]; intros [|b y]; cbn; try discriminate; auto.
  intros H. apply andb_prop in H as (H1 & H2). f_equal; auto.
Qed.
Lemma opt_eqb_sound {A} (f : A -> A -> bool) : (forall a b, f a b = true -> a = b) ->
  forall x y, opt_eqb f x y = true -> x = y.
Proof. intros F [a|] [b|]; cbn; try discriminate; auto. intros; f_equal; auto. Qed.
Lemma Neqb_sound a b : (a =? b) = true -> a = b.
Proof. apply N.eqb_eq. Qed.
Lemma cells_eqb_sound x y : cells_eqb x y = true -> x = y.
Proof.
  destruct x as [p r d], y as [p' r' d']; unfold cells_eqb; cbn [a_pcc a_drs a_pdc]. intros H.
  apply andb_prop in H as (H & H3). apply andb_prop in H as (H1 & H2).
  apply (opt_eqb_sound _ (list_eqb_sound _ Neqb_sound)) in H1, H3. subst. f_equal.
  apply (fun S => opt_eqb_sound report_eqb S _ _ H2). clear. intros [n l] [n' l'] H. unfold report_eqb in H. cbn in H.
  apply andb_prop in H as (H1 & H2). apply N.eqb_eq in H1. subst. f_equal.
  apply (fun S => list_eqb_sound row_eqb S _ _ H2). clear. intros [[a b] c] [[a' b'] c'] H. unfold row_eqb in H. cbn in H.
  apply andb_prop in H as (H & H3). apply andb_prop in H as (H1 & H2). apply N.eqb_eq in H1. subst.
  apply (list_eqb_sound _ Neqb_sound) in H2. subst. f_equal.
  apply (fun S => list_eqb_sound _ S _ _ H3). intros [x y] [x' y'] H. cbn in H.
  apply andb_prop in H as (H1 & H2). apply N.eqb_eq in H2. apply Bool.eqb_prop in H1. subst. reflexivity.
Qed.

(** * Sums over the symbols *)
Lemma pending_1 b e : pending b e 1 = 98.
Proof. reflexivity. Qed.
Lemma pending_next b e l : 1 <= l -> pending b e (l + 1) = pending b e l - len (free b e l).
Proof.
  intros H. unfold pending. replace (N.to_nat (l + 1 - 1)) with (S (N.to_nat (l - 1))) by lia.
  rewrite nseq_snoc, map_app, sum_app. cbn [map sum fold_right]. replace (1 + N.of_nat (N.to_nat (l - 1))) with l by lia. lia.
Qed.
Lemma before_1 b e : data_before b e 1 = 0.
Proof. reflexivity. Qed.
Lemma before_next b e l : 1 <= l -> data_before b e (l + 1) = data_before b e l + len (data b e l).
Proof.
  intros H. unfold data_before. replace (N.to_nat (l + 1 - 1)) with (S (N.to_nat (l - 1))) by lia.
  rewrite nseq_snoc, map_app, sum_app. cbn [map sum fold_right]. replace (1 + N.of_nat (N.to_nat (l - 1))) with l by lia. lia.
Qed.

(** * The first 40 symbols *)
(** What the numbers of cells of a symbol satisfy. *)
Record sym_facts (b e l : N) : Prop := mkSF {
  f_control : len (control b e l) + pending b e (l + 1) = pending b e l;
  f_even : len (data b e l) mod 2 = 0;
  f_free : len (active_streams e l) * (14 * b) + len (free b e l) = 56 * b;
  f_parts : len (control b e l) + len (data b e l) = len (free b e l);
  f_ref : forall t, t < e -> len (reference b e t l) = if active e t l then 14 * b else 0;
  f_many : len (data b e l) = 0 \/ 24 <= len (data b e l) \/ (l <= 20 /\ data_before b e l = 0) }.

(** Going through [m] symbols from [l] on, the components report what they should. *)
Fixpoint chain (b e : N) (m : nat) (l : N) (s s' : cstate) : Prop :=
  match m with
  | O => s = s'
  | S m => exists s1, comps_step s l = Ok (cells_of b e l, s1) /\ chain b e m (l + 1) s1 s'
  end.

Lemma counts_sound b e l : 1 <= l -> counts_ok b e l (pending b e l) (data_before b e l) (free b e l) = true -> sym_facts b e l.
Proof.
  intros L H. unfold counts_ok in H. cbv zeta in H. fold (control b e l) in H. fold (data b e l) in H.
  repeat (apply andb_prop in H as (H & ?)).
  constructor.
  - rewrite pending_next by exact L. lia.
  - lia.
  - lia.
  - lia.
  - intros t T. rewrite forallb_forall in H1. apply upto_in in T. apply N.eqb_eq. auto.
  - destruct (len (data b e l) <? 24) eqn:D; lia.
Qed.

Lemma follow_sound b e m : forall l p n s p' n' s',
  1 <= l -> p = pending b e l -> n = data_before b e l -> follow b e m l p n s = Some (p', n', s') ->
  chain b e m l s s' /\ p' = pending b e (l + N.of_nat m) /\ n' = data_before b e (l + N.of_nat m) /\
  forall i, l <= i < l + N.of_nat m -> sym_facts b e i.
Proof.
  induction m as [|m IH]; intros l p n s p' n' s' L P Q F.
  - cbn in F. injection F as <- <- <-. cbn [chain]. replace (l + N.of_nat 0) with l by lia.
    split; [reflexivity|]. split; [exact P|]. split; [exact Q|]. intros; lia.
  - cbn [follow] in F. cbv zeta in F. destruct (comps_step s l) as [[c s1]| | |] eqn:E; try discriminate.
    destruct (cells_eqb c (cells_from b e l p (free b e l)) && counts_ok b e l p n (free b e l)) eqn:C; [|discriminate].
    apply andb_prop in C as (C1 & C2). apply cells_eqb_sound in C1. subst p n.
    destruct (IH (l + 1) _ _ _ _ _ _ ltac:(lia) (eq_sym (pending_next b e l L)) (eq_sym (before_next b e l L)) F) as (A1 & A2 & A3 & A4).
    replace (l + N.of_nat (S m)) with (l + 1 + N.of_nat m) by lia. split; [|split; [exact A2|split; [exact A3|]]].
    + cbn [chain]. exists s1. split; [|exact A1]. rewrite E, C1. reflexivity.
    + intros i I. destruct (N.eq_dec i l) as [->|]; [|apply A4; lia]. apply counts_sound; auto.
Qed.

(** * Periodicity *)
Section Period.
Context (b e : N).
Lemma active_period t l : 2 <= l -> active e t (l + 20) = active e t l.
Proof.
  intros L. unfold active, first_symbol, spacing. destruct (t <? 4), (e <=? 2);
    match goal with |- ?a && ?x = ?c && ?y => replace a with true by lia; replace c with true by lia end; cbn [andb]; lia.
Qed.
Lemma is_reference_period t l k : 2 <= l -> is_reference b e t (l + 20) k = is_reference b e t l k.
Proof.
  intros L. unfold is_reference. rewrite active_period by exact L. f_equal. f_equal.
  unfold first_symbol, spacing. destruct (t <? 4), (e <=? 2); lia.
Qed.
Lemma reference_period t l : 2 <= l -> reference b e t (l + 20) = reference b e t l.
Proof. intros L. apply filter_ext. intros k. apply is_reference_period; exact L. Qed.
Lemma free_period l : 2 <= l -> free b e (l + 20) = free b e l.
Proof.
  intros L. apply filter_ext. intros k. f_equal. induction (upto e) as [|t ts IH]; cbn; [reflexivity|].
  rewrite IH, is_reference_period by exact L. reflexivity.
Qed.
Lemma active_streams_period l : 2 <= l -> active_streams e (l + 20) = active_streams e l.
Proof. intros L. apply filter_ext. intros t. apply active_period; exact L. Qed.
Lemma report_period l : 2 <= l -> report_of b e (l + 20) = report_of b e l.
Proof.
  intros L. unfold report_of. rewrite active_streams_period by exact L. destruct (active_streams e l) as [|t ts]; [reflexivity|].
  do 2 f_equal. apply map_ext. intros t'. rewrite reference_period by exact L. reflexivity.
Qed.
Lemma pending_zero l l' : pending b e l = 0 -> 1 <= l -> l <= l' -> pending b e l' = 0.
Proof.
  intros P L H. replace l' with (l + N.of_nat (N.to_nat (l' - l))) by lia.
  induction (N.to_nat (l' - l)) as [|n IH]; [rewrite N.add_0_r; exact P|].
  replace (l + N.of_nat (S n)) with (l + N.of_nat n + 1) by lia. rewrite pending_next by lia. lia.
Qed.
Lemma numbered_snd ks : map snd (numbered ks) = ks.
Proof.
  unfold numbered, upto, len. rewrite Nat2N.id. generalize 0 at 1. induction ks as [|k ks IH]; intros a; cbn; [reflexivity|].
  f_equal. apply IH.
Qed.
Lemma control_done l : pending b e l = 0 -> control b e l = [] /\ data b e l = free b e l.
Proof.
  intros P. unfold control, data, control_of, data_of. rewrite P. cbv zeta.
  assert (F : forall U jk, first_columns U 0 jk = false) by (intros; unfold first_columns; change (0 / 7) with 0; lia).
  split.
  - rewrite (filter_ext _ (fun _ => false)) by (intros; apply F). induction (numbered (free b e l)); cbn; auto.
  - rewrite (filter_ext _ (fun _ => true)) by (intros; rewrite F; reflexivity).
    transitivity (map snd (numbered (free b e l))); [f_equal|apply numbered_snd].
    induction (numbered (free b e l)); cbn; congruence.
Qed.
Context (P21 : pending b e 21 = 0).
Lemma cells_period l : 21 <= l -> cells_of b e (l + 20) = cells_of b e l.
Proof.
  intros L. unfold cells_of.
  destruct (control_done l) as (-> & ->); [eapply pending_zero; eauto; lia|].
  destruct (control_done (l + 20)) as (-> & ->); [eapply pending_zero; eauto; lia|].
  rewrite report_period, free_period by lia. reflexivity.
Qed.
Lemma facts_period l : 21 <= l -> sym_facts b e l -> sym_facts b e (l + 20).
Proof.
  intros L [F1 F2 F3 F4 F5 F6].
  assert (Z : forall x, 21 <= x -> pending b e x = 0) by (intros; eapply pending_zero; eauto; lia).
  destruct (control_done l (Z _ L)) as (C1 & D1). destruct (control_done (l + 20) (Z (l + 20) ltac:(lia))) as (C2 & D2).
  pose proof (free_period l ltac:(lia)) as FP. pose proof (active_streams_period l ltac:(lia)) as AP.
  rewrite C1, D1 in *. constructor; rewrite ?C2, ?D2, ?FP, ?AP; auto.
  - rewrite !Z by lia. reflexivity.
  - intros t T. rewrite reference_period, active_period by lia. auto.
  - destruct F6 as [F6|[F6|F6]]; [auto|auto|lia].
Qed.

(** The components repeat themselves every 20 symbols. *)
Definition shift (s : cstate) : cstate :=
  mkCstate (s_ts s) (s_l s) (s_k s) (s_cnt s) (s_tab s) (s_drs s) (s_y s) (s_next s + 20) (s_first s) (s_pdc s) (s_limit s).
Definition done (s : cstate) : Prop := s_cnt s = len (s_l s) /\ s_limit s <= 11.
Lemma drs_shift s l r a y n f : drs_step s l = Ok (r, (a, y, n, f)) -> drs_step (shift s) (l + 20) = Ok (r, (a, y, n + 20, f)).
Proof.
  unfold drs_step, shift. cbn [s_ts s_tab s_drs s_y s_next s_first].
  replace (l + 20 =? s_next s + 20) with (l =? s_next s) by lia.
  destruct (l =? s_next s); cbn [negb]; [|intros H; injection H as <- <- <- <- <-; reflexivity].
  replace ((s_next s + 20) mod 2) with (s_next s mod 2) by lia.
  destruct (at_idx _ 0); try discriminate. cbn [bind]. destruct (mapM _ _); try discriminate. cbn [bind].
  replace (s_next s + 20 + 5) with (s_next s + 5 + 20) by lia. replace (s_next s + 20 + 10) with (s_next s + 10 + 20) by lia.
  replace (s_next s + 20 + 1) with (s_next s + 1 + 20) by lia. replace (s_next s + 20 + 9) with (s_next s + 9 + 20) by lia.
  intros H. injection H as <- H. revert H.
  destruct (s_ts s <=? 2), (s_ts s =? 4), (s_next s mod 2 =? 1); intros H; injection H as <- <- <- <-; reflexivity.
Qed.
Lemma step_shift s l c s' : 21 <= l -> done s -> comps_step s l = Ok (c, s') ->
  done s' /\ comps_step (shift s) (l + 20) = Ok (c, shift s').
Proof.
  intros L (D1 & D2) H. unfold comps_step in *.
  assert (P0 : forall x, pcc_step s x = Ok (None, s_cnt s)) by (intros x; unfold pcc_step; rewrite D1, N.leb_refl; reflexivity).
  assert (P1 : pcc_step (shift s) (l + 20) = Ok (None, s_cnt s)).
  { unfold pcc_step. cbn [shift s_l s_cnt]. rewrite D1, N.leb_refl. reflexivity. }
  assert (P2 : pdc_step (shift s) (l + 20) = pdc_step s l).
  { unfold pdc_step. cbn [shift s_limit s_pdc]. set (x := s_limit s) in *. clearbody x.
    replace (l + 20 <=? x) with false by lia. replace (l <=? x) with false by lia.
    replace (l + 20 - (l + 20 - x) / 10 * 10) with (l - (l - x) / 10 * 10) by lia. reflexivity. }
  rewrite P0 in H. rewrite P1, P2. cbn [bind] in *.
  destruct (drs_step s l) as [[r [[[a y] n] f]]| | |] eqn:E; try discriminate. rewrite (drs_shift _ _ _ _ _ _ _ E). cbn [bind] in *.
  destruct (pdc_step s l); try discriminate. cbn [bind] in *. injection H as <- <-. split; [split; assumption|]. reflexivity.
Qed.
Lemma chain_shift m : forall l s s', 21 <= l -> done s -> chain b e m l s s' ->
  done s' /\ chain b e m (l + 20) (shift s) (shift s').
Proof.
  induction m as [|m IH]; intros l s s' L D C; cbn [chain] in *; [subst; auto|].
  destruct C as (s1 & A & C). destruct (step_shift _ _ _ _ L D A) as (D1 & B).
  destruct (IH (l + 1) s1 s' ltac:(lia) D1 C) as (D2 & E). split; [exact D2|]. exists (shift s1). split.
  - rewrite cells_period by lia. exact B.
  - replace (l + 20 + 1) with (l + 1 + 20) by lia. exact E.
Qed.
End Period.

Lemma chain_app b e m n : forall l s s' s'', chain b e m l s s' -> chain b e n (l + N.of_nat m) s' s'' -> chain b e (m + n) l s s''.
Proof.
  induction m as [|m IH]; intros l s s' s'' A B; cbn [chain plus] in *.
  - subst. replace (l + N.of_nat 0) with l in B by lia. exact B.
  - destruct A as (s1 & A1 & A2). exists s1. split; [exact A1|]. eapply IH; [exact A2|].
    replace (l + 1 + N.of_nat m) with (l + N.of_nat (S m)) by lia. exact B.
Qed.
Lemma chain_prefix b e m n : forall l s s', chain b e (m + n) l s s' -> exists s1, chain b e m l s s1.
Proof.
  induction m as [|m IH]; intros l s s' A; cbn [chain plus] in *; [exists s; reflexivity|].
  destruct A as (s1 & A1 & A2). destruct (IH _ _ _ A2) as (s2 & B). exists s2, s1. auto.
Qed.

(** * All symbols *)
Lemma start_static b_idx b e s m l s' : start b_idx b e = Ok s -> chain b e m l s s' -> s_tab s' = s_tab s /\ s_limit s' = s_limit s /\ s_l s' = s_l s /\ s_k s' = s_k s /\ s_pdc s' = s_pdc s /\ s_ts s' = s_ts s.
Proof.
  intros _. revert l s; induction m as [|m IH]; intros l s C; cbn [chain] in C; [subst; auto 10|].
  destruct C as (s1 & A & C). destruct (IH _ _ C) as (-> & -> & -> & -> & -> & ->).
  unfold comps_step in A. destruct (pcc_step s l) as [[p cnt]| | |]; try discriminate. cbn [bind] in A.
  destruct (drs_step s l) as [[r [[[a y] n] f]]| | |]; try discriminate. cbn [bind] in A.
  destruct (pdc_step s l); try discriminate. cbn [bind] in A. injection A as _ _ _ <-. auto 10.
Qed.

Lemma symbols_follow b_idx b e : follows b_idx b e = true ->
  exists s0, start b_idx b e = Ok s0 /\ (forall m, exists s, chain b e m 1 s0 s) /\ (forall l, 1 <= l -> sym_facts b e l).
Proof.
  unfold follows. destruct (start b_idx b e) as [s0| | |] eqn:S0; try discriminate.
  destruct (follow b e 20 1 98 0 s0) as [[[p n] s20]|] eqn:F1; try discriminate.
  destruct (follow b e 20 21 p n s20) as [[[p' n'] s40]|] eqn:F2; try discriminate.
  intros H. apply andb_prop in H as (H & P). apply andb_prop in H as (M & NX). apply N.eqb_eq in P. subst p.
  apply follow_sound in F1; [|lia|symmetry; apply pending_1|symmetry; apply before_1]. destruct F1 as (C1 & P1 & N1 & S1).
  change (1 + N.of_nat 20) with 21 in *.
  apply follow_sound in F2; [|lia|exact P1|exact N1]. destruct F2 as (C2 & P2 & N2 & S2). change (21 + N.of_nat 20) with 41 in *.
  assert (E40 : s40 = shift s20).
  { destruct (start_static _ _ _ _ _ _ _ S0 C1) as (A1 & A2 & A3 & A4 & A5 & A6).
    destruct (start_static _ _ _ _ _ _ _ S0 (chain_app _ _ _ _ _ _ _ _ C1 C2)) as (B1 & B2 & B3 & B4 & B5 & B6).
    unfold moved in M. repeat (apply andb_prop in M as (M & ?)).
    repeat match goal with H : (_ =? _) = true |- _ => apply N.eqb_eq in H | H : Bool.eqb _ _ = true |- _ => apply Bool.eqb_prop in H end.
    unfold shift. destruct s40, s20; cbn in *. congruence. }
  assert (D : done s20).
  { split; [unfold moved in M; repeat (apply andb_prop in M as (M & ?)); lia|].
    destruct (start_static _ _ _ _ _ _ _ S0 C1) as (_ & -> & _). unfold start in S0.
    destruct (pcc_entry b_idx e) as [[? ?]| | |]; try discriminate. cbn [bind] in S0.
    destruct (drs_row e b_idx); try discriminate. cbn [bind] in S0. destruct (pdc_entry b_idx e); try discriminate.
    cbn [bind] in S0. injection S0 as <-. cbn [s_limit]. destruct (e <=? 2); lia. }
  subst s40. exists s0. split; [reflexivity|]. split.
  - assert (K : forall k, exists s, chain b e (20 + 20 * k) 1 s0 s /\ done s /\ chain b e 20 (1 + N.of_nat (20 + 20 * k)) s (shift s)).
    { induction k as [|k (s & A & B & C)].
      - exists s20. change (20 + 20 * 0)%nat with 20%nat. change (1 + N.of_nat 20) with 21. auto.
      - exists (shift s). replace (20 + 20 * S k)%nat with ((20 + 20 * k) + 20)%nat by lia. split; [eapply chain_app; eauto|].
        replace (1 + N.of_nat (20 + 20 * k + 20)) with (1 + N.of_nat (20 + 20 * k) + 20) by lia.
        apply chain_shift; auto. lia. }
    intros m. destruct (K m) as (s & A & _). replace (20 + 20 * m)%nat with (m + (20 + 19 * m))%nat in A by lia.
    eapply chain_prefix; exact A.
  - assert (K : forall k l, 21 <= l < 41 -> sym_facts b e (l + 20 * N.of_nat k)).
    { induction k as [|k IH]; intros l L; [rewrite N.mul_0_r, N.add_0_r; auto|].
      replace (l + 20 * N.of_nat (S k)) with (l + 20 * N.of_nat k + 20) by lia. apply facts_period; [auto|lia|auto]. }
    intros l L. destruct (N.lt_ge_cases l 21) as [|L2]; [apply S1; lia|].
    specialize (K (N.to_nat ((l - 21) / 20)) (21 + (l - 21) mod 20) ltac:(lia)).
    replace (21 + (l - 21) mod 20 + 20 * N.of_nat (N.to_nat ((l - 21) / 20))) with l in K by lia. exact K.
Qed.
