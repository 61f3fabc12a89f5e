(** Lemmas on the order in which a receiver goes through a packet. *)
From Verif Require Import Base PacketSizes PacketSizesSpec PacketSizesFacts Cells TxCells CellsSpec CellsCheck CellsTables CellsFacts TxFacts TxUseFacts
  RxSymbols RxSymbolsSpec.
Open Scope N_scope.

(** * Lists *)
Lemma at_upd_same {A} (l : list A) i x : i < len l -> at_idx (upd l (N.to_nat i) x) i = Ok x.
Proof. intros H. apply at_of. apply nth_error_upd_same. unfold len in H. lia. Qed.
Lemma at_upd_other {A} (l : list A) i j x : i <> j -> at_idx (upd l (N.to_nat i) x) j = at_idx l j.
Proof. intros H. unfold at_idx, rd. rewrite nth_error_upd_other by lia. reflexivity. Qed.
Lemma len_upd {A} (l : list A) i x : len (upd l i x) = len l.
Proof. unfold len. rewrite upd_length. reflexivity. Qed.
Lemma at_len {A} (l : list A) i x : at_idx l i = Ok x -> i < len l.
Proof. unfold at_idx. intros H. apply rd_Ok_inv in H as (H & _). unfold len. lia. Qed.
Lemma at_lt {A} (l : list A) i : i < len l -> exists x, at_idx l i = Ok x.
Proof.
  intros H. unfold at_idx, rd, len in *. destruct (nth_error l (N.to_nat i)) eqn:E; [eauto|]. apply nth_error_None in E. lia.
Qed.

Lemma change_all (f : N -> res N) (g : N -> stream -> stream) ts : NoDup ts ->
  forall ss, (forall t, In t ts -> t < len ss) -> 
  exists ss', foldM (fun ss t => change (g t) t ss) ss ts = Ok ss' /\ len ss' = len ss /\
    (forall t h, In t ts -> at_idx ss t = Ok h -> at_idx ss' t = Ok (g t h)) /\
    (forall t, ~ In t ts -> at_idx ss' t = at_idx ss t).
Proof.
  clear f. induction ts as [|t ts IH]; intros ND ss H.
  - exists ss. repeat split; auto. intros t h [].
  - inversion_clear ND as [|? ? NI ND']. destruct (at_lt ss t) as (h & E); [apply H; cbn; auto|].
    cbn [foldM]. unfold change at 1. rewrite E. cbn [bind].
    destruct (IH ND' (upd ss (N.to_nat t) (g t h))) as (ss' & A1 & A2 & A3 & A4).
    { intros x X. rewrite len_upd. apply H. cbn; auto. }
    exists ss'. split; [exact A1|]. rewrite len_upd in A2. split; [exact A2|]. split.
    + intros x hx [<-|X] EX.
      * rewrite A4 by exact NI. rewrite at_upd_same by (eapply at_len; eauto). congruence.
      * apply A3; [exact X|]. rewrite at_upd_other by (intros <-; contradiction). exact EX.
    + intros x X. cbn [In] in X. rewrite A4 by tauto. apply at_upd_other. tauto.
Qed.
Lemma foldM_app {A S} (f : S -> A -> res S) x y : forall s, foldM f s (x ++ y) = bind (foldM f s x) (fun s => foldM f s y).
Proof. induction x as [|a x IH]; intros s; cbn [app foldM]; [reflexivity|]. destruct (f s a); cbn [bind]; auto. Qed.
Lemma foldM_ext {A S} (f g : S -> A -> res S) l : (forall s a, In a l -> f s a = g s a) -> forall s, foldM f s l = foldM g s l.
Proof.
  induction l as [|a l IH]; intros H s; cbn [foldM]; [reflexivity|]. rewrite H by (cbn; auto). destruct (g s a); cbn [bind]; auto.
  apply IH. intros; apply H; cbn; auto.
Qed.
(** Induction over the symbols of a loop. *)
Lemma foldM_ind {S} (f : S -> N -> res S) (P : N -> S -> Prop) (a : N) (m : nat) s :
  P a s -> (forall l s, a <= l < a + N.of_nat m -> P l s -> exists s', f s l = Ok s' /\ P (l + 1) s') ->
  exists s', foldM f s (nseq a m) = Ok s' /\ P (a + N.of_nat m) s'.
Proof.
  revert a s; induction m as [|m IH]; intros a s H0 H.
  - exists s. rewrite N.add_0_r. auto.
  - destruct (H a s ltac:(lia) H0) as (s1 & E & H1). cbn [nseq foldM]. rewrite E. cbn [bind].
    destruct (IH (a + 1) s1 H1) as (s' & E' & H'); [intros; apply H; auto; lia|].
    exists s'. split; [exact E'|]. replace (a + N.of_nat (Datatypes.S m)) with (a + 1 + N.of_nat m) by lia. exact H'.
Qed.

(** * The last symbol with control cells *)
Lemma end_range b e : 1 <= control_end b e <= 4.
Proof. unfold control_end. repeat destruct (_ =? _); lia. Qed.
Lemma pending_step b e l : In b [1; 2; 4; 8; 12; 16] -> In e [1; 2; 4; 8] -> 1 <= l ->
  pending b e (l + 1) = pending b e l - (56 * b - len (active_streams e l) * (14 * b)).
Proof. intros B E0 L. rewrite pending_next by exact L. pose proof (f_free _ _ _ (facts_all b e l B E0 L)). lia. Qed.
Lemma end_values b e : In b [1; 2; 4; 8; 12; 16] -> In e [1; 2; 4; 8] ->
  pending b e (control_end b e + 1) = 0 /\ 0 < pending b e (control_end b e) /\ (e = 8 -> 3 <= control_end b e).
Proof.
  intros B E0. pose proof (pending_1 b e) as P1.
  pose proof (pending_step b e 1 B E0 ltac:(lia)) as P2. pose proof (pending_step b e 2 B E0 ltac:(lia)) as P3.
  pose proof (pending_step b e 3 B E0 ltac:(lia)) as P4. pose proof (pending_step b e 4 B E0 ltac:(lia)) as P5.
  change (1 + 1) with 2 in P2. change (2 + 1) with 3 in P3. change (3 + 1) with 4 in P4. change (4 + 1) with 5 in P5.
  rewrite active_count in P2, P3, P4, P5 by (auto; lia). unfold control_end.
  set (p1 := pending b e 1) in *. set (p2 := pending b e 2) in *. set (p3 := pending b e 3) in *. set (p4 := pending b e 4) in *. set (p5 := pending b e 5) in *.
  assert (Q : forall x, x = 1 \/ x = 2 \/ x = 3 \/ x = 4 -> pending b e x = match x with 1 => p1 | 2 => p2 | 3 => p3 | _ => p4 end)
    by (intros x [->|[->|[->| ->]]]; reflexivity).
  assert (Q5 : pending b e 5 = p5) by reflexivity. clearbody p1 p2 p3 p4 p5.
  change ((1 - 1) mod 5) with 0 in *. change ((2 - 1) mod 5) with 1 in *. change ((3 - 1) mod 5) with 2 in *. change ((4 - 1) mod 5) with 3 in *.
  change ((1 - 1) mod 10) with 0 in *. change ((2 - 1) mod 10) with 1 in *. change ((3 - 1) mod 10) with 2 in *. change ((4 - 1) mod 10) with 3 in *.
  cbn [In] in B, E0.
  repeat destruct E0 as [E0|E0]; try contradiction E0; rewrite <- E0 in P2, P3, P4, P5;
    cbn [N.leb N.compare Pos.compare Pos.compare_cont N.eqb Pos.eqb N.add Pos.add] in P2, P3, P4, P5;
    repeat destruct B as [B|B]; try contradiction B; rewrite <- B in P2, P3, P4, P5;
    destruct (N.eqb_spec p2 0), (N.eqb_spec p3 0), (N.eqb_spec p4 0); try (exfalso; lia);
    change (1 + 1) with 2; change (2 + 1) with 3; change (3 + 1) with 4; change (4 + 1) with 5;
    rewrite ?Q5; repeat match goal with |- context [pending b e ?x] => rewrite (Q x) by lia end; lia.
Qed.
(** The counter of the control component. *)
Definition has_control (b e l : N) : bool := negb (len (control b e l) =? 0).
Fixpoint count_control (b e : N) (m : nat) (l : N) : N :=
  match m with O => 0 | S m => (if has_control b e l then 1 else 0) + count_control b e m (l + 1) end.
Lemma step_parts b e s l s' : comps_step s l = Ok (cells_of b e l, s') ->
  exists cnt sel y next first, pcc_step s l = Ok (nonempty (control b e l), cnt) /\
    drs_step s l = Ok (report_of b e l, (sel, y, next, first)) /\ pdc_step s l = Ok (nonempty (data b e l)) /\
    s' = mkCstate (s_ts s) (s_l s) (s_k s) cnt (s_tab s) sel y next first (s_pdc s) (s_limit s).
Proof.
  unfold comps_step. destruct (pcc_step s l) as [[p cnt]| | |]; try discriminate. cbn [bind].
  destruct (drs_step s l) as [[r [[[sel y] next] first]]| | |]; try discriminate. cbn [bind].
  destruct (pdc_step s l) as [d| | |]; try discriminate. cbn [bind]. unfold cells_of. intros H. injection H as -> -> -> <-. eauto 10.
Qed.
Lemma pcc_cnt b e s l cnt : pcc_step s l = Ok (nonempty (control b e l), cnt) ->
  cnt = s_cnt s + (if has_control b e l then 1 else 0) /\ (has_control b e l = true -> nth_error (s_l s) (N.to_nat (s_cnt s)) = Some l).
Proof.
  unfold pcc_step, has_control, at_chk. destruct (len (s_l s) <=? s_cnt s).
  { intros H. injection H as H <-. destruct (control b e l); [|discriminate H]. change (len (@nil N)) with 0. cbn. split; [lia|discriminate]. }
  destruct (nth_error (s_l s) _) as [x|]; [|discriminate]. cbn [bind].
  destruct (N.eqb_spec x l) as [->|].
  - destruct (nth_error (s_k s) _); [|discriminate]. cbn [bind]. intros H. injection H as H <-.
    destruct (control b e l); [discriminate H|]. unfold len. cbn [length]. replace (N.of_nat (S (length l1)) =? 0) with false by lia. cbn. auto.
  - intros H. injection H as H <-. destruct (control b e l); [|discriminate H]. change (len (@nil N)) with 0. cbn. split; [lia|discriminate].
Qed.
Lemma chain_cnt b e m : forall l s s', chain b e m l s s' -> s_cnt s' = s_cnt s + count_control b e m l /\ s_l s' = s_l s.
Proof.
  induction m as [|m IH]; intros l s s' C; cbn [chain count_control] in *; [subst; split; [lia|reflexivity]|].
  destruct C as (s1 & A & C). apply step_parts in A as (cnt & sel & y & next & first & P & _ & _ & ->).
  apply pcc_cnt in P as (-> & _). destruct (IH _ _ _ C) as (E & ->). cbn [s_cnt s_l] in *. split; [lia|reflexivity].
Qed.
Lemma count_none b e m : forall l, (forall x, l <= x < l + N.of_nat m -> control b e x = []) -> count_control b e m l = 0.
Proof.
  induction m as [|m IH]; intros l H; cbn [count_control]; [reflexivity|]. unfold has_control. rewrite H by lia. change (len (@nil N)) with 0. cbn.
  rewrite IH by (intros; apply H; lia). reflexivity.
Qed.
Lemma count_app b e m n : forall l, count_control b e (m + n) l = count_control b e m l + count_control b e n (l + N.of_nat m).
Proof.
  induction m as [|m IH]; intros l; cbn [plus count_control]; [rewrite N.add_0_r; reflexivity|]. rewrite IH.
  replace (l + N.of_nat (S m)) with (l + 1 + N.of_nat m) by lia. lia.
Qed.
Lemma follows_cnt i b e : In (i, b) bandwidths -> In e [1; 2; 4; 8] ->
  exists ls ks, pcc_entry i e = Ok (ls, ks) /\ count_control b e 20 1 = len ls.
Proof.
  intros I E0. pose proof all_follow as C. rewrite forallb_forall in C. specialize (C _ I). cbn [fst snd] in C.
  rewrite forallb_forall in C. specialize (C _ E0). unfold follows in C.
  destruct (start i b e) as [s0| | |] eqn:S0; try discriminate.
  destruct (follow b e 20 1 98 0 s0) as [[[p n] s20]|] eqn:F1; try discriminate.
  destruct (follow b e 20 21 p n s20) as [[[p' n'] s40]|] eqn:F2; try discriminate.
  apply andb_prop in C as (C & _). apply andb_prop in C as (C & _).
  apply follow_sound in F1; [|lia|symmetry; apply pending_1|symmetry; apply before_1]. destruct F1 as (C1 & _).
  apply chain_cnt in C1 as (K1 & K2). apply start_inv in S0 as (ls & ks & tab & pdc & A1 & _ & _ & ->).
  exists ls, ks. split; [exact A1|]. unfold moved in C. repeat (apply andb_prop in C as (C & ?)). cbn [s_cnt s_l] in *. rewrite K2 in *. lia.
Qed.
Lemma control_after b e l : In b [1; 2; 4; 8; 12; 16] -> In e [1; 2; 4; 8] -> control_end b e < l -> control b e l = [] /\ pending b e l = 0.
Proof.
  intros B E0 L. destruct (end_values b e B E0) as (P0 & _). pose proof (end_range b e).
  assert (Z : pending b e l = 0) by (eapply pending_zero; [exact P0|lia|lia]). split; [|exact Z].
  apply control_done. exact Z.
Qed.
Lemma control_before b e l : In b [1; 2; 4; 8; 12; 16] -> In e [1; 2; 4; 8] -> 1 <= l < control_end b e -> data b e l = [].
Proof.
  intros B E0 L. destruct (end_values b e B E0) as (_ & P1 & _). destruct (cells_before b e B E0 (control_end b e) ltac:(lia)) as (_ & _ & C).
  specialize (C P1). pose proof (before_mono b e (l + 1) (control_end b e) ltac:(lia) ltac:(lia)) as M.
  rewrite before_next in M by lia. destruct (data b e l); [reflexivity|]. unfold len in M. cbn [length] in M. lia.
Qed.
Lemma last_at {A} (l : list A) x d : nth_error l (length l - 1) = Some x -> l <> [] /\ last l d = x.
Proof.
  intros H. destruct (exists_last (l := l)) as (l' & y & ->); [intros ->; discriminate|].
  rewrite last_last, app_length in *. cbn [length] in H. replace (length l' + 1 - 1)%nat with (length l') in H by lia.
  rewrite nth_error_app2, Nat.sub_diag in H by lia. cbn in H. injection H as <-. split; [|reflexivity]. destruct l'; discriminate.
Qed.
Lemma chain_last b e m : forall l s s', chain b e (m + 1) l s s' ->
  exists s1, chain b e m l s s1 /\ exists cnt, pcc_step s1 (l + N.of_nat m) = Ok (nonempty (control b e (l + N.of_nat m)), cnt).
Proof.
  induction m as [|m IH]; intros l s s' C; cbn [plus chain] in *; destruct C as (s1 & A & C).
  - exists s. split; [reflexivity|]. replace (l + N.of_nat 0) with l by lia. apply step_parts in A as (cnt & ? & ? & ? & ? & P & _). eauto.
  - destruct (IH _ _ _ C) as (s2 & C2 & Y). exists s2. split; [eauto|]. replace (l + N.of_nat (S m)) with (l + 1 + N.of_nat m) by lia. exact Y.
Qed.
Lemma ends i b e s : In (i, b) bandwidths -> In b [1; 2; 4; 8; 12; 16] -> In e [1; 2; 4; 8] -> pcc_entry i e = Ok (s_l s, s_k s) -> s_cnt s = 0 ->
  (forall m, exists s', chain b e m 1 s s') -> s_l s <> [] /\ last (s_l s) 0 = control_end b e.
Proof.
  intros I B E0 P Z CH. destruct (follows_cnt i b e I E0) as (ls & ks & P' & K). rewrite P in P'. injection P' as <- <-.
  pose proof (end_range b e) as ER. destruct (end_values b e B E0) as (V0 & V1 & _).
  replace 20%nat with (N.to_nat (control_end b e - 1) + (1 + N.to_nat (20 - control_end b e)))%nat in K by lia.
  rewrite !count_app in K. rewrite (count_none b e (N.to_nat (20 - control_end b e))) in K
    by (intros x X; apply control_after; auto; lia).
  destruct (CH (N.to_nat (control_end b e - 1) + 1)%nat) as (s' & C').
  assert (HC : has_control b e (control_end b e) = true).
  { unfold has_control. pose proof (f_control _ _ _ (facts_all b e (control_end b e) B E0 ltac:(lia))). lia. }
  apply chain_last in C'.
  destruct C' as (s1 & C1 & cnt & PS). replace (1 + N.of_nat (N.to_nat (control_end b e - 1))) with (control_end b e) in PS by lia. apply pcc_cnt in PS as (_ & PS). specialize (PS HC).
  apply chain_cnt in C1 as (K1 & K2). rewrite K2, K1, Z in PS. cbn [count_control] in K.
  replace (1 + N.of_nat (N.to_nat (control_end b e - 1))) with (control_end b e) in K by lia. rewrite HC in K.
  apply last_at. replace (length (s_l s) - 1)%nat with (N.to_nat (0 + count_control b e (N.to_nat (control_end b e - 1)) 1)); [exact PS|].
  unfold len in K. lia.
Qed.

Lemma configured_pcc b_max M c b e s i : comps_new b_max M = Ok c -> set_configuration c b e = Ok s -> In e [1; 2; 4; 8] -> In M [1; 2; 4; 8] ->
  e <= M -> In b_max [1; 2; 4; 8; 12; 16] -> b <= b_max -> In b [1; 2; 4; 8; 12; 16] -> b2b_idx b = Ok i -> pcc_entry i e = Ok (s_l s, s_k s).
Proof.
  intros N0 S0 E0 M0 LE B0 LB B BI. destruct (idx_of _ B0) as (im & I1 & I2 & I3). unfold comps_new in N0. rewrite I1 in N0. cbn [bind] in N0.
  apply bind_ok_inv in N0 as (pcc & P & N0). apply bind_ok_inv in N0 as (drs & D & N0). apply bind_ok_inv in N0 as (pdc & Q & N0).
  injection N0 as <-. unfold set_configuration in S0. rewrite BI in S0. cbn [bind c_pcc c_drs c_pdc] in S0.
  destruct (idx_of _ B) as (j & J1 & J2 & J3). assert (j = i) by congruence. subst j. pose proof (idx_mono _ _ _ _ J2 I2 LB) as JI.
  destruct (ts_step e M E0 M0 LE) as (k & K1 & K2). rewrite K1 in S0. cbn [bind] in S0.
  assert (JN : nth_error (upto (im + 1)) (N.to_nat i) = Some i).
  { unfold upto. rewrite nseq_nth by lia. f_equal. lia. }
  apply mapM_inv in P. destruct (Forall2_at _ _ _ _ _ P JN) as (r & R1 & R2). apply mapM_inv in R2.
  destruct (Forall2_at _ _ _ _ _ R2 K2) as ((ls, ks) & V1 & V2).
  rewrite (at_of _ _ _ R1) in S0. cbn [bind] in S0. rewrite (at_of _ _ _ V1) in S0. cbn [bind] in S0.
  apply bind_ok_inv in S0 as (tab & _ & S0). apply bind_ok_inv in S0 as (r' & _ & S0). apply bind_ok_inv in S0 as (pd & _ & S0).
  injection S0 as <-. exact V2.
Qed.

(** * The components as a function of the symbol *)
Fixpoint after (n : nat) (l : N) (s : cstate) : cstate :=
  match n with O => s | S n => match comps_step s l with Ok (_, s1) => after n (l + 1) s1 | _ => s end end.
Lemma chain_after b e m : forall l s s', chain b e m l s s' -> s' = after m l s.
Proof.
  induction m as [|m IH]; intros l s s' C; cbn [chain after] in *; [congruence|]. destruct C as (s1 & A & C). rewrite A. auto.
Qed.
Lemma after_step b e s : (forall m, exists s', chain b e m 1 s s') -> forall n,
  comps_step (after n 1 s) (1 + N.of_nat n) = Ok (cells_of b e (1 + N.of_nat n), after (S n) 1 s).
Proof.
  intros H n. destruct (H (S n)) as (s' & C).
  assert (G : forall n l s s', chain b e (S n) l s s' -> comps_step (after n l s) (l + N.of_nat n) = Ok (cells_of b e (l + N.of_nat n), after (S n) l s)).
  { clear. induction n as [|n IH]; intros l s s' C.
    - cbn [chain] in C. destruct C as (s1 & A & _). cbn [after]. rewrite N.add_0_r, A. reflexivity.
    - cbn [chain] in C. destruct C as (s1 & A & C). change (after (S n) l s) with (match comps_step s l with Ok (_, s1) => after n (l + 1) s1 | _ => s end).
      change (after (S (S n)) l s) with (match comps_step s l with Ok (_, s1) => after (S n) (l + 1) s1 | _ => s end). rewrite A.
      replace (l + N.of_nat (S n)) with (l + 1 + N.of_nat n) by lia. eapply IH. exact C. }
  eapply G; eauto.
Qed.
