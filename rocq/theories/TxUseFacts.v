(** Lemmas on what a transmitted packet contains, read off the specification of its symbols. *)
From Coq Require Import FinFun.
From Verif Require Import Base IntHelpers PacketSizes PacketSizesSpec PacketSizesFacts PacketSizesMaxFacts PacketUseFacts Cells TxCells CellsSpec CellsCheck CellsFacts CellsTables TxFacts.
Open Scope N_scope.

(** * Positions *)
Lemma occupied_in b k : In k (occupied b) <-> k <= 56 * b /\ k <> 28 * b.
Proof. unfold occupied. rewrite filter_In, upto_in, negb_true_iff, N.eqb_neq. lia. Qed.
Lemma occupied_nodup b : NoDup (occupied b).
Proof. apply NoDup_filter. apply nseq_nodup. Qed.
Lemma free_nodup b e l : NoDup (free b e l).
Proof. apply NoDup_filter. apply occupied_nodup. Qed.
Lemma numbered_ex ks k : In k ks <-> exists i, In (i, k) (numbered ks).
Proof.
  rewrite <- (numbered_snd ks) at 1. rewrite in_map_iff. split.
  - intros ([i k'] & <- & I). eauto.
  - intros (i & I). exists (i, k). auto.
Qed.
Lemma snd_nodup_inj (l : list (N * N)) i j k : NoDup (map snd l) -> In (i, k) l -> In (j, k) l -> i = j.
Proof.
  induction l as [|[a c] l IH]; intros D I J; [destruct I|]. cbn in D. apply NoDup_cons_iff in D as (D1 & D2).
  destruct I as [I|I], J as [J|J].
  - congruence.
  - injection I as <- <-. exfalso. apply D1. apply in_map_iff. exists (j, c). auto.
  - injection J as <- <-. exfalso. apply D1. apply in_map_iff. exists (i, c). auto.
  - auto.
Qed.
Lemma snd_filter_nodup (f : N * N -> bool) l : NoDup (map snd l) -> NoDup (map snd (filter f l)).
Proof.
  induction l as [|x l IH]; intros D; [constructor|]. cbn in *. apply NoDup_cons_iff in D as (D1 & D2).
  destruct (f x); [|auto]. cbn. constructor; [|auto]. intros H. apply D1. apply in_map_iff in H as (y & E & H).
  apply in_map_iff. apply filter_In in H as (H & _). eauto.
Qed.
Section Parts.
Context (fr : list N) (p : N).
Hypothesis ND : NoDup fr.
Lemma control_nodup : NoDup (control_of fr p).
Proof. apply snd_filter_nodup. rewrite numbered_snd. exact ND. Qed.
Lemma data_nodup : NoDup (data_of fr p).
Proof. apply snd_filter_nodup. rewrite numbered_snd. exact ND. Qed.
Lemma parts_in k : In k fr <-> In k (control_of fr p) \/ In k (data_of fr p).
Proof.
  rewrite numbered_ex. unfold control_of, data_of. cbv zeta. rewrite !in_map_iff. split.
  - intros (i & I). destruct (first_columns (len fr) p (i, k)) eqn:F; [left|right]; exists (i, k); (split; [reflexivity|]);
      apply filter_In; (split; [exact I|]); [exact F|rewrite F; reflexivity].
  - intros [((i, k') & E & I)|((i, k') & E & I)]; cbn in E; subst k'; apply filter_In in I as (I & _); eauto.
Qed.
Lemma parts_apart k : In k (control_of fr p) -> In k (data_of fr p) -> False.
Proof.
  unfold control_of, data_of. cbv zeta. rewrite !in_map_iff.
  intros ((i, k') & E & I) ((j, k'') & E' & J). cbn in E, E'. subst k' k''. apply filter_In in I as (I1 & I2). apply filter_In in J as (J1 & J2).
  assert (i = j) as <- by (eapply snd_nodup_inj; [rewrite numbered_snd; exact ND|eauto|eauto]). rewrite I2 in J2. discriminate.
Qed.
End Parts.
Lemma free_in b e l k : In k (free b e l) <-> In k (occupied b) /\ forall t, t < e -> ~ In k (reference b e t l).
Proof.
  unfold free. rewrite filter_In, negb_true_iff. split.
  - intros (O & F). split; [exact O|]. intros t T R. unfold reference in R. apply filter_In in R as (_ & R).
    assert (X : existsb (fun t => is_reference b e t l k) (upto e) = true) by (apply existsb_exists; exists t; rewrite upto_in; auto).
    congruence.
  - intros (O & F). split; [exact O|]. destruct (existsb _ _) eqn:X; [|reflexivity]. apply existsb_exists in X as (t & T & R).
    apply upto_in in T. exfalso. apply (F t T). unfold reference. apply filter_In. auto.
Qed.
(** No two streams have a reference cell in common. *)
Lemma reference_apart b e t t' l k : In e [1; 2; 4; 8] -> t < e -> t' < e ->
  In k (reference b e t l) -> In k (reference b e t' l) -> t = t'.
Proof.
  intros E0 T T' I J. unfold reference in *. apply filter_In in I as (_ & I). apply filter_In in J as (_ & J).
  unfold is_reference, active, first_symbol, spacing in I, J. set (r := rank b k) in *. clearbody r.
  cbn [In] in E0. repeat destruct E0 as [<-|E0]; try contradiction E0; cbn [N.leb N.compare Pos.compare Pos.compare_cont] in I, J.
  - lia.
  - replace (t <? 4) with true in I by lia. replace (t' <? 4) with true in J by lia. set (j := (l - 1) / 5) in *. clearbody j. lia.
  - replace (t <? 4) with true in I by lia. replace (t' <? 4) with true in J by lia. set (j := (l - 1) / 10) in *. clearbody j. lia.
  - destruct (t <? 4) eqn:A, (t' <? 4) eqn:C.
    + set (j := (l - 1) / 10) in *. clearbody j. lia.
    + exfalso. clear - I J. lia.
    + exfalso. clear - I J. lia.
    + set (j := (l - 2) / 10) in *. clearbody j. lia.
Qed.

(** * Writes *)
Definition tk (w : write) : N * N := fst w.
Lemma pair_streams e p : In e [2; 4; 8] -> let '(A, B) := stream_pair e p in A < e /\ B < e /\ A <> B.
Proof.
  intros E0. assert (F : Forall (fun q => fst q < e /\ snd q < e /\ fst q <> snd q) (stream_pairs e)).
  { destruct E0 as [<-|[<-|[<-|[]]]]; repeat (apply Forall_cons; [cbn; lia|]); constructor. }
  assert (0 < len (stream_pairs e)) by (destruct E0 as [<-|[<-|[<-|[]]]]; reflexivity).
  pose proof (N.mod_lt p (len (stream_pairs e)) ltac:(lia)) as M.
  assert (I : In (stream_pair e p) (stream_pairs e)).
  { unfold stream_pair. apply nth_In. set (j := p mod _) in *. clearbody j. unfold len in M. lia. }
  rewrite Forall_forall in F. specialize (F _ I). destruct (stream_pair e p). exact F.
Qed.
(** A way to send cells: everything for a cell goes to that cell, in different streams below [e], and something is sent. *)
Definition sends (e : N) (f : N * N -> list write) : Prop :=
  forall ik, f ik <> [] /\ (forall w, In w (f ik) -> snd (tk w) = snd ik /\ fst (tk w) < e) /\ NoDup (map tk (f ik)).
Lemma control_sends e : In e [1; 2; 4; 8] -> sends e (send_control e).
Proof.
  intros E0 (i, k). cbn [send_control snd]. destruct (N.eqb_spec e 1) as [E1|E1].
  - split; [discriminate|]. split; [|repeat constructor; auto]. intros w [<-|[]]. cbn. lia.
  - assert (P := pair_streams e (i / 2) ltac:(destruct E0 as [E0|E0]; [congruence|exact E0])).
    destruct (stream_pair e (i / 2)) as (A, B). destruct P as (P1 & P2 & P3). split; [discriminate|]. split.
    + intros w [<-|[<-|[]]]; cbn; auto.
    + cbn. repeat constructor; cbn; auto. intros [X|[]]. injection X. auto.
Qed.
Lemma streams_eff tm : tm <= 11 -> streams tm <= eff_antennas tm /\ 1 <= streams tm.
Proof.
  intros T. apply upto_11 in T. cbn [In] in T. repeat destruct T as [<-|T]; try contradiction T; vm_compute; split; congruence.
Qed.
Lemma data_sends tm bps : tm <= 11 -> sends (eff_antennas tm) (send_data tm bps).
Proof.
  intros T (i, k). cbn [send_data snd]. destruct (diversity tm) eqn:D.
  - destruct (diversity_facts tm T D) as (_ & E0). assert (P := pair_streams _ (i / 2) E0).
    destruct (stream_pair (eff_antennas tm) (i / 2)) as (A, B). destruct P as (P1 & P2 & P3). split; [discriminate|]. split.
    + intros w [<-|[<-|[]]]; cbn; auto.
    + cbn. repeat constructor; cbn; auto. intros [X|[]]. injection X. auto.
  - destruct (streams_eff tm T) as (S1 & S2). split.
    { unfold upto. destruct (N.to_nat (streams tm)) eqn:X; [lia|]. cbn. discriminate. }
    split.
    + intros w W. apply in_map_iff in W as (j & <- & J). apply upto_in in J. unfold tk. cbn [fst snd]. split; [reflexivity|lia].
    + rewrite map_map. unfold tk. cbn [fst]. 
      apply Injective_map_NoDup; [intros x y X; congruence|apply nseq_nodup].
Qed.
Lemma nodup_app {A} (x y : list A) : NoDup x -> NoDup y -> (forall a, In a x -> In a y -> False) -> NoDup (x ++ y).
Proof.
  induction x as [|a x IH]; intros X Y D; [exact Y|]. apply NoDup_cons_iff in X as (X1 & X2). cbn. constructor.
  - rewrite in_app_iff. intros [H|H]; [auto|]. apply (D a); cbn; auto.
  - apply IH; auto. intros; apply (D a0); cbn; auto.
Qed.
Section Sends.
Context (e : N) (f : N * N -> list write).
Hypothesis SE : sends e f.
Lemma sends_uses l k : uses (flat_map f l) k <-> In k (map snd l).
Proof.
  split.
  - intros (t & v & I). apply in_flat_map in I as (ik & I & W). destruct (SE ik) as (_ & H & _). destruct (H _ W) as (E & _). cbn in E.
    subst k. apply in_map. exact I.
  - intros I. apply in_map_iff in I as (ik & <- & I). destruct (SE ik) as (NE & H & _). destruct (f ik) as [|w ws] eqn:X; [congruence|].
    destruct (H w (or_introl eq_refl)) as (E & _). destruct w as ((t & k) & v). cbn in E. subst k.
    exists t, v. apply in_flat_map. exists ik. rewrite X. cbn. auto.
Qed.
Lemma sends_stream l w : In w (flat_map f l) -> fst (tk w) < e.
Proof. intros I. apply in_flat_map in I as (ik & _ & W). destruct (SE ik) as (_ & H & _). apply H. exact W. Qed.
Lemma sends_nodup l : NoDup (map snd l) -> NoDup (map tk (flat_map f l)).
Proof.
  induction l as [|ik l IH]; intros D; [constructor|]. cbn in D. apply NoDup_cons_iff in D as (D1 & D2). cbn [flat_map]. rewrite map_app.
  destruct (SE ik) as (_ & H & ND). apply nodup_app; [exact ND|auto|].
  intros (t & k) A B. apply in_map_iff in A as (w & W1 & W2). apply in_map_iff in B as (w' & W1' & W2').
  apply H in W2 as (W2 & _). rewrite W1 in W2. cbn in W2. subst k. apply D1. apply (sends_uses l (snd ik)).
  destruct w' as ((t' & k') & v'). cbn in W1'. injection W1' as -> ->. exists t, v'. exact W2'.
Qed.
End Sends.
Lemma uses_in ws k : uses ws k <-> In k (map (fun w => snd (fst w)) ws).
Proof.
  rewrite in_map_iff. split; [intros (t & v & I); exists (t, k, v); auto|]. intros ([[t k'] v] & E & I). cbn in E. subst. exists t, v. auto.
Qed.
Lemma cells_used_len ws ks : NoDup ks -> (forall k, uses ws k <-> In k ks) -> len (cells_used ws) = len ks.
Proof.
  intros D H. unfold len, cells_used. f_equal. apply Nat.le_antisymm; apply NoDup_incl_length.
  - apply NoDup_nodup.
  - intros k K. apply nodup_In in K. apply H. apply uses_in. exact K.
  - exact D.
  - intros k K. apply nodup_In. apply uses_in. apply H. exact K.
Qed.
Lemma number_snd i ks : map snd (number_from i ks) = ks.
Proof. rewrite number_shift, map_map. cbn [snd]. apply numbered_snd. Qed.

(** * The cells of a symbol *)
Lemma reference_writes b e l t k v : In (t, k, v) (flat_map (send_reference b e l) (upto e)) -> t < e /\ In k (reference b e t l).
Proof.
  intros I. apply in_flat_map in I as (t' & T & W). apply upto_in in T. unfold send_reference in W.
  apply in_map_iff in W as ((i, k') & E & W). cbn in E. injection E as <- <- _. split; [exact T|]. apply numbered_ex. eauto.
Qed.
Lemma reference_written b e l t k : t < e -> In k (reference b e t l) -> exists v, In (t, k, v) (flat_map (send_reference b e l) (upto e)).
Proof.
  intros T I. apply numbered_ex in I as (i & I). eexists. apply in_flat_map. exists t. split; [apply upto_in; exact T|].
  unfold send_reference. apply in_map_iff. exists (i, k). cbn [fst snd]. split; [reflexivity|exact I].
Qed.
Lemma reference_uses b e l k : uses (flat_map (send_reference b e l) (upto e)) k <-> exists t, t < e /\ In k (reference b e t l).
Proof.
  split.
  - intros (t & v & I). apply reference_writes in I. eauto.
  - intros (t & T & I). destruct (reference_written b e l t k T I) as (v & V). exists t, v. exact V.
Qed.
Lemma reference_nodup b e l ts : NoDup ts -> NoDup (map tk (flat_map (send_reference b e l) ts)).
Proof.
  induction ts as [|t ts IH]; intros D; [constructor|]. apply NoDup_cons_iff in D as (D1 & D2). cbn [flat_map]. rewrite map_app.
  apply nodup_app; [|auto|].
  - unfold send_reference. rewrite map_map. unfold tk. cbn [fst]. rewrite <- (map_map snd (fun k => (t, k))). rewrite numbered_snd.
    apply Injective_map_NoDup; [intros x y X; congruence|]. apply NoDup_filter. apply occupied_nodup.
  - intros (t' & k) A B. apply in_map_iff in A as (w & W1 & W2). apply in_map_iff in B as (w' & W1' & W2').
    unfold send_reference in W2. apply in_map_iff in W2 as (ik & <- & _). cbn in W1. injection W1 as <- <-.
    apply in_flat_map in W2' as (t'' & T & W). unfold send_reference in W. apply in_map_iff in W as (ik' & <- & _). cbn in W1'.
    injection W1' as E _. subst t''. auto.
Qed.

Section Symbol.
Context (d : psdef) (l : N).
Hypothesis TM : d_tm d <= 11.
Notation b := (d_b d).
Notation e := (eff_antennas (d_tm d)).
Let EC : In e [1; 2; 4; 8] := eff_cases _ TM.
Lemma symbol_control k : uses (o_control (symbol_of d l)) k <-> In k (control b e l).
Proof. cbn [symbol_of o_control]. rewrite (sends_uses e _ (control_sends e EC)), number_snd. reflexivity. Qed.
Lemma symbol_data k : uses (o_data (symbol_of d l)) k <-> In k (data b e l).
Proof. cbn [symbol_of o_data]. rewrite (sends_uses e _ (data_sends _ _ TM)), number_snd. reflexivity. Qed.
Lemma symbol_reference k : uses (o_reference (symbol_of d l)) k <-> exists t, t < e /\ In k (reference b e t l).
Proof. apply reference_uses. Qed.
Lemma symbol_cover k : In k (occupied b) <->
  uses (o_control (symbol_of d l)) k \/ uses (o_reference (symbol_of d l)) k \/ uses (o_data (symbol_of d l)) k.
Proof.
  rewrite symbol_control, symbol_data, symbol_reference. unfold control, data. set (p := pending b e l). 
  pose proof (parts_in (free b e l) p k) as P. rewrite free_in in P. split.
  - intros O. destruct (existsb (fun t => is_reference b e t l k) (upto e)) eqn:X.
    + right. left. apply existsb_exists in X as (t & T & R). apply upto_in in T. exists t. split; [exact T|]. apply filter_In. auto.
    + assert (F : In k (free b e l)) by (apply filter_In; rewrite X; auto). apply free_in in F. apply P in F. tauto.
  - intros [H|[(t & T & H)|H]]; [tauto| |tauto]. unfold reference in H. apply filter_In in H. tauto.
Qed.
Lemma symbol_apart k : ~ (uses (o_control (symbol_of d l)) k /\ uses (o_data (symbol_of d l)) k) /\
  ~ (uses (o_control (symbol_of d l)) k /\ uses (o_reference (symbol_of d l)) k) /\
  ~ (uses (o_reference (symbol_of d l)) k /\ uses (o_data (symbol_of d l)) k).
Proof.
  rewrite symbol_control, symbol_data, symbol_reference. unfold control, data. set (p := pending b e l).
  pose proof (parts_in (free b e l) p k) as P. rewrite free_in in P.
  pose proof (parts_apart (free b e l) p (free_nodup b e l) k) as Q. repeat split.
  - tauto.
  - intros (A & t & T & R). destruct P as (_ & P). destruct (P (or_introl A)) as (_ & F). exact (F t T R).
  - intros ((t & T & R) & A). destruct P as (_ & P). destruct (P (or_intror A)) as (_ & F). exact (F t T R).
Qed.
Lemma symbol_one_stream t t' k v v' : In (t, k, v) (o_reference (symbol_of d l)) -> In (t', k, v') (o_reference (symbol_of d l)) -> t = t'.
Proof.
  intros A B. apply reference_writes in A as (A1 & A2). apply reference_writes in B as (B1 & B2).
  eapply reference_apart; eauto.
Qed.
Notation all o := (o_control o ++ o_reference o ++ o_data o).
Lemma symbol_streams w : In w (all (symbol_of d l)) -> fst (fst w) < e.
Proof.
  rewrite !in_app_iff. intros [H|[H|H]].
  - eapply (sends_stream e _ (control_sends e EC)). exact H.
  - destruct w as ((t & k) & v). apply reference_writes in H. tauto.
  - eapply (sends_stream e _ (data_sends _ _ TM)). exact H.
Qed.
Lemma tk_uses ws x : In x (map tk ws) -> uses ws (snd x).
Proof. intros H. apply in_map_iff in H as (((t & k) & v) & <- & H). exists t, v. exact H. Qed.
Lemma symbol_once : NoDup (map fst (all (symbol_of d l))).
Proof.
  change (@fst (N * N) value) with tk. rewrite !map_app. apply nodup_app; [|apply nodup_app|].
  - apply (sends_nodup e _ (control_sends e EC)). rewrite number_snd. apply control_nodup, free_nodup.
  - apply reference_nodup, nseq_nodup.
  - apply (sends_nodup e _ (data_sends _ _ TM)). rewrite number_snd. apply data_nodup, free_nodup.
  - intros x A B. apply tk_uses in A. apply tk_uses in B. destruct (symbol_apart (snd x)) as (_ & _ & Q). tauto.
  - intros x A B. rewrite in_app_iff in B. apply tk_uses in A. destruct (symbol_apart (snd x)) as (Q1 & Q2 & _).
    destruct B as [B|B]; apply tk_uses in B; tauto.
Qed.
Lemma control_count : len (cells_used (o_control (symbol_of d l))) = len (control b e l).
Proof. apply cells_used_len; [apply control_nodup, free_nodup|apply symbol_control]. Qed.
Lemma data_count : len (cells_used (o_data (symbol_of d l))) = len (data b e l).
Proof. apply cells_used_len; [apply data_nodup, free_nodup|apply symbol_data]. Qed.
End Symbol.

Lemma flat_map_len {A B} (f : A -> list B) l : len (flat_map f l) = sum (map (fun x => len (f x)) l).
Proof. induction l as [|x l IH]; [reflexivity|]. cbn [flat_map map sum fold_right]. rewrite len_app, IH. reflexivity. Qed.
Lemma reference_len b e l : sym_facts b e l -> len (flat_map (send_reference b e l) (upto e)) = 14 * b * len (active_streams e l).
Proof.
  intros F. rewrite <- active_flat by (intros t T; apply upto_in in T; apply (f_ref _ _ _ F); exact T). fold (active_streams e l).
  assert (H : forall t, In t (active_streams e l) -> len (send_reference b e l t) = 14 * b).
  { intros t T. unfold active_streams in T. apply filter_In in T as (T1 & T2). apply upto_in in T1. cbv beta in T2.
    pose proof (f_ref _ _ _ F t T1) as R. rewrite T2 in R. rewrite <- R. unfold len, send_reference. rewrite map_length. f_equal.
    rewrite <- (map_length snd), numbered_snd. reflexivity. }
  rewrite flat_map_len. induction (active_streams e l) as [|t ts IH]; [cbn; lia|]. cbn [map sum fold_right].
  rewrite H by (cbn; auto). fold (sum (map (fun x => len (send_reference b e l x)) ts)). rewrite IH by (intros; apply H; cbn; auto).
  unfold len. cbn [length]. lia.
Qed.
Lemma sum_before {A} (f : A -> N) (g : N -> A) (acc : N -> N) l : acc 1 = 0 -> (forall l, 1 <= l -> acc (l + 1) = acc l + f (g l)) -> 1 <= l ->
  sum (map f (map g (nseq 1 (N.to_nat (l - 1))))) = acc l.
Proof.
  intros A1 AS. revert l. apply N_ind1; [rewrite A1; reflexivity|]. intros l L IH.
  replace (N.to_nat (l + 1 - 1)) with (S (N.to_nat (l - 1))) by lia. rewrite nseq_snoc, !map_app, sum_app, IH, AS by exact L.
  cbn [map sum fold_right]. replace (1 + N.of_nat (N.to_nat (l - 1))) with l by lia. lia.
Qed.

(** * The whole packet *)
Section Packet.
Context (d : psdef).
Hypothesis S0 : supported d.
Hypothesis P : possible d.
Notation b := (d_b d).
Notation e := (eff_antennas (d_tm d)).
Notation DF := (symbols d - overhead (d_u d)).
Lemma refs_total : 14 * b * refs e (DF + 1) = reference_cells d.
Proof.
  destruct S0 as (U & _ & _ & _ & T & _). pose proof (eff_cases _ T) as EC. pose proof (symbols_bounds d S0) as (SB & S5).
  destruct (df_eval d S0) as (_ & D1 & D2). destruct P as ((R1 & R2) & _).
  rewrite refs_closed by (auto; lia). unfold reference_cells, reference_symbols, overhead in *.
  set (n := symbols d) in *. clearbody n. set (e' := e) in *. clearbody e'.
  enough (X : (if e' <=? 2 then e' * ((n - (if d_u d =? 1 then 2 else if d_u d =? 8 then 4 else 3) + 1 + 3) / 5)
    else if e' =? 4 then 4 * ((n - (if d_u d =? 1 then 2 else if d_u d =? 8 then 4 else 3) + 1 + 8) / 10)
    else 4 * ((n - (if d_u d =? 1 then 2 else if d_u d =? 8 then 4 else 3) + 1 + 8) / 10 + (n - (if d_u d =? 1 then 2 else if d_u d =? 8 then 4 else 3) + 1 + 7) / 10))
    = e' * (if e' <=? 2 then n / 5 else (n + 5) / 10)) by (rewrite X; lia).
  set (u := d_u d) in *. clearbody u.
  cbn [In] in U, EC. repeat destruct U as [<-|U]; try contradiction U; repeat destruct EC as [<-|EC]; try contradiction EC;
    cbn [N.eqb Pos.eqb N.leb N.compare Pos.compare Pos.compare_cont] in *; lia.
Qed.
Lemma before_total : pending b e (DF + 1) = 0 /\ data_before b e (DF + 1) = Z.to_N (data_cells d) /\ (0 < data_cells d)%Z.
Proof.
  pose proof S0 as (_ & B & _ & _ & T & _). pose proof (eff_cases _ T) as EC.
  assert (L1 : 1 <= DF + 1) by lia.
  destruct (cells_before b e B EC (DF + 1) L1) as (C1 & C2 & C3). rewrite refs_total in C1.
  pose proof (budget_cells d (proj2 P)) as BC. unfold data_cells in *. replace (DF + 1 - 1) with DF in C1 by lia.
  set (X := DF * (56 * b)) in *. replace (56 * b * DF) with X in C1 by (unfold X; lia). clearbody X.
  set (r := reference_cells d) in *. clearbody r. lia.
Qed.
End Packet.

Lemma low_bps i : i <= 9 -> In (bits_per_cell i) [1; 2; 4; 6; 8].
Proof.
  intros H. assert (L : i <= 11) by lia. apply upto_11 in L. cbn [In] in L.
  repeat destruct L as [<-|L]; try contradiction L; try (vm_compute; tauto); lia.
Qed.
Lemma tm_row i t : i <= 11 -> nth_error tm_table (N.to_nat i) = Some t ->
  N_TS t = eff_antennas i /\ N_SS t = streams i /\ N_TX t = antennas i /\ ((i =? 1) || (i =? 5) || (i =? 10) = diversity i).
Proof.
  intros H. apply upto_11 in H. cbn [In] in H. repeat destruct H as [<-|H]; try contradiction H; vm_compute; intros X; injection X as <-; auto.
Qed.
Lemma mcs_row i t : i <= 11 -> nth_error mcs_table (N.to_nat i) = Some t -> N_bps t = bits_per_cell i.
Proof.
  intros H. apply upto_11 in H. cbn [In] in H. repeat destruct H as [<-|H]; try contradiction H; vm_compute; intros X; injection X as <-; auto.
Qed.

Lemma transmit_exact c m : class_ok c -> get_maximum_packet_sizes c = Ok m ->
  if r_mcs c <=? 9
  then exists k, tx_new m = Ok k /\ forall d q, within c d -> get_packet_sizes d = Ok (Some q) ->
         transmit m k q = if antennas (d_tm d) <=? r_N_TX c
                          then Ok (map (symbol_of d) (nseq 1 (N.to_nat (q_N_DF_symb q)))) else Abort
  else tx_new m = Abort.
Proof.
  intros HC M. pose proof HC as (CU & CB & CT & CM & CZ & CL). destruct (max_inv c m HC M) as (E1 & E2).
  destruct (max_tm_eval c HC) as (_ & T11 & TE & TS).
  assert (MX : exists mc tm nu, q_mcs m = mc /\ q_tm m = tm /\ N_bps mc = bits_per_cell (r_mcs c) /\ N_TS tm = r_N_TX c /\
            N_TX tm = r_N_TX c /\ N_SS tm = r_N_TX c /\ q_numerology m = nu /\ N_b_OCC nu = 56 * r_b c).
  { pose proof (maxdef_supported c HC _ CU) as S0.
    destruct (max_eval c HC) as (A & B).
    assert (ND : ~ (r_N_TX c = 4 /\ r_PacketLength c = 1)) by (intros (X & Y); rewrite (B X Y) in M; discriminate).
    destruct (A ND) as (q & EQ & F). assert (q = m) by congruence. subst q.
    destruct (possible_dec (maxdef c (r_u c))) as [P|P]; [|rewrite (sizes_impossible _ S0 P) in F; discriminate].
    destruct (sizes_possible _ S0 P) as (mc & tm & t & s & M1 & M2 & _ & _ & _ & _ & _ & _ & _ & E). rewrite F in E. injection E as ->.
    exists mc, tm. eexists. split; [reflexivity|]. split; [reflexivity|]. 
    apply mcs_row in M1; [|exact CM]. apply tm_row in M2; [|exact T11]. destruct M2 as (X1 & X2 & X3 & _).
    split; [exact M1|]. cbn [maxdef d_tm] in X1, X2, X3. rewrite X1, X2, X3, TE, TS.
    split; [reflexivity|]. split.
    { clear - CT HC. unfold max_tm. destruct HC as (_ & _ & TX & _). destruct TX as [<-|[<-|[<-|[<-|[]]]]]; reflexivity. }
    split; [reflexivity|]. split; [reflexivity|]. reflexivity. }
  destruct MX as (mc & tm & nu & M1 & M2 & M3 & M4 & M5 & M6 & M7 & M8).
  unfold tx_new. rewrite M1, M2, M3, M4, E1. cbn [maxdef d_b].
  destruct (N.leb_spec (r_mcs c) 9) as [LM|LM].
  2:{ assert (r_mcs c = 10 \/ r_mcs c = 11) as [-> | ->] by lia; reflexivity. }
  assert (B8 : bits_per_cell (r_mcs c) <= 9) by (pose proof (low_bps _ LM) as X; cbn [In] in X; lia).
  rewrite guard_true by lia.
  destruct (comps_built (r_b c) (r_N_TX c) CB CT) as (k & K1 & K2). exists k. split; [exact K1|].
  intros d q W Q. pose proof W as (S0 & LU & LB & LE & LMC & EZ & LL). pose proof S0 as (U & B & _ & _ & T & MC & Z).
  destruct (possible_dec d) as [P|P]; [|rewrite (sizes_impossible _ S0 P) in Q; discriminate].
  destruct (sizes_possible _ S0 P) as (mc' & tm' & t & s & N1 & N2 & _ & _ & _ & _ & _ & _ & _ & E). rewrite Q in E. injection E as ->.
  apply mcs_row in N1; [|exact MC]. apply tm_row in N2; [|exact T]. destruct N2 as (X1 & X2 & X3 & X4).
  unfold transmit. rewrite E1, M2, M5, M6, M7, M8.
  cbn [q_psdef q_tm q_mcs q_G q_N_DF_symb q_N_DRS_subc q_N_PDC_subc maxdef d_b d_mcs]. rewrite X1, X2, X3, X4, N1.
  rewrite guard_true by lia. destruct (N.leb_spec (antennas (d_tm d)) (r_N_TX c)) as [LA|LA]; [|reflexivity]. cbn [guard].
  pose proof (eff_cases _ T) as EC.
  destruct (K2 (d_b d) (eff_antennas (d_tm d)) B LB EC LE) as (st & ST & CH). rewrite ST. cbn [bind].
  rewrite guard_true by lia. rewrite guard_true by lia.
  destruct (before_total d S0 P) as (PE & BT & DC).
  pose proof (refs_total d S0 P) as RT. destruct (df_eval d S0) as (_ & D1 & D2). pose proof (symbols_bounds d S0) as (SB & _).
  set (DF := symbols d - overhead (d_u d)) in *.
  destruct (CH (N.to_nat DF)) as (st' & C').
  set (cap := r_N_TX c * (56 * r_b c) + 23).
  assert (HS : streams (d_tm d) * (56 * d_b d) + 23 <= cap).
  { unfold cap. destruct (streams_eff _ T) as (SE & _).
    assert (streams (d_tm d) * (56 * d_b d) <= r_N_TX c * (56 * r_b c)) by (apply N.mul_le_mono; lia). lia. }
  pose proof (cells_bound d S0) as CBD. assert (M9 : d_mcs d <= 9) by lia. assert (DF1 : DF <= 1280) by lia.
  destruct (symbols_ok (d_b d) (eff_antennas (d_tm d)) B EC d cap (streams (d_tm d) * Z.to_N (data_cells d) * bits_per_cell (d_mcs d)) DF
              (Z.to_N (data_cells d)) eq_refl eq_refl T (low_bps _ M9) (eq_sym BT) CBD DF1 eq_refl HS
              (N.to_nat DF) 1 (mkTx st 0 0 0 0 0 []) st') as (s' & Q1 & Q2).
  - lia.
  - lia.
  - unfold state_at. cbn [t_pcc t_drs t_subc t_res t_bits t_buf]. rewrite before_1, pending_1, refs_1, N.add_0_r.
    repeat split; try lia.
  - exact C'.
  - rewrite Q1. cbn [bind]. replace (1 + N.of_nat (N.to_nat DF)) with (DF + 1) in Q2 by lia.
    destruct Q2 as (A1 & A2 & A3 & A4 & A5 & A6 & A7 & A8 & A9). rewrite BT in *. rewrite PE in A1. rewrite RT in A2.
    assert (R0 : t_res s' = 0) by lia. rewrite R0, N.add_0_r in *.
    destruct (streams_cases _ T) as (SC1 & SC8).
    assert (SB2 : streams (d_tm d) * Z.to_N (data_cells d) <= 8 * 1146880) by (apply N.mul_le_mono; lia).
    rewrite A1, A2, A3, A5. change (98 - 0 =? 98) with true. rewrite !N.eqb_refl. cbn [guard].
    rewrite guard_true by (apply N.eqb_eq; lia). rewrite guard_true by (rewrite mul32_small by lia; apply N.eqb_eq; lia). reflexivity.
Qed.

(** * Contents *)
Lemma number_fst i ks : map fst (number_from i ks) = nseq i (length ks).
Proof. unfold number_from. revert i; induction ks as [|k ks IH]; intros i; cbn; [reflexivity|]. f_equal. apply IH. Qed.
Lemma number_has a ks i : a <= i < a + len ks -> exists k, In (i, k) (number_from a ks).
Proof.
  intros H. assert (I : In i (map fst (number_from a ks))) by (rewrite number_fst; apply nseq_in; unfold len in H; lia).
  apply in_map_iff in I as ((i', k) & E & I). cbn in E. subst. eauto.
Qed.
Lemma number_range a ks i k : In (i, k) (number_from a ks) -> a <= i < a + len ks.
Proof.
  intros I. assert (J : In i (map fst (number_from a ks))) by (apply in_map_iff; exists (i, k); auto).
  rewrite number_fst in J. apply nseq_in in J. unfold len. lia.
Qed.
Lemma sent_app x y : sent (x ++ y) = sent x ++ sent y.
Proof. apply map_app. Qed.
Lemma sent_flat (f : N * N -> list write) (g : N -> list (N * value)) l : (forall ik, sent (f ik) = g (fst ik)) ->
  sent (flat_map f l) = flat_map g (map fst l).
Proof. intros H. induction l as [|x l IH]; [reflexivity|]. cbn [flat_map map]. rewrite sent_app, H, IH. reflexivity. Qed.

Definition data_sent (tm bps i : N) : list (N * value) :=
  if diversity tm then diversity_pair (eff_antennas tm) (fun i => Data (i * bps)) (fun n i => DataConj n (i * bps)) i
  else map (fun j => (j, Data ((i * streams tm + j) * bps))) (upto (streams tm)).
Definition control_sent (e i : N) : list (N * value) :=
  if e =? 1 then [(0, Control i)] else diversity_pair e Control ControlConj i.
Lemma data_sent_ok tm bps ik : sent (send_data tm bps ik) = data_sent tm bps (fst ik).
Proof.
  destruct ik as (i, k). unfold send_data, data_sent, diversity_pair. cbn [fst]. destruct (diversity tm).
  - destruct (stream_pair (eff_antennas tm) (i / 2)) as (A, B). reflexivity.
  - unfold sent. rewrite map_map. reflexivity.
Qed.
Lemma control_sent_ok e ik : sent (send_control e ik) = control_sent e (fst ik).
Proof.
  destruct ik as (i, k). unfold send_control, control_sent, diversity_pair. cbn [fst]. destruct (e =? 1); [reflexivity|].
  destruct (stream_pair e (i / 2)) as (A, B). reflexivity.
Qed.
Section Contents.
Context (d : psdef).
Hypothesis S0 : supported d.
Notation b := (d_b d).
Notation e := (eff_antennas (d_tm d)).
Notation bps := (bits_per_cell (d_mcs d)).
Lemma facts_of l : 1 <= l -> sym_facts b e l.
Proof. intros L. destruct S0 as (_ & B & _ & _ & T & _). apply facts_all; auto. apply eff_cases; exact T. Qed.
Lemma data_contents l : 1 <= l -> sent (flat_map o_data (map (symbol_of d) (nseq 1 (N.to_nat (l - 1))))) =
  flat_map (data_sent (d_tm d) bps) (upto (data_before b e l)).
Proof.
  revert l. apply N_ind1; [reflexivity|]. intros l L IH. rewrite before_next by exact L.
  replace (N.to_nat (l + 1 - 1)) with (S (N.to_nat (l - 1))) by lia. rewrite nseq_snoc, map_app, flat_map_app, sent_app, IH.
  cbn [map flat_map]. rewrite app_nil_r. replace (1 + N.of_nat (N.to_nat (l - 1))) with l by lia.
  cbn [symbol_of o_data]. rewrite (sent_flat _ _ _ (data_sent_ok (d_tm d) bps)), number_fst.
  unfold upto. unfold len. rewrite N2Nat.inj_add, Nat2N.id, nseq_app, flat_map_app. do 3 f_equal. lia.
Qed.
Lemma control_contents l : 1 <= l -> sent (flat_map o_control (map (symbol_of d) (nseq 1 (N.to_nat (l - 1))))) =
  flat_map (control_sent e) (upto (98 - pending b e l)).
Proof.
  revert l. apply N_ind1; [reflexivity|]. intros l L IH. pose proof (f_control _ _ _ (facts_of l L)) as F.
  assert (P98 : pending b e l <= 98) by (unfold pending; lia).
  replace (N.to_nat (l + 1 - 1)) with (S (N.to_nat (l - 1))) by lia. rewrite nseq_snoc, map_app, flat_map_app, sent_app, IH.
  cbn [map flat_map]. rewrite app_nil_r. replace (1 + N.of_nat (N.to_nat (l - 1))) with l by lia.
  cbn [symbol_of o_control]. rewrite (sent_flat _ _ _ (control_sent_ok e)), number_fst.
  replace (98 - pending b e (l + 1)) with (98 - pending b e l + len (control b e l)) by lia.
  unfold upto. unfold len. rewrite N2Nat.inj_add, Nat2N.id, nseq_app, flat_map_app. do 3 f_equal. lia.
Qed.
Lemma control_total l : 1 <= l -> sum (map (fun o => len (cells_used (o_control o))) (map (symbol_of d) (nseq 1 (N.to_nat (l - 1))))) = 98 - pending b e l.
Proof.
  destruct S0 as (_ & _ & _ & _ & T & _).
  apply (sum_before (fun o => len (cells_used (o_control o))) (symbol_of d) (fun l => 98 - pending b e l)); [reflexivity|].
  intros i I. rewrite control_count by exact T. pose proof (f_control _ _ _ (facts_of i I)) as F.
  assert (pending b e i <= 98) by (unfold pending; lia). lia.
Qed.
Lemma data_total l : 1 <= l -> sum (map (fun o => len (cells_used (o_data o))) (map (symbol_of d) (nseq 1 (N.to_nat (l - 1))))) = data_before b e l.
Proof.
  destruct S0 as (_ & _ & _ & _ & T & _).
  apply (sum_before (fun o => len (cells_used (o_data o))) (symbol_of d) (data_before b e)); [reflexivity|].
  intros i I. rewrite data_count by exact T. apply before_next. exact I.
Qed.
Lemma reference_total l : 1 <= l -> sum (map (fun o => len (o_reference o)) (map (symbol_of d) (nseq 1 (N.to_nat (l - 1))))) = 14 * b * refs e l.
Proof.
  apply (sum_before (fun o => len (o_reference o)) (symbol_of d) (fun l => 14 * b * refs e l)); [rewrite refs_1; lia|].
  intros i I. cbn [symbol_of o_reference]. rewrite reference_len by (apply facts_of; exact I). rewrite refs_next by exact I. lia.
Qed.
Lemma pending_even l : 1 <= l -> pending b e l mod 2 = 0.
Proof.
  revert l. apply N_ind1; [reflexivity|]. intros l L IH. rewrite pending_next by exact L.
  pose proof (f_free _ _ _ (facts_of l L)) as F. set (x := len (active_streams e l)) in *. clearbody x.
  assert (len (free b e l) mod 2 = 0).
  { replace (len (free b e l)) with (2 * (28 * b - 7 * (x * b))) by lia. rewrite N.mul_comm. apply N.mod_mul. lia. }
  set (f := len (free b e l)) in *. clearbody f. set (p := pending b e l) in *. clearbody p. clear F. lia.
Qed.
Lemma partner_range a n i : a mod 2 = 0 -> n mod 2 = 0 -> a <= i < a + n -> a <= partner i < a + n.
Proof. intros A B H. unfold partner. destruct (N.eqb_spec (i mod 2) 0); lia. Qed.
Lemma data_partner l t k n x : 1 <= l -> In (t, k, DataConj n x) (o_data (symbol_of d l)) ->
  exists t' k', In (t', k', Data x) (o_data (symbol_of d l)).
Proof.
  intros L I. cbn [symbol_of o_data] in *. apply in_flat_map in I as ((i, k0) & I & W). unfold send_data in W.
  destruct (diversity (d_tm d)) eqn:D; [|apply in_map_iff in W as (j & W & _); discriminate].
  destruct (stream_pair e (i / 2)) as (A, B) eqn:SP. destruct W as [W|[W|[]]]; [discriminate|]. injection W as <- <- <- <-.
  apply number_range in I. destruct S0 as (_ & B0 & _ & _ & T & _). 
  pose proof (before_even b e B0 (eff_cases _ T) l L) as BE. pose proof (f_even _ _ _ (facts_of l L)) as FE.
  destruct (number_has (data_before b e l) (data b e l) (partner i)) as (k' & K); [apply partner_range; auto|].
  destruct (stream_pair e (partner i / 2)) as (A', B') eqn:SP'.
  exists A', k'. apply in_flat_map. exists (partner i, k'). split; [exact K|]. unfold send_data. rewrite D, SP'. cbn. auto.
Qed.
Lemma control_partner l t k n x : 1 <= l -> In (t, k, ControlConj n x) (o_control (symbol_of d l)) ->
  exists t' k', In (t', k', Control x) (o_control (symbol_of d l)).
Proof.
  intros L I. cbn [symbol_of o_control] in *. apply in_flat_map in I as ((i, k0) & I & W). unfold send_control in W.
  destruct (e =? 1) eqn:D; [destruct W as [W|[]]; discriminate|].
  destruct (stream_pair e (i / 2)) as (A, B) eqn:SP. destruct W as [W|[W|[]]]; [discriminate|]. injection W as <- <- <- <-.
  apply number_range in I. pose proof (pending_even l L) as PE. pose proof (pending_even (l + 1) ltac:(lia)) as PE'.
  pose proof (f_control _ _ _ (facts_of l L)) as FC. assert (P98 : pending b e l <= 98) by (unfold pending; lia).
  destruct (number_has (98 - pending b e l) (control b e l) (partner i)) as (k' & K).
  { clear - I PE PE' FC P98. set (p := pending b e l) in *. set (p' := pending b e (l + 1)) in *. set (c := len (control b e l)) in *.
    clearbody p p' c. apply partner_range; lia. }
  destruct (stream_pair e (partner i / 2)) as (A', B') eqn:SP'.
  exists A', k'. apply in_flat_map. exists (partner i, k'). split; [exact K|]. unfold send_control. rewrite D, SP'. cbn. auto.
Qed.
End Contents.
(** Without diversity, the symbols of the streams one after the other. *)
Lemma plain_values tm bps n : diversity tm = false ->
  map snd (flat_map (data_sent tm bps) (upto n)) = map (fun i => Data (i * bps)) (upto (streams tm * n)).
Proof.
  intros D. unfold data_sent. rewrite D. induction n as [|n IH] using N.peano_ind.
  - rewrite N.mul_0_r. reflexivity.
  - replace (streams tm * N.succ n) with (streams tm * n + streams tm) by lia. rewrite <- (upto_plus _ (streams tm * n)), <- IH.
    assert (U : upto (N.succ n) = upto n ++ [n]).
    { unfold upto. rewrite N2Nat.inj_succ, nseq_snoc. do 2 f_equal. lia. }
    rewrite U, flat_map_app, map_app. f_equal. cbn [flat_map]. rewrite app_nil_r, map_map. cbn [snd].
    apply map_ext. intros j. do 2 f_equal. lia.
Qed.
