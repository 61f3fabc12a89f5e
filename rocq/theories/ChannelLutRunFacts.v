(** Proofs about the tables for channel interpolation: what the tables contain. *)
From Coq Require Import QArith Qabs Lqa.
From Verif Require Import Base PacketSizes Cells CellsSpec CellsCheck CellsFacts RxSymbols RxSymbolsSpec RxSymbolsFacts ChannelLut ChannelLutSpec ChannelLutFacts.
Open Scope N_scope.

Lemma Qlt_bool_iff x y : Qlt_bool x y = true <-> (x < y)%Q.
Proof.
  unfold Qlt_bool. rewrite Bool.negb_true_iff. split; intros H.
  - apply Qnot_le_lt. intros L. apply Qle_bool_iff in L. congruence.
  - destruct (Qle_bool y x) eqn:E; [|reflexivity]. apply Qle_bool_iff in E. exfalso. apply (Qlt_not_le _ _ H E).
Qed.
Lemma Qlt_bool_no x y : Qlt_bool x y = false <-> (y <= x)%Q.
Proof. unfold Qlt_bool. rewrite Bool.negb_false_iff. apply Qle_bool_iff. Qed.

(** ** Weights *)
Lemma fold_largest l : forall x, (forall y, y = x \/ In y l -> (Qabs y <= Qabs (fold_left (fun m y => if Qlt_bool (Qabs m) (Qabs y) then y else m) l x))%Q).
Proof.
  induction l as [|z l IH]; intros x y H; cbn [fold_left]; [destruct H as [->|[]]; apply Qle_refl|].
  destruct (Qlt_bool (Qabs x) (Qabs z)) eqn:E.
  - destruct H as [->|[->|H]]; [|apply IH; auto|apply IH; auto].
    apply Qlt_bool_iff in E. apply Qle_trans with (Qabs z); [apply Qlt_le_weak; exact E|apply IH; auto].
  - destruct H as [->|[->|H]]; [apply IH; auto| |apply IH; auto].
    apply Qlt_bool_no in E. apply Qle_trans with (Qabs x); [exact E|apply IH; auto].
Qed.
Lemma sub_list u v : length u = length v ->
  mapM (fun j => do x <- at_idx u j ; do y <- at_idx v j ; Ok (x - y)%Q) (upto (len u)) = Ok (map (fun p => fst p - snd p)%Q (combine u v)).
Proof. intros L. unfold upto, len. rewrite Nat2N.id. exact (mapM_pairs Qminus u v [] [] L eq_refl). Qed.
Lemma alike_combine u v c : length u = length v -> (c < 1 # 10000)%Q -> (forall d, In d (map (fun p => fst p - snd p)%Q (combine u v)) -> (Qabs d <= c)%Q) -> alike u v.
Proof.
  intros L C. revert v L. induction u as [|x u IH]; intros [|y v] L H; try discriminate; constructor.
  - apply Qle_lt_trans with c; [|exact C]. apply H. left. reflexivity.
  - apply IH; [cbn in L; lia|]. intros d I. apply H. right. exact I.
Qed.
Lemma alike_refl u : alike u u.
Proof. induction u; constructor; auto. setoid_replace (a - a)%Q with 0%Q by ring. reflexivity. Qed.
Lemma known_ok u : u <> [] -> forall vs i, Forall (fun v => length v = length u) vs ->
  exists k, known u vs i = Ok k /\
    match k with Some j => i <= j /\ exists v, nth_error vs (N.to_nat (j - i)) = Some v /\ alike u v | None => True end.
Proof.
  intros U. induction vs as [|v vs IH]; intros i F; [exists None; split; [reflexivity|exact I]|].
  inversion F as [|? ? L F']; subst. cbn [known]. rewrite (sub_list u v (eq_sym L)). cbn [bind].
  destruct u as [|x u]; [contradiction|]. destruct v as [|y v]; [discriminate|]. cbn [combine map largest bind]. set (d := fold_left _ _ _).
  destruct (Qlt_bool (Qabs d) (1 # 10000)) eqn:E.
  - exists (Some i). split; [reflexivity|]. split; [lia|]. exists (y :: v). replace (N.to_nat (i - i)) with 0%nat by lia. split; [reflexivity|].
    apply (alike_combine _ _ (Qabs d)); [cbn in *; lia|apply Qlt_bool_iff; exact E|]. intros z Z. apply fold_largest. cbn [combine map] in Z. destruct Z as [<-|Z]; auto.
  - destruct (IH (i + 1) F') as (k & K & P). exists k. split; [exact K|]. destruct k as [j|]; [|exact I]. destruct P as (J & w & P1 & P2).
    split; [lia|]. exists w. split; [|exact P2]. replace (N.to_nat (j - i)) with (S (N.to_nat (j - (i + 1)))) by lia. exact P1.
Qed.
(** A stored vector like [u] has number [j]. *)
Definition found (vs : list (list Q)) (j : N) (u : list Q) : Prop := exists v, nth_error vs (N.to_nat j) = Some v /\ alike u v.
Definition grown (vs vs' : list (list Q)) : Prop := exists x, vs' = vs ++ x.
Lemma grown_refl vs : grown vs vs. Proof. exists []. rewrite app_nil_r. reflexivity. Qed.
Lemma grown_trans a b c : grown a b -> grown b c -> grown a c.
Proof. intros (x & ->) (y & ->). exists (x ++ y). rewrite app_assoc. reflexivity. Qed.
Lemma found_grown vs vs' j u : grown vs vs' -> found vs j u -> found vs' j u.
Proof. intros (x & ->) (v & V & A). exists v. split; [|exact A]. rewrite nth_error_app1; [exact V|]. apply nth_error_Some. congruence. Qed.
Definition sized (n : N) (vs : list (list Q)) : Prop := Forall (fun v => len v = n) vs.
Lemma s3_sure u vs n : 0 < n -> len u = n -> sized n vs ->
  sure (s3_index u vs) (fun r => grown vs (snd r) /\ sized n (snd r) /\ found (snd r) (fst r) u).
Proof.
  intros P L F. unfold s3_index. assert (U : u <> []) by (destruct u; [cbn in L; lia|discriminate]).
  destruct (known_ok u U vs 0) as (k & K & H). { unfold sized, len in *. eapply Forall_impl; [|exact F]. cbn beta. intros; lia. }
  rewrite K. cbn [bind]. destruct k as [j|].
  - destruct H as (_ & v & V & A). replace (j - 0) with j in V by lia. apply sure_guard. intros _. cbn. repeat split; [apply grown_refl|exact F|exists v; auto].
  - apply sure_guard. intros _. cbn. repeat split; [exists [u]; reflexivity|apply Forall_app; split; [exact F|repeat constructor; exact L]|].
    exists u. split; [|apply alike_refl]. unfold len. rewrite Nat2N.id, nth_error_app2, Nat.sub_diag by lia. reflexivity.
Qed.

Section Lut.
Variable D : coord -> coord -> Q.

(** ** The window *)
Lemma scan_range p cs n m : forall i best opt, i + N.of_nat m + n <= len cs + 1 -> opt + n <= len cs ->
  exists j, scan D m p cs n i best opt = Ok j /\ j + n <= len cs.
Proof.
  induction m as [|m IH]; intros i best opt H O; cbn [scan]; [exists opt; auto|].
  rewrite window_cut by lia. cbn [bind]. destruct (Qlt_bool (total D p (cut cs i n)) best).
  - destruct (Qlt_bool _ _); [exists i; split; [reflexivity|lia]|]. apply IH; lia.
  - destruct (Qlt_bool _ _); [exists opt; split; [reflexivity|lia]|]. apply IH; lia.
Qed.
Lemma s1_range p cs n prev : prev + n <= len cs -> exists j, s1_find D p cs n prev = Ok j /\ j + n <= len cs.
Proof. intros H. unfold s1_find. replace (len cs <? n) with false by lia. apply scan_range; lia. Qed.
(** The window found is the best of those looked at. *)
Definition best_of (p : coord) (cs : list coord) (n lo stop j : N) : Prop :=
  lo <= j < stop /\ forall q, lo <= q < stop -> (total D p (cut cs j n) <= total D p (cut cs q n))%Q.
Lemma scan_best p cs n lo m : forall i opt, i + N.of_nat m + n <= len cs + 1 -> best_of p cs n lo i opt ->
  exists j stop, scan D m p cs n i (total D p (cut cs opt n)) opt = Ok j /\ i <= stop <= i + N.of_nat m /\ best_of p cs n lo stop j /\
    (stop = i + N.of_nat m \/ (i < stop /\ (total D p (cut cs j n) * (11 # 10) < total D p (cut cs (stop - 1) n))%Q)).
Proof.
  induction m as [|m IH]; intros i opt H (O & B); cbn [scan]; [exists opt, i; split; [reflexivity|]; split; [lia|]; split; [split; assumption|left; lia]|].
  rewrite window_cut by lia. cbn [bind]. destruct (Qlt_bool (total D p (cut cs i n)) (total D p (cut cs opt n))) eqn:E.
  - assert (B' : best_of p cs n lo (i + 1) i).
    { split; [lia|]. intros q Q0. destruct (N.eq_dec q i) as [->|NE]; [apply Qle_refl|]. apply Qlt_bool_iff in E.
      apply Qle_trans with (total D p (cut cs opt n)); [apply Qlt_le_weak; exact E|apply B; lia]. }
    destruct (Qlt_bool (total D p (cut cs i n) * (11 # 10)) (total D p (cut cs i n))) eqn:E2.
    + exists i, (i + 1). split; [reflexivity|]. split; [lia|]. split; [exact B'|]. right. split; [lia|]. replace (i + 1 - 1) with i by lia. apply Qlt_bool_iff. exact E2.
    + destruct (IH (i + 1) i ltac:(lia) B') as (j & stop & R & S1 & S2 & S3). exists j, stop. split; [exact R|]. split; [lia|]. split; [exact S2|].
      destruct S3 as [->|(S3 & S4)]; [left; lia|right; split; [lia|exact S4]].
  - assert (B' : best_of p cs n lo (i + 1) opt).
    { split; [lia|]. intros q Q0. destruct (N.eq_dec q i) as [->|NE]; [apply Qlt_bool_no; exact E|]. apply B; lia. }
    destruct (Qlt_bool (total D p (cut cs opt n) * (11 # 10)) (total D p (cut cs i n))) eqn:E2.
    + exists opt, (i + 1). split; [reflexivity|]. split; [lia|]. split; [exact B'|]. right. split; [lia|]. replace (i + 1 - 1) with i by lia. apply Qlt_bool_iff. exact E2.
    + destruct (IH (i + 1) opt ltac:(lia) B') as (j & stop & R & S1 & S2 & S3). exists j, stop. split; [exact R|]. split; [lia|]. split; [exact S2|].
      destruct S3 as [->|(S3 & S4)]; [left; lia|right; split; [lia|exact S4]].
Qed.
Lemma s1_best p cs n prev : prev + n <= len cs -> (total D p (cut cs prev n) < 1000000000 # 1)%Q ->
  exists j stop, s1_find D p cs n prev = Ok j /\ best_of p cs n prev stop j /\ j + n <= len cs /\
    (stop = len cs - n + 1 \/ (stop <= len cs - n /\ (total D p (cut cs j n) * (11 # 10) < total D p (cut cs (stop - 1) n))%Q)).
Proof.
  intros H T. destruct (s1_range p cs n prev H) as (j0 & E0 & R0). unfold s1_find in *. replace (len cs <? n) with false in * by lia.
  replace (N.to_nat (len cs - n + 1 - prev)) with (S (N.to_nat (len cs - n - prev))) in * by lia. cbn [scan] in *. rewrite window_cut in * by lia. cbn [bind] in *.
  rewrite (proj2 (Qlt_bool_iff _ _) T) in *. assert (B : best_of p cs n prev (prev + 1) prev) by (split; [lia|]; intros q Q0; replace q with prev by lia; apply Qle_refl).
  destruct (Qlt_bool (total D p (cut cs prev n) * (11 # 10)) (total D p (cut cs prev n))) eqn:E2.
  - exists prev, (prev + 1). split; [reflexivity|]. split; [exact B|]. split; [lia|]. destruct (N.eq_dec (prev + 1) (len cs - n + 1)); [left; assumption|right]. split; [lia|].
    replace (prev + 1 - 1) with prev by lia. apply Qlt_bool_iff. exact E2.
  - destruct (scan_best p cs n prev (N.to_nat (len cs - n - prev)) (prev + 1) prev ltac:(lia) B) as (j & stop & R & S1 & S2 & S3).
    exists j, stop. split; [exact R|]. split; [exact S2|]. split; [congruence|]. destruct S3 as [->|(S3 & S4)]; [left; lia|].
    destruct (N.eq_dec stop (len cs - n + 1)); [left; assumption|right; split; [lia|exact S4]].
Qed.

(** ** One symbol *)
Variable W : coord -> list coord -> list coord -> list Q.
Hypothesis W_len : forall p r w, length (W p r w) = length w.
Definition entry (cs : list coord) (n t : N) (vs : list (list Q)) (f i j : N) : Prop :=
  i + n <= len cs /\ found vs j (W (mkCoord f t) (cut cs i n) (cut cs i n)).
Definition row_ok (cs : list coord) (n t nf : N) (vs : list (list Q)) (r : row) : Prop :=
  len (fst r) = nf /\ len (snd r) = nf /\
  forall f, f < nf -> exists i j, at_idx (fst r) f = Ok i /\ at_idx (snd r) f = Ok j /\ entry cs n t vs f i j.
Lemma row_grown cs n t nf vs vs' r : grown vs vs' -> row_ok cs n t nf vs r -> row_ok cs n t nf vs' r.
Proof.
  intros G (L1 & L2 & H). split; [exact L1|split; [exact L2|]]. intros f F. destruct (H f F) as (i & j & A & C & E1 & E2).
  exists i, j. repeat split; auto. eapply found_grown; eassumption.
Qed.
Lemma at_snoc_same {A} (l : list A) x : at_idx (l ++ [x]) (len l) = Ok x.
Proof. apply at_nth. unfold len. rewrite Nat2N.id, nth_error_app2, Nat.sub_diag by lia. reflexivity. Qed.
Lemma at_snoc_other {A} (l : list A) x i y : at_idx l i = Ok y -> at_idx (l ++ [x]) i = Ok y.
Proof. intros H. apply at_nth. apply at_nth in H. rewrite nth_error_app1; [exact H|]. apply nth_error_Some. congruence. Qed.

Lemma cell_sure cs n t vs0 d f s : 0 < n -> n <= len cs -> f = len d ->
  grown vs0 (f_vs s) /\ sized n (f_vs s) /\ f_prev s + n <= len cs /\ (0 < len d -> f_rpp s = cut cs (f_prev s) n) /\ row_ok cs n t (len d) (f_vs s) (f_row s) ->
  sure (fill_cell D W cs n t s f) (fun s => grown vs0 (f_vs s) /\ sized n (f_vs s) /\ f_prev s + n <= len cs /\
    (0 < len (d ++ [f]) -> f_rpp s = cut cs (f_prev s) n) /\ row_ok cs n t (len (d ++ [f])) (f_vs s) (f_row s)).
Proof.
  intros N0 N1 FD (G & Z & P & R & (L1 & L2 & H)). unfold fill_cell.
  destruct (s1_range (mkCoord f t) cs n (f_prev s) P) as (i & -> & I). cbn [bind]. unfold s2_weights. rewrite (window_cut cs i n I). cbn [bind c_f].
  set (rpp := if (f =? 0) || negb (f_prev s =? i) then cut cs i n else f_rpp s).
  assert (RP : rpp = cut cs i n).
  { unfold rpp. destruct (N.eqb_spec f 0) as [E|E]; [reflexivity|]. destruct (N.eqb_spec (f_prev s) i) as [Q0|Q0]; [|reflexivity].
    cbn [orb negb]. rewrite <- Q0. apply R. lia. }
  rewrite RP. apply (sure_bind _ _ (fun r => grown (f_vs s) (snd r) /\ sized n (snd r) /\ found (snd r) (fst r) (W (mkCoord f t) (cut cs i n) (cut cs i n)))).
  { apply s3_sure; [exact N0| |exact Z]. unfold len. rewrite W_len. fold (len (cut cs i n)). apply cut_len. exact I. }
  intros (j & vs) (G' & Z' & Fd). cbn [fst snd] in *. cbn [sure f_vs f_prev f_rpp f_row].
  repeat split; try assumption; [eapply grown_trans; eassumption| | |]; cbn [fst snd].
  - rewrite !len_app, L1. reflexivity.
  - rewrite !len_app, L2. reflexivity.
  - intros q Q0. rewrite len_app in Q0. change (len [f]) with 1 in Q0. destruct (N.eq_dec q f) as [->|NE].
    + exists i, j. split; [rewrite FD, <- L1; apply at_snoc_same|]. split; [rewrite FD, <- L2; apply at_snoc_same|]. split; [exact I|exact Fd].
    + destruct (H q ltac:(lia)) as (i' & j' & A & C & E1 & E2). exists i', j'. repeat split; auto using at_snoc_other. eapply found_grown; eassumption.
Qed.
Lemma nseq_prefix a m d x r : nseq a m = d ++ x :: r -> x = a + len d.
Proof.
  revert a m. induction d as [|y d IH]; intros a [|m] H; try discriminate; cbn in H; injection H as H1 H2.
  - cbn. lia.
  - apply IH in H2. unfold len in *. cbn [length]. lia.
Qed.
(** As [sure_fold], for loops over consecutive numbers. *)
Lemma sure_count {S} (f : S -> N -> res S) (P : list N -> S -> Prop) a m s :
  P [] s -> (forall d s, (length d < m)%nat -> P d s -> sure (f s (a + len d)) (P (d ++ [a + len d]))) -> sure (foldM f s (nseq a m)) (P (nseq a m)).
Proof.
  intros H0 HS. induction m as [|m IH]; [exact H0|]. rewrite nseq_snoc, foldM_app.
  apply (sure_bind _ _ (P (nseq a m))); [apply IH; intros; apply HS; auto with arith|]. intros s' H'. cbn [foldM].
  apply (sure_bind _ _ (P (nseq a m ++ [a + N.of_nat m]))); [|intros ? H; exact H].
  specialize (HS (nseq a m) s'). unfold len in HS. rewrite nseq_length in HS. apply HS; [lia|exact H'].
Qed.
Definition rows_ok (cs : list coord) (n nf : N) (vs : list (list Q)) (m : N) (rs : list row) : Prop :=
  len rs = m /\ forall q, q < m -> exists r, at_idx rs q = Ok r /\ row_ok cs n (q + 1) nf vs r.
Lemma rows_grown cs n nf vs vs' m rs : grown vs vs' -> rows_ok cs n nf vs m rs -> rows_ok cs n nf vs' m rs.
Proof. intros G (L & H). split; [exact L|]. intros q Q0. destruct (H q Q0) as (r & A & R). exists r. split; [exact A|]. eapply row_grown; eassumption. Qed.
Lemma symbol_sure cs n nf t vs0 d s : 0 < n -> n <= len cs -> t = 1 + len d ->
  grown vs0 (fst s) /\ sized n (fst s) /\ rows_ok cs n nf (fst s) (len d) (snd s) ->
  sure (fill_symbol D W cs n nf s t) (fun s => grown vs0 (fst s) /\ sized n (fst s) /\ rows_ok cs n nf (fst s) (len (d ++ [t])) (snd s)).
Proof.
  intros N0 N1 T (G & Z & L & H). unfold fill_symbol.
  apply (sure_bind _ _ (fun x => grown (fst s) (f_vs x) /\ sized n (f_vs x) /\ f_prev x + n <= len cs /\
    (0 < len (upto nf) -> f_rpp x = cut cs (f_prev x) n) /\ row_ok cs n t (len (upto nf)) (f_vs x) (f_row x))).
  - apply (sure_count _ (fun d x => grown (fst s) (f_vs x) /\ sized n (f_vs x) /\ f_prev x + n <= len cs /\
      (0 < len d -> f_rpp x = cut cs (f_prev x) n) /\ row_ok cs n t (len d) (f_vs x) (f_row x))).
    + cbn [f_vs f_prev f_rpp f_row fst snd]. repeat split; try assumption; [apply grown_refl|intros X; change (len (@nil N)) with 0 in X; lia|intros f X; change (len (@nil N)) with 0 in X; lia].
    + intros d' x _ P. replace (0 + len d') with (len d') by lia. apply cell_sure; auto.
  - intros x (G1 & Z1 & _ & _ & R). cbn [sure fst snd]. rewrite upto_len in R. split; [eapply grown_trans; eassumption|]. split; [exact Z1|].
    split; [rewrite !len_app, L; reflexivity|]. intros q Q0. rewrite len_app in Q0. change (len [t]) with 1 in Q0.
    destruct (N.eq_dec q (len d)) as [->|NE].
    + exists (f_row x). split; [rewrite <- L at 1; apply at_snoc_same|]. replace (len d + 1) with t by lia. exact R.
    + destruct (H q ltac:(lia)) as (r & A & RO). exists r. split; [apply at_snoc_other; exact A|]. eapply row_grown; eassumption.
Qed.

(** ** One bandwidth *)
Definition streams_ok (b step n : N) (vs : list (list Q)) (m : N) (L : list (list row)) : Prop :=
  len L = m /\ forall q, q < m -> exists rs, at_idx L q = Ok rs /\ rows_ok (coords b q step) n (56 * b + 1) vs (step + 1) rs.
Lemma streams_grown b step n vs vs' m L : grown vs vs' -> streams_ok b step n vs m L -> streams_ok b step n vs' m L.
Proof. intros G (E & H). split; [exact E|]. intros q Q0. destruct (H q Q0) as (r & A & R). exists r. split; [exact A|]. eapply rows_grown; eassumption. Qed.
Definition fits (b step n : N) : Prop := 0 < n /\ n <= (if 0 <? step then 2 * (b * 14) else b * 14).
Lemma lut_sure i b step st vs0 : In (i, b) bandwidths -> fits b step (if 0 <? step then n_lr st else n_l st) -> sized (if 0 <? step then n_lr st else n_l st) vs0 ->
  sure (init_lut D W step i st vs0) (fun s => grown vs0 (fst s) /\ sized (if 0 <? step then n_lr st else n_l st) (fst s) /\
    streams_ok b step (if 0 <? step then n_lr st else n_l st) (fst s) 4 (snd s)).
Proof.
  intros I (N0 & N1) Z. unfold init_lut. set (n := if 0 <? step then n_lr st else n_l st) in *.
  assert (B : b_idx2b i = Ok b /\ N_b_OCC_lut i = Ok (56 * b)).
  { cbn [In bandwidths] in I. decompose [or] I; try contradiction; match goal with E : (_, _) = (_, _) |- _ => injection E as <- <- end; split; reflexivity. }
  destruct B as (-> & ->). cbn [bind]. destruct (drs_row_4 i b I) as (tab & -> & K1 & K2). cbn [bind].
  apply (sure_count _ (fun d s => grown vs0 (fst s) /\ sized n (fst s) /\ streams_ok b step n (fst s) (len d) (snd s))).
  - cbn [fst snd]. repeat split; try assumption; [apply grown_refl|intros q X; change (len (@nil N)) with 0 in X; lia].
  - intros d s LD (G & Zs & L & H). replace (0 + len d) with (len d) by lia. set (ts := len d) in *. assert (T : ts < 4) by (unfold ts, len; lia).
    unfold fill_stream. destruct (s0_coords i b tab ts step I K1 K2 T) as (-> & LC). cbn [bind]. apply sure_guard. intros _.
    apply (sure_bind _ _ (fun x => grown (fst s) (fst x) /\ sized n (fst x) /\ rows_ok (coords b ts step) n (56 * b + 1) (fst x) (len (nseq 1 (N.to_nat (step + 1)))) (snd x))).
    + apply (sure_count _ (fun d x => grown (fst s) (fst x) /\ sized n (fst x) /\ rows_ok (coords b ts step) n (56 * b + 1) (fst x) (len d) (snd x))).
      * cbn [fst snd]. repeat split; try assumption; [apply grown_refl|intros q X; change (len (@nil N)) with 0 in X; lia].
      * intros d' x _ P. apply symbol_sure; [exact N0|rewrite LC; exact N1|reflexivity|exact P].
    + intros x (G1 & Z1 & R). replace (len (nseq 1 (N.to_nat (step + 1)))) with (step + 1) in R by (unfold len; rewrite nseq_length; lia). cbn [sure fst snd].
      split; [eapply grown_trans; eassumption|]. split; [exact Z1|]. split; [rewrite !len_app, L; reflexivity|].
      intros q Q0. rewrite len_app in Q0. change (len [ts]) with 1 in Q0. fold ts in Q0. destruct (N.eq_dec q ts) as [->|NE].
      * exists (snd x). split; [rewrite <- L at 1; apply at_snoc_same|exact R].
      * destruct (H q ltac:(lia)) as (r & A & RO). exists r. split; [apply at_snoc_other; exact A|]. eapply rows_grown; eassumption.
Qed.

(** ** All bandwidths *)
Definition family_ok (step n bmax : N) (F : family) : Prop :=
  fam_len F = step + 1 /\ exists vs, fam_block F = concat vs /\ sized n vs /\ vs <> [] /\
  forall i b, In (i, b) bandwidths -> i <= bmax -> exists L, at_idx (fam_luts F) i = Ok L /\ streams_ok b step n vs 4 L.
Lemma family_sure step b_max bmax st : In (bmax, b_max) bandwidths -> fits 1 step (if 0 <? step then n_lr st else n_l st) ->
  sure (init_family D W step b_max st) (family_ok step (if 0 <? step then n_lr st else n_l st) bmax).
Proof.
  intros I FT. set (n := if 0 <? step then n_lr st else n_l st) in *. unfold init_family.
  assert (B : b2b_idx b_max = Ok bmax /\ bmax <= 5).
  { cbn [In bandwidths] in I. decompose [or] I; try contradiction; match goal with E : (_, _) = (_, _) |- _ => injection E as <- <- end; split; (reflexivity || lia). }
  destruct B as (-> & B5). cbn [bind].
  assert (EV : forall i, i <= bmax -> exists b, In (i, b) bandwidths /\ 1 <= b).
  { intros i Hi. assert (C : i = 0 \/ i = 1 \/ i = 2 \/ i = 3 \/ i = 4 \/ i = 5) by lia.
    decompose [or] C; subst; eexists; (split; [cbn; intuition reflexivity|lia]). }
  assert (UN : forall i b b', In (i, b) bandwidths -> In (i, b') bandwidths -> b = b').
  { intros i b b' H H'. cbn [In bandwidths] in H, H'. decompose [or] H; try contradiction; decompose [or] H'; try contradiction; congruence. }
  (* after the bandwidths [bmax + 1 - m ... bmax] *)
  assert (MAIN : forall m, (m <= N.to_nat (bmax + 1))%nat ->
    forall s, (sized n (fst s) /\ (0 < N.of_nat (length (snd s)) -> fst s <> []) /\ len (snd s) = bmax + 1 - N.of_nat m /\
       forall q b, In (q, b) bandwidths -> N.of_nat m <= q <= bmax -> exists L, at_idx (snd s) (q - N.of_nat m) = Ok L /\ streams_ok b step n (fst s) 4 L) ->
    sure (foldM (init_bandwidth D W step bmax st) s (rev (nseq 0 m)))
      (fun s => sized n (fst s) /\ (0 < N.of_nat (length (snd s)) -> fst s <> []) /\ len (snd s) = bmax + 1 /\
       forall q b, In (q, b) bandwidths -> q <= bmax -> exists L, at_idx (snd s) q = Ok L /\ streams_ok b step n (fst s) 4 L)).
  { induction m as [|m IH]; intros Hm s (Z & NE & L & H).
    - cbn. split; [exact Z|]. split; [exact NE|]. split; [lia|]. intros q b Q1 Q2. specialize (H q b Q1 ltac:(lia)). replace (q - N.of_nat 0) with q in H by lia. exact H.
    - rewrite nseq_snoc, rev_app_distr. cbn [rev app foldM]. replace (0 + N.of_nat m) with (N.of_nat m) by lia.
      destruct (EV (N.of_nat m) ltac:(lia)) as (b & Ib & B1). unfold init_bandwidth at 1.
      eapply sure_bind; [|intros s' P; apply IH; [lia|exact P]].
      eapply sure_bind; [apply (lut_sure _ b step st (fst s) Ib); [|exact Z]|].
      { fold n. destruct FT as (F1 & F2). split; [exact F1|]. destruct (0 <? step); lia. }
      fold n. intros (vs & T) (G & Z' & SO). cbn [fst snd] in *. apply sure_guard. intros _. cbn [sure fst snd]. split; [exact Z'|]. split.
      { intros _. destruct SO as (_ & S1). destruct (S1 0 ltac:(lia)) as (rs & _ & _ & R1). destruct (R1 0 ltac:(lia)) as (r & _ & _ & _ & C1).
        destruct (C1 0 ltac:(lia)) as (? & j & _ & _ & _ & v & V & _). intros ->. destruct (N.to_nat j); discriminate. }
      split; [unfold len in *; cbn [length]; lia|]. intros q b' Iq Q0. destruct (N.eq_dec q (N.of_nat m)) as [->|NQ].
      + exists T. rewrite N.sub_diag. split; [reflexivity|]. rewrite (UN _ _ _ Iq Ib). exact SO.
      + destruct (H q b' Iq ltac:(lia)) as (L' & A & S'). exists L'. split; [|eapply streams_grown; eassumption].
        apply at_nth. apply at_nth in A. replace (N.to_nat (q - N.of_nat m)) with (S (N.to_nat (q - N.of_nat (S m)))) by lia. exact A. }
  eapply sure_bind; [unfold upto; apply MAIN; [lia|]|].
  - cbn [fst snd]. split; [constructor|]. split; [cbn; lia|]. split; [cbn; lia|]. intros; lia.
  - intros s (Z & NE & L & H). cbn beta. assert (V : fst s <> []) by (apply NE; unfold len in L; lia).
    destruct (fst s) as [|v vs] eqn:E; [contradiction|]. rewrite (proj2 (at_nth (v :: vs) 0 v)) by reflexivity. cbn [bind sure]. unfold family_ok. cbn [fam_len fam_block fam_luts].
    split; [reflexivity|]. exists (v :: vs). repeat split; auto; discriminate.
Qed.
End Lut.
