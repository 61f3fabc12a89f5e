(** Lemmas on the transmitter: the components it builds, and its loop over the OFDM symbols. *)
From Verif Require Import Base IntHelpers PacketSizes PacketSizesSpec PacketSizesFacts Cells TxCells CellsSpec CellsCheck CellsFacts CellsTables.
Open Scope N_scope.

(** * Tables for more streams than the packet uses *)
Definition prefix {A} (x y : list A) : Prop := exists z, y = x ++ z.
Lemma prefix_refl {A} (x : list A) : prefix x x.
Proof. exists []. rewrite app_nil_r. reflexivity. Qed.
Lemma at_prefix {A} (x y : list A) i v : prefix x y -> at_idx x i = Ok v -> at_idx y i = Ok v.
Proof.
  intros (z & ->) H. unfold at_idx, rd in *. destruct (nth_error x (N.to_nat i)) eqn:E; [|discriminate].
  rewrite nth_error_app1 by (apply nth_error_Some; congruence). rewrite E. exact H.
Qed.
Lemma mapM_mono {A B} (f g : A -> res B) l r : (forall x v, f x = Ok v -> g x = Ok v) -> mapM f l = Ok r -> mapM g l = Ok r.
Proof.
  intros H; revert r; induction l as [|x l IH]; cbn; intros r R; [exact R|].
  destruct (f x) eqn:E; try discriminate. rewrite (H _ _ E). cbn in *. destruct (mapM f l); try discriminate.
  rewrite (IH _ eq_refl). exact R.
Qed.
Definition tab_ext (t t' : drs_tables) : Prop :=
  prefix (k_12 t) (k_12 t') /\ prefix (k_6 t) (k_6 t') /\ prefix (y_03 t) (y_03 t') /\ prefix (y_47 t) (y_47 t').
Definition with_tab (s : cstate) (t : drs_tables) : cstate :=
  mkCstate (s_ts s) (s_l s) (s_k s) (s_cnt s) t (s_drs s) (s_y s) (s_next s) (s_first s) (s_pdc s) (s_limit s).
Lemma step_ext s t l c s1 : tab_ext (s_tab s) t -> comps_step s l = Ok (c, s1) ->
  comps_step (with_tab s t) l = Ok (c, with_tab s1 t) /\ s_tab s1 = s_tab s.
Proof.
  intros (E1 & E2 & E3 & E4) H. unfold comps_step in *.
  change (pcc_step (with_tab s t) l) with (pcc_step s l). change (pdc_step (with_tab s t) l) with (pdc_step s l).
  destruct (pcc_step s l) as [[p cnt]| | |]; try discriminate. cbn [bind] in *.
  destruct (drs_step s l) as [[r [[[a y] n] f]]| | |] eqn:D; try discriminate. cbn [bind] in *.
  destruct (pdc_step s l); try discriminate. cbn [bind] in *. injection H as <- <-. split; [|reflexivity].
  replace (drs_step (with_tab s t) l) with (@Ok (option drs_report * (bool * bool * N * N)) (r, (a, y, n, f))); [reflexivity|].
  symmetry. revert D. unfold drs_step, with_tab. cbn [s_ts s_tab s_drs s_y s_next s_first].
  destruct (negb (l =? s_next s)); [auto|].
  set (k := if s_drs s then k_6 (s_tab s) else k_12 (s_tab s)). set (k' := if s_drs s then k_6 t else k_12 t).
  set (v := if s_y s then y_47 (s_tab s) else y_03 (s_tab s)). set (v' := if s_y s then y_47 t else y_03 t).
  assert (K : prefix k k') by (subst k k'; destruct (s_drs s); assumption).
  assert (V : prefix v v') by (subst v v'; destruct (s_y s); assumption).
  clearbody k k' v v'.
  destruct (at_idx k 0) eqn:K0; try discriminate. rewrite (at_prefix _ _ _ _ K K0). cbn [bind].
  match goal with |- bind (mapM ?f ?l) _ = _ -> bind (mapM ?g ?l) _ = _ => destruct (mapM f l) as [rows| | |] eqn:M; try discriminate;
    rewrite (mapM_mono f g l rows) end; [auto| |exact M].
  intros x z Z. destruct (at_idx k (x mod 4)) eqn:A1; try discriminate. rewrite (at_prefix _ _ _ _ K A1). cbn [bind] in *.
  destruct (at_idx v (x mod 4)) eqn:A2; try discriminate. rewrite (at_prefix _ _ _ _ V A2). exact Z.
Qed.
Lemma chain_ext b e t m : forall l s s', tab_ext (s_tab s) t -> chain b e m l s s' -> chain b e m l (with_tab s t) (with_tab s' t).
Proof.
  induction m as [|m IH]; intros l s s' E C; cbn [chain] in *; [congruence|].
  destruct C as (s1 & A & C). destruct (step_ext s t l _ _ E A) as (B & T). exists (with_tab s1 t). split; [exact B|].
  apply IH; [rewrite T; exact E|exact C].
Qed.

(** * The components for a device class *)
Lemma all_symbols i b e : In (i, b) bandwidths -> In e [1; 2; 4; 8] ->
  exists s0, start i b e = Ok s0 /\ (forall m, exists s, chain b e m 1 s0 s) /\ (forall l, 1 <= l -> sym_facts b e l).
Proof.
  intros B E. apply symbols_follow. pose proof all_follow as F. rewrite forallb_forall in F. specialize (F _ B).
  rewrite forallb_forall in F. exact (F _ E).
Qed.
Lemma facts_all b e l : In b [1; 2; 4; 8; 12; 16] -> In e [1; 2; 4; 8] -> 1 <= l -> sym_facts b e l.
Proof.
  intros B E L. assert (exists i, In (i, b) bandwidths) as (i & I).
  { unfold bandwidths. cbn [In] in *. repeat destruct B as [<-|B]; try contradiction B; eexists; eauto 10. }
  destruct (all_symbols i b e I E) as (_ & _ & _ & F). auto.
Qed.
Lemma start_inv i b e s0 : start i b e = Ok s0 ->
  exists ls ks tab pdc, pcc_entry i e = Ok (ls, ks) /\ drs_row e i = Ok tab /\ pdc_entry i e = Ok pdc /\
    s0 = mkCstate e ls ks 0 tab false false 1 0 pdc (if e <=? 2 then 6 else 11).
Proof.
  unfold start. destruct (pcc_entry i e) as [[ls ks]| | |]; try discriminate. cbn [bind].
  destruct (drs_row e i) as [tab| | |]; try discriminate. cbn [bind].
  destruct (pdc_entry i e) as [pdc| | |]; try discriminate. cbn [bind]. intros H. injection H as <-. eauto 10.
Qed.
Lemma row_inv M i t : drs_row M i = Ok t ->
  mapM (fun t => drs_k_i_single i t 0) (upto (N.min 4 M)) = Ok (k_12 t) /\
  mapM (fun t => drs_k_i_single i t 1) (upto (N.min 4 M)) = Ok (k_6 t) /\
  mapM (drs_y_single i) (upto (N.min M 4)) = Ok (y_03 t) /\
  mapM (drs_y_single i) (nseq 4 (N.to_nat (M - 4))) = Ok (y_47 t).
Proof.
  unfold drs_row. destruct (mapM _ (upto (N.min 4 M))) eqn:A; try discriminate. cbn [bind].
  destruct (mapM (fun t => drs_k_i_single i t 1) (upto (N.min 4 M))) eqn:B; try discriminate. cbn [bind].
  destruct (mapM (drs_y_single i) (upto (N.min M 4))) eqn:C; try discriminate. cbn [bind].
  destruct (mapM (drs_y_single i) (nseq 4 (N.to_nat (M - 4)))) eqn:D; try discriminate. cbn [bind].
  intros H. injection H as <-. auto.
Qed.
Lemma mapM_prefix {A B} (f : A -> res B) x y r q : prefix x y -> mapM f x = Ok r -> mapM f y = Ok q -> prefix r q.
Proof.
  intros (z & ->) R Q. apply mapM_app in Q as (a & c & P & _ & ->). rewrite R in P. injection P as <-. exists c. reflexivity.
Qed.
Lemma upto_prefix m n : m <= n -> prefix (upto m) (upto n).
Proof.
  intros H. unfold upto. replace (N.to_nat n) with (N.to_nat m + N.to_nat (n - m))%nat by lia. rewrite nseq_app. eexists. reflexivity.
Qed.
Lemma row_prefix e M i t T : In e [1; 2; 4; 8] -> In M [1; 2; 4; 8] -> e <= M -> drs_row e i = Ok t -> drs_row M i = Ok T -> tab_ext t T.
Proof.
  intros E0 M0 L A B. apply row_inv in A as (A1 & A2 & A3 & A4). apply row_inv in B as (B1 & B2 & B3 & B4).
  assert (P1 : prefix (upto (N.min 4 e)) (upto (N.min 4 M))) by (apply upto_prefix; lia).
  assert (P2 : prefix (upto (N.min e 4)) (upto (N.min M 4))) by (apply upto_prefix; lia).
  assert (P3 : prefix (nseq 4 (N.to_nat (e - 4))) (nseq 4 (N.to_nat (M - 4)))).
  { replace (N.to_nat (M - 4)) with (N.to_nat (e - 4) + (N.to_nat (M - 4) - N.to_nat (e - 4)))%nat by lia.
    rewrite nseq_app. eexists. reflexivity. }
  repeat split; eauto using (@mapM_prefix N (list N)), (@mapM_prefix N (list (bool * N))).
Qed.

Lemma idx_of b : In b [1; 2; 4; 8; 12; 16] -> exists i, b2b_idx b = Ok i /\ In (i, b) bandwidths /\ i <= 5.
Proof.
  intros B. cbn [In] in B. repeat destruct B as [<-|B]; try contradiction B; eexists; (split; [reflexivity|]);
    (split; [unfold bandwidths; cbn [In]; tauto|lia]).
Qed.
Lemma idx_mono b b' i i' : In (i, b) bandwidths -> In (i', b') bandwidths -> b <= b' -> i <= i'.
Proof.
  unfold bandwidths. cbn [In]. intros A B L.
  repeat destruct A as [A|A]; try contradiction A; injection A as <- <-;
    repeat destruct B as [B|B]; try contradiction B; injection B as <- <-; lia.
Qed.
Lemma idx_back i : i <= 5 -> exists b, In (i, b) bandwidths.
Proof.
  intros H. assert (i = 0 \/ i = 1 \/ i = 2 \/ i = 3 \/ i = 4 \/ i = 5) as [->|[->|[->|[->|[->| ->]]]]] by lia;
    eexists; unfold bandwidths; cbn [In]; eauto 10.
Qed.
Lemma ts_step e M : In e [1; 2; 4; 8] -> In M [1; 2; 4; 8] -> e <= M ->
  exists j, N_TS_2_N_TS_idx e = Ok j /\ nth_error (ts_steps M) (N.to_nat j) = Some e.
Proof.
  intros E0 M0 L. cbn [In] in E0, M0.
  repeat destruct E0 as [<-|E0]; try contradiction E0; repeat destruct M0 as [<-|M0]; try contradiction M0; try lia;
    eexists; (split; [reflexivity|reflexivity]).
Qed.
Lemma ts_in e M : In e (ts_steps M) -> In e [1; 2; 4; 8].
Proof. unfold ts_steps. rewrite filter_In. tauto. Qed.
Lemma at_of {A} (l : list A) i v : nth_error l (N.to_nat i) = Some v -> at_idx l i = Ok v.
Proof. unfold at_idx, rd. intros ->. reflexivity. Qed.

Lemma comps_built b_max M : In b_max [1; 2; 4; 8; 12; 16] -> In M [1; 2; 4; 8] ->
  exists c, comps_new b_max M = Ok c /\
    forall b e, In b [1; 2; 4; 8; 12; 16] -> b <= b_max -> In e [1; 2; 4; 8] -> e <= M ->
      exists s, set_configuration c b e = Ok s /\ forall m, exists s', chain b e m 1 s s'.
Proof.
  intros B0 M0. destruct (idx_of _ B0) as (i & I1 & I2 & I3). unfold comps_new. rewrite I1. cbn [bind].
  destruct (mapM_all (fun i => mapM (pcc_entry i) (ts_steps M)) (upto (i + 1))) as (pcc & P1 & P2).
  { intros x X. apply upto_in in X. destruct (idx_back x ltac:(lia)) as (b & B).
    destruct (mapM_all (pcc_entry x) (ts_steps M)) as (r & R & _); [|eauto].
    intros e E0. apply ts_in in E0. destruct (all_symbols x b e B E0) as (s0 & S0 & _).
    apply start_inv in S0 as (ls & ks & _ & _ & Q & _). eauto. }
  rewrite P1. cbn [bind].
  destruct (mapM_all (drs_row M) (upto (i + 1))) as (drs & D1 & D2).
  { intros x X. apply upto_in in X. destruct (idx_back x ltac:(lia)) as (b & B).
    destruct (all_symbols x b M B M0) as (s0 & S0 & _). apply start_inv in S0 as (_ & _ & tab & _ & _ & Q & _). eauto. }
  rewrite D1. cbn [bind].
  destruct (mapM_all (fun i => mapM (pdc_entry i) (ts_steps M)) (upto (i + 1))) as (pdc & Q1 & Q2).
  { intros x X. apply upto_in in X. destruct (idx_back x ltac:(lia)) as (b & B).
    destruct (mapM_all (pdc_entry x) (ts_steps M)) as (r & R & _); [|eauto].
    intros e E0. apply ts_in in E0. destruct (all_symbols x b e B E0) as (s0 & S0 & _).
    apply start_inv in S0 as (_ & _ & _ & pd & _ & _ & Q & _). eauto. }
  rewrite Q1. cbn [bind]. eexists. split; [reflexivity|].
  intros b e B LB E0 LE. destruct (idx_of _ B) as (j & J1 & J2 & J3). pose proof (idx_mono _ _ _ _ J2 I2 LB) as JI.
  destruct (ts_step e M E0 M0 LE) as (k & K1 & K2).
  destruct (all_symbols j b e J2 E0) as (s0 & S0 & CH & _). apply start_inv in S0 as (ls & ks & tab & pd & A1 & A2 & A3 & ->).
  assert (JN : nth_error (upto (i + 1)) (N.to_nat j) = Some j).
  { unfold upto. rewrite nseq_nth by lia. f_equal. lia. }
  destruct (Forall2_at _ _ _ _ _ P2 JN) as (r & R1 & R2). apply mapM_inv in R2.
  destruct (Forall2_at _ _ _ _ _ R2 K2) as (v & V1 & V2). rewrite A1 in V2. injection V2 as <-.
  destruct (Forall2_at _ _ _ _ _ D2 JN) as (T & T1 & T2).
  destruct (Forall2_at _ _ _ _ _ Q2 JN) as (r' & R1' & R2'). apply mapM_inv in R2'.
  destruct (Forall2_at _ _ _ _ _ R2' K2) as (v' & V1' & V2'). rewrite A3 in V2'. injection V2' as <-.
  exists (with_tab (mkCstate e ls ks 0 tab false false 1 0 pd (if e <=? 2 then 6 else 11)) T). split.
  - unfold set_configuration. cbn [c_pcc c_drs c_pdc]. rewrite J1, K1. cbn [bind].
    rewrite (at_of _ _ _ R1). cbn [bind]. rewrite (at_of _ _ _ V1). cbn [bind]. rewrite (at_of _ _ _ T1). cbn [bind].
    rewrite (at_of _ _ _ R1'). cbn [bind]. rewrite (at_of _ _ _ V1'). reflexivity.
  - intros m. destruct (CH m) as (s' & C). exists (with_tab s' T). apply chain_ext; [|exact C].
    cbn [s_tab]. exact (row_prefix e M j tab T E0 M0 LE A2 T2).
Qed.

(** * Writes *)
Lemma at_map_upto {A} (f : N -> A) m i : i < m -> at_idx (map f (upto m)) i = Ok (f i).
Proof.
  intros H. apply at_of. unfold upto. erewrite map_nth_error; [reflexivity|]. rewrite nseq_nth by lia. f_equal. lia.
Qed.
Lemma flat_map_map {A B C} (f : B -> list C) (g : A -> B) l : flat_map f (map g l) = flat_map (fun x => f (g x)) l.
Proof. induction l; cbn; congruence. Qed.
Lemma flat_map_ext_in {A B} (f g : A -> list B) l : (forall x, In x l -> f x = g x) -> flat_map f l = flat_map g l.
Proof. intros H. rewrite !flat_map_concat_map. f_equal. apply map_ext_in. exact H. Qed.
Lemma number_shift a ks : number_from a ks = map (fun ik => (a + fst ik, snd ik)) (numbered ks).
Proof.
  unfold number_from, numbered, upto, len. rewrite Nat2N.id. rewrite <- (N.add_0_r a) at 1. generalize 0 as z.
  induction ks as [|k ks IH]; intros z; cbn; [reflexivity|]. f_equal. rewrite <- IH. do 2 f_equal. lia.
Qed.
Lemma numbered_in i k ks : In (i, k) (numbered ks) -> i < len ks.
Proof. unfold numbered. intros H. apply in_combine_l in H. apply upto_in in H. exact H. Qed.

Lemma pair_at e p : In e [2; 4; 8] ->
  exists mat, index_N_TS e = Ok mat /\ at_idx mat (p mod get_modulo e) = Ok (stream_pair e p).
Proof.
  intros E0. exists (stream_pairs e). assert (L : get_modulo e = len (stream_pairs e) /\ 0 < get_modulo e)
    by (destruct E0 as [<-|[<-|[<-|[]]]]; split; reflexivity).
  split; [destruct E0 as [<-|[<-|[<-|[]]]]; reflexivity|]. destruct L as (L1 & L2). rewrite L1 in *. apply at_of.
  unfold stream_pair. apply nth_error_nth'. pose proof (N.mod_lt p (len (stream_pairs e)) ltac:(lia)) as M.
  set (j := p mod _) in *. clearbody j. unfold len in M. lia.
Qed.
Lemma run_pcc_ok e : In e [1; 2; 4; 8] -> forall ks idx, idx + len ks <= 98 ->
  run_pcc e idx ks = Ok (flat_map (send_control e) (number_from idx ks), idx + len ks).
Proof.
  intros E0 ks; induction ks as [|k ks IH]; intros idx H.
  - cbn. unfold len. cbn. do 2 f_equal. lia.
  - assert (L : len (k :: ks) = 1 + len ks) by (unfold len; cbn [length]; lia). rewrite L in *.
    cbn [run_pcc]. unfold run_pcc_cell. replace (idx <? 98) with true by lia. cbn [negb].
    change (number_from idx (k :: ks)) with ((idx, k) :: number_from (idx + 1) ks). cbn [flat_map send_control].
    destruct (N.eqb_spec e 1) as [E1|E1].
    + cbn [bind]. rewrite IH by lia. cbn [bind]. do 2 f_equal. lia.
    + destruct (pair_at e (idx / 2)) as (mat & P1 & P2); [destruct E0 as [E0|E0]; [congruence|exact E0]|].
      rewrite P1. cbn [bind]. rewrite P2. destruct (stream_pair e (idx / 2)) as (A, B). cbn [bind].
      rewrite IH by lia. cbn [bind]. do 2 f_equal. lia.
Qed.

Lemma run_drs_row_ok b e l t : len (reference b e t l) = 14 * b ->
  run_drs_row (14 * b) (t, reference b e t l, map (fun i => (4 <=? t, (4 * i + t mod 4) mod 56)) (upto (14 * b))) =
  Ok (send_reference b e l t).
Proof.
  intros L. unfold run_drs_row, send_reference, numbered. rewrite L.
  set (K := reference b e t l) in *. assert (KL : length K = N.to_nat (14 * b)) by (unfold len in L; lia).
  set (g := fun i => (t, nth (N.to_nat i) K 1, Reference (4 <=? t) ((4 * i + t mod 4) mod 56))).
  rewrite (mapM_map _ g).
  - apply (f_equal (@Ok (list write))). unfold g, upto. rewrite <- KL. clear.
    transitivity (map (fun i => (t, nth (N.to_nat (i - 0)) K 1, Reference (4 <=? t) ((4 * i + t mod 4) mod 56))) (nseq 0 (length K))).
    { apply map_ext. intros. do 2 f_equal. f_equal. lia. }
    generalize 0 as z. induction K as [|k K IH]; intros z; cbn [length nseq map combine]; [reflexivity|].
    replace (N.to_nat (z - z)) with 0%nat by lia. cbn [nth fst snd]. f_equal. rewrite <- IH. apply map_ext_in. intros i I.
    apply nseq_in in I. replace (N.to_nat (i - z)) with (S (N.to_nat (i - (z + 1)))) by lia. reflexivity.
  - intros i I. apply upto_in in I. rewrite at_map_upto by exact I.
    rewrite (at_of K i (nth (N.to_nat i) K 1)) by (apply nth_error_nth'; lia). reflexivity.
Qed.
Lemma active_flat b e l ts : (forall t, In t ts -> len (reference b e t l) = if active e t l then 14 * b else 0) ->
  flat_map (send_reference b e l) (filter (fun t => active e t l) ts) = flat_map (send_reference b e l) ts.
Proof.
  induction ts as [|t ts IH]; intros H; [reflexivity|]. cbn [filter flat_map].
  rewrite <- IH by (intros; apply H; cbn; auto). specialize (H t (or_introl eq_refl)).
  destruct (active e t l); [reflexivity|]. unfold send_reference at 2. unfold numbered.
  destruct (reference b e t l); [reflexivity|]. unfold len in H; cbn [length] in H; lia.
Qed.
Lemma run_drs_ok b e l idx r : sym_facts b e l -> b <= 16 -> e <= 8 -> idx <= 4000000 -> report_of b e l = Some r ->
  run_drs idx r = Ok (flat_map (send_reference b e l) (upto e), idx + 14 * b * len (active_streams e l)).
Proof.
  intros F B E0 I R. pose proof (f_ref b e l F) as FR. pose proof (f_free b e l F) as FF.
  rewrite <- active_flat by (intros t T; apply upto_in in T; auto). fold (active_streams e l).
  assert (IN : forall t, In t (active_streams e l) -> len (reference b e t l) = 14 * b).
  { intros t T. unfold active_streams in T. apply filter_In in T as (T1 & T2). apply upto_in in T1. specialize (FR t T1).
    cbv beta in T2. rewrite T2 in FR. exact FR. }
  unfold report_of in R. set (ts := active_streams e l) in *. clearbody ts.
  assert (R' : r = mkReport (14 * b) (map (fun t => (t, reference b e t l, map (fun i => (4 <=? t, (4 * i + t mod 4) mod 56)) (upto (14 * b)))) ts))
    by (destruct ts; [discriminate|congruence]).
  subst r. unfold run_drs. cbn [dr_size dr_rows].
  assert (LM : forall A (f : N -> A), len (map f ts) = len ts) by (intros; unfold len; rewrite map_length; reflexivity). rewrite LM.
  match goal with |- bind (mapM ?f (map ?g ts)) _ = _ => assert (M : mapM f (map g ts) = Ok (map (send_reference b e l) ts)) end.
  { clear - IN. induction ts as [|t ts IH]; [reflexivity|]. cbn [map mapM].
    rewrite run_drs_row_ok by (apply IN; cbn; auto). cbn [bind]. rewrite IH by (intros; apply IN; cbn; auto). reflexivity. }
  rewrite M. cbn [bind]. rewrite flat_map_concat_map. do 2 f_equal. 
  assert (14 * b * len ts <= 56 * 16) by lia. rewrite mul32_small by lia. rewrite add32_small by lia. reflexivity.
Qed.

(** * Data *)
Lemma pdc_numbers bps n r m p : In bps [1; 2; 4; 6; 8] -> r <= m -> r <= 23 -> n + m <= p ->
  (bps * (n + r)) mod 24 = 0 \/ n + r = p ->
  exists got, N.min (24 * ((bps * (m - r) + 23) / 24)) (bps * p - bps * (n + r)) = bps * got /\ m - r <= got /\
    r + got - m <= 23 /\ n + r + got <= p /\ ((bps * (n + r + got)) mod 24 = 0 \/ n + r + got = p) /\
    ((bps * (n + r)) mod 8 = 0 \/ n + r = p).
Proof.
  intros B R1 R2 P M.
  exists (N.min (24 * ((bps * (m - r) + 23) / 24)) (bps * p - bps * (n + r)) / bps).
  cbn [In] in B. repeat destruct B as [<-|B]; try contradiction B; lia.
Qed.
Lemma modulate_ok bps got : In bps [1; 2; 4; 6; 8] -> modulate bps (bps * got) = Ok got.
Proof.
  intros B. unfold modulate. cbn [In] in B. repeat destruct B as [<-|B]; try contradiction B; cbn [N.eqb Pos.eqb orb];
    (rewrite guard_true by lia; cbn [guard]; f_equal; lia).
Qed.
Lemma firstn_upto {A} (f : N -> A) r : firstn (N.to_nat r) (map f (upto r)) = map f (upto r).
Proof. apply firstn_all2. unfold upto. rewrite map_length, nseq_length. lia. Qed.
Lemma upto_plus {A} (f : N -> A) r g : map f (upto r) ++ map (fun i => f (r + i)) (upto g) = map f (upto (r + g)).
Proof.
  unfold upto. replace (N.to_nat (r + g)) with (N.to_nat r + N.to_nat g)%nat by lia. rewrite nseq_app, map_app. f_equal.
  rewrite N.add_0_l, N2Nat.id. rewrite <- (N.add_0_r r) at 1. generalize 0 as z. induction (N.to_nat g) as [|m IH]; intros z; cbn; [reflexivity|].
  f_equal. rewrite IH. do 2 f_equal. lia.
Qed.
Lemma skipn_upto {A} (f : N -> A) m g : skipn (N.to_nat m) (map f (upto (m + g))) = map (fun i => f (m + i)) (upto g).
Proof.
  rewrite <- upto_plus. rewrite skipn_app. rewrite skipn_all2 by (unfold upto; rewrite map_length, nseq_length; lia).
  unfold upto at 1. rewrite map_length, nseq_length, Nat.sub_diag. reflexivity.
Qed.
Lemma diversity_facts tm : tm <= 11 -> diversity tm = true -> streams tm = 1 /\ In (eff_antennas tm) [2; 4; 8].
Proof.
  intros T. apply upto_11 in T. cbn [In] in T. repeat destruct T as [<-|T]; try contradiction T; vm_compute; intros; try discriminate; tauto.
Qed.

Ltac nlia := repeat match goal with H : context [_ mod _] |- _ => clear H | H : context [_ / _] |- _ => clear H | H : In _ _ |- _ => clear H end; lia.
Definition waiting (bps n r : N) : list N := map (fun i => (n + i) * bps) (upto r).
Lemma run_pdc_ok tm bps T G cap a r ks : tm <= 11 -> In bps [1; 2; 4; 6; 8] -> T <= 1146880 -> G = streams tm * T * bps ->
  0 < len ks <= 896 -> a + len ks <= T -> r <= 23 -> r <= streams tm * len ks ->
  (bps * (streams tm * a + r)) mod 24 = 0 \/ streams tm * a + r = streams tm * T ->
  streams tm * len ks + 23 <= cap ->
  a mod 2 = 0 -> len ks mod 2 = 0 ->
  exists r', r' <= 23 /\ streams tm * (a + len ks) + r' <= streams tm * T /\
    ((bps * (streams tm * (a + len ks) + r')) mod 24 = 0 \/ streams tm * (a + len ks) + r' = streams tm * T) /\
    run_pdc (mkCfg (eff_antennas tm) (streams tm) (diversity tm) bps G cap)
            (bps * (streams tm * a + r)) (streams tm * a) r (waiting bps (streams tm * a) r) ks =
    Ok (flat_map (send_data tm bps) (number_from a ks),
        (bps * (streams tm * (a + len ks) + r'), streams tm * (a + len ks), r', waiting bps (streams tm * (a + len ks)) r')).
Proof.
  intros TM B TB -> LK AT R1 R2 M24 CAP AE KE. destruct (streams_cases _ TM) as (S1 & S8).
  set (ss := streams tm) in *. set (c := len ks) in *.
  assert (SN : ss * (a + c) <= ss * T) by (apply N.mul_le_mono_l; exact AT). rewrite (N.mul_add_distr_l ss a c) in *.
  assert (SB : ss * T <= 8 * 1146880) by (apply N.mul_le_mono; lia).
  assert (SC : ss * c <= 8 * 896) by (apply N.mul_le_mono; lia).
  assert (SC0 : ss * c = c * ss) by lia.
  assert (DV : diversity tm = true -> ss = 1 /\ In (eff_antennas tm) [2; 4; 8]) by (apply diversity_facts; exact TM).
  destruct (pdc_numbers bps (ss * a) r (ss * c) (ss * T) B R2 R1 SN M24) as (got & G1 & G2 & G3 & G4 & G5 & G6).
  assert (BB : 1 <= bps <= 8) by (clear - B; cbn [In] in B; lia).
  exists (r + got - ss * c). split; [exact G3|]. split; [nlia|].
  replace (ss * a + ss * c + (r + got - ss * c)) with (ss * a + r + got) by nlia. split; [exact G5|].
  unfold run_pdc. cbn [x_ts x_ss x_div x_bps x_G x_cap]. fold c.
  assert (P1 : bps * (ss * a + r) <= 8 * (8 * 1146880)) by (apply N.mul_le_mono; nlia).
  assert (P2 : bps * (ss * a + r + got) <= 8 * (8 * 1146880)) by (apply N.mul_le_mono; nlia).
  assert (P3 : bps * (ss * T) <= 8 * (8 * 1146880)) by (apply N.mul_le_mono; nlia).
  assert (P4 : bps * (ss * c - r) <= 8 * (8 * 896)) by (apply N.mul_le_mono; nlia).
  assert (P5 : bps * (ss * a + r) <= bps * (ss * T)) by (apply N.mul_le_mono_l; nlia).
  assert (P6 : bps * (ss * a + r + got) = bps * (ss * a + r) + bps * got) by nlia.
  rewrite (mul32_small ss c) by nlia. rewrite (sub32_small (ss * c) r) by nlia.
  replace (mul32 (ss * c - r) bps) with (bps * (ss * c - r)) by (rewrite mul32_small; nlia).
  assert (CE : ceil_divide_integer 32 (bps * (ss * c - r)) 24 = Ok ((bps * (ss * c - r) + 23) / 24)).
  { clear - P4. set (x := bps * (ss * c - r)) in *. clearbody x. rewrite ceil_ok by lia. f_equal. f_equal. lia. }
  rewrite CE. cbn [bind].
  assert (SBS : sub32 (ss * T * bps) (bps * (ss * a + r)) = bps * (ss * T) - bps * (ss * a + r)). { replace (ss * T * bps) with (bps * (ss * T)) by nlia. rewrite sub32_small; nlia. }
  rewrite SBS.
  replace (mul32 ((bps * (ss * c - r) + 23) / 24) 24) with (24 * ((bps * (ss * c - r) + 23) / 24))
    by (clear - P4; set (x := bps * (ss * c - r)) in *; clearbody x; rewrite mul32_small; lia).
  rewrite G1. 
  rewrite guard_true by (rewrite (N.mul_comm bps got), N.mod_mul by nlia; reflexivity).
  replace (ss * T * bps) with (bps * (ss * T)) by nlia.
  assert (EQ : bps * (ss * a + r) = bps * (ss * T) <-> ss * a + r = ss * T).
  { split; [intros X; apply N.mul_cancel_l in X; nlia|intros ->; reflexivity]. }
  rewrite guard_true.
  2:{ set (y := bps * (ss * a + r)) in *. set (z := bps * (ss * T)) in *. clearbody y z.
      clear - G6 EQ P5. destruct G6 as [G6|G6]; [|apply EQ in G6; lia]. rewrite G6. lia. }
  rewrite (modulate_ok bps got B). cbn [bind]. replace (cap <? r + got) with false by nlia.
  rewrite guard_true by (rewrite (N.mul_comm bps got), N.div_mul by nlia; apply N.eqb_refl).
  assert (BF : firstn (N.to_nat r) (waiting bps (ss * a) r) ++ map (fun i => 8 * (bps * (ss * a + r) / 8) + i * bps) (upto got) =
               waiting bps (ss * a) (r + got)).
  { unfold waiting. rewrite firstn_upto, <- upto_plus. f_equal. destruct G6 as [G6|G6].
    - apply map_ext. intros i. replace (8 * (bps * (ss * a + r) / 8)) with (bps * (ss * a + r)) by (clear - G6; lia). nlia.
    - replace got with 0 by (clear - G6 G4; lia). reflexivity. }
  cbv zeta. rewrite BF. clear BF G6 EQ.
  assert (LEFT : sub32 (add32 r got) (ss * c) = r + got - ss * c) by (rewrite add32_small, sub32_small by nlia; nlia).
  rewrite LEFT.
  match goal with |- bind (mapM ?f _) _ = _ => 
    assert (W : mapM f (numbered ks) = Ok (map (fun ik => send_data tm bps (a + fst ik, snd ik)) (numbered ks))) end.
  { apply mapM_map. intros (i, k) I. apply numbered_in in I. fold c in I. cbn [fst snd]. unfold send_data. fold ss.
    assert (I1 : ss * (i + 1) <= ss * c) by (apply N.mul_le_mono_l; nlia).
    destruct (diversity tm) eqn:D.
    - destruct (DV eq_refl) as (D1 & D2). clear SC SC0. rewrite D1 in *. unfold run_pdc_div. cbn [x_ts].
      replace (1 * a) with a in * by nlia. replace (1 * c) with c in * by nlia.
      destruct (pair_at (eff_antennas tm) ((a + i) / 2) D2) as (mat & M1 & M2). rewrite M1. cbn [bind]. rewrite M2.
      destruct (stream_pair (eff_antennas tm) ((a + i) / 2)) as (A, B'). cbn [bind]. unfold waiting.
      rewrite at_map_upto by nlia. cbn [bind].
      assert (PI : partner i < c) by (unfold partner; clear - I KE; destruct (N.eqb_spec (i mod 2) 0); lia).
      assert (PE : a + partner i = partner (a + i)).
      { unfold partner. replace ((a + i) mod 2) with (i mod 2) by (clear - AE; lia). clear. destruct (N.eqb_spec (i mod 2) 0); lia. }
      rewrite at_map_upto by nlia. cbn [bind]. rewrite PE. replace ((a + i) mod 2) with (i mod 2) by (clear - AE; lia). reflexivity.
    - unfold run_pdc_plain. cbn [x_ss]. apply mapM_map. intros j J. apply upto_in in J. unfold waiting.
      rewrite at_map_upto by nlia. cbn [bind]. replace (ss * a + (i * ss + j)) with ((a + i) * ss + j) by nlia. reflexivity. }
  unfold numbered in W. fold c in W. rewrite W. cbn [bind]. rewrite guard_true by nlia.
  rewrite number_shift, flat_map_map, flat_map_concat_map. unfold numbered. fold c.
  assert (C1 : add32 (bps * (ss * a + r)) (bps * got) = bps * (ss * a + r + got)) by (rewrite add32_small by nlia; nlia).
  assert (C2 : add32 (ss * a) (if diversity tm then c else mul32 c ss) = ss * a + ss * c).
  { destruct (diversity tm).
    - destruct (DV eq_refl) as (D1 & _). clear SC SC0. rewrite D1 in *. rewrite add32_small by nlia. nlia.
    - rewrite mul32_small by nlia. rewrite add32_small by nlia. nlia. }
  assert (C3 : firstn (N.to_nat (r + got - ss * c)) (skipn (N.to_nat (ss * c)) (waiting bps (ss * a) (r + got))) =
               waiting bps (ss * a + ss * c) (r + got - ss * c)).
  { unfold waiting. replace (r + got) with (ss * c + (r + got - ss * c)) at 2 by nlia. rewrite skipn_upto.
    rewrite firstn_upto. apply map_ext. intros. nlia. }
  rewrite C1, C2, C3. reflexivity.
Qed.

(** * The loop over the symbols *)
Definition refs (e l : N) : N := sum (map (fun i => len (active_streams e i)) (nseq 1 (N.to_nat (l - 1)))).
Lemma refs_1 e : refs e 1 = 0.
Proof. reflexivity. Qed.
Lemma refs_next e l : 1 <= l -> refs e (l + 1) = refs e l + len (active_streams e l).
Proof.
  intros H. unfold refs. replace (N.to_nat (l + 1 - 1)) with (S (N.to_nat (l - 1))) by lia.
  rewrite nseq_snoc, map_app, sum_app. cbn [map sum fold_right]. replace (1 + N.of_nat (N.to_nat (l - 1))) with l by lia. lia.
Qed.
Lemma N_ind1 (P : N -> Prop) : P 1 -> (forall l, 1 <= l -> P l -> P (l + 1)) -> forall l, 1 <= l -> P l.
Proof.
  intros P1 PS l L. replace l with (1 + N.of_nat (N.to_nat (l - 1))) by lia.
  induction (N.to_nat (l - 1)) as [|n IH]; [exact P1|]. replace (1 + N.of_nat (S n)) with (1 + N.of_nat n + 1) by lia.
  apply PS; [lia|exact IH].
Qed.
Lemma active_count e l : In e [1; 2; 4; 8] -> 1 <= l ->
  len (active_streams e l) =
    if e <=? 2 then (if (l - 1) mod 5 =? 0 then e else 0)
    else if e =? 4 then (if (l - 1) mod 10 =? 0 then 4 else 0)
    else (if (l - 1) mod 10 =? 0 then 4 else 0) + (if ((l - 1) mod 10 =? 1) then 4 else 0).
Proof.
  intros E0 L. unfold active_streams, active, first_symbol, spacing. cbn [In] in E0.
  repeat destruct E0 as [<-|E0]; try contradiction E0.
  - change (upto 1) with [0]. cbn [filter]. change (0 <? 4) with true. change (1 <=? 2) with true. cbv iota.
    replace (1 <=? l) with true by lia. cbn [andb]. destruct ((l - 1) mod 5 =? 0); reflexivity.
  - change (upto 2) with [0; 1]. cbn [filter]. change (0 <? 4) with true. change (1 <? 4) with true. change (2 <=? 2) with true. cbv iota.
    replace (1 <=? l) with true by lia. cbn [andb]. destruct ((l - 1) mod 5 =? 0); reflexivity.
  - change (upto 4) with [0; 1; 2; 3]. cbn [filter]. change (4 <=? 2) with false.
    change (0 <? 4) with true. change (1 <? 4) with true. change (2 <? 4) with true. change (3 <? 4) with true. cbv iota.
    replace (1 <=? l) with true by lia. cbn [andb]. destruct ((l - 1) mod 10 =? 0); reflexivity.
  - change (upto 8) with [0; 1; 2; 3; 4; 5; 6; 7]. cbn [filter]. change (8 <=? 2) with false.
    change (0 <? 4) with true. change (1 <? 4) with true. change (2 <? 4) with true. change (3 <? 4) with true.
    change (4 <? 4) with false. change (5 <? 4) with false. change (6 <? 4) with false. change (7 <? 4) with false. cbv iota.
    replace (1 <=? l) with true by lia. cbn [andb].
    replace ((2 <=? l) && ((l - 2) mod 10 =? 0)) with ((l - 1) mod 10 =? 1) by (destruct (2 <=? l) eqn:?; cbn [andb]; lia).
    destruct (N.eqb_spec ((l - 1) mod 10) 0) as [X|X], (N.eqb_spec ((l - 1) mod 10) 1) as [Y|Y]; try reflexivity.
Qed.
Lemma refs_closed e l : In e [1; 2; 4; 8] -> 1 <= l ->
  refs e l = if e <=? 2 then e * ((l + 3) / 5) else if e =? 4 then 4 * ((l + 8) / 10) else 4 * ((l + 8) / 10 + (l + 7) / 10).
Proof.
  intros E0. revert l. apply N_ind1.
  - cbn [In] in E0. repeat destruct E0 as [<-|E0]; try contradiction E0; reflexivity.
  - intros l L IH. rewrite refs_next by exact L. rewrite active_count by auto. rewrite IH.
    cbn [In] in E0. repeat destruct E0 as [<-|E0]; try contradiction E0; cbn [N.leb N.compare Pos.compare Pos.compare_cont N.eqb Pos.eqb].
    + destruct (N.eqb_spec ((l - 1) mod 5) 0); lia.
    + destruct (N.eqb_spec ((l - 1) mod 5) 0); lia.
    + destruct (N.eqb_spec ((l - 1) mod 10) 0); lia.
    + destruct (N.eqb_spec ((l - 1) mod 10) 0), (N.eqb_spec ((l - 1) mod 10) 1); lia.
Qed.

Section Sums.
Context (b e : N).
Hypothesis B : In b [1; 2; 4; 8; 12; 16].
Hypothesis E0 : In e [1; 2; 4; 8].
Lemma all_facts l : 1 <= l -> sym_facts b e l.
Proof. intros. apply facts_all; auto. Qed.
(** Every cell of the symbols before [l] is a reference, control or data cell. *)
Lemma cells_before l : 1 <= l -> 56 * b * (l - 1) = 14 * b * refs e l + (98 - pending b e l) + data_before b e l /\ pending b e l <= 98 /\
  (0 < pending b e l -> data_before b e l = 0).
Proof.
  revert l. apply N_ind1.
  - rewrite refs_1, pending_1, before_1. lia.
  - intros l L (IH1 & IH2 & IH3). pose proof (all_facts l L) as F. rewrite refs_next, before_next by exact L.
    pose proof (f_control _ _ _ F) as F1. pose proof (f_free _ _ _ F) as F2. pose proof (f_parts _ _ _ F) as F3.
    pose proof (pending_next b e l L) as PN.
    set (x := len (active_streams e l)) in *. set (y := refs e l) in *. set (p := pending b e l) in *. set (p' := pending b e (l + 1)) in *.
    set (c := len (control b e l)) in *. set (d := len (data b e l)) in *. set (f := len (free b e l)) in *. set (n := data_before b e l) in *.
    clearbody x y p p' c d f n. replace (l + 1 - 1) with (l - 1 + 1) by lia. rewrite (N.mul_add_distr_l (56 * b)).
    replace (14 * b * (y + x)) with (14 * b * y + x * (14 * b)) by lia. lia.
Qed.
Lemma before_even l : 1 <= l -> data_before b e l mod 2 = 0.
Proof.
  revert l. apply N_ind1; [reflexivity|]. intros l L IH. rewrite before_next by exact L. pose proof (f_even _ _ _ (all_facts l L)). lia.
Qed.
Lemma before_mono l l' : 1 <= l -> l <= l' -> data_before b e l <= data_before b e l'.
Proof.
  intros L H. replace l' with (l + N.of_nat (N.to_nat (l' - l))) by lia.
  induction (N.to_nat (l' - l)) as [|n IH]; [rewrite N.add_0_r; lia|].
  replace (l + N.of_nat (S n)) with (l + N.of_nat n + 1) by lia. rewrite before_next by lia. lia.
Qed.

Context (d : psdef) (cap G DF T : N).
Hypothesis DB : d_b d = b.
Hypothesis DE : eff_antennas (d_tm d) = e.
Hypothesis TM : d_tm d <= 11.
Hypothesis BP : In (bits_per_cell (d_mcs d)) [1; 2; 4; 6; 8].
Hypothesis TD : T = data_before b e (DF + 1).
Hypothesis TB : T <= 1146880.
Hypothesis DFB : DF <= 1280.
Hypothesis HG : G = streams (d_tm d) * T * bits_per_cell (d_mcs d).
Hypothesis HC : streams (d_tm d) * (56 * b) + 23 <= cap.
Notation bps := (bits_per_cell (d_mcs d)).
Notation ss := (streams (d_tm d)).
Notation cfg := (mkCfg e ss (diversity (d_tm d)) bps G cap).

Definition state_at (l : N) (s : txst) : Prop :=
  let n := ss * data_before b e l in
  t_pcc s = 98 - pending b e l /\ t_drs s = 14 * b * refs e l /\ t_subc s = n /\ t_res s <= 23 /\
  t_bits s = bps * (n + t_res s) /\ t_buf s = waiting bps n (t_res s) /\ n + t_res s <= ss * T /\
  ((bps * (n + t_res s)) mod 24 = 0 \/ n + t_res s = ss * T) /\ (data_before b e l = 0 -> t_res s = 0).

Lemma symbol_ok l s c' : 1 <= l <= DF -> state_at l s -> comps_step (t_c s) l = Ok (cells_of b e l, c') ->
  exists s', tx_symbol cfg s l = Ok (symbol_of d l, s') /\ t_c s' = c' /\ state_at (l + 1) s'.
Proof.
  intros L (A1 & A2 & A3 & A4 & A5 & A6 & A7 & A8 & A9) C. assert (L1 : 1 <= l) by lia.
  pose proof (all_facts l L1) as F. pose proof (f_control _ _ _ F) as F1. pose proof (f_free _ _ _ F) as F2.
  pose proof (f_parts _ _ _ F) as F3. pose proof (f_even _ _ _ F) as F4. pose proof (f_many _ _ _ F) as F5.
  destruct (cells_before l L1) as (CB1 & CB2 & CB3). pose proof (before_even l L1) as BE.
  pose proof (before_mono (l + 1) (DF + 1) ltac:(lia) ltac:(lia)) as BM. rewrite <- TD in BM. pose proof (before_next b e l L1) as BN.
  assert (BB : 1 <= b <= 16) by (clear - B; cbn [In] in B; lia). assert (EB : 1 <= e <= 8) by (clear - E0; cbn [In] in E0; lia).
  unfold tx_symbol. rewrite C. cbn [bind cells_of a_pcc a_drs a_pdc].
  (* control *)
  assert (PC : match nonempty (control b e l) with Some ks => run_pcc e (t_pcc s) ks | None => Ok ([], t_pcc s) end =
               Ok (flat_map (send_control e) (number_from (98 - pending b e l) (control b e l)), 98 - pending b e (l + 1))).
  { rewrite A1. destruct (control b e l) as [|k ks] eqn:EC; cbn [nonempty].
    - cbn. do 2 f_equal. unfold len in F1. cbn [length] in F1. lia.
    - rewrite <- EC in *. rewrite run_pcc_ok by (auto; lia). do 2 f_equal. lia. }
  cbn [x_ts]. rewrite PC. cbn [bind].
  (* reference *)
  assert (DR : match report_of b e l with Some r => run_drs (t_drs s) r | None => Ok ([], t_drs s) end =
               Ok (flat_map (send_reference b e l) (upto e), 14 * b * refs e (l + 1))).
  { rewrite A2, refs_next by exact L1. destruct (report_of b e l) as [r|] eqn:R.
    - assert (RB : 56 * b * (l - 1) <= 896 * 1280) by (apply N.mul_le_mono; lia).
      rewrite (run_drs_ok b e l _ r) by (auto; lia). do 2 f_equal. lia.
    - pose proof R as R'. unfold report_of in R'. destruct (active_streams e l) eqn:AS; [|discriminate].
      rewrite <- active_flat by (intros t T'; apply upto_in in T'; apply (f_ref _ _ _ F); auto).
      fold (active_streams e l). rewrite AS. cbn. do 2 f_equal. change (len (@nil N)) with 0. lia. }
  rewrite DR. cbn [bind].
  (* data *)
  assert (PD : exists r', r' <= 23 /\ ss * data_before b e (l + 1) + r' <= ss * T /\
     ((bps * (ss * data_before b e (l + 1) + r')) mod 24 = 0 \/ ss * data_before b e (l + 1) + r' = ss * T) /\
     (data_before b e (l + 1) = 0 -> r' = 0) /\
     match nonempty (data b e l) with
     | Some ks => run_pdc cfg (t_bits s) (t_subc s) (t_res s) (t_buf s) ks
     | None => Ok ([], (t_bits s, t_subc s, t_res s, t_buf s))
     end = Ok (flat_map (send_data (d_tm d) bps) (number_from (data_before b e l) (data b e l)),
               (bps * (ss * data_before b e (l + 1) + r'), ss * data_before b e (l + 1), r', waiting bps (ss * data_before b e (l + 1)) r'))).
  { destruct (data b e l) as [|k ks] eqn:ED; cbn [nonempty].
    - exists (t_res s). change (len (@nil N)) with 0 in *. rewrite N.add_0_r in BN. rewrite BN, A5, A3, A6. auto 10.
    - rewrite <- ED in *. assert (LD : 0 < len (data b e l)) by (rewrite ED; unfold len; cbn [length]; lia).
      assert (S1 : 1 <= ss) by (destruct (streams_cases _ TM); lia).
      assert (SR : t_res s <= ss * len (data b e l)).
      { assert (1 * len (data b e l) <= ss * len (data b e l)) by (apply N.mul_le_mono_r; exact S1).
        destruct F5 as [F5|[F5|(_ & F5)]]; [lia|lia|rewrite (A9 F5); lia]. }
      assert (LF : len (data b e l) <= 56 * b) by lia.
      assert (SC : ss * len (data b e l) <= ss * (56 * b)) by (apply N.mul_le_mono_l; exact LF).
      destruct (run_pdc_ok (d_tm d) bps T G cap (data_before b e l) (t_res s) (data b e l)) as (r' & Q1 & Q2 & Q3 & Q4); auto; try lia.
      rewrite <- BN in Q2, Q3, Q4. exists r'. split; [exact Q1|]. split; [exact Q2|]. split; [exact Q3|]. split; [lia|].
      rewrite A5, A3, A6. rewrite DE in Q4. exact Q4. }
  destruct PD as (r' & Q1 & Q2 & Q3 & Q5 & Q4). rewrite Q4. cbn [bind]. eexists. split.
  - apply (f_equal (@Ok (osym * txst))). unfold symbol_of. rewrite DB, DE. reflexivity.
  - split; [reflexivity|]. unfold state_at. cbn [t_pcc t_drs t_subc t_res t_bits t_buf]. auto 12.
Qed.

Lemma symbols_ok m : forall l s c', 1 <= l -> l + N.of_nat m <= DF + 1 -> state_at l s -> chain b e m l (t_c s) c' ->
  exists s', tx_symbols cfg s (nseq l m) = Ok (map (symbol_of d) (nseq l m), s') /\ state_at (l + N.of_nat m) s'.
Proof.
  induction m as [|m IH]; intros l s c' L H A C.
  - exists s. cbn [nseq tx_symbols map]. rewrite N.add_0_r. auto.
  - cbn [chain] in C. destruct C as (s1 & C1 & C2).
    destruct (symbol_ok l s s1 ltac:(lia) A C1) as (s' & S1 & S2 & S3).
    destruct (IH (l + 1) s' c' ltac:(lia) ltac:(lia) S3) as (s'' & X1 & X2); [rewrite S2; exact C2|].
    exists s''. cbn [nseq tx_symbols map]. rewrite S1. cbn [bind]. rewrite X1. cbn [bind]. split; [reflexivity|].
    replace (l + N.of_nat (S m)) with (l + 1 + N.of_nat m) by lia. exact X2.
Qed.
End Sums.
