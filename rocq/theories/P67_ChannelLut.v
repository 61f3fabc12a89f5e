(** C74: a channel estimate is interpolated from reference cells where they really are. *)
From Coq Require Import QArith Qabs Lqa.
From Verif Require Import Base PacketSizes Cells CellsSpec CellsCheck CellsFacts RxSymbols RxSymbolsSpec RxSymbolsFacts ChannelLut ChannelLutSpec ChannelLutFacts ChannelLutRunFacts.
Open Scope N_scope.

(** Tables for bandwidths up to [b_max] and up to [M] streams are used for bandwidth [b]. *)
Definition bands (b_max b : N) : Prop := In b_max [1; 2; 4; 8; 12; 16] /\ In b [1; 2; 4; 8; 12; 16] /\ b <= b_max.
(** As many cells are used as the smallest bandwidth has. *)
Definition enough (st : stats) : Prop := 1 <= n_lr st <= 28 /\ 1 <= n_l st <= 14.
(** The filter gives a weight per cell. *)
Definition per_cell (W : coord -> list coord -> list coord -> list Q) : Prop := forall p r w, length (W p r w) = length w.

(** ** Lemmas *)
Lemma bands_idx b_max b : bands b_max b -> exists m i, In (m, b_max) bandwidths /\ In (i, b) bandwidths /\ i <= m /\ b2b_idx b = Ok i.
Proof.
  intros (M & B & L). cbn [In] in M, B.
  decompose [or] M; try contradiction; subst b_max; decompose [or] B; try contradiction; subst b; try lia;
    (eexists; eexists; split; [cbn; intuition reflexivity|split; [cbn; intuition reflexivity|split; [|reflexivity]; lia]]).
Qed.
Lemma families D W b_max M m st : per_cell W -> enough st -> In (m, b_max) bandwidths ->
  sure (lut_new D W b_max M st) (fun T => family_ok W 0 (n_l st) m (lut_0 T) /\ family_ok W 5 (n_lr st) m (lut_5 T) /\
    (4 <= M -> family_ok W 10 (n_lr st) m (lut_10 T))).
Proof.
  intros WL (E1 & E2) I. unfold lut_new.
  eapply sure_bind; [apply (family_sure D W WL 0 b_max m st I); split; cbn [N.ltb N.compare]; lia|]. intros a A.
  eapply sure_bind; [apply (family_sure D W WL 5 b_max m st I); split; cbn [N.ltb N.compare]; lia|]. intros c C.
  eapply (sure_bind _ _ (fun d => 4 <= M -> family_ok W 10 (n_lr st) m d)).
  - destruct (N.leb_spec 4 M) as [L|L]; [|cbn; lia]. eapply sure_imp; [apply (family_sure D W WL 10 b_max m st I); split; cbn [N.ltb N.compare]; lia|]. auto.
  - intros d Dd. cbn. auto.
Qed.
(** The row chosen for stream [t] of stage [p]. *)
Lemma rows_chosen W step n m F i b p rel t : family_ok W step n m F -> In (i, b) bandwidths -> i <= m -> rel <= step -> t < 4 ->
  exists vs rows r, fam_block F = concat vs /\ sized n vs /\ symbol_rows F i p rel = Ok rows /\ at_idx rows t = Ok r /\
    row_ok W (coords b ((t + 2 * p) mod 4) step) n (rel + 1) (56 * b + 1) vs r.
Proof.
  intros (FL & vs & BL & Z & _ & H) I Im R T. destruct (H i b I Im) as (L & AL & L4 & S). unfold symbol_rows. rewrite AL. cbn [bind]. rewrite L4, FL. cbn [guard N.eqb Pos.eqb].
  replace (rel <? step + 1) with true by lia. cbn [guard].
  destruct (S 0 ltac:(lia)) as (s0 & A0 & _ & R0). destruct (S 1 ltac:(lia)) as (s1 & A1 & _ & R1). destruct (S 2 ltac:(lia)) as (s2 & A2 & _ & R2). destruct (S 3 ltac:(lia)) as (s3 & A3 & _ & R3).
  destruct (R0 rel ltac:(lia)) as (r0 & B0 & O0). destruct (R1 rel ltac:(lia)) as (r1 & B1 & O1). destruct (R2 rel ltac:(lia)) as (r2 & B2 & O2). destruct (R3 rel ltac:(lia)) as (r3 & B3 & O3).
  assert (EL : L = [s0; s1; s2; s3]).
  { apply at_nth in A0, A1, A2, A3. unfold len in L4. destruct L as [|? [|? [|? [|? [|]]]]]; cbn in L4; try lia.
    change (N.to_nat 0) with 0%nat in A0. change (N.to_nat 1) with 1%nat in A1. change (N.to_nat 2) with 2%nat in A2. change (N.to_nat 3) with 3%nat in A3. cbn in A0, A1, A2, A3. congruence. }
  subst L. cbn [mapM]. rewrite B0, B1, B2, B3. cbn [bind].
  assert (TC : t = 0 \/ t = 1 \/ t = 2 \/ t = 3) by lia.
  destruct (N.eqb_spec (p mod 2) 1) as [P|P].
  - exists vs, [r2; r3; r0; r1]. 
    decompose [or] TC; subst t; [exists r2|exists r3|exists r0|exists r1]; (split; [exact BL|split; [exact Z|split; [reflexivity|split; [reflexivity|]]]]).
    + replace ((0 + 2 * p) mod 4) with 2 by lia. exact O2.
    + replace ((1 + 2 * p) mod 4) with 3 by lia. exact O3.
    + replace ((2 + 2 * p) mod 4) with 0 by lia. exact O0.
    + replace ((3 + 2 * p) mod 4) with 1 by lia. exact O1.
  - exists vs, [r0; r1; r2; r3].
    decompose [or] TC; subst t; [exists r0|exists r1|exists r2|exists r3]; (split; [exact BL|split; [exact Z|split; [reflexivity|split; [reflexivity|]]]]).
    + replace ((0 + 2 * p) mod 4) with 0 by lia. exact O0.
    + replace ((1 + 2 * p) mod 4) with 1 by lia. exact O1.
    + replace ((2 + 2 * p) mod 4) with 2 by lia. exact O2.
    + replace ((3 + 2 * p) mod 4) with 3 by lia. exact O3.
Qed.
(** The stored cells, and their positions. *)
Lemma flat_labels b c (g : bool -> N) :
  flat_map (fun k => if rank b k mod 4 =? c then [(k, g true)] else if rank b k mod 4 =? c + 2 then [(k, g false)] else []) (occupied b) =
  map (fun p => (fst p, g (snd p))) (merged b c).
Proof.
  unfold merged. generalize (occupied b). intros l. induction l as [|k l IH]; [reflexivity|]. cbn [flat_map]. rewrite map_app, IH.
  destruct (rank b k mod 4 =? c); [reflexivity|]. destruct (rank b k mod 4 =? c + 2); reflexivity.
Qed.
Lemma map_interlace_labels c d (g : bool -> N) : map (fun p : N * bool => (fst p, g (snd p))) (interlace (map (fun k => (k, true)) c) (map (fun k => (k, false)) d)) =
  interlace (map (fun k => (k, g true)) c) (map (fun k => (k, g false)) d).
Proof. rewrite <- interlace_map, !map_map. reflexivity. Qed.
Lemma symbols_differ e t p : ref_symbol e t p <> ref_symbol e t (p + 1).
Proof. unfold ref_symbol. assert (0 < spacing e) by (unfold spacing; destruct (e <=? 2); lia). nia. Qed.
Lemma two_cells i b e stride t l : In (i, b) bandwidths -> t < 4 -> 1 <= l ->
  let x := two_sided e stride t l in pilots i e t x = Ok (cells_for b e t x) /\
  map (position e x) (cells_for b e t x) = coords b ((t + 2 * e_stage x) mod 4) (spacing e).
Proof.
  intros I T _ x. set (p := stage_of e l) in *. assert (ST : e_stage x = p) by reflexivity. rewrite ST.
  assert (S0 : 0 < spacing e) by (unfold spacing; destruct (e <=? 2); lia).
  assert (PL : forall k, position e x (k, ref_symbol e t p) = mkCoord k 1).
  { intros k. unfold position, ref_symbol, first_symbol. rewrite ST. cbn [fst snd]. replace (t <? 4) with true by lia. f_equal. lia. }
  assert (PR : forall k, position e x (k, ref_symbol e t (p + 1)) = mkCoord k (1 + spacing e)).
  { intros k. unfold position, ref_symbol, first_symbol. rewrite ST. cbn [fst snd]. replace (t <? 4) with true by lia. f_equal. nia. }
  unfold coords. replace (0 <? spacing e) with true by lia. unfold pilots, cells_for, sources. subst x. unfold two_sided. fold p. cbn [e_from e_both e_stage].
  set (r := (t + 2 * p) mod 4) in *.
  destruct (N.eqb_spec ((p + t mod 4 / 2) mod 2) 0) as [O|O].
  - assert (R : r <= 1) by (unfold r; clear - O T; lia). replace (r <=? 1) with true by lia. cbn [flat_map app].
    rewrite !(stored_class i b) by assumption. cbn [bind]. replace ((t + 2 * (p + 1)) mod 4) with (r + 2) by (unfold r in *; clear - R T; lia). fold r.
    set (g := fun c : bool => if c then ref_symbol e t p else ref_symbol e t (p + 1)).
    assert (E : flat_map (fun k => map (fun l0 => (k, l0)) (filter (fun l0 => is_reference b e t l0 k) [ref_symbol e t p; ref_symbol e t (p + 1)])) (occupied b) =
      interlace (map (fun k => (k, ref_symbol e t p)) (cls b r)) (map (fun k => (k, ref_symbol e t (p + 1))) (cls b (r + 2)))).
    { symmetry. etransitivity; [symmetry; exact (map_interlace_labels (cls b r) (cls b (r + 2)) g)|]. symmetry. rewrite <- (mg_eq _ _ (merge_all i b r I R)), <- (flat_labels b r g).
      apply flat_map_ext. intros k. cbn [filter]. rewrite !is_ref_class. replace ((t + 2 * (p + 1)) mod 4) with (r + 2) by (unfold r in *; clear - R T; lia). fold r.
      destruct (N.eqb_spec (rank b k mod 4) r) as [E1|E1]; destruct (N.eqb_spec (rank b k mod 4) (r + 2)) as [E2|E2]; try reflexivity. exfalso. clear - E1 E2. lia. }
    rewrite E. split; [reflexivity|]. rewrite <- interlace_map, !map_map. f_equal; apply map_ext; assumption.
  - assert (R : 2 <= r < 4) by (unfold r; clear - O T; lia). replace (r <=? 1) with false by lia. cbn [flat_map app].
    rewrite !(stored_class i b) by assumption. cbn [bind]. replace ((t + 2 * (p + 1)) mod 4) with (r - 2) by (unfold r in *; clear - R T; lia). fold r.
    set (g := fun c : bool => if c then ref_symbol e t (p + 1) else ref_symbol e t p).
    assert (R1 : r - 2 <= 1) by lia. pose proof (merge_all i b (r - 2) I R1) as MG. destruct MG as [_ _ _ _ _ MG]. replace (r - 2 + 2) with r in MG by lia.
    assert (E : flat_map (fun k => map (fun l0 => (k, l0)) (filter (fun l0 => is_reference b e t l0 k) [ref_symbol e t (p + 1); ref_symbol e t p])) (occupied b) =
      interlace (map (fun k => (k, ref_symbol e t (p + 1))) (cls b (r - 2))) (map (fun k => (k, ref_symbol e t p)) (cls b r))).
    { symmetry. etransitivity; [symmetry; exact (map_interlace_labels (cls b (r - 2)) (cls b r) g)|]. symmetry. rewrite <- MG, <- (flat_labels b (r - 2) g).
      apply flat_map_ext. intros k. cbn [filter]. rewrite !is_ref_class. replace ((t + 2 * (p + 1)) mod 4) with (r - 2) by (unfold r in *; clear - R T; lia). fold r.
      replace (r - 2 + 2) with r by lia.
      destruct (N.eqb_spec (rank b k mod 4) (r - 2)) as [E1|E1]; destruct (N.eqb_spec (rank b k mod 4) r) as [E2|E2]; try reflexivity. exfalso. clear - E1 E2 R. lia. }
    rewrite E. split; [reflexivity|]. rewrite <- interlace_map, !map_map. f_equal; apply map_ext; assumption.
Qed.
Lemma filter_flat (P : N -> bool) l (y : N) : flat_map (fun k => map (fun z => (k, z)) (if P k then [y] else [])) l = map (fun k => (k, y)) (filter P l).
Proof. induction l as [|k l IH]; [reflexivity|]. cbn [flat_map filter]. destruct (P k); cbn; rewrite IH; reflexivity. Qed.
Lemma one_cells i b e t l : In (i, b) bandwidths -> t < 4 -> 1 <= l ->
  let x := one_sided e t l in pilots i e t x = Ok (cells_for b e t x) /\
  map (position e x) (cells_for b e t x) = coords b ((t + 2 * e_stage x) mod 4) 0.
Proof.
  intros I T L x. unfold x, one_sided. set (p := (l - first_symbol t) / spacing e). cbn [e_stage]. unfold pilots, cells_for, sources. cbn [e_from e_both e_stage flat_map app].
  rewrite (stored_class i b) by assumption. unfold coords. cbn [N.ltb N.compare filter]. rewrite (filter_flat (fun k => is_reference b e t (ref_symbol e t p) k)).
  replace (filter (fun k => is_reference b e t (ref_symbol e t p) k) (occupied b)) with (cls b ((t + 2 * p) mod 4)) by (symmetry; exact (reference_class b e t p)). split; [reflexivity|]. rewrite map_map. apply map_ext. intros k. unfold position, ref_symbol, first_symbol. cbn [fst snd e_stage].
  replace (t <? 4) with true by lia. f_equal. lia.
Qed.
Lemma place_le e stride t l : 1 <= l -> In e [1; 2; 4] -> e_place (two_sided e stride t l) <= spacing e.
Proof.
  intros L E. unfold two_sided. cbn [e_place]. unfold place_of, stage_of. set (s := spacing e). assert (S0 : 0 < s) by (unfold s, spacing; destruct (e <=? 2); lia).
  pose proof (N.div_mod (l - 2) s ltac:(lia)). pose proof (N.mod_lt (l - 2) s ltac:(lia)). clearbody s. nia.
Qed.

(** ** Theorems *)
(** Making the tables reads nothing it should not and ends with the tables, unless one of its assertions fails: that there are
    no weights for a smaller bandwidth that the largest does not have, and that numbers of weights are below 2^32. Those about
    the reference cells do not fail. *)
Theorem C74_made D W st b_max M : per_cell W -> enough st -> In b_max [1; 2; 4; 8; 12; 16] ->
  (exists T, lut_new D W b_max M st = Ok T) \/ lut_new D W b_max M st = Abort.
Proof.
  intros WL E B. destruct (bands_idx b_max b_max) as (m & i & I & _); [repeat split; auto; lia|].
  pose proof (families D W b_max M m st WL E I) as S. destruct (lut_new D W b_max M st) as [T| | |]; cbn in S; [left; exists T; reflexivity|right; reflexivity|contradiction|contradiction].
Qed.
Theorem C74_pilots b ts step : In b [1; 2; 4; 8; 12; 16] -> ts < 4 -> exists i tab cs, b2b_idx b = Ok i /\ drs_row 4 i = Ok tab /\
  s0_pilots (k_12 tab) (k_6 tab) ts step = Ok cs /\ len cs = (if 0 <? step then 28 * b else 14 * b).
Proof.
  intros B T. destruct (bands_idx b b) as (m & i & _ & I & _ & E); [repeat split; auto; lia|]. destruct (drs_row_4 i b I) as (tab & R & K1 & K2).
  destruct (s0_coords i b tab ts step I K1 K2 T) as (S & L). exists i, tab, (coords b ts step). repeat split; auto. rewrite L. destruct (0 <? step); lia.
Qed.

(** The estimate of stream [t] of a packet for subcarrier [f], as a sum of weights and reference cells: the cells are
    consecutive reference cells of the stream, of the symbols the estimate is made of; the weights are those of the filter for
    the subcarrier and the symbol the estimate is made for, and for the cells where they are, up to 1e-4. *)
Theorem C74_interpolated_partial D W st b_max M T b e both stride t l f :
  per_cell W -> enough st -> bands b_max b -> lut_new D W b_max M st = Ok T ->
  In e [1; 2; 4] -> e <= M -> t < e -> 1 <= l -> f <= 56 * b ->
  let x := used e both stride t l in
  exists i ws cells, b2b_idx b = Ok i /\ interpolate T st i e t x f = Ok (combine ws cells) /\
    len cells = (if both then n_lr st else n_l st) /\ stretch cells (cells_for b e t x) /\
    let ps := map (position e x) cells in alike (W (position e x (f, symbol_for e x)) ps ps) ws.
Proof.
  intros WL EN BD LT E EM T0 L F x. destruct (bands_idx b_max b BD) as (m & i & Im & I & Le & Bi).
  pose proof (families D W b_max M m st WL EN Im) as S. rewrite LT in S. cbn in S. destruct S as (F0 & F5 & F10).
  assert (T4 : t < 4) by (cbn [In] in E; lia).
  assert (FO : family_ok W (if both then spacing e else 0) (if both then n_lr st else n_l st) m (fst (choose T st both e)) /\ snd (choose T st both e) = (if both then n_lr st else n_l st)).
  { unfold choose, spacing. destruct both; [|split; [exact F0|reflexivity]]. split; [|reflexivity]. cbn [fst]. destruct (N.leb_spec e 2) as [Q0|Q0]; [exact F5|]. apply F10. cbn [In] in E. lia. }
  assert (PX : e_both x = both /\ e_place x <= (if both then spacing e else 0) /\ pilots i e t x = Ok (cells_for b e t x) /\
     map (position e x) (cells_for b e t x) = coords b ((t + 2 * e_stage x) mod 4) (if both then spacing e else 0)).
  { unfold x, used. destruct both.
    - split; [reflexivity|]. split; [apply place_le; assumption|]. apply two_cells; assumption.
    - split; [reflexivity|]. split; [unfold one_sided, first_symbol; replace (t <? 4) with true by lia; cbn; lia|]. apply one_cells; assumption. }
  destruct PX as (XB & XP & XC & XM). clearbody x. destruct (choose T st both e) as (Fm, n) eqn:CH. cbn [fst snd] in FO. destruct FO as (FO & ->).
  set (n := if both then n_lr st else n_l st) in *. set (step := if both then spacing e else 0) in *.
  destruct (rows_chosen W step n m Fm i b (e_stage x) (e_place x) t FO I Le XP T4) as (vs & rows & r & BL & Z & SR & AR & _ & _ & RO).
  destruct (RO f ltac:(lia)) as (a & j & A1 & A2 & EI & v & V & AL). rewrite <- XM in EI, AL.
  assert (LEN : len (map (position e x) (cells_for b e t x)) = len (cells_for b e t x)) by (unfold len; rewrite map_length; reflexivity). rewrite LEN in EI.
  exists i, v, (cut (cells_for b e t x) a n). split; [exact Bi|]. split; [|split; [apply cut_len; exact EI|split; [apply cut_stretch|]]].
  - unfold interpolate. rewrite XB, CH, SR. cbn [bind]. rewrite (N.mod_small t 4 T4), AR. cbn [bind]. rewrite A1. cbn [bind]. rewrite A2. cbn [bind]. rewrite XC. cbn [bind].
    rewrite (window_cut _ _ _ EI). cbn [bind]. rewrite BL, (block_at vs n j v Z V). reflexivity.
  - rewrite cut_map in AL. cbv zeta. replace (position e x (f, symbol_for e x)) with (mkCoord f (e_place x + 1)); [exact AL|].
    unfold position, symbol_for. cbn [fst snd]. f_equal. lia.
Qed.
(** Missing: packets of eight streams, for which it does not hold. *)
Theorem C74_eight_streams_refuted D W st b_max M T b t :
  per_cell W -> enough st -> bands b_max b -> lut_new D W b_max M st = Ok T -> 4 <= t < 8 ->
  exists i, b2b_idx b = Ok i /\ forall l f, 2 <= l -> interpolate T st i 8 t (one_sided 8 t l) f = Abort.
Proof.
  intros WL EN BD LT T0. destruct (bands_idx b_max b BD) as (m & i & Im & I & Le & Bi).
  pose proof (families D W b_max M m st WL EN Im) as S. rewrite LT in S. cbn in S. destruct S as ((FL & vs & _ & _ & _ & H) & _).
  destruct (H i b I Le) as (L & AL & L4 & _). exists i. split; [exact Bi|]. intros l f _. unfold interpolate, one_sided, choose. cbn [e_both e_stage e_place]. unfold symbol_rows. rewrite AL. cbn [bind].
  rewrite L4, FL. cbn [guard N.eqb Pos.eqb]. unfold first_symbol. replace (t <? 4) with false by lia. reflexivity.
Qed.

(** The window is the nearest of those from the last one on up to where the search ends: at the last window, or at one that is
    more than a tenth farther away. *)
Theorem C74_window D p cs n prev : prev + n <= len cs -> (total D p (cut cs prev n) < 1000000000 # 1)%Q ->
  exists j stop, s1_find D p cs n prev = Ok j /\ prev <= j < stop /\ j + n <= len cs /\
    (forall q, prev <= q < stop -> (total D p (cut cs j n) <= total D p (cut cs q n))%Q) /\
    (stop = len cs - n + 1 \/ (stop <= len cs - n /\ (total D p (cut cs j n) * (11 # 10) < total D p (cut cs (stop - 1) n))%Q)).
Proof. intros H T. destruct (s1_best D p cs n prev H T) as (j & stop & A & (B1 & B2) & C & E). exists j, stop. auto. Qed.
(** A distance that is Euclidian up to a thousandth. *)
Definition square_distance (p c : coord) : Q :=
  (inject_Z ((Z.of_N (c_f p) - Z.of_N (c_f c)) * (Z.of_N (c_f p) - Z.of_N (c_f c)) + (Z.of_N (c_t p) - Z.of_N (c_t c)) * (Z.of_N (c_t p) - Z.of_N (c_t c))))%Z.
Definition euclidian (D : coord -> coord -> Q) : Prop := forall p c lo hi, (0 <= lo -> 0 <= hi -> lo * lo <= square_distance p c <= hi * hi ->
  lo - (1 # 1000) <= D p c <= hi + (1 # 1000))%Q.
(** The window is not always the nearest of all, even from the first one on: with three cells of two symbols ten apart, for
    subcarrier 5 of the first symbol the search ends before the nearest window is reached. *)
Theorem C74_nearest_refuted D : euclidian D -> exists tab cs, drs_row 4 0 = Ok tab /\ s0_pilots (k_12 tab) (k_6 tab) 0 10 = Ok cs /\
  s1_find D (mkCoord 5 1) cs 3 0 = Ok 0 /\ (total D (mkCoord 5 1) (cut cs 2 3) < total D (mkCoord 5 1) (cut cs 0 3))%Q.
Proof.
  intros E. destruct (drs_row_4 0 1) as (tab & R & K1 & K2); [left; reflexivity|].
  exists tab, (coords 1 0 10). split; [exact R|]. split; [apply (s0_coords 0 1); auto; [left; reflexivity|lia]|].
  set (p := mkCoord 5 1).
  assert (X : exists r, coords 1 0 10 = mkCoord 0 1 :: mkCoord 2 11 :: mkCoord 4 1 :: mkCoord 6 11 :: mkCoord 8 1 :: r /\ length r = 23%nat).
  { eexists. split; [vm_compute; reflexivity|reflexivity]. }
  destruct X as (r & -> & Lr).
  assert (B : forall c lo hi, (0 <= lo -> 0 <= hi -> lo * lo <= square_distance p c <= hi * hi -> lo - (1 # 1000) <= D p c <= hi + (1 # 1000))%Q) by (intros; apply E; assumption).
  assert (D0 : (5 - (1 # 1000) <= D p (mkCoord 0 1) <= 5 + (1 # 1000))%Q) by (apply B; vm_compute; intuition discriminate).
  assert (D1 : ((1043 # 100) - (1 # 1000) <= D p (mkCoord 2 11) <= (1045 # 100) + (1 # 1000))%Q) by (apply B; vm_compute; intuition discriminate).
  assert (D2 : (1 - (1 # 1000) <= D p (mkCoord 4 1) <= 1 + (1 # 1000))%Q) by (apply B; vm_compute; intuition discriminate).
  assert (D3 : ((1004 # 100) - (1 # 1000) <= D p (mkCoord 6 11) <= (1006 # 100) + (1 # 1000))%Q) by (apply B; vm_compute; intuition discriminate).
  assert (D4 : (3 - (1 # 1000) <= D p (mkCoord 8 1) <= 3 + (1 # 1000))%Q) by (apply B; vm_compute; intuition discriminate).
  set (cs := mkCoord 0 1 :: _). assert (LC : len cs = 28) by (unfold cs, len; cbn [length]; rewrite Lr; reflexivity).
  assert (W0 : cut cs 0 3 = [mkCoord 0 1; mkCoord 2 11; mkCoord 4 1]) by reflexivity.
  assert (W1 : cut cs 1 3 = [mkCoord 2 11; mkCoord 4 1; mkCoord 6 11]) by reflexivity.
  assert (W2 : cut cs 2 3 = [mkCoord 4 1; mkCoord 6 11; mkCoord 8 1]) by reflexivity.
  assert (T0 : (total D p (cut cs 0 3) == D p (mkCoord 0 1) + D p (mkCoord 2 11) + D p (mkCoord 4 1))%Q) by (rewrite W0; unfold total; cbn [fold_left]; ring).
  assert (T1 : (total D p (cut cs 1 3) == D p (mkCoord 2 11) + D p (mkCoord 4 1) + D p (mkCoord 6 11))%Q) by (rewrite W1; unfold total; cbn [fold_left]; ring).
  assert (T2 : (total D p (cut cs 2 3) == D p (mkCoord 4 1) + D p (mkCoord 6 11) + D p (mkCoord 8 1))%Q) by (rewrite W2; unfold total; cbn [fold_left]; ring).
  split; [|lra].
  unfold s1_find. replace (len cs <? 3) with false by (rewrite LC; reflexivity). replace (N.to_nat (len cs - 3 + 1 - 0)) with 26%nat by (rewrite LC; reflexivity).
  cbn [scan]. rewrite window_cut by lia. cbn [bind]. replace (Qlt_bool (total D p (cut cs 0 3)) (1000000000 # 1)) with true by (symmetry; apply Qlt_bool_iff; lra).
  replace (Qlt_bool (total D p (cut cs 0 3) * (11 # 10)) (total D p (cut cs 0 3))) with false by (symmetry; apply Qlt_bool_no; lra).
  change (0 + 1) with 1. cbn [scan]. rewrite window_cut by lia. cbn [bind]. replace (Qlt_bool (total D p (cut cs 1 3)) (total D p (cut cs 0 3))) with false by (symmetry; apply Qlt_bool_no; lra).
  replace (Qlt_bool (total D p (cut cs 0 3) * (11 # 10)) (total D p (cut cs 1 3))) with true by (symmetry; apply Qlt_bool_iff; lra). reflexivity.
Qed.

(** The tables used are those whose SNR is nearest to the measured one. *)
Theorem C74_pick now snrs i : pick now snrs = Ok i -> exists s, nth_error snrs (N.to_nat i) = Some s /\ forall s', In s' snrs -> (Qabs (now - s) <= Qabs (now - s'))%Q.
Proof.
  destruct snrs as [|s r]; [discriminate|]. cbn [pick].
  set (f := fun a x => let d := Qabs (now - snd x) in if Qle_bool d (snd a) then (fst x, d) else a).
  assert (G : forall r pre a, (exists s, nth_error pre (N.to_nat (fst a)) = Some s /\ snd a = Qabs (now - s) /\ forall s', In s' pre -> (Qabs (now - s) <= Qabs (now - s'))%Q) ->
    exists s, nth_error (pre ++ r) (N.to_nat (fst (fold_left f (combine (nseq (len pre) (length r)) r) a))) = Some s /\ forall s', In s' (pre ++ r) -> (Qabs (now - s) <= Qabs (now - s'))%Q).
  { clear. induction r as [|x r IH]; intros pre a (s & S1 & S2 & S3).
    - cbn. rewrite app_nil_r. exists s. auto.
    - cbn [length nseq combine fold_left]. replace (pre ++ x :: r) with ((pre ++ [x]) ++ r) by (rewrite <- app_assoc; reflexivity).
      replace (len pre + 1) with (len (pre ++ [x])) by (rewrite len_app; reflexivity). apply IH. unfold f. cbv zeta. cbn [fst snd].
      destruct (Qle_bool (Qabs (now - x)) (snd a)) eqn:E; cbn [fst snd].
      + exists x. split; [unfold len; rewrite Nat2N.id, nth_error_app2, Nat.sub_diag by lia; reflexivity|]. split; [reflexivity|]. apply Qle_bool_iff in E. rewrite S2 in E.
        intros s' I. apply in_app_iff in I as [I|[<-|[]]]; [eapply Qle_trans; [exact E|apply S3; exact I]|apply Qle_refl].
      + exists s. split; [rewrite nth_error_app1; [exact S1|apply nth_error_Some; congruence]|]. split; [exact S2|].
        intros s' I. apply in_app_iff in I as [I|[<-|[]]]; [apply S3; exact I|]. apply Qlt_le_weak, Qnot_le_lt. rewrite <- S2. intros C. apply Qle_bool_iff in C. congruence. }
  intros H. specialize (G r [s] (0, Qabs (now - s))). change (len [s]) with 1 in G. injection H as <-. apply G. cbn [fst snd]. exists s. split; [reflexivity|]. split; [reflexivity|].
  intros s' [<-|[]]. apply Qle_refl.
Qed.

(** ** Concrete cases *)
(** Squared distances; a cell on the subcarrier counts 3/4, others 1/4. *)
Definition D_ex (p c : coord) : Q := square_distance p c.
Definition W_ex (p : coord) (r w : list coord) : list Q := map (fun c => if c_f c =? c_f p then 3 # 4 else 1 # 4)%Q w.
Definition st_ex : stats := mkStats 2 1.
Example C74_nonvacuous :
  per_cell W_ex /\ enough st_ex /\ bands 1 1 /\
  (exists T, lut_new D_ex W_ex 1 2 st_ex = Ok T /\
     interpolate T st_ex 0 2 1 (used 2 true 1 1 9) 5 = Ok [((1 # 4)%Q, (3, 6)); ((3 # 4)%Q, (5, 11))] /\
     interpolate T st_ex 0 2 1 (used 2 false 1 1 9) 4 = Ok [((1 # 4)%Q, (3, 6))]) /\
  pick 3 [(-5)%Q; 15%Q; 35%Q] = Ok 0 /\ pick 30 [(-5)%Q; 15%Q; 35%Q] = Ok 2.
Proof.
  split; [intros p r w; apply map_length|]. split; [unfold enough; cbn; lia|]. split; [split; [left; reflexivity|split; [left; reflexivity|lia]]|].
  split; [|split; vm_compute; reflexivity].
  assert (H : match lut_new D_ex W_ex 1 2 st_ex with
    | Ok T => interpolate T st_ex 0 2 1 (used 2 true 1 1 9) 5 = Ok [((1 # 4)%Q, (3, 6)); ((3 # 4)%Q, (5, 11))] /\
        interpolate T st_ex 0 2 1 (used 2 false 1 1 9) 4 = Ok [((1 # 4)%Q, (3, 6))]
    | _ => False end) by (vm_compute; split; reflexivity).
  destruct (lut_new D_ex W_ex 1 2 st_ex) as [T| | |]; try contradiction. exists T. split; [reflexivity|exact H].
Qed.
(** Square roots rounded to four decimal places. *)
Definition D_root (p c : coord) : Q := Z.sqrt (100000000 * Qnum (square_distance p c)) # 10000.
Lemma square_le x y : (0 <= y -> x * x <= y * y -> x <= y)%Q.
Proof. intros Y H. destruct (Qlt_le_dec y x) as [L|L]; [|exact L]. exfalso. assert (y * y < x * x)%Q by nra. lra. Qed.
Example C74_euclidian : euclidian D_root.
Proof.
  intros p c lo hi L0 H0 (L & H). unfold D_root. set (d := square_distance p c) in *. assert (E : (d == inject_Z (Qnum d))%Q) by reflexivity.
  assert (P : (0 <= Qnum d)%Z) by (unfold d, square_distance, inject_Z; cbn [Qnum]; apply Z.add_nonneg_nonneg; apply Z.square_nonneg). set (z := Qnum d) in *. clearbody z d.
  pose proof (Z.sqrt_spec (100000000 * z) ltac:(lia)) as (S1 & S2). pose proof (Z.sqrt_nonneg (100000000 * z)) as S0. set (m := Z.sqrt (100000000 * z)) in *. clearbody m.
  assert (M : (m # 10000 == inject_Z m * (1 # 10000))%Q) by (unfold Qeq; cbn; lia). rewrite M.
  assert (Q1 : (inject_Z m * inject_Z m <= 100000000 * inject_Z z)%Q) by (rewrite <- !inject_Z_mult; change 100000000%Q with (inject_Z 100000000); rewrite <- inject_Z_mult, <- Zle_Qle; lia).
  assert (Q2 : (100000000 * inject_Z z <= (inject_Z m + 1) * (inject_Z m + 1))%Q).
  { change 1%Q with (inject_Z 1). rewrite <- !inject_Z_plus, <- inject_Z_mult. change 100000000%Q with (inject_Z 100000000). rewrite <- inject_Z_mult, <- Zle_Qle. lia. }
  assert (Q0 : (0 <= inject_Z m)%Q) by (change 0%Q with (inject_Z 0); rewrite <- Zle_Qle; lia).
  split.
  - assert (lo <= (inject_Z m + 1) * (1 # 10000))%Q by (apply square_le; nra). lra.
  - assert (inject_Z m * (1 # 10000) <= hi)%Q by (apply square_le; nra). lra.
Qed.
Print Assumptions C74_made.
Print Assumptions C74_pilots.
Print Assumptions C74_interpolated_partial.
Print Assumptions C74_eight_streams_refuted.
Print Assumptions C74_window.
Print Assumptions C74_nearest_refuted.
Print Assumptions C74_pick.
