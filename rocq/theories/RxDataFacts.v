(** The receiver's loops over the symbols of a packet: soft values and the loops without reference cells on both sides. *)
From Verif Require Import Base PacketSizes PacketSizesSpec PacketSizesFacts Cells TxCells CellsSpec CellsCheck CellsFacts TxFacts TxUseFacts
  RxSymbols RxSymbolsSpec RxSymbolsFacts RxLoopFacts.
Open Scope N_scope.

Lemma mapM_map {A B} (f : A -> res B) g l : (forall x, In x l -> f x = Ok (g x)) -> mapM f l = Ok (map g l).
Proof.
  induction l as [|x l IH]; intros H; cbn [mapM map]; [reflexivity|]. rewrite H by (cbn; auto). cbn [bind].
  rewrite IH by (intros; apply H; cbn; auto). reflexivity.
Qed.
Lemma filter_full {A} (f : A -> bool) l : (length l <= length (filter f l))%nat -> filter f l = l.
Proof.
  induction l as [|x l IH]; cbn [filter length]; [reflexivity|]. destruct (f x); cbn [length]; intros H; [f_equal; apply IH; lia|].
  exfalso. assert (G : forall l, (length (filter f l) <= length l)%nat) by (induction l0 as [|y l0 I0]; cbn; [lia|destruct (f y); cbn; lia]).
  specialize (G l). lia.
Qed.
Lemma filter_less {A} (f : A -> bool) l : (length (filter f l) <= length l)%nat.
Proof. induction l as [|y l IH]; cbn; [lia|destruct (f y); cbn; lia]. Qed.
Lemma occupied_halves b : In b [1; 2; 4; 8; 12; 16] -> occupied b = halves (56 * b).
Proof. cbn [In]. intros H. repeat destruct H as [<-|H]; try contradiction H; vm_compute; reflexivity. Qed.
Lemma halves_len b : In b [1; 2; 4; 8; 12; 16] -> len (halves (56 * b)) = 56 * b.
Proof. cbn [In]. intros H. repeat destruct H as [<-|H]; try contradiction H; vm_compute; reflexivity. Qed.
Lemma data_full b e l : In b [1; 2; 4; 8; 12; 16] -> len (data b e l) = 56 * b -> data b e l = halves (56 * b).
Proof.
  intros B H. rewrite <- occupied_halves by exact B. pose proof (halves_len b B) as HL. rewrite <- occupied_halves in HL by exact B.
  unfold data, data_of, free in *. set (g := fun k : N => negb (existsb (fun t => is_reference b e t l k) (upto e))) in *.
  pose proof (filter_less g (occupied b)) as L1. set (fr := filter g (occupied b)) in *.
  set (h := fun jk => negb (first_columns (len fr) (pending b e l) jk)) in *.
  pose proof (filter_less h (numbered fr)) as L2.
  assert (LN : length (numbered fr) = length fr) by (rewrite <- (map_length snd), numbered_snd; reflexivity).
  unfold len in H, HL. rewrite map_length in H.
  rewrite (filter_full h) by lia. rewrite numbered_snd. apply filter_full. fold fr. lia.
Qed.
Lemma flat_snoc {A} (X : N -> list A) l : 1 <= l -> flat_map X (nseq 1 (N.to_nat l)) = flat_map X (nseq 1 (N.to_nat (l - 1))) ++ X l.
Proof.
  intros L. replace (N.to_nat l) with (S (N.to_nat (l - 1))) at 1 by lia. rewrite nseq_snoc, flat_map_app. cbn [flat_map]. rewrite app_nil_r.
  do 2 f_equal. lia.
Qed.

Lemma demap_ok e bps idx ks s j E : In e [1; 2; 4; 8] -> at_idx (rx_rows s) (rx_now s) = Ok (Some j) -> e <= len (rx_streams s) ->
  idx mod 2 = 0 -> (e <> 1 -> len ks mod 2 = 0) -> (ks <> [] -> forall t, t < e -> est_of s t = Some (E t)) ->
  demap e bps idx ks s = Ok (map (fun ik => mkTake (Some j) (snd ik) (fst ik * bps) (map (fun t => (t, Some (E t))) (carriers e (fst ik)))) (number_from idx ks)).
Proof.
  intros E0 R M I L H. unfold demap. rewrite R. cbn [bind]. rewrite number_shift, map_map. cbn [fst snd].
  change (combine (upto (len ks)) ks) with (numbered ks).
  assert (AT : ks <> [] -> forall t, t < e -> exists h, at_idx (rx_streams s) t = Ok h /\ h_est h = Some (E t)).
  { intros K t T. destruct (at_lt (rx_streams s) t ltac:(lia)) as (h & X). exists h. split; [exact X|]. specialize (H K t T). unfold est_of in H. rewrite X in H. exact H. }
  destruct (N.eqb_spec e 1) as [->|E1].
  - destruct (at_lt (rx_streams s) 0 ltac:(lia)) as (h & X). rewrite X. cbn [bind]. f_equal. apply map_ext_in. intros ik IK.
    unfold carriers. change (1 =? 1) with true. cbn [map]. destruct (AT ltac:(destruct ks; [destruct IK|discriminate]) 0 ltac:(lia)) as (h' & X' & <-). congruence.
  - assert (E0' : In e [2; 4; 8]) by (destruct E0; [congruence|assumption]).
    destruct (pair_at e 0 E0') as (mat & P1 & _). rewrite P1. cbn [bind]. rewrite guard_true by (specialize (L E1); lia).
    apply mapM_map. intros (i, k) IK. cbn [fst snd].
    replace ((idx + i / 2 * 2) / 2) with ((idx + i) / 2) by lia.
    destruct (pair_at e ((idx + i) / 2) E0') as (mat' & Q1 & Q2). assert (mat' = mat) as -> by congruence. rewrite Q2.
    pose proof (pair_streams e ((idx + i) / 2) E0') as PS. unfold carriers. replace (e =? 1) with false by lia.
    destruct (stream_pair e ((idx + i) / 2)) as (A, C). cbn [bind]. destruct PS as (A1 & C1 & _).
    assert (K : ks <> []) by (destruct ks; [destruct IK|discriminate]).
    destruct (AT K A A1) as (a & -> & EA), (AT K C C1) as (d & -> & ED). cbn [bind map]. rewrite EA, ED. reflexivity.
Qed.

Lemma one_sided_active e t l : active e t l = true -> one_sided e t l = mkEst false ((l - 1) / spacing e) ((l - 1) mod spacing e) [Some l].
Proof.
  intros H. pose proof (active_number e t l H) as (H1 & H2). unfold one_sided. rewrite <- H1. unfold active in H. apply andb_prop in H as (_ & H).
  unfold spacing, first_symbol in *. destruct (e <=? 2), (t <? 4); f_equal; lia.
Qed.
Lemma one_sided_idle e t l : active e t l = false -> first_symbol t < l -> one_sided e t l = one_sided e t (l - 1).
Proof.
  intros H L. unfold one_sided. enough ((l - first_symbol t) / spacing e = (l - 1 - first_symbol t) / spacing e) as -> by reflexivity.
  unfold active in H. replace (first_symbol t <=? l) with true in H by lia. cbn [andb] in H. unfold spacing, first_symbol in *. destruct (e <=? 2), (t <? 4); lia.
Qed.

Section Data.
Context (b e n M : N) (Sf : N -> cstate).
Hypothesis B : In b [1; 2; 4; 8; 12; 16].
Hypothesis E0 : In e [1; 2; 4; 8].
Hypothesis EM : e <= M.
Hypothesis ST : forall l, 1 <= l -> comps_step (Sf l) l = Ok (cells_of b e l, Sf (l + 1)).
Context (bps : N) (both : bool) (stride df : N).
Notation c := (mkRcfg e (56 * b) bps 1 stride).
Notation N0 := (spacing e).
Hypothesis NL : N0 <= n.

Lemma static l : 1 <= l -> s_pdc (Sf l) = s_pdc (Sf 1) /\ s_limit (Sf l) = s_limit (Sf 1).
Proof using All.
  revert l. apply N_ind1; [auto|]. intros l L IH. destruct (step_parts _ _ _ _ _ (ST l L)) as (cnt & sel & y & next & first & _ & _ & _ & ->).
  exact IH.
Qed.
Lemma pdc_any l' l k : 1 <= l -> 1 <= l' -> s_pdc k = s_pdc (Sf l') -> s_limit k = s_limit (Sf l') -> pdc_step k l = Ok (nonempty (data b e l)).
Proof using All.
  intros L L' K1 K2. destruct (step_parts _ _ _ _ _ (ST l L)) as (cnt & sel & y & next & first & _ & _ & P & _).
  rewrite <- P. unfold pdc_step. destruct (static l L) as (A1 & A2), (static l' L') as (A3 & A4). rewrite K1, K2, A1, A2, A3, A4. reflexivity.
Qed.
Lemma half_idle l : 1 <= l -> control b e l = [] -> half Sf l = Sf (l + 1).
Proof using All.
  intros L C. unfold half. destruct (step_parts _ _ _ _ _ (ST l L)) as (cnt & sel & y & next & first & P & _ & _ & ->).
  apply pcc_cnt in P as (P & _). unfold has_control in P. rewrite C in P. change (len (@nil N)) with 0 in P. cbn in P.
  cbn [s_ts s_l s_k s_cnt s_tab s_drs s_y s_next s_first s_pdc s_limit]. f_equal. lia.
Qed.

(** The soft values of symbol [l] and those before it. *)
Definition found (l : N) : list take := map (data_take e bps both stride df (taken_for e both df l) l) (number_from (data_before b e l) (data b e l)).
Definition progress (l : N) (s : rx) : Prop :=
  rx_subc s = data_before b e l /\ rx_bits s = data_before b e l * bps /\ rx_data s = flat_map found (nseq 1 (N.to_nat (l - 1))).
Lemma data_ok l s : 1 <= l -> s_pdc (rx_comps s) = s_pdc (Sf 1) -> s_limit (rx_comps s) = s_limit (Sf 1) -> progress l s -> e <= len (rx_streams s) ->
  (data b e l <> [] -> at_idx (rx_rows s) (rx_now s) = Ok (Some (taken_for e both df l)) /\
     forall t, t < e -> est_of s t = Some (estimate e both stride df t l)) ->
  data_cells_of c l s = Ok (set_data (data_before b e (l + 1)) (data_before b e (l + 1) * bps) (flat_map found (nseq 1 (N.to_nat l))) s).
Proof using All.
  intros L K1 K2 (P1 & P2 & P3) SL H. unfold data_cells_of. rewrite (pdc_any 1 l) by (auto; lia). cbn [bind].
  rewrite flat_snoc, before_next by exact L. rewrite <- P3.
  unfold found. destruct (data b e l) as [|k0 ks0] eqn:D.
  - cbn [nonempty]. change (len (@nil N)) with 0. rewrite N.add_0_r. change (number_from _ []) with (@nil (N * N)). cbn [map]. rewrite app_nil_r.
    unfold set_data. rewrite <- P1. rewrite P1, <- P2, <- P1. destruct s; reflexivity.
  - rewrite <- D in *. assert (NE : data b e l <> []) by (rewrite D; discriminate). destruct (H NE) as (R & HE).
    replace (nonempty (data b e l)) with (Some (data b e l)) by (rewrite D; reflexivity).
    unfold run_pdc. cbn [c_e c_ss c_occ c_bps]. change (1 =? 1) with true. rewrite orb_true_r.
    replace (if (e =? 1) && (len (data b e l) =? 56 * b) then halves (56 * b) else data b e l) with (data b e l).
    2:{ destruct (e =? 1); [|reflexivity]. destruct (N.eqb_spec (len (data b e l)) (56 * b)); cbn [andb]; [apply data_full; auto|reflexivity]. }
    rewrite (demap_ok e bps (rx_subc s) (data b e l) s (taken_for e both df l) (fun t => estimate e both stride df t l)); auto.
    + cbn [bind]. rewrite P1, P2. do 2 f_equal. lia.
    + rewrite P1. apply before_even; auto.
    + intros _. apply (f_even _ _ _ (facts_all b e l B E0 L)).
Qed.

(** Estimates from the latest reference cells. *)
Definition known (l : N) (s : rx) : Prop := forall t, t < e -> first_symbol t < l -> est_of s t = Some (one_sided e t (l - 1)).
Lemma cell_symbols l : 1 <= l -> control b e l <> [] \/ data b e l <> [] -> forall t, t < e -> first_symbol t <= l.
Proof using All.
  intros L H t T. unfold first_symbol. destruct (N.ltb_spec t 4); [exact L|].
  assert (e = 8) as E by (clear - E0 T H0; cbn [In] in E0; lia). destruct (N.le_gt_cases 2 l) as [|L1]; [assumption|]. assert (l = 1) as -> by lia. exfalso.
  pose proof (facts_all b e 1 B E0 ltac:(lia)) as F. pose proof (f_free _ _ _ F) as F1. pose proof (f_parts _ _ _ F) as F2.
  assert (AC : len (active_streams e 1) = 4) by (rewrite E; reflexivity). rewrite AC in F1.
  assert (L0 : forall x : list N, x <> [] -> 0 < len x) by (intros [|? x] Hx; [congruence|unfold len; cbn [length]; lia]).
  destruct H as [H|H]; apply L0 in H; lia.
Qed.
Lemma hear_one l s : 1 <= l -> base b e n M (Sf l) l s -> rx_rel s = (l - 1) mod N0 -> rx_ps s = (l - 1) / N0 -> rx_lr s = false -> known l s ->
  exists s1, (do s <- collect s ; references true e l s) = Ok s1 /\ base b e n M (half Sf l) (l + 1) s1 /\ frame s s1 /\
    rx_rows s1 = upd (rx_rows s) (N.to_nat (rx_rel s)) (Some l) /\ rx_now s1 = rx_rel s /\ known (l + 1) s1.
Proof using All.
  intros L BA R P LR K.
  destruct (hear b e n M Sf B E0 EM ST true l s L BA) as (s1 & H1 & H2 & H3 & H4 & H5 & H6); auto.
  - rewrite R. unfold spacing in *. destruct (e <=? 2); lia.
  - intros A. right. rewrite active_list in A by auto. rewrite R. unfold spacing in *. destruct (N.leb_spec e 4).
    + destruct (N.eqb_spec ((l - 1) mod (if e <=? 2 then 5 else 10)) 0) as [Z|]; [exact Z|congruence].
    + replace (e <=? 2) with false by lia. destruct (N.eqb_spec ((l - 1) mod 10) 0), (N.eqb_spec ((l - 1) mod 10) 1); cbn [orb] in A; try lia; congruence.
  - intros t T A. rewrite R, P. unfold active in A. apply andb_prop in A as (A1 & A2). unfold spacing, first_symbol in *.
    assert (4 <= t -> e = 8) by (clear - E0 T; cbn [In] in E0; lia).
    destruct (N.leb_spec e 2), (N.ltb_spec t 4); destruct (N.leb_spec ((l - 1) mod 5) 1), (N.leb_spec ((l - 1) mod 10) 1); lia.
  - exists s1. repeat (split; [assumption|]). intros t T F. rewrite H6 by exact T. cbn [andb]. replace (l + 1 - 1) with l by lia.
    destruct (active e t l) eqn:A; [rewrite one_sided_active, R, P by exact A; reflexivity|].
    assert (FL : first_symbol t < l).
    { unfold active in A. destruct (N.eq_dec (first_symbol t) l) as [X|]; [|lia]. rewrite X in A. rewrite N.sub_diag in A.
      replace (l <=? l) with true in A by lia. unfold spacing in A. destruct (e <=? 2); discriminate A. }
    rewrite one_sided_idle by auto. apply K; auto.
Qed.

(** * The control field *)
Definition ctl (l : N) (s : rx) : Prop :=
  rx_pcc s = 98 - pending b e l /\
  rx_control s = flat_map (fun l => map (control_take e l) (number_from (98 - pending b e l) (control b e l))) (nseq 1 (N.to_nat (l - 1))).
Definition in_control (l : N) (s : rx) : Prop :=
  base b e n M (Sf l) l s /\ rx_rel s = l - 1 /\ rx_ps s = 0 /\ rx_lr s = false /\ known l s /\ ctl l s /\
  rx_subc s = 0 /\ rx_bits s = 0 /\ rx_data s = [] /\ (2 <= l -> rx_idx s = l /\ rx_now s = l - 2) /\
  forall r, r < l - 1 -> at_idx (rx_rows s) r = Ok (Some (r + 1)).
Lemma control_step l s : 1 <= l <= 4 -> in_control l s -> exists s', control_symbol c s l = Ok s' /\ in_control (l + 1) s'.
Proof using All.
  intros L (BA & R & P & LR & K & (C1 & C2) & D1 & D2 & D3 & IX & RW).
  assert (Z : N0 = 5 \/ N0 = 10) by (unfold spacing; destruct (e <=? 2); auto).
  destruct (hear_one l s) as (s1 & H1 & H2 & (F1 & F2 & F3 & F4 & F5 & F6 & F7 & F8 & F9) & H4 & H5 & H6); auto; try lia; try (destruct Z as [-> | ->]; lia).
  pose proof H2 as (B1 & B2 & B3 & B4 & B5 & B6 & B7).
  unfold control_symbol. cbn [c_e].
  replace (do s0 <- collect s; do s1 <- references true e l s0; _) with
    (do s1 <- (do s0 <- collect s; references true e l s0) ;
     let k := rx_comps s1 in
     do (p, cnt) <- pcc_step k l ;
     let s := set_comps (mkCstate (s_ts k) (s_l k) (s_k k) cnt (s_tab k) (s_drs k) (s_y k) (s_next k) (s_first k) (s_pdc k) (s_limit k)) s1 in
     do s <- match p with Some ks => pcc_collection e ks s | None => Ok s end ;
     Ok (set_place (l + 1) (rx_rel s + 1) (rx_ps s) (rx_lr s) s)) by (destruct (collect s); reflexivity).
  rewrite H1. cbn [bind]. cbv zeta. rewrite B1.
  destruct (step_parts _ _ _ _ _ (ST l ltac:(lia))) as (cnt & sel & y & next & first & PS & _ & _ & SE).
  assert (PH : pcc_step (half Sf l) l = pcc_step (Sf l) l).
  { unfold half. rewrite SE. reflexivity. }
  rewrite PH, PS. cbn [bind].
  assert (SF : mkCstate (s_ts (half Sf l)) (s_l (half Sf l)) (s_k (half Sf l)) cnt (s_tab (half Sf l)) (s_drs (half Sf l)) (s_y (half Sf l))
    (s_next (half Sf l)) (s_first (half Sf l)) (s_pdc (half Sf l)) (s_limit (half Sf l)) = Sf (l + 1)) by (unfold half; rewrite SE; reflexivity).
  rewrite SF. pose proof (facts_all b e l B E0 ltac:(lia)) as SFa. pose proof (f_control _ _ _ SFa) as FC.
  destruct (cells_before b e B E0 l ltac:(lia)) as (_ & PE & _).
  assert (PC : exists s2, match nonempty (control b e l) with Some ks => pcc_collection e ks (set_comps (Sf (l + 1)) s1) | None => Ok (set_comps (Sf (l + 1)) s1) end =
    Ok s2 /\ s2 = set_control (98 - pending b e (l + 1)) (flat_map (fun l => map (control_take e l) (number_from (98 - pending b e l) (control b e l))) (nseq 1 (N.to_nat l))) (set_comps (Sf (l + 1)) s1)).
  { rewrite flat_snoc, <- C2 by lia. destruct (control b e l) as [|k0 ks0] eqn:D.
    - cbn [nonempty]. eexists. split; [reflexivity|]. change (number_from _ []) with (@nil (N * N)). cbn [map]. rewrite app_nil_r.
      change (len (@nil N)) with 0 in FC. replace (98 - pending b e (l + 1)) with (rx_pcc s1) by lia. rewrite <- F8. destruct s1; reflexivity.
    - rewrite <- D in *. assert (NE : control b e l <> []) by (rewrite D; discriminate). replace (nonempty (control b e l)) with (Some (control b e l)) by (rewrite D; reflexivity).
      unfold pcc_collection.
      rewrite (demap_ok e 2 (rx_pcc (set_comps (Sf (l + 1)) s1)) (control b e l) (set_comps (Sf (l + 1)) s1) l (fun t => one_sided e t l)).
      + cbn [bind]. eexists. split; [reflexivity|]. cbn [set_comps rx_pcc rx_control]. rewrite F5, F8, C1. f_equal. lia.
      + exact E0.
      + cbn [set_comps rx_rows rx_now]. rewrite H4, H5. apply at_upd_same. destruct BA as (_ & _ & _ & -> & _). destruct Z as [Z|Z]; rewrite Z in NL; lia.
      + cbn [set_comps rx_streams]. rewrite B6. exact EM.
      + cbn [set_comps rx_pcc]. rewrite F5, C1. pose proof (f_even _ _ _ SFa). pose proof (f_parts _ _ _ SFa). pose proof (f_free _ _ _ SFa) as FF.
        assert (PM : forall x, 1 <= x -> pending b e x mod 2 = 0).
        { apply N_ind1; [reflexivity|]. intros x X IH. pose proof (facts_all b e x B E0 X) as FX. pose proof (f_control _ _ _ FX). pose proof (f_even _ _ _ FX).
          pose proof (f_parts _ _ _ FX). pose proof (f_free _ _ _ FX). lia. }
        specialize (PM l ltac:(lia)). lia.
      + intros _. pose proof (f_even _ _ _ SFa). pose proof (f_parts _ _ _ SFa). pose proof (f_free _ _ _ SFa) as FF. lia.
      + intros _ t T. specialize (H6 t T). replace (l + 1 - 1) with l in H6 by lia. apply H6. pose proof (cell_symbols l ltac:(lia) (or_introl NE) t T). lia. }
  destruct PC as (s2 & -> & ->). cbn [bind]. eexists. split; [reflexivity|].
  unfold in_control. split; [|split; [|split; [|split; [|split; [|split; [|split; [|split; [|split; [|split]]]]]]]]];
    cbn [set_place set_control set_comps rx_rel rx_ps rx_lr rx_subc rx_bits rx_data rx_idx rx_now rx_rows]; try lia; try congruence.
  - repeat split; try exact B2; try exact B3; try exact B4; try exact B6; try exact B7; try (apply B5; assumption).
  - exact H6.
  - unfold ctl. cbn [set_place set_control set_comps rx_pcc rx_control]. replace (l + 1 - 1) with l by lia. auto.
  - intros r RR. rewrite H4. destruct (N.eq_dec r (l - 1)) as [->|].
    + rewrite R. rewrite at_upd_same by (destruct BA as (_ & _ & _ & -> & _); destruct Z as [Z|Z]; rewrite Z in NL; lia). do 2 f_equal. lia.
    + rewrite at_upd_other by lia. apply RW. lia.
Qed.
End Data.
