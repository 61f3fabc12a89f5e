(** Reception of a packet from its first to its last symbol. *)
From Verif Require Import Base PacketSizes PacketSizesSpec PacketSizesFacts Cells TxCells CellsSpec CellsCheck CellsFacts TxFacts TxUseFacts
  RxSymbols RxSymbolsSpec RxSymbolsFacts RxLoopFacts RxDataFacts RxStageFacts.
Open Scope N_scope.

Lemma stage_lens e : In e [1; 2; 4; 8] -> stage_len e = Ok (spacing e + if e =? 8 then 2 else 1) /\ 6 <= spacing e + (if e =? 8 then 2 else 1) <= 12.
Proof. cbn [In]. intros H. repeat destruct H as [<-|H]; try contradiction H; split; try reflexivity; vm_compute; split; discriminate. Qed.
Lemma stage_mono e M : In e [1; 2; 4; 8] -> In M [1; 2; 4; 8] -> e <= M -> spacing e + (if e =? 8 then 2 else 1) <= spacing M + (if M =? 8 then 2 else 1).
Proof.
  intros E0 M0 L. unfold spacing. cbn [In] in E0, M0. destruct (N.leb_spec e 2), (N.leb_spec M 2), (N.eqb_spec e 8), (N.eqb_spec M 8); lia.
Qed.

Section Receive.
Context (d : psdef) (q : packet_sizes) (k : comps) (b_max M stride : N) (lr : bool).
Hypothesis S0 : supported d.
Hypothesis SS : streams (d_tm d) = 1.
Hypothesis Q : get_packet_sizes d = Ok (Some q).
Hypothesis K : comps_new b_max M = Ok k.
Hypothesis BM : In b_max [1; 2; 4; 8; 12; 16].
Hypothesis M0 : In M [1; 2; 4; 8].
Hypothesis BL : d_b d <= b_max.
Hypothesis EL : eff_antennas (d_tm d) <= M.
Hypothesis S1 : 0 < stride.
Notation b := (d_b d).
Notation e := (eff_antennas (d_tm d)).
Notation bps := (bits_per_cell (d_mcs d)).
Notation df := (q_N_DF_symb q).
Notation ce := (control_end b e).
Notation n := (spacing e + if e =? 8 then 2 else 1).
Notation c := (mkRcfg e (56 * b) bps 1 stride).

Lemma receive_exact :
  if df <=? ce then df = ce /\ receive k M stride lr q = Abort
  else exists s, receive k M stride lr q = Ok s /\ rx_control s = control_takes b e /\
         rx_data s = data_takes (taken_for e lr df) b e bps lr stride df /\ rx_heard s = df + 1.
Proof using All.
  pose proof S0 as (U & B & _ & _ & T & MC & _). pose proof (eff_cases _ T) as E0.
  destruct (possible_dec d) as [P|P]; [|rewrite (sizes_impossible _ S0 P) in Q; discriminate].
  pose proof (sizes_possible _ S0 P) as (mc & tm & t & sg & N1 & N2 & _ & _ & _ & _ & _ & _ & _ & E).
  pose proof (sizes_consistent d q S0 P Q) as CO. rewrite Q in E. injection E as E.
  apply mcs_row in N1; [|exact MC]. apply tm_row in N2; [|exact T]. destruct N2 as (X1 & X2 & _).
  assert (QT : q_tm q = tm) by (rewrite E; reflexivity). assert (QM : q_mcs q = mc) by (rewrite E; reflexivity).
  destruct CO as (CO1 & _ & CO3 & CO4 & CO5 & CO6 & CO7 & _).
  destruct (before_total d S0 P) as (PE & BT & _). pose proof (refs_total d S0 P) as RT. pose proof (symbols_bounds d S0) as (SB & S5).
  assert (DFE : symbols d - overhead (d_u d) = df) by lia. rewrite DFE in *.
  assert (QD : q_N_PDC_subc q = Z.to_N (data_cells d)) by (rewrite E; reflexivity).
  destruct (end_values b e B E0) as (V0 & V1 & V8). pose proof (end_range b e) as ER.
  assert (DC : ce <= df).
  { destruct (N.le_gt_cases ce df) as [|G]; [assumption|]. exfalso. pose proof (pending_zero b e (df + 1) ce PE ltac:(lia) ltac:(lia)). lia. }
  assert (D8 : e = 8 -> df mod 10 <> 1).
  { intros E8. destruct P as ((_ & R2) & _). clear - R2 E8 DFE U S5 SB. unfold overhead in DFE. set (nn := symbols d) in *. clearbody nn.
    set (u := d_u d) in *. clearbody u. cbn [In] in U. repeat destruct U as [<-|U]; try contradiction U; cbn [N.eqb Pos.eqb] in DFE; lia. }
  destruct (idx_of _ B) as (i & I1 & I2 & I3).
  assert (OCC : N_b_OCC_lut i = Ok (56 * b)).
  { clear - I1 B. set (x := b) in *. clearbody x. cbn [In] in B. repeat destruct B as [<-|B]; try contradiction B; vm_compute in I1; injection I1 as <-; reflexivity. }
  unfold receive. rewrite QT, QM, X1, X2, CO1, I1. cbn [bind]. rewrite OCC. cbn [bind]. rewrite N1, SS.
  destruct (comps_built b_max M BM M0) as (k' & K1 & K2). assert (k' = k) as -> by congruence.
  destruct (K2 b e B BL E0 EL) as (s0 & C0 & CH).
  unfold rx_begin. rewrite C0. cbn [bind]. destruct (stage_lens e E0) as (SL & SLB). destruct (stage_lens M M0) as (SM & _). rewrite SL, SM. cbn [bind].
  rewrite guard_true by (pose proof (stage_mono e M E0 M0 EL); lia).
  unfold collect, point. cbn [rx_rel rx_rows rx_heard set_rows rx_now]. 
  assert (LR : len (repeat (@None N) (N.to_nat n)) = n) by (unfold len; rewrite repeat_length; lia).
  rewrite LR. rewrite guard_true by lia. cbn [bind set_rows rx_rows rx_now rx_heard rx_streams]. rewrite at_upd_same by lia. cbn [bind].
  assert (LM : len (repeat (mkStream None None None None) (N.to_nat M)) = M) by (unfold len; rewrite repeat_length; lia).
  assert (M1 : 1 <= M) by (clear - M0; cbn [In] in M0; lia).
  assert (AT : forall t, t < M -> at_idx (repeat (mkStream None None None None) (N.to_nat M)) t = Ok (mkStream None None None None)).
  { intros x X. apply at_of. apply nth_error_repeat. lia. }
  unfold change. rewrite AT by lia. cbn [bind].
  set (Sf := fun l => after (N.to_nat (l - 1)) 1 s0).
  assert (ST : forall l, 1 <= l -> comps_step (Sf l) l = Ok (cells_of b e l, Sf (l + 1))).
  { intros l L. pose proof (after_step b e s0 CH (N.to_nat (l - 1))) as A. replace (1 + N.of_nat (N.to_nat (l - 1))) with l in A by lia. unfold Sf. rewrite A.
    do 3 f_equal. lia. }
  set (sb := set_streams 0 0 _ 0 _).
  assert (IC : in_control b e n M Sf 1 sb).
  { unfold in_control. split; [|split; [reflexivity|split; [reflexivity|split; [reflexivity|split; [|split; [split; reflexivity|repeat (split; [try reflexivity; intros; lia|])]]]]]].
    - unfold base, sb. cbn [set_streams rx_comps rx_heard rx_drs rx_rows rx_streams]. split; [reflexivity|]. split; [reflexivity|]. split; [rewrite refs_1; lia|].
      split; [cbn [set_rows rx_rows]; rewrite len_upd; exact LR|]. split; [lia|]. split; [rewrite len_upd; exact LM|].
      intros x X. assert (Z1 : zf_at e x 1 = None /\ slot_at e x 1 0 = None /\ slot_at e x 1 1 = None).
      { unfold zf_at, slot_at. replace (first_symbol x <? 1) with false by (unfold first_symbol; destruct (x <? 4); reflexivity). auto. }
      destruct Z1 as (-> & -> & ->). destruct (N.eq_dec x 0) as [->|].
      + eexists. split; [apply (at_upd_same _ 0); lia|]. cbn [h_zf h_even h_odd]. split; [lia|auto].
      + eexists. split; [rewrite (at_upd_other _ 0) by lia; apply AT; lia|]. cbn [h_zf h_even h_odd]. auto.
    - intros x X F. unfold first_symbol in F. destruct (x <? 4); lia.
    - intros r R. lia. }
  assert (SC : s_cnt s0 = 0).
  { clear - C0. unfold set_configuration in C0. apply bind_ok_inv in C0 as (? & _ & C0). apply bind_ok_inv in C0 as (? & _ & C0).
    apply bind_ok_inv in C0 as (? & _ & C0). apply bind_ok_inv in C0 as ((ls & ks) & _ & C0). apply bind_ok_inv in C0 as (? & _ & C0).
    apply bind_ok_inv in C0 as (? & _ & C0). apply bind_ok_inv in C0 as (? & _ & C0). injection C0 as <-. reflexivity. }
  pose proof (configured_pcc b_max M k b e s0 i K C0 E0 M0 EL BM BL B I1) as PC.
  destruct (ends i b e s0 I2 B E0 PC SC CH) as (LN & LC).
  unfold rx_control_field. change (s_l (rx_comps sb)) with (s_l s0). destruct (s_l s0) as [|x0 xs] eqn:SLS; [congruence|]. rewrite LC. cbn [bind].
  assert (NL : spacing e <= n) by lia.
  destruct (foldM_ind (control_symbol c) (in_control b e n M Sf) 1 (N.to_nat ce) sb IC) as (s1 & A1 & A2).
  { intros l x L I. apply (control_step b e n M Sf B E0 EL ST bps lr stride df NL); [lia|exact I]. }
  rewrite A1. cbn [bind]. replace (1 + N.of_nat (N.to_nat ce)) with (ce + 1) in A2 by lia.
  assert (PCC : rx_pcc s1 = 98).
  { destruct A2 as (_ & _ & _ & _ & _ & (A2 & _) & _). rewrite A2, V0. reflexivity. }
  rewrite PCC. change (98 =? 98) with true. cbn [guard bind].
  assert (IX : rx_idx s1 = ce + 1) by (apply A2; lia).
  unfold rx_data_field. rewrite IX.
  destruct (N.leb_spec df ce) as [DL|DL].
  { replace (ce + 1 <=? df) with false by lia. split; [lia|reflexivity]. }
  rewrite guard_true by lia.
  assert (FE : sub32 df (n - spacing e) / spacing e = full e df).
  { rewrite sub32_small by (destruct (e =? 8) eqn:E8; lia). unfold full. do 2 f_equal. lia. }
  assert (RUN : exists s2, (do s <- (if lr then mode_lr_t c df s1 else Ok s1) ; mode_lr_f c df s) = Ok s2 /\
    base b e n M (Sf (df + 1)) (df + 1) s2 /\ ctls b e s2 /\ progress b e bps lr stride df (df + 1) s2).
  { destruct (lr && (0 <? full e df)) eqn:DB.
    - apply andb_prop in DB as (DB1 & DB2). replace (if lr then mode_lr_t c df s1 else Ok s1) with (mode_lr_t c df s1) by (rewrite DB1; reflexivity).
      apply (double_field b e n M Sf B E0 EL ST bps lr stride df NL eq_refl S1 DL D8 DB1 ltac:(lia) s1 A2 SL FE).
    - destruct (single_field b e n M Sf B E0 EL ST bps lr stride df NL eq_refl S1 DL D8 DB s1 A2) as (s2 & G1 & G2). exists s2. split; [|exact G2].
      assert (TT : (if lr then mode_lr_t c df s1 else Ok s1) = Ok s1).
      { destruct lr; [|reflexivity]. cbn [andb] in DB. unfold mode_lr_t. cbn [c_e]. rewrite SL. cbn [bind]. change (drs_N_step e) with (spacing e).
        rewrite FE. replace (full e df =? 0) with true by lia. reflexivity. }
      rewrite TT. cbn [bind]. exact G1. }
  destruct RUN as (s2 & R1 & (R2 & R3 & R4 & R5 & R6 & R7 & R8) & (R9 & R10) & (R11 & R12 & R13)).
  replace (do s <- (if lr then mode_lr_t c df s1 else Ok s1); do s4 <- mode_lr_f c df s; _) with
    (do s4 <- (do s <- (if lr then mode_lr_t c df s1 else Ok s1) ; mode_lr_f c df s) ;
     guard (rx_pcc s4 =? 98) (guard (rx_drs s4 =? q_N_DRS_subc q) (guard (rx_bits s4 =? q_G q)
       (guard (rx_subc s4 =? mul32 (q_N_PDC_subc q) (N_SS (q_tm q))) (guard (rx_last s4 =? sub32 (c_e c) 1) (Ok s4))))))
    by (destruct (if lr then _ else _); reflexivity).
  rewrite R1. cbn [bind]. exists s2. split; [|split; [exact R10|split; [|exact R3]]].
  - rewrite R9. change (98 =? 98) with true. cbn [guard]. rewrite R4, RT, CO4, N.eqb_refl. cbn [guard].
    rewrite R12, BT, CO7, SS, QD, N.mul_1_l, N.eqb_refl. cbn [guard].
    pose proof (cells_bound d S0) as CBD.
    rewrite R11, BT, QT, X2, SS, mul32_small by lia. rewrite N.mul_1_r, N.eqb_refl. cbn [guard c_e].
    destruct (R6 ltac:(lia)) as (_ & RL). rewrite RL. rewrite sub32_small by (clear - E0; cbn [In] in E0; lia).
    rewrite guard_true; [reflexivity|]. apply N.eqb_eq. unfold ts_last. destruct (N.eqb_spec e 8) as [E8|]; [|reflexivity].
    specialize (D8 E8). rewrite E8. replace ((df + 1 - 2) mod 10 =? 0) with false by (clear - D8 DL; lia). reflexivity.
  - rewrite R13. unfold data_takes, found. replace (df + 1 - 1) with df by lia. reflexivity.
Qed.
End Receive.
