(** Lemmas on comparing packet sizes, for the monotonicity theorems and the maximum sizes of a device class. *)
From Verif Require Import Base IntHelpers PacketSizes PacketSizesSpec PacketSizesFacts.
Open Scope N_scope.

(** Data cells per bandwidth unit, before the control channel is taken out. *)
Definition density (u n e : N) : Z :=
  (56 * (Z.of_N n - Z.of_N (overhead u)) - 14 * Z.of_N e * Z.of_N (if (e <=? 2)%N then (n / 5)%N else ((n + 5) / 10)%N))%Z.
Lemma cells_density d : supported d ->
  data_cells d = (Z.of_N (d_b d) * density (d_u d) (symbols d) (eff_antennas (d_tm d)) - 98)%Z.
Proof.
  intros S0. destruct (df_eval d S0) as (_ & F & _). unfold data_cells, density, reference_cells, reference_symbols.
  set (k := if eff_antennas (d_tm d) <=? 2 then _ else _). clearbody k.
  rewrite N2Z.inj_mul, N2Z.inj_sub by lia. rewrite !N2Z.inj_mul. lia.
Qed.
Lemma bps_mono a b : a <= b -> b <= 11 -> bits_per_cell a <= bits_per_cell b.
Proof.
  intros H B. pose proof (upto_11 a ltac:(lia)) as A. apply upto_11 in B.
  repeat destruct A as [<-|A]; try (destruct A); repeat destruct B as [<-|B]; try (destruct B);
    first [exfalso; clear - H; lia | vm_compute; congruence].
Qed.
Lemma rate_mono a b : a <= b -> b <= 11 ->
  bits_per_cell a * rate_num a * rate_den b <= bits_per_cell b * rate_num b * rate_den a.
Proof.
  intros H B. pose proof (upto_11 a ltac:(lia)) as A. apply upto_11 in B.
  repeat destruct A as [<-|A]; try (destruct A); repeat destruct B as [<-|B]; try (destruct B);
    first [exfalso; clear - H; lia | vm_compute; congruence].
Qed.
Lemma ratio_le x y p q r s : q <> 0 -> s <> 0 -> x <= y -> p * s <= r * q -> x * p / q <= y * r / s.
Proof.
  intros Q S H R. apply N.div_le_lower_bound; [assumption|].
  pose proof (N.mul_div_le (x * p) q Q) as D. set (k := x * p / q) in *.
  apply (N.mul_le_mono_pos_l _ _ q); [lia|].
  assert (q * k * s <= x * p * s) by (apply N.mul_le_mono_r; exact D).
  assert (x * (p * s) <= y * (r * q)) by (apply N.mul_le_mono; assumption). lia.
Qed.
(** A larger budget of cells and a higher MCS give a larger budget of bits. *)
Lemma budget_mono d d' : d_mcs d <= d_mcs d' -> d_mcs d' <= 11 ->
  streams (d_tm d) * Z.to_N (data_cells d) <= streams (d_tm d') * Z.to_N (data_cells d') ->
  budget d <= budget d'.
Proof.
  intros M M' C. unfold budget. destruct (mcs_cases (d_mcs d)) as (_ & _ & D & _); [lia|].
  destruct (mcs_cases _ M') as (_ & _ & D' & _).
  rewrite <- (N.mul_assoc _ (bits_per_cell (d_mcs d))), <- (N.mul_assoc _ (bits_per_cell (d_mcs d'))).
  apply ratio_le; [lia|lia|exact C|apply rate_mono; auto].
Qed.
(** More bits: a transport block, and a number of code blocks, at least as large. *)
Lemma blocks_le t t' Z s s' : 2048 <= Z -> well_segmented t Z s -> well_segmented t' Z s' -> t <= t' -> sg_C s <= sg_C s'.
Proof.
  intros HZ (A1 & A2 & _ & _ & _ & _ & _ & A) (B1 & B2 & _ & _ & _ & _ & _ & B) H.
  destruct (N.leb_spec (t + 24) Z); [lia|]. replace (t' + 24 <=? Z) with false in B by lia.
  destruct (N.le_gt_cases (sg_C s) (sg_C s')); [assumption|]. exfalso.
  assert (sg_C s' * (Z - 24) <= (sg_C s - 1) * (Z - 24)) by (apply N.mul_le_mono_r; lia). lia.
Qed.
Lemma tb_le d d' q q' : supported d -> supported d' -> d_Z d = d_Z d' -> budget d <= budget d' ->
  get_packet_sizes d = Ok (Some q) -> get_packet_sizes d' = Ok (Some q') ->
  q_N_TB_bits q <= q_N_TB_bits q' /\ q_N_TB_byte q <= q_N_TB_byte q' /\ q_C q <= q_C q'.
Proof.
  intros S0 S1 EZ B E E'.
  destruct (possible_dec d) as [P|P]; [|rewrite (sizes_impossible d S0 P) in E; discriminate].
  destruct (possible_dec d') as [P'|P']; [|rewrite (sizes_impossible d' S1 P') in E'; discriminate].
  destruct (sizes_possible d S0 P) as (? & ? & t & s & _ & _ & A1 & A2 & A3 & _ & _ & A6 & _ & A).
  destruct (sizes_possible d' S1 P') as (? & ? & t' & s' & _ & _ & B1 & B2 & B3 & _ & _ & B6 & _ & A').
  rewrite A in E. rewrite A' in E'. injection E as <-. injection E' as <-.
  cbn [q_N_TB_bits q_N_TB_byte q_C]. rewrite EZ in *.
  pose proof S1 as (_ & _ & _ & _ & _ & _ & Z).
  assert (t <= t') by (eapply tb_mono; [exact Z|exact B|apply budget_bound; exact S1|exact A1|exact B1]).
  split; [assumption|]. split; [apply N.div_le_mono; lia|].
  eapply blocks_le; [|exact A6|exact B6|assumption]. destruct Z as [<-|[<-|[]]]; lia.
Qed.

(** Longer packets in the same mode have more data cells per bandwidth unit. *)
Lemma density_mono u n n' e : In e [1; 2; 4; 8] -> n <= n' -> n mod 5 = 0 -> n' mod 5 = 0 ->
  (density u n e <= density u n' e)%Z.
Proof.
  intros HE H M M'. unfold density. destruct HE as [<-|[<-|[<-|[<-|[]]]]]; cbn [N.leb N.compare Pos.compare Pos.compare_cont]; lia.
Qed.
(** A device with at least as many antennas, as large a scaling factor and as long packets. *)
Lemma density_max u n e U L E : In u [1; 2; 4; 8] -> In U [1; 2; 4; 8] -> In e [1; 2; 4; 8] -> In E [1; 2; 4; 8] ->
  u <= U -> e <= E -> 1 <= L -> n <= 10 * u * L -> n mod 5 = 0 ->
  (Z.of_N e * density u n e + 98 * (Z.of_N E - Z.of_N e) <= Z.of_N E * density U (10 * U * L) E)%Z /\
  (density u n e <= density U (10 * U * L) e)%Z.
Proof.
  intros HU HU' HE HE' LU LE HL HN M. unfold density, overhead.
  destruct HU as [<-|[<-|[<-|[<-|[]]]]]; destruct HU' as [<-|[<-|[<-|[<-|[]]]]]; try (exfalso; clear - LU; lia);
  destruct HE as [<-|[<-|[<-|[<-|[]]]]]; destruct HE' as [<-|[<-|[<-|[<-|[]]]]]; try (exfalso; clear - LE; lia);
    cbn [N.leb N.compare Pos.compare Pos.compare_cont N.eqb Pos.eqb]; clear LU LE; lia.
Qed.

Lemma class_checked c : class_ok c <-> rdc_checked c = true.
Proof.
  unfold class_ok, rdc_checked. rewrite (single_u (r_u c)), (single_b (r_b c)), (single_u (r_N_TX c)).
  set (x := has_single_bit (r_u c) && _). set (y := has_single_bit (r_b c) && _ || _). set (z := has_single_bit (r_N_TX c) && _).
  clearbody x y z. cbn [In]. split; intros H; [destruct H as (-> & -> & -> & ?); cbn [andb]; lia|destruct x, y, z; cbn [andb] in H; try discriminate; repeat split; lia].
Qed.
Lemma oh_le u : In u [1; 2; 4; 8] -> 2 <= overhead u <= 4.
Proof. intros [<-|[<-|[<-|[<-|[]]]]]; vm_compute; intuition congruence. Qed.
Lemma symbols_within c d : class_ok c -> within c d ->
  symbols d <= 10 * d_u d * r_PacketLength c /\ symbols d <= 10 * r_u c * r_PacketLength c /\
  symbols d - overhead (d_u d) <= 10 * r_u c * r_PacketLength c - overhead (r_u c).
Proof.
  intros (CU & _ & _ & _ & _ & CL) (S0 & LU & _ & _ & _ & _ & LL).
  pose proof (symbols_bounds d S0) as (SB & _). pose proof S0 as (U & _ & T & L & _).
  assert (A : symbols d <= 10 * d_u d * r_PacketLength c).
  { unfold symbols. assert (1 <= d_u d) by (destruct U as [<-|[<-|[<-|[<-|[]]]]]; lia). destruct (d_type d =? 0); nia. }
  split; [exact A|]. unfold overhead.
  destruct U as [U|[U|[U|[U|[]]]]]; rewrite <- U in *; destruct CU as [C|[C|[C|[C|[]]]]]; rewrite <- C in *;
    try (exfalso; clear - LU; lia); cbn [N.eqb Pos.eqb]; clear - A SB CL; lia.
Qed.
Lemma cells_pos d : 40 <= budget d -> (0 < data_cells d)%Z.
Proof. intros B. pose proof (budget_cells d B). lia. Qed.

(** All sizes but the cell counts grow with the configuration. *)
Lemma sizes_le d d' q q' : supported d -> supported d' -> d_Z d = d_Z d' -> d_u d <= d_u d' -> d_b d <= d_b d' ->
  symbols d <= symbols d' -> symbols d - overhead (d_u d) <= symbols d' - overhead (d_u d') ->
  d_mcs d <= d_mcs d' ->
  streams (d_tm d) * Z.to_N (data_cells d) <= streams (d_tm d') * Z.to_N (data_cells d') ->
  get_packet_sizes d = Ok (Some q) -> get_packet_sizes d' = Ok (Some q') -> fits q q'.
Proof.
  intros S0 S1 EZ LU LB LN LD LM LC E E'. pose proof S1 as (U1 & _ & _ & _ & _ & M1 & _).
  pose proof (budget_mono d d' LM M1 LC) as LG.
  pose proof (tb_le d d' q q' S0 S1 EZ LG E E') as (T1 & T2 & T3).
  destruct (possible_dec d) as [P|P]; [|rewrite (sizes_impossible d S0 P) in E; discriminate].
  destruct (possible_dec d') as [P'|P']; [|rewrite (sizes_impossible d' S1 P') in E'; discriminate].
  destruct (sizes_possible d S0 P) as (? & ? & t & s & _ & _ & A1 & A2 & A3 & _ & _ & A6 & _ & A).
  destruct (sizes_possible d' S1 P') as (? & ? & t' & s' & _ & _ & B1 & B2 & B3 & _ & _ & B6 & _ & A').
  rewrite A in E. rewrite A' in E'. injection E as <-. injection E' as <-.
  pose proof (bps_mono _ _ LM M1) as LP.
  assert (STF : stf_len d <= stf_len d' /\ stf_len d - 64 * d_b d <= stf_len d' - 64 * d_b d' /\ gi_len d <= gi_len d').
  { unfold stf_len, gi_len. pose proof S0 as (U & _). clear - U U1 LU LB.
    destruct U as [U|[U|[U|[U|[]]]]]; rewrite <- U in *; destruct U1 as [C|[C|[C|[C|[]]]]]; rewrite <- C in *;
      cbn [N.eqb Pos.eqb]; lia. }
  destruct STF as (Q1 & Q2 & Q3).
  assert (DF : 72 * d_b d * (symbols d - overhead (d_u d)) <= 72 * d_b d' * (symbols d' - overhead (d_u d')))
    by (apply N.mul_le_mono; lia).
  assert (PK : 72 * d_b d * symbols d <= 72 * d_b d' * symbols d') by (apply N.mul_le_mono; lia).
  assert (G : streams (d_tm d) * Z.to_N (data_cells d) * bits_per_cell (d_mcs d) <=
              streams (d_tm d') * Z.to_N (data_cells d') * bits_per_cell (d_mcs d')) by (apply N.mul_le_mono; assumption).
  unfold fits. cbn [q_N_TB_bits q_N_TB_byte q_C] in T1, T2, T3.
  cbn [q_psdef q_N_PACKET_symb q_N_DF_symb q_N_DRS_subc q_N_PDC_subc q_G q_N_PDC_bits q_N_TB_bits q_N_TB_byte q_C
       q_OFDM_symbol q_STF q_STF_CP_only q_DF q_GI q_packet_no_GI q_packet].
  repeat split; try assumption; try lia.
Qed.

Section Class.
Context (c : rdc) (HC : class_ok c).
(** The configuration the maximum is taken at. *)
Definition max_tm : N := if r_N_TX c =? 1 then 0 else if r_N_TX c =? 2 then 4 else if r_N_TX c =? 4 then 9 else 11.
Definition maxdef (u : N) : psdef := mkPsdef u (r_b c) 1 (r_PacketLength c) max_tm (r_mcs c) (r_Z c).
Lemma max_tm_eval : get_max_tm_mode_index (r_N_TX c) = Ok max_tm /\ max_tm <= 11 /\
  eff_antennas max_tm = r_N_TX c /\ streams max_tm = r_N_TX c.
Proof.
  unfold max_tm, get_max_tm_mode_index. destruct HC as (_ & _ & TX & _).
  destruct TX as [<-|[<-|[<-|[<-|[]]]]]; vm_compute; intuition congruence.
Qed.
Lemma maxdef_supported u : In u [1; 2; 4; 8] -> supported (maxdef u).
Proof.
  intros U. destruct HC as (_ & B & _ & M & Z & L). destruct max_tm_eval as (_ & T & _).
  repeat split; cbn [maxdef d_u d_b d_type d_length d_tm d_mcs d_Z]; auto; lia.
Qed.
Lemma maxdef_symbols u : symbols (maxdef u) = 10 * u * r_PacketLength c.
Proof. reflexivity. Qed.
Lemma max_cells d : within c d -> (0 < data_cells d)%Z ->
  streams (d_tm d) * Z.to_N (data_cells d) <= r_N_TX c * Z.to_N (data_cells (maxdef (r_u c))).
Proof.
  intros W P. pose proof W as (S0 & LU & LB & LE & LM & EZ & LL). pose proof HC as (CU & CB & CT & CM & CZ & CL).
  destruct (symbols_within c d HC W) as (A1 & A2 & A3). pose proof (symbols_bounds d S0) as (_ & M5).
  pose proof S0 as (U & B & _ & _ & T & _). pose proof (eff_cases _ T) as HE.
  destruct (density_max (d_u d) (symbols d) (eff_antennas (d_tm d)) (r_u c) (r_PacketLength c) (r_N_TX c)
             U CU HE CT LU LE ltac:(lia) A1 M5) as (D1 & D2).
  rewrite (cells_density d S0) in *. rewrite (cells_density _ (maxdef_supported _ CU)).
  destruct max_tm_eval as (_ & _ & E1 & E2).
  change (symbols (maxdef (r_u c))) with (10 * r_u c * r_PacketLength c).
  change (d_tm (maxdef (r_u c))) with max_tm. change (d_u (maxdef (r_u c))) with (r_u c).
  change (d_b (maxdef (r_u c))) with (r_b c). rewrite E1.
  destruct (streams_cases _ T) as (SS & _).
  set (h := density (d_u d) _ _) in *. set (H := density (r_u c) _ (r_N_TX c)) in *. clearbody h H.
  assert (B1 : (1 <= Z.of_N (r_b c))%Z) by (destruct CB as [<-|[<-|[<-|[<-|[<-|[<-|[]]]]]]]; lia).
  assert (hp : (0 < h)%Z) by nia.
  assert (E0 : 1 <= r_N_TX c) by (clear - CT; destruct CT as [<-|[<-|[<-|[<-|[]]]]]; lia).
  set (e := eff_antennas (d_tm d)) in *. set (E := r_N_TX c) in *. set (s := streams (d_tm d)) in *.
  assert (I : (Z.of_N s * (Z.of_N (d_b d) * h - 98) <= Z.of_N E * (Z.of_N (r_b c) * H - 98))%Z).
  { assert (I1 : (Z.of_N s * (Z.of_N (d_b d) * h - 98) <= Z.of_N e * (Z.of_N (d_b d) * h - 98))%Z)
      by (apply Z.mul_le_mono_nonneg_r; lia).
    assert (I2 : (Z.of_N (d_b d) * (Z.of_N e * h) <= Z.of_N (r_b c) * (Z.of_N e * h))%Z)
      by (apply Z.mul_le_mono_nonneg_r; nia).
    assert (I3 : (Z.of_N (r_b c) * (Z.of_N e * h + 98 * (Z.of_N E - Z.of_N e)) <= Z.of_N (r_b c) * (Z.of_N E * H))%Z)
      by (apply Z.mul_le_mono_nonneg_l; lia).
    assert (I4 : (98 * (Z.of_N E - Z.of_N e) <= Z.of_N (r_b c) * (98 * (Z.of_N E - Z.of_N e)))%Z) by nia.
    nia. }
  assert (J : (0 <= Z.of_N s * (Z.of_N (d_b d) * h - 98))%Z) by (apply Z.mul_nonneg_nonneg; lia).
  assert (K : (0 <= Z.of_N (r_b c) * H - 98)%Z) by nia.
  apply N2Z.inj_le. rewrite !N2Z.inj_mul, !Z2N.id by lia. exact I.
Qed.
Lemma density_min U L E : In U [1; 2; 4; 8] -> In E [1; 2; 4; 8] -> 1 <= L -> (336 <= density U (10 * U * L) E)%Z.
Proof.
  intros HU HE HL. unfold density, overhead.
  destruct HU as [<-|[<-|[<-|[<-|[]]]]]; destruct HE as [<-|[<-|[<-|[<-|[]]]]];
    cbn [N.leb N.compare Pos.compare Pos.compare_cont N.eqb Pos.eqb]; lia.
Qed.
Lemma max_budget u : In u [1; 2; 4; 8] -> 40 <= budget (maxdef u).
Proof.
  intros U. pose proof HC as (_ & CB & CT & CM & _ & CL). destruct max_tm_eval as (_ & _ & E1 & E2).
  assert (C : 238 <= Z.to_N (data_cells (maxdef u))).
  { rewrite (cells_density _ (maxdef_supported _ U)).
    change (symbols (maxdef u)) with (10 * u * r_PacketLength c). change (d_tm (maxdef u)) with max_tm.
    change (d_u (maxdef u)) with u. change (d_b (maxdef u)) with (r_b c). rewrite E1.
    pose proof (density_min u (r_PacketLength c) (r_N_TX c) U CT ltac:(lia)) as D.
    set (h := density u _ _) in *. assert (1 <= Z.of_N (r_b c))%Z by (destruct CB as [<-|[<-|[<-|[<-|[<-|[<-|[]]]]]]]; lia).
    nia. }
  unfold budget. change (d_tm (maxdef u)) with max_tm. change (d_mcs (maxdef u)) with (r_mcs c). rewrite E2.
  assert (1 <= r_N_TX c) by (destruct CT as [<-|[<-|[<-|[<-|[]]]]]; lia).
  destruct (mcs_cases _ CM) as (_ & _ & D & _). pose proof (rate_mono 0 (r_mcs c) ltac:(lia) CM) as R.
  change (bits_per_cell 0) with 1 in R. change (rate_num 0) with 1 in R. change (rate_den 0) with 2 in R.
  transitivity (238 * 1 / 2); [vm_compute; congruence|].
  rewrite <- (N.mul_assoc _ (bits_per_cell (r_mcs c))). apply ratio_le; [lia|lia|nia|lia].
Qed.
Lemma max_possible u : In u [1; 2; 4; 8] ->
  (possible (maxdef u) <-> ~ (r_N_TX c = 4 /\ r_PacketLength c = 1 /\ u = 1)).
Proof.
  intros U. pose proof HC as (_ & _ & CT & _ & _ & CL). destruct max_tm_eval as (_ & _ & E1 & _).
  unfold possible, room_for_reference. change (symbols (maxdef u)) with (10 * u * r_PacketLength c).
  change (d_tm (maxdef u)) with max_tm. change (d_u (maxdef u)) with u. rewrite E1. pose proof (max_budget u U) as MB.
  clear - U CT CL MB.
  destruct U as [<-|[<-|[<-|[<-|[]]]]]; (split; [intros ((A & B) & _)|intros A; split; [split|exact MB]]); lia.
Qed.
Lemma max_smaller_within u : In u [1; 2; 4; 8] -> u <= r_u c -> within c (maxdef u).
Proof.
  intros U L. destruct max_tm_eval as (_ & _ & E1 & _).
  split; [apply maxdef_supported; exact U|]. cbn [maxdef d_u d_b d_type d_length d_tm d_mcs d_Z]. rewrite E1. lia.
Qed.
Lemma max_covers u q m : In u [1; 2; 4; 8] -> u <= r_u c ->
  get_packet_sizes (maxdef (r_u c)) = Ok (Some q) -> get_packet_sizes (maxdef u) = Ok (Some m) -> covers q m = true.
Proof.
  intros U L E E'. pose proof HC as (CU & CB & CT & CM & CZ & CL). destruct max_tm_eval as (_ & _ & E1 & E2).
  pose proof (maxdef_supported _ U) as S0. pose proof (maxdef_supported _ CU) as S1.
  destruct (possible_dec (maxdef u)) as [P|P]; [|rewrite (sizes_impossible _ S0 P) in E'; discriminate].
  destruct (possible_dec (maxdef (r_u c))) as [P'|P']; [|rewrite (sizes_impossible _ S1 P') in E; discriminate].
  pose proof (max_smaller_within u U L) as W. destruct (symbols_within c _ HC W) as (A1 & A2 & A3).
  assert (F : fits m q).
  { eapply (sizes_le (maxdef u) (maxdef (r_u c))); eauto; try reflexivity; try assumption; try (cbn; lia).
    change (streams (d_tm (maxdef (r_u c)))) with (streams max_tm). rewrite E2.
    apply max_cells; [exact W|]. apply cells_pos, P. }
  assert (C2 : q_N_PDC_subc m <= q_N_PDC_subc q /\ q_N_DRS_subc m <= q_N_DRS_subc q).
  { destruct (sizes_possible _ S0 P) as (? & ? & t & s & _ & _ & _ & _ & _ & _ & _ & _ & _ & A).
    destruct (sizes_possible _ S1 P') as (? & ? & t' & s' & _ & _ & _ & _ & _ & _ & _ & _ & _ & A').
    rewrite A in E'. rewrite A' in E. injection E as <-. injection E' as <-. cbn [q_N_PDC_subc q_N_DRS_subc].
    split.
    - rewrite (cells_density _ S0), (cells_density _ S1).
      change (symbols (maxdef u)) with (10 * u * r_PacketLength c).
      change (symbols (maxdef (r_u c))) with (10 * r_u c * r_PacketLength c).
      change (d_tm (maxdef u)) with max_tm. change (d_tm (maxdef (r_u c))) with max_tm.
      change (d_u (maxdef u)) with u. change (d_u (maxdef (r_u c))) with (r_u c).
      change (d_b (maxdef u)) with (r_b c). change (d_b (maxdef (r_u c))) with (r_b c). rewrite E1.
      pose proof (symbols_bounds _ S0) as (_ & M5). change (symbols (maxdef u)) with (10 * u * r_PacketLength c) in M5.
      destruct (density_max u (10 * u * r_PacketLength c) (r_N_TX c) (r_u c) (r_PacketLength c) (r_N_TX c)
                 U CU CT CT L ltac:(lia) ltac:(lia) ltac:(lia) M5) as (_ & D).
      apply Z2N.inj_le; [lia|lia|] || idtac.
      assert (Z.of_N (r_b c) * density u (10 * u * r_PacketLength c) (r_N_TX c) <=
              Z.of_N (r_b c) * density (r_u c) (10 * r_u c * r_PacketLength c) (r_N_TX c))%Z
        by (apply Z.mul_le_mono_nonneg_l; [lia|exact D]).
      lia.
    - unfold reference_cells, reference_symbols. change (d_tm (maxdef u)) with max_tm.
      change (d_tm (maxdef (r_u c))) with max_tm. change (d_b (maxdef u)) with (r_b c).
      change (d_b (maxdef (r_u c))) with (r_b c).
      change (symbols (maxdef (r_u c))) with (10 * r_u c * r_PacketLength c). apply N.mul_le_mono_l.
      destruct (eff_antennas max_tm <=? 2); apply N.div_le_mono; lia. }
  unfold covers. destruct F as (F1 & F2 & F3 & F4 & F5 & F6 & F7 & F8 & F9 & F10 & F11 & F12 & F13 & F14).
  destruct C2 as (C2 & C3). repeat (rewrite (proj2 (N.leb_le _ _))); auto.
Qed.
End Class.

Lemma smaller_ok c fuel : class_ok c -> ~ (r_N_TX c = 4 /\ r_PacketLength c = 1) ->
  forall u q, In u [1; 2; 4; 8; 16] -> get_packet_sizes (maxdef c (r_u c)) = Ok (Some q) ->
  check_smaller fuel (maxdef c (r_u c)) u (r_u c) q = Ok tt.
Proof.
  intros HC ND. induction fuel as [|fuel IH]; intros u q U E; [reflexivity|]. cbn [check_smaller].
  destruct (u <? r_u c) eqn:LT; [|reflexivity].
  assert (U8 : In u [1; 2; 4]). { pose proof HC as (CU & _). destruct CU as [C|[C|[C|[C|[]]]]]; rewrite <- C in LT; cbn in U |- *; lia. }
  assert (U4 : In u [1; 2; 4; 8]) by (cbn in U8 |- *; tauto).
  change (mkPsdef u (d_b (maxdef c (r_u c))) (d_type (maxdef c (r_u c))) (d_length (maxdef c (r_u c)))
           (d_tm (maxdef c (r_u c))) (d_mcs (maxdef c (r_u c))) (d_Z (maxdef c (r_u c)))) with (maxdef c u).
  assert (P : possible (maxdef c u)) by (apply max_possible; auto; tauto).
  destruct (sizes_possible _ (maxdef_supported c HC u U4) P) as (mc & tm & t & s & _ & _ & _ & _ & _ & _ & _ & _ & _ & A).
  rewrite A. cbn [bind]. rewrite (max_covers c HC u q _ U4 ltac:(lia) E A). cbn [guard]. apply IH; [|exact E].
  destruct U8 as [<-|[<-|[<-|[]]]]; vm_compute; tauto.
Qed.
Lemma max_eval c : class_ok c ->
  (~ (r_N_TX c = 4 /\ r_PacketLength c = 1) ->
    exists q, get_maximum_packet_sizes c = Ok q /\ get_packet_sizes (maxdef c (r_u c)) = Ok (Some q)) /\
  (r_N_TX c = 4 -> r_PacketLength c = 1 -> get_maximum_packet_sizes c = Abort).
Proof.
  intros HC. pose proof HC as (CU & _). destruct (max_tm_eval c HC) as (ME & _). unfold get_maximum_packet_sizes.
  rewrite ME. cbn [bind]. fold (maxdef c (r_u c)). split.
  - intros ND. assert (P : possible (maxdef c (r_u c))) by (apply max_possible; auto; tauto).
    destruct (sizes_possible _ (maxdef_supported c HC _ CU) P) as (mc & tm & t & s & _ & _ & _ & _ & _ & _ & _ & _ & _ & A).
    rewrite A. cbn [bind]. eexists. split; [|reflexivity].
    rewrite (smaller_ok c 4 HC ND 1); [reflexivity|cbn; tauto|exact A].
  - intros T L. assert (IM : get_packet_sizes (maxdef c 1) = Ok None).
    { apply sizes_impossible; [apply maxdef_supported; [exact HC|cbn; tauto]|].
      rewrite max_possible; [|exact HC|cbn; tauto]. tauto. }
    destruct (N.eq_dec (r_u c) 1) as [E|E]; [rewrite E, IM; reflexivity|].
    destruct (possible_dec (maxdef c (r_u c))) as [P|P].
    + destruct (sizes_possible _ (maxdef_supported c HC _ CU) P) as (mc & tm & t & s & _ & _ & _ & _ & _ & _ & _ & _ & _ & A).
      rewrite A. cbn [bind check_smaller].
      replace (1 <? r_u c) with true by (destruct CU as [C|[C|[C|[C|[]]]]]; rewrite <- C in *; auto; lia).
      change (mkPsdef 1 (d_b (maxdef c (r_u c))) (d_type (maxdef c (r_u c))) (d_length (maxdef c (r_u c)))
           (d_tm (maxdef c (r_u c))) (d_mcs (maxdef c (r_u c))) (d_Z (maxdef c (r_u c)))) with (maxdef c 1).
      rewrite IM. reflexivity.
    + rewrite (sizes_impossible _ (maxdef_supported c HC _ CU) P). reflexivity.
Qed.
Lemma max_fits c d q m : class_ok c -> within c d -> get_packet_sizes d = Ok (Some q) ->
  get_maximum_packet_sizes c = Ok m -> fits q m.
Proof.
  intros HC W E M. pose proof HC as (CU & _). pose proof W as (S0 & LU & LB & LE & LM & EZ & LL).
  destruct (max_eval c HC) as (M1 & M2).
  assert (ND : ~ (r_N_TX c = 4 /\ r_PacketLength c = 1)) by (intros (A & B); rewrite (M2 A B) in M; discriminate).
  destruct (M1 ND) as (q' & A & B). rewrite A in M. injection M as ->.
  destruct (symbols_within c d HC W) as (A1 & A2 & A3). destruct (max_tm_eval c HC) as (_ & _ & E1 & E2).
  eapply (sizes_le d (maxdef c (r_u c))); eauto; try (apply maxdef_supported; auto).
  change (streams (d_tm (maxdef c (r_u c)))) with (streams (max_tm c)). rewrite E2. apply max_cells; auto.
  destruct (possible_dec d) as [P|P]; [|rewrite (sizes_impossible _ S0 P) in E; discriminate]. apply cells_pos, P.
Qed.
