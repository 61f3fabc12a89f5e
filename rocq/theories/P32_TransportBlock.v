(** C30: the transport block size is monotone. *)
From Verif Require Import Base PacketSizes PacketSizesSpec PacketSizesFacts PacketSizesMaxFacts P31_PacketSizes.
Open Scope N_scope.

(** More data cells, the rest equal, never give a smaller transport block, as long as the products do
    not leave 31 bits. *)
Theorem C30_more_cells : forall n_ss n n' bps num den Z,
  In Z [2048; 6144] -> 0 < den -> n <= n' -> n_ss * n' * bps * num < 2147483648 -> 0 < num ->
  exists t t', get_N_TB_bits n_ss n bps num den Z = Ok t /\ get_N_TB_bits n_ss n' bps num den Z = Ok t' /\ t <= t'.
Proof.
  intros n_ss n n' bps num den Z HZ D L B P.
  assert (E : forall k, k <= n' -> get_N_TB_bits n_ss k bps num den Z = Ok (tbf (granted (n_ss * k * bps * num / den)) Z) /\
               n_ss * k * bps * num / den <= n_ss * n' * bps * num / den < 2147483648).
  { intros k K.
    assert (A1 : n_ss * k * bps * num <= n_ss * n' * bps * num)
      by (apply N.mul_le_mono_r, N.mul_le_mono_r, N.mul_le_mono_l; exact K).
    assert (A2 : n_ss * k * bps <= n_ss * k * bps * num) by (rewrite <- (N.mul_1_r (n_ss * k * bps)) at 1; apply N.mul_le_mono_l; lia).
    assert (Q : forall y, y <= 2147483647 -> y / den < 2147483648).
    { intros y Y. apply N.div_lt_upper_bound; [lia|]. assert (1 * 2147483648 <= den * 2147483648) by (apply N.mul_le_mono_r; lia). lia. }
    assert (A3 : n_ss * k * bps * num / den <= n_ss * n' * bps * num / den) by (apply N.div_le_mono; lia).
    assert (A4 : n_ss * n' * bps * num / den < 2147483648) by (apply Q; lia).
    split; [|lia]. unfold get_N_TB_bits, get_N_PDC_bits. replace (den =? 0) with false by lia.
    destruct (N.eq_dec bps 0) as [Z0|Z0].
    { rewrite Z0. unfold get_G. replace (mul32 (mul32 n_ss k) 0) with 0 by (unfold mul32; rewrite N.mul_0_r; reflexivity).
      replace (mul32 0 num) with 0 by (unfold mul32; rewrite N.mul_0_l; reflexivity).
      rewrite !N.mul_0_r, N.mul_0_l. rewrite N.div_0_l by lia. cbn [bind]. rewrite tb_closed; [reflexivity|auto|lia]. }
    assert (A5 : n_ss * k <= n_ss * k * bps) by (rewrite <- (N.mul_1_r (n_ss * k)) at 1; apply N.mul_le_mono_l; lia).
    unfold get_G. rewrite (mul32_small n_ss k) by lia. rewrite (mul32_small (n_ss * k) bps) by lia.
    rewrite mul32_small by lia. cbn [bind]. apply tb_closed; [auto|lia]. }
  destruct (E n L) as (E1 & L1). destruct (E n' ltac:(lia)) as (E2 & L2).
  eexists _, _. split; [exact E1|]. split; [exact E2|]. 
  apply tbf_mono; [exact HZ|..]; try (apply granted_mono; lia); apply granted_64; auto; lia.
Qed.

(** A packet that is at least as wide and as long with at least the same MCS, and otherwise the same,
    never holds less, provided its length has room for the reference symbols. *)
Theorem C30_packets : forall d d' q,
  supported d -> supported d' -> d_u d = d_u d' -> d_tm d = d_tm d' -> d_Z d = d_Z d' ->
  d_b d <= d_b d' -> symbols d <= symbols d' -> d_mcs d <= d_mcs d' ->
  get_packet_sizes d = Ok (Some q) -> room_for_reference d' ->
  exists q', get_packet_sizes d' = Ok (Some q') /\ q_N_TB_bits q <= q_N_TB_bits q' /\ q_N_TB_byte q <= q_N_TB_byte q'.
Proof.
  intros d d' q S0 S1 EU ET EZ LB LN LM E R.
  destruct (possible_dec d) as [P|P]; [|rewrite (sizes_impossible d S0 P) in E; discriminate].
  pose proof S0 as (_ & _ & _ & _ & T & _). pose proof S1 as (_ & _ & _ & _ & _ & M1 & _).
  pose proof (symbols_bounds d S0) as (_ & M5). pose proof (symbols_bounds d' S1) as (_ & M5').
  pose proof (cells_pos d (proj2 P)) as CP.
  assert (C : (data_cells d <= data_cells d')%Z).
  { rewrite (cells_density d S0) in *. rewrite (cells_density d' S1). rewrite <- ET, <- EU.
    pose proof (density_mono (d_u d) (symbols d) (symbols d') _ (eff_cases _ T) LN M5 M5') as DM.
    set (h := density (d_u d) (symbols d) _) in *. set (h' := density (d_u d) (symbols d') _) in *. clearbody h h'.
    assert (0 < h)%Z by nia. nia. }
  assert (B : budget d <= budget d').
  { apply budget_mono; [exact LM|exact M1|]. rewrite ET. apply N.mul_le_mono_l. lia. }
  assert (P' : possible d') by (split; [exact R|destruct P; lia]).
  destruct (sizes_possible d' S1 P') as (mc & tm & t & s & _ & _ & _ & _ & _ & _ & _ & _ & _ & E').
  eexists. split; [exact E'|]. pose proof (tb_le d d' q _ S0 S1 EZ B E E') as (A1 & A2 & _). split; assumption.
Qed.

(** The proviso is needed: 20 symbols are fine for 8 streams, the longer packet of 25 symbols is not. *)
Theorem C30_longer_packets_exist_refuted : exists d d',
  supported d /\ supported d' /\ d_u d = d_u d' /\ d_tm d = d_tm d' /\ d_Z d = d_Z d' /\ d_b d = d_b d' /\ d_mcs d = d_mcs d' /\
  symbols d < symbols d' /\ get_packet_sizes d <> Ok None /\ get_packet_sizes d' = Ok None.
Proof.
  exists (mkPsdef 8 2 0 4 11 9 6144), (mkPsdef 8 2 0 5 11 9 6144).
  split; [unfold supported; cbn [d_u d_b d_type d_length d_tm d_mcs d_Z In]; lia|].
  split; [unfold supported; cbn [d_u d_b d_type d_length d_tm d_mcs d_Z In]; lia|].
  vm_compute. repeat split; discriminate.
Qed.

Example C30_hypotheses_met :
  get_N_TB_bits 2 800 4 3 4 2048 = Ok 4704 /\
  (exists q, get_packet_sizes ex_slot = Ok (Some q)) /\ room_for_reference (mkPsdef 1 4 1 3 0 4 2048).
Proof. split; [vm_compute; reflexivity|]. split; [eexists; vm_compute; reflexivity|]. split; cbn; lia. Qed.

Print Assumptions C30_more_cells.
Print Assumptions C30_packets.
Print Assumptions C30_longer_packets_exist_refuted.
