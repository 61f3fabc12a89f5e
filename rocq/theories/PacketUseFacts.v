From Verif Require Import Base IntHelpers WireSpec Duration Plcf PlcfSpec PlcfDecoderFacts PacketSizes PacketSizesSpec PacketSizesFacts PacketSizesMaxFacts PacketUse PacketUseSpec.
Open Scope N_scope.

Lemma max_inv c m : class_ok c -> get_maximum_packet_sizes c = Ok m ->
  q_psdef m = maxdef c (r_u c) /\ N_SS (q_tm m) = r_N_TX c.
Proof.
  intros HC M. pose proof HC as (CU & _). destruct (max_eval c HC) as (M1 & M2).
  assert (ND : ~ (r_N_TX c = 4 /\ r_PacketLength c = 1)) by (intros (A & B); rewrite (M2 A B) in M; discriminate).
  destruct (M1 ND) as (q' & A & B). rewrite A in M. injection M as ->.
  pose proof (maxdef_supported c HC _ CU) as S0.
  assert (P : possible (maxdef c (r_u c))).
  { destruct (possible_dec (maxdef c (r_u c))) as [P|P]; [exact P|]. rewrite (sizes_impossible _ S0 P) in B. discriminate. }
  destruct (sizes_possible _ S0 P) as (mc & tm & t & s & _ & T & _ & _ & _ & _ & _ & _ & _ & E). rewrite B in E. injection E as ->.
  split; [reflexivity|]. cbn [q_tm]. destruct (max_tm_eval c HC) as (_ & L & _ & E2). cbn [maxdef d_tm] in T.
  apply upto_11 in L. clear - T L E2.
  set (x := max_tm c) in *. clearbody x. cbn [In] in L.
  repeat destruct L as [<-|L]; try contradiction L; cbn in T; injection T as <-; exact E2.
Qed.

Lemma tm_of n_eff n_ss : In n_eff [1; 2; 4; 8] -> 0 < n_ss ->
  exists tm, get_equivalent_tm_mode n_eff n_ss = Ok tm /\ tm <= 11 /\ eff_antennas tm = n_eff /\
    streams tm = (if n_ss =? 1 then 1 else n_eff).
Proof.
  intros H P. unfold get_equivalent_tm_mode. replace (0 <? n_ss) with true by lia.
  destruct H as [<-|[<-|[<-|[<-|[]]]]]; cbn [N.eqb Pos.eqb orb guard]; destruct (n_ss =? 1); eexists; (split; [reflexivity|]); vm_compute; intuition congruence.
Qed.

(** A header the decoder accepted. *)
Definition accepted (m : packet_sizes) (h : plcf) : Prop :=
  PacketLengthType (h_base h) <= 1 /\ PacketLength_m1 (h_base h) <= 15 /\
  PacketLength_m1 (h_base h) + 1 <= d_length (q_psdef m) /\ h_mcs h <= d_mcs (q_psdef m) /\ h_mcs h <= 11 /\
  h_N_SS h = Ok (announced h) /\ 0 < announced h.

Lemma code_streams c : c <= 3 -> N_SS_of_code c = Ok (2 ^ c) /\ 0 < 2 ^ c.
Proof.
  intros H. assert (c = 0 \/ c = 1 \/ c = 2 \/ c = 3) as [->|[->|[->| ->]]] by lia; split; reflexivity.
Qed.
Lemma decoder_accepted m e10 e20 e21 m1 m2 dec1 dec2 type h :
  (5 <= length m1)%nat -> bytes (firstn 5 m1) -> (10 <= length m2)%nat -> bytes (firstn 10 m2) ->
  decode_and_rdc_check (set_configuration (decoder_of_class m e10 e20 e21)) 1 m1 = Ok dec1 ->
  decode_and_rdc_check dec1 2 m2 = Ok dec2 ->
  type = 1 \/ type = 2 -> get_plcf_base dec2 type = Ok (Some h) -> accepted m h.
Proof.
  intros L1 B1 L2 B2 E1 E2 T G.
  destruct (decoder_exact (decoder_of_class m e10 e20 e21) m1 m2 L1 B1 L2 B2) as (x1 & x2 & X1 & X2 & A & B & _).
  rewrite E1 in X1. injection X1 as <-. rewrite E2 in X2. injection X2 as <-.
  destruct T as [-> | ->]; rewrite G in *.
  - destruct h as [p|p|p]; try contradiction. destruct A as (((_ & P1 & P2) & _ & _ & _ & _ & P3) & _ & C1 & C2 & C3).
    cbn in C1, C2. unfold accepted. cbn [h_base h_mcs h_N_SS announced]. repeat split; auto; lia.
  - destruct h as [p|p|p]; try contradiction; destruct B as (lv & (((_ & P1 & P2) & _ & _ & _ & P3 & _ & P4 & _) & _ & _ & C1 & C2 & C3) & _);
      cbn in C1, C2; destruct (code_streams _ P4) as (S1 & S2);
      unfold accepted; cbn [h_base h_mcs h_N_SS announced]; repeat split; auto; lia.
Qed.

Lemma psdef_described c m s dec type h : class_ok c -> get_maximum_packet_sizes c = Ok m -> report_ok c s ->
  get_plcf_base dec type = Ok (Some h) -> accepted m h ->
  exists d, worksub_psdef m s dec type = Ok d /\ described s h (r_Z c) d /\ within c d.
Proof.
  intros HC M (U1 & U2 & B1 & B2 & T1 & T2) G (P1 & P2 & P3 & P4 & P5 & P6 & P7).
  destruct (max_inv c m HC M) as (E1 & E2). pose proof HC as (_ & _ & _ & _ & CZ & CL).
  rewrite E1 in P3, P4. cbn [maxdef d_length d_mcs] in P3, P4.
  destruct (tm_of _ _ T1 P7) as (tm & Q1 & Q2 & Q3 & Q4).
  unfold worksub_psdef. rewrite G. cbn [bind]. rewrite P6. cbn [bind]. rewrite Q1. cbn [bind].
  assert (LE : get_PacketLength (h_base h) = PacketLength_m1 (h_base h) + 1) by (unfold get_PacketLength; lia).
  rewrite LE, E1. cbn [maxdef d_Z]. eexists. split; [reflexivity|]. split.
  - unfold described. cbn. auto 10.
  - unfold within, supported. cbn [d_u d_b d_type d_length d_tm d_mcs d_Z]. rewrite Q3. repeat split; auto; lia.
Qed.

Lemma process_exact c m type d : class_ok c -> get_maximum_packet_sizes c = Ok m -> type = 1 \/ type = 2 -> within c d ->
  match get_process m type d with
  | Ok q => possible d /\ consistent d q /\ fits q m
  | Abort => ~ possible d
  | _ => False
  end.
Proof.
  intros HC M T W. pose proof W as (S0 & _). unfold get_process.
  replace ((type =? 1) || (type =? 2)) with true by lia. cbn [guard].
  destruct (possible_dec d) as [P|P].
  - destruct (sizes_possible d S0 P) as (mc & tm & t & s & _ & _ & _ & _ & _ & _ & _ & _ & _ & E).
    rewrite E. cbn [bind]. pose proof (max_fits c d _ m HC W E M) as F. pose proof F as (_ & _ & _ & _ & _ & F6 & _).
    rewrite guard_true by lia. split; [exact P|]. split; [|exact F]. eapply sizes_consistent; eauto.
  - rewrite (sizes_impossible d S0 P). cbn [bind]. exact P.
Qed.

(** * Length at the sample rate of the hardware *)
Lemma ceil_ok64 x y : 0 < y -> x + y <= 2 ^ 63 -> ceil_divide_integer 64 x y = Ok ((x + y - 1) / y).
Proof.
  intros Y B. unfold ceil_divide_integer. replace (y =? 0) with false by lia. f_equal. f_equal.
  change (2 ^ 64) with 18446744073709551616. change (2 ^ 63) with 9223372036854775808 in B. lia.
Qed.
Lemma ceil_div_spec x y : 0 < y -> 0 < x ->
  0 < (x + y - 1) / y /\ x <= (x + y - 1) / y * y /\ ((x + y - 1) / y - 1) * y < x.
Proof.
  intros Y X. pose proof (N.div_mod (x + y - 1) y ltac:(lia)) as D. pose proof (N.mod_lt (x + y - 1) y ltac:(lia)) as R.
  set (k := (x + y - 1) / y) in *. set (r := (x + y - 1) mod y) in *. clearbody k r.
  assert (0 < k). { destruct (N.eq_dec k 0) as [E|E]; [|lia]. subst k. lia. }
  split; [assumption|]. rewrite N.mul_sub_distr_r. lia.
Qed.
Lemma lasts_unique d rate n n' : lasts d rate n -> lasts d rate n' -> 0 < d_u d -> n = n'.
Proof.
  intros (A1 & A2 & A3) (B1 & B2 & B3) U. set (y := 24000 * d_u d) in *. assert (0 < y) by lia. clearbody y.
  destruct (N.lt_trichotomy n n') as [L|[L|L]]; [exfalso|exact L|exfalso].
  - assert (n * y <= (n' - 1) * y) by (apply N.mul_le_mono_r; lia). lia.
  - assert (n' * y <= (n - 1) * y) by (apply N.mul_le_mono_r; lia). lia.
Qed.

Lemma resampled d q rate : supported d -> get_packet_sizes d = Ok (Some q) -> 0 < rate < 4294967296 ->
  exists n, lasts d rate n /\ n < 4294967296 /\
    get_N_samples_in_packet_length q rate = (if q_packet q <=? n then Ok n else Abort).
Proof.
  intros S0 E R.
  destruct (possible_dec d) as [P|P]; [|rewrite (sizes_impossible d S0 P) in E; discriminate].
  pose proof (sizes_consistent d q S0 P E) as C.
  destruct C as (Q0 & Q1 & _ & _ & _ & _ & _ & _ & _ & _ & _ & Q2 & _ & _ & _ & _ & _ & Q3).
  pose proof S0 as (U & B & _ & L & _). pose proof (symbols_bounds d S0) as (SB & _).
  rewrite Q2, Q1 in Q3. rewrite Q3. unfold get_N_samples_in_packet_length. rewrite Q3, Q0.
  assert (UB : 1 <= d_u d <= 8) by (destruct U as [<-|[<-|[<-|[<-|[]]]]]; lia).
  assert (BB : 1 <= d_b d <= 16) by (destruct B as [<-|[<-|[<-|[<-|[<-|[<-|[]]]]]]]; lia).
  set (u := d_u d) in *. set (b := d_b d) in *. set (n := symbols d) in *.
  assert (UB1 : 1 <= u * b) by nia. assert (UB2 : u * b <= 128) by nia.
  rewrite (mul32_small u b) by lia. rewrite mul32_small by lia.
  assert (N1 : 0 < n) by lia.
  assert (X1 : n * (72 * b) <= 1280 * (72 * 16)) by nia.
  assert (X0 : 0 < n * (72 * b) * rate) by nia.
  assert (X2 : n * (72 * b) * rate <= 1474560 * 4294967296) by nia.
  rewrite N.mod_small by (change (2 ^ 64) with 18446744073709551616; lia).
  rewrite ceil_ok64 by (change (2 ^ 63) with 9223372036854775808; lia). cbn [bind].
  set (k := (n * (72 * b) * rate + u * b * 1728000 - 1) / (u * b * 1728000)).
  destruct (ceil_div_spec (n * (72 * b) * rate) (u * b * 1728000) ltac:(lia) X0) as (K0 & K1 & K2). fold k in K0, K1, K2.
  assert (Lk : lasts d rate k).
  { unfold lasts. fold u n. split; [exact K0|]. clear - K1 K2 BB. split.
    - apply (N.mul_le_mono_pos_r _ _ (72 * b)); [lia|]. 
      replace (n * rate * (72 * b)) with (n * (72 * b) * rate) by lia.
      replace (k * (24000 * u) * (72 * b)) with (k * (u * b * 1728000)) by lia. exact K1.
    - apply (N.mul_lt_mono_pos_r (72 * b)); [lia|].
      replace (n * rate * (72 * b)) with (n * (72 * b) * rate) by lia.
      replace ((k - 1) * (24000 * u) * (72 * b)) with ((k - 1) * (u * b * 1728000)) by lia. exact K2. }
  assert (KB : k < 4294967296).
  { unfold lasts in Lk. destruct Lk as (_ & _ & Lk). fold u n in Lk.
    destruct (N.lt_ge_cases k 4294967296) as [|G]; [assumption|]. exfalso.
    assert (4294967295 * 24000 <= (k - 1) * (24000 * u)) by (apply N.mul_le_mono; lia).
    assert (n * rate <= 1280 * 4294967296) by (apply N.mul_le_mono; lia). lia. }
  exists k. split; [exact Lk|]. split; [exact KB|]. rewrite N.mod_small by exact KB. unfold guard. reflexivity.
Qed.

Lemma buffer_eval c m rate : class_ok c -> get_maximum_packet_sizes c = Ok m -> 0 < rate < 4294967296 ->
  get_N_samples_in_packet_length_max m rate =
  if rate mod 2400 =? 0 then Ok (r_PacketLength c * (rate / 2400)) else Abort.
Proof.
  intros HC M R. destruct (max_inv c m HC M) as (E1 & _). pose proof HC as (_ & _ & _ & _ & _ & CL).
  unfold get_N_samples_in_packet_length_max, duration_new. rewrite E1. cbn [maxdef d_length samp_rate_divisor].
  replace (0 <? rate) with true by lia. change (0 <? 1) with true. cbn [guard].
  destruct (N.eqb_spec (rate mod 2400) 0) as [Z0|Z0]; [|reflexivity]. cbn [guard].
  replace (0 <? rate / 2400) with true by lia. cbn [guard].
  replace (rate / 2400 * 1 <=? 2147483647) with true by lia. cbn [guard bind du_N].
  change (2 ^ 32) with 4294967296. set (k := rate / 2400) in *. assert (k <= 1789570) by (unfold k; lia). clearbody k.
  rewrite N.mul_1_r, !N.mod_small by lia. rewrite mul32_small by nia. reflexivity.
Qed.

Lemma buffer_large_enough c m d q rate : class_ok c -> get_maximum_packet_sizes c = Ok m -> within c d ->
  get_packet_sizes d = Ok (Some q) -> r_u c * r_b c * 1728000 <= rate < 4294967296 -> rate mod 2400 = 0 ->
  exists n, get_N_samples_in_packet_length q rate = Ok n /\ lasts d rate n /\ q_packet q <= n /\
    n <= r_PacketLength c * (rate / 2400).
Proof.
  intros HC M W E R R0. pose proof W as (S0 & LU & LB & _). pose proof HC as (CU & CB & _).
  pose proof S0 as (U & B & _).
  assert (UB : 1 <= d_u d) by (destruct U as [<-|[<-|[<-|[<-|[]]]]]; lia).
  assert (BB : 1 <= d_b d) by (destruct B as [<-|[<-|[<-|[<-|[<-|[<-|[]]]]]]]; lia).
  assert (RU : d_u d * d_b d <= r_u c * r_b c) by (apply N.mul_le_mono; assumption).
  assert (R1 : 1 <= d_u d * d_b d) by nia.
  destruct (resampled d q rate S0 E ltac:(lia)) as (n & Ln & NB & G). pose proof Ln as (L0 & L1 & L2).
  destruct (possible_dec d) as [P|P]; [|rewrite (sizes_impossible d S0 P) in E; discriminate].
  pose proof (sizes_consistent d q S0 P E) as C.
  destruct C as (Q0 & Q1 & _ & _ & _ & _ & _ & _ & _ & _ & _ & Q2 & _ & _ & _ & _ & _ & Q3).
  rewrite Q2, Q1 in Q3.
  assert (QN : q_packet q <= n).
  { rewrite Q3. apply (N.mul_le_mono_pos_r _ _ (24000 * d_u d)); [lia|].
    assert (symbols d * (d_u d * d_b d * 1728000) <= symbols d * rate) by (apply N.mul_le_mono_l; lia).
    replace (symbols d * (72 * d_b d) * (24000 * d_u d)) with (symbols d * (d_u d * d_b d * 1728000)) by lia. lia. }
  exists n. rewrite G. replace (q_packet q <=? n) with true by lia. split; [reflexivity|]. split; [exact Ln|]. split; [exact QN|].
  destruct (symbols_within c d HC W) as (A1 & _).
  assert (RD : rate = 2400 * (rate / 2400)) by (clear - R0; lia). set (k := rate / 2400) in *. clearbody k.
  assert (A : symbols d * rate <= r_PacketLength c * k * (24000 * d_u d)).
  { assert (symbols d * rate <= 10 * d_u d * r_PacketLength c * rate) by (apply N.mul_le_mono_r; exact A1).
    replace (r_PacketLength c * k * (24000 * d_u d)) with (10 * d_u d * r_PacketLength c * (2400 * k)) by lia. rewrite <- RD. assumption. }
  assert (n - 1 < r_PacketLength c * k); [|lia].
  apply (N.mul_lt_mono_pos_r (24000 * d_u d)); [lia|]. lia.
Qed.
