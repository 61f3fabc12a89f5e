(** C57: encoding of a transport block. The functions of the external codec are arbitrary, except that rate
    matching returns as many bits as it is asked for. *)
From Verif Require Import Base PacketSizes PacketSizesSpec TbCodec TbCodecSpec TbEncFacts TbGeomFacts TbEncRun.
Open Scope N_scope.

Section Encoding.
  Context {CS W : Type}.
  Variables (turbo : CS -> list bool -> bool -> N -> bool -> W * CS) (select : W -> N -> N -> list bool) (crc0 : CS).
  Hypothesis select_length : forall w n rv, length (select w n rv) = N.to_nat n.
  Variables (d : psdef) (q : packet_sizes) (rv : N).
  Hypothesis packet : supported d /\ get_packet_sizes d = Ok (Some q).
  (** The transport block, the scrambling sequence, the buffer for the coded bits and the soft buffer of the HARQ
      process, all large enough for the packet. *)
  Variables (data c buf : list bool) (w : list W).
  Hypothesis room : q_N_TB_bits q <= N.of_nat (length data) /\ q_G q <= N.of_nat (length c) /\
    q_G q <= N.of_nat (length buf) /\ (length buf mod 8 = 0)%nat /\ q_C q <= N.of_nat (length w).
  Notation qm := (N_bps (q_mcs q)).
  Notation G := (q_G q).
  Notation n := (N.to_nat (q_C q)).
  Notation run := (transmit turbo select crc0 (fec_of q rv) data c buf w).

  (** Coded blocks: those of a first transmission are computed from the transport block, those of a
      retransmission are the ones stored by the first transmission. *)
  Definition blocks (lens : list N) : list W :=
    if rv =? 0 then coded turbo crc0 (negb (length lens =? 1)%nat) lens (cut (payloads lens) (firstn (N.to_nat (q_N_TB_bits q)) data))
    else firstn (length lens) w.
  Definition stream (lens : list N) : list bool :=
    xor_bits (concat (codewords select rv (blocks lens) (shares qm G (length lens)))) c.

  Lemma facts : exists s g, geom (fec_of q rv) s g /\ segmentation (q_N_TB_bits q) (d_Z d) (lens_of s) /\ q_C q = sg_C s /\
    length (lens_of s) = n /\ ascending (lens_of s) /\ even_split qm G n (shares qm G n).
  Proof.
    destruct packet as (P1 & P2). destruct (geom_of d q rv P1 P2) as (s & GM & SG & CE). exists s, (streams (d_tm d) * Z.to_N (data_cells d)).
    split; [exact GM|]. split; [exact SG|]. split; [exact CE|]. rewrite CE. split; [apply (lens_length _ _ _ GM)|].
    split; [apply (lens_ascending _ _ _ GM)|].
    pose proof (gm_G _ _ _ GM) as GE. pose proof (gm_bps _ _ _ GM) as BP. cbn [fec_of f_bps f_G] in GE, BP. rewrite GE.
    apply shares_even; [lia|apply (C_pos _ _ _ GM)].
  Qed.

  Lemma run_spec s g : geom (fec_of q rv) s g -> q_C q = sg_C s -> forall l, exists k st,
    run l = Ok st /\ e_cb st = N.of_nat k /\ (k <= n)%nat /\ e_wp st = sum (firstn k (shares qm G n)) /\
    demanded G l <= e_wp st /\ (k <> O -> sum (firstn (k - 1) (shares qm G n)) < demanded G l) /\
    firstn (N.to_nat (e_wp st)) (e_d st) = firstn (N.to_nat (e_wp st)) (stream (lens_of s)) /\
    e_soft st = (if rv =? 0 then firstn k (blocks (lens_of s)) ++ skipn k w else w).
  Proof.
    intros GM CE l. destruct room as (R1 & R2 & R3 & R4 & R5). pose proof (lens_length _ _ _ GM) as LL.
    destruct (transmit_run turbo select crc0 select_length (fec_of q rv) s g data c buf w GM) with (l := l) as (k & st & E & I & LK & M & P);
      cbn [fec_of f_tb f_G]; try lia.
    destruct I as (I1 & I2 & I3 & I4 & I5 & I6 & I7). rewrite CE. exists k, st.
    split; [exact E|]. split; [exact I1|]. split; [exact LK|]. split; [exact I3|]. split; [exact M|]. split; [exact P|].
    assert (SE : stream (lens_of s) = sent turbo select crc0 (fec_of q rv) s data c w).
    { unfold stream, sent, cws, blocks, ws, xs, lens, shs. rewrite LL. reflexivity. }
    assert (WB : e_wp st <= G).
    { rewrite I3. pose proof (shs_sum _ _ _ GM) as SS. cbn [fec_of f_G] in SS. rewrite <- SS. apply sum_firstn_all. }
    split.
    - rewrite SE. apply nth_ext with (d := false) (d' := false).
      + rewrite !firstn_length, (sent_length turbo select crc0 select_length (fec_of q rv) s g data c buf w GM) by (cbn [fec_of f_tb f_G]; lia). cbn [fec_of f_G]. lia.
      + intros i LI. rewrite firstn_length in LI. rewrite !nth_firstn' by lia. apply I5. lia.
    - cbn [fec_of f_rv] in I7. destruct (rv =? 0) eqn:RV; [|exact I7]. destruct I7 as (J1 & J2 & _).
      rewrite <- (firstn_skipn k (e_soft st)), J1, J2. f_equal. f_equal. unfold ws, blocks, xs, lens. cbn [fec_of f_rv f_tb]. rewrite RV, LL. reflexivity.
  Qed.

  (** Requests for code bits, in any number and order, are never refused. After them the smallest number of whole
      blocks that covers the largest request is encoded, and the code bits are those of the blocks in sequence,
      scrambled with the sequence from its beginning. *)
  Theorem C57_encode : exists lens, segmentation (q_N_TB_bits q) (d_Z d) lens /\ ascending lens /\ length lens = n /\
    even_split qm G n (shares qm G n) /\
    forall l, exists k st, run l = Ok st /\ e_cb st = N.of_nat k /\ (k <= n)%nat /\
      e_wp st = sum (firstn k (shares qm G n)) /\
      demanded G l <= e_wp st /\ (k <> O -> sum (firstn (k - 1) (shares qm G n)) < demanded G l) /\
      firstn (N.to_nat (e_wp st)) (e_d st) = firstn (N.to_nat (e_wp st)) (stream lens) /\
      e_soft st = (if rv =? 0 then firstn k (blocks lens) ++ skipn k w else w).
  Proof.
    destruct facts as (s & g & GM & SG & CE & LL & AS & EV). exists (lens_of s). split; [exact SG|]. split; [exact AS|]. split; [exact LL|].
    split; [exact EV|]. intros l. exact (run_spec s g GM CE l).
  Qed.

  (** The coded bits do not depend on how they are asked for. *)
  Theorem C57_schedule l1 l2 st1 st2 : run l1 = Ok st1 -> run l2 = Ok st2 ->
    (forall i, N.of_nat i < e_wp st1 -> N.of_nat i < e_wp st2 -> nth i (e_d st1) false = nth i (e_d st2) false) /\
    (demanded G l1 = demanded G l2 -> e_wp st1 = e_wp st2 /\ e_cb st1 = e_cb st2 /\ e_soft st1 = e_soft st2).
  Proof.
    intros E1 E2. destruct facts as (s & g & GM & SG & CE & LL & AS & EV).
    destruct (run_spec s g GM CE l1) as (k1 & s1 & F1 & A1 & A2 & A3 & A4 & A5 & A6 & A7).
    destruct (run_spec s g GM CE l2) as (k2 & s2 & F2 & B1 & B2 & B3 & B4 & B5 & B6 & B7).
    rewrite E1 in F1. rewrite E2 in F2. injection F1 as <-. injection F2 as <-. split.
    - intros i L1 L2. rewrite <- (nth_firstn' (e_d st1) (N.to_nat (e_wp st1)) i false) by lia. rewrite <- (nth_firstn' (e_d st2) (N.to_nat (e_wp st2)) i false) by lia.
      rewrite A6, B6, !nth_firstn' by lia. reflexivity.
    - intros DE. assert (KE : k1 = k2).
      { destruct (Nat.lt_trichotomy k1 k2) as [H|[H|H]]; [|exact H|]; exfalso.
        - specialize (B5 ltac:(lia)). pose proof (sum_firstn_le (shares qm G n) k1 (k2 - 1) ltac:(lia)). lia.
        - specialize (A5 ltac:(lia)). pose proof (sum_firstn_le (shares qm G n) k2 (k1 - 1) ltac:(lia)). lia. }
      subst k2. split; [congruence|]. split; [congruence|]. rewrite A7, B7. reflexivity.
  Qed.

  (** A request without a number of bits gives all of them. *)
  Theorem C57_all : exists lens st, segmentation (q_N_TB_bits q) (d_Z d) lens /\ length lens = n /\
    (do s <- segmentate (fec_of q rv) ; encode_tb_all turbo select (fec_of q rv) s data c (enc_start crc0 buf w)) = Ok st /\
    e_cb st = q_C q /\ e_wp st = G /\ firstn (N.to_nat G) (e_d st) = stream lens.
  Proof.
    destruct facts as (s & g & GM & SG & CE & LL & AS & EV). exists (lens_of s).
    destruct (run_spec s g GM CE [4294967295]) as (k & st & F & A1 & A2 & A3 & A4 & A5 & A6 & A7). exists st.
    split; [exact SG|]. split; [exact LL|].
    pose proof (gm_Gmax _ _ _ GM) as GX. pose proof (shs_sum _ _ _ GM) as SS. unfold shs in SS. cbn [fec_of f_G f_bps] in GX, SS. rewrite <- CE in SS.
    assert (WG : e_wp st = G).
    { unfold demanded in A4. cbn [map fold_right] in A4. pose proof (sum_firstn_all (shares qm G n) k). lia. }
    split.
    { unfold transmit in F. destruct (segmentate (fec_of q rv)) as [s'| | |]; cbn [bind requests] in *; try discriminate.
      unfold encode_tb_all. destruct (encode_tb _ _ _ _ _ _ _ _); cbn [bind] in *; congruence. }
    split.
    { rewrite A1. destruct (Nat.eq_dec k n) as [->|NE]; [lia|]. exfalso.
      assert (LT : (k < N.to_nat (sg_C s))%nat) by lia.
      pose proof (shs_min _ _ _ GM k LT) as MN. pose proof (shs_length _ _ _ GM) as SL0. unfold shs in MN, SL0. cbn [fec_of f_G f_bps] in MN, SL0. rewrite <- CE in MN, SL0.
      pose proof (sum_firstn_S (shares qm G n) k ltac:(lia)) as S1. pose proof (sum_firstn_all (shares qm G n) (S k)). lia. }
    split; [exact WG|]. rewrite WG in A6. rewrite A6. apply firstn_all2.
    destruct room as (R1 & R2 & R3 & R4 & R5).
    assert (SE : stream (lens_of s) = sent turbo select crc0 (fec_of q rv) s data c w).
    { unfold stream, sent, cws, blocks, ws, xs, lens, shs. rewrite (lens_length _ _ _ GM). reflexivity. }
    rewrite SE, (sent_length turbo select crc0 select_length (fec_of q rv) s g data c buf w GM) by (cbn [fec_of f_tb f_G]; lia). cbn [fec_of f_G]. lia.
  Qed.
End Encoding.
Print Assumptions C57_encode.
Print Assumptions C57_schedule.
Print Assumptions C57_all.

(** Scrambling of [n] >= 8 bits from bit [off] on changes these bits and clears the unused rest of the last byte;
    all other bits stay. This holds for every alignment. *)
Theorem C57_scramble c d n off : (8 <= n)%nat -> (off + n <= length c)%nat -> (off + n <= length d)%nat -> (length d mod 8 = 0)%nat ->
  exists d', scramble c d (Z.of_nat n) (Z.of_nat off) = Ok d' /\ length d' = length d /\
    forall i, nth i d' false =
      if ((off <=? i) && (i <? off + n))%nat then xorb (nth i d false) (nth i c false)
      else if ((off + n <=? i) && (i <? 8 * ((off + n + 7) / 8)))%nat then false else nth i d false.
Proof. exact (scramble_ok c d n off). Qed.
Print Assumptions C57_scramble.

(** The share of the larger blocks is computed in single precision; it is exact for every packet. *)
Theorem C57_float d q rv : supported d -> get_packet_sizes d = Ok (Some q) ->
  let gp := f_G (fec_of q rv) / f_bps (fec_of q rv) in ceilf_div gp (q_C q) = Some ((gp + (q_C q - 1)) / q_C q).
Proof.
  intros S E. destruct (geom_of d q rv S E) as (s & GM & _ & CE). cbv zeta. rewrite CE.
  pose proof (gm_G _ _ _ GM) as GE. pose proof (gm_bps _ _ _ GM) as BP. pose proof (gm_g _ _ _ GM) as GL. pose proof (gm_Cg _ _ _ GM) as CG. pose proof (C_pos _ _ _ GM) as CP.
  rewrite GE. rewrite N.mul_comm, N.div_mul by lia. apply ceilf_exact; lia.
Qed.
Print Assumptions C57_float.

(** A packet of three blocks: 5536 bits in 6832 code bits. A codec that sends the data as they are. *)
Definition ex_packet := mkPsdef 1 1 1 2 0 9 2048.
Definition ex_sizes : packet_sizes :=
  match get_packet_sizes ex_packet with
  | Ok (Some q) => q
  | _ => mkSizes ex_packet (mkNum 0 0 0 0 0 0 0) (mkMcs 0 0 0) (mkTm 0 0 false 0 0) 0 0 0 0 0 0 0 0 0 0 0 0 0 0 0 0
  end.
Definition ex_turbo (n : N) (x : list bool) (last : bool) (k : N) (many : bool) : list bool * N :=
  (last :: many :: N.odd n :: x, n + 1).
Definition ex_select (w : list bool) (n rv : N) : list bool :=
  firstn (N.to_nat n) (skipn (N.to_nat rv) w ++ repeat (N.odd rv) (N.to_nat n)).
Lemma ex_select_length w n rv : length (ex_select w n rv) = N.to_nat n.
Proof. unfold ex_select. rewrite firstn_length, app_length, repeat_length. lia. Qed.
Fixpoint ex_gen (a b : N) (i : N) (n : nat) : list bool :=
  match n with O => [] | S n => N.odd (i * i / a + b * i / 5) :: ex_gen a b (i + 1) n end.
Definition ex_bits (a b : N) (n : N) : list bool := ex_gen a b 0 (N.to_nat n).
Definition ex_data := ex_bits 7 3 5536.
Definition ex_c := ex_bits 11 4 6832.
Definition ex_run (rv : N) (w : list (list bool)) l :=
  transmit ex_turbo ex_select 0 (fec_of ex_sizes rv) ex_data ex_c (repeat true (N.to_nat 6840)) w l.

Example C57_nonvacuous :
  supported ex_packet /\ get_packet_sizes ex_packet = Ok (Some ex_sizes) /\
  q_N_TB_bits ex_sizes = 5536 /\ q_G ex_sizes = 6832 /\ q_C ex_sizes = 3 /\
  shares 8 6832 3%nat = [2272; 2280; 2280] /\
  (* the second block is encoded by the third request only, a retransmission reads the stored blocks *)
  match ex_run 0 [[]; []; []] [100; 50; 2273; 17] with
  | Ok st => e_cb st = 2 /\ e_wp st = 4552 /\
      firstn 12 (e_d st) = xor_bits ([false; true; false] ++ firstn 9 ex_data) ex_c /\
      nth 2 (e_soft st) [true] = [] /\
      match ex_run 2 (e_soft st) [4552] with
      | Ok st2 => e_soft st2 = e_soft st /\ firstn 12 (e_d st2) = xor_bits (false :: firstn 11 ex_data) ex_c
      | _ => False
      end
  | _ => False
  end.
Proof.
  split. { unfold supported; cbn [d_u d_b d_type d_length d_tm d_mcs d_Z ex_packet In]; lia. }
  vm_compute. repeat split.
Qed.
