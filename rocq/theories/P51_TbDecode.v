(** C58: decoding of a transport block. The functions of the external codec are arbitrary, except that the turbo
    decoder returns as many bits as the block is long. *)
From Verif Require Import Base PacketSizes PacketSizesSpec PacketSizesFacts TbCodec TbCodecSpec TbEncFacts TbGeomFacts TbEncRun TbDecRun TbDecFacts P50_TbEncode.
Open Scope N_scope.

Section Decoding.
  Context {S0 L : Type}.
  Variables (comb : S0 -> list L -> N -> N -> S0) (tdec : S0 -> N -> nat -> list bool) (crc_cb_ok crc_tb_ok : list bool -> bool) (descr : bool -> L -> L).
  Hypothesis tdec_length : forall x k i, length (tdec x k i) = N.to_nat k.
  Variables (d : psdef) (q : packet_sizes).
  Hypothesis packet : supported d /\ get_packet_sizes d = Ok (Some q).
  Notation blk := (TbCodec.blk (S := S0)).
  Notation qm := (N_bps (q_mcs q)).
  Notation G := (q_G q).
  Notation tb := (q_N_TB_bits q).
  Notation n := (N.to_nat (q_C q)).

  (** Room in the buffers of the HARQ process: the buffer of the transport block [a] holds 24 or 48 bits more than
      the transport block, the soft buffer [w] has a place of 6144 bits for the data of every block. *)
  Definition ample (c : list bool) (buf : list L) (a : list bool) (w : list blk) : Prop :=
    G <= N.of_nat (length c) /\ G <= N.of_nat (length buf) /\
    tb + (if q_C q =? 1 then 24 else 48) <= N.of_nat (length a) /\
    q_C q <= N.of_nat (length w) /\ Forall (fun b => 6144 <= N.of_nat (length (b_data b))) w.
  Definition outcome (rv : N) (c : list bool) (w : list blk) (lens : list N) (llrs : list L) : list (list bool * blk) :=
    results comb tdec crc_cb_ok crc_tb_ok n rv lens w (soft_bits descr llrs c (shares qm G n) (used qm G n)).
  Notation run rv := (receive comb tdec crc_cb_ok crc_tb_ok descr (fec_of q rv)).

  Lemma facts : exists s, segmentation tb (d_Z d) (lens_of s) /\ length (lens_of s) = n /\ ascending (lens_of s) /\ q_C q = sg_C s /\
    forall rv, exists g, geom (fec_of q rv) s g.
  Proof.
    destruct packet as (P1 & P2). destruct (geom_of d q 0 P1 P2) as (s & GM & SG & CE). exists s. split; [exact SG|].
    split; [rewrite CE; apply (lens_length _ _ _ GM)|]. split; [apply (lens_ascending _ _ _ GM)|]. split; [exact CE|].
    intros rv. exists (streams (d_tm d) * Z.to_N (data_cells d)). destruct (geom_of d q rv P1 P2) as (s' & GM' & _ & CE').
    pose proof (gm_seg _ _ _ GM) as E1. pose proof (gm_seg _ _ _ GM') as E2. change (segmentate (fec_of q rv)) with (segmentate (fec_of q 0)) in E2.
    rewrite E1 in E2. injection E2 as <-. exact GM'.
  Qed.

  Lemma run_spec s g rv : geom (fec_of q rv) s g -> q_C q = sg_C s -> forall c buf a w llrs chunks, ample c buf a w -> N.of_nat (length llrs) = G ->
    (length (concat chunks) <= length llrs)%nat -> concat chunks = firstn (length (concat chunks)) llrs ->
    exists st v, run rv c buf a w chunks = Ok (st, v) /\
      Run comb tdec crc_cb_ok crc_tb_ok descr (fec_of q rv) s c llrs buf a w (length (concat chunks)) st v.
  Proof.
    intros GM CE c buf a w llrs chunks (A1 & A2 & A3 & A4 & A5) LL LC CC. rewrite CE in A3, A4.
    apply (receive_run comb tdec crc_cb_ok crc_tb_ok descr tdec_length (fec_of q rv) s g c llrs buf a w GM); cbn [fec_of f_tb f_G]; try lia; try assumption.
  Qed.
  Lemma outcome_eq s rv c w llrs : q_C q = sg_C s -> outcome rv c w (lens_of s) llrs = rs comb tdec crc_cb_ok crc_tb_ok descr (fec_of q rv) s c llrs w.
  Proof. intros CE. unfold outcome, rs, ys, shs, us. cbn [fec_of f_rv f_bps f_G]. rewrite CE. reflexivity. Qed.

  Lemma run_all s g rv : geom (fec_of q rv) s g -> q_C q = sg_C s -> forall c buf a w llrs chunks, ample c buf a w -> N.of_nat (length llrs) = G -> concat chunks = llrs ->
    exists st, run rv c buf a w chunks = Ok (st, accepted crc_tb_ok n (outcome rv c w (lens_of s) llrs)) /\
      d_wp st = tb + 24 /\ length (d_a st) = length a /\
      firstn (N.to_nat (tb + 24)) (d_a st) = concat (map fst (outcome rv c w (lens_of s) llrs)) /\
      d_soft st = kept crc_tb_ok n (outcome rv c w (lens_of s) llrs) ++ skipn n w.
  Proof.
    intros GM CE c buf a w llrs chunks AM LL CC. pose proof AM as (A1 & A2 & A3 & A4 & A5). rewrite CE in A3, A4.
    destruct (run_spec s g rv GM CE c buf a w llrs chunks AM LL) as (st & v & E & R); [rewrite CC; lia|rewrite CC; symmetry; apply firstn_all|].
    rewrite CC in R.
    apply (run_end comb tdec crc_cb_ok crc_tb_ok descr tdec_length (fec_of q rv) s g) in R; cbn [fec_of f_tb f_G]; try lia; try assumption.
    destruct R as (P & ->). destruct P as (_ & P2 & _ & P4 & P5 & P6). rewrite (outcome_eq s) by exact CE. rewrite CE. exists st. auto 8.
  Qed.

  (** However the soft bits of a packet are cut into symbols, decoding never fails an assertion and never leaves a
      buffer. The verdict, the transport block and what is kept for a retransmission are those of the
      specification. *)
  Theorem C58_decode : exists lens, segmentation tb (d_Z d) lens /\ ascending lens /\ length lens = n /\
    forall rv c buf a w llrs chunks, ample c buf a w -> N.of_nat (length llrs) = G -> concat chunks = llrs ->
    let rs := outcome rv c w lens llrs in
    exists st, run rv c buf a w chunks = Ok (st, accepted crc_tb_ok n rs) /\
      d_wp st = tb + 24 /\ firstn (N.to_nat (tb + 24)) (d_a st) = concat (map fst rs) /\
      d_soft st = kept crc_tb_ok n rs ++ skipn n w.
  Proof.
    destruct facts as (s & SG & LL & AS & CE & GM). exists (lens_of s). split; [exact SG|]. split; [exact AS|]. split; [exact LL|].
    intros rv c buf a w llrs chunks AM LE CC. destruct (GM rv) as (g & GM').
    destruct (run_all s g rv GM' CE c buf a w llrs chunks AM LE CC) as (st & E & E1 & _ & E2 & E3). exists st. auto.
  Qed.

  (** While the packet is still arriving: all blocks whose soft bits are there are decoded, the beginning of the
      transport block that is reported as available is final, and no packet is accepted early unless all of its
      blocks are decoded. *)
  Theorem C58_early : exists lens, segmentation tb (d_Z d) lens /\ ascending lens /\ length lens = n /\
    forall rv c buf a w llrs chunks m, ample c buf a w -> N.of_nat (length llrs) = G -> concat chunks = firstn m llrs -> (m <= length llrs)%nat ->
    let rs := outcome rv c w lens llrs in
    exists st v k, run rv c buf a w chunks = Ok (st, v) /\ (k <= n)%nat /\
      d_cb st = N.of_nat k /\ d_wp st = sum (firstn k (payloads lens)) /\
      firstn (N.to_nat (d_wp st)) (d_a st) = concat (firstn k (map fst rs)) /\
      ((k < n)%nat -> N.of_nat m < sum (firstn k (shares qm G n)) + nth k (used qm G n) 0) /\
      v = ((k =? n)%nat && accepted crc_tb_ok n rs).
  Proof.
    destruct facts as (s & SG & LL & AS & CE & GM). exists (lens_of s). split; [exact SG|]. split; [exact AS|]. split; [exact LL|].
    intros rv c buf a w llrs chunks m AM LE CC LM. cbv zeta. destruct (GM rv) as (g & GM').
    assert (LC : length (concat chunks) = m) by (rewrite CC, firstn_length; lia).
    destruct (run_spec s g rv GM' CE c buf a w llrs chunks AM LE) as (st & v & E & R); [lia|rewrite LC; exact CC|].
    rewrite LC in R. exists st, v. rewrite (outcome_eq s) by exact CE. rewrite CE. pose proof AM as (A1 & A2 & A3 & A4 & A5). rewrite CE in A3, A4.
    destruct R as [(k & LK & D & ST & ->)|(P & ->)].
    - exists k. destruct D as (I1 & I2 & _ & _ & _ & I6 & _). split; [exact E|]. split; [lia|]. split; [exact I1|]. split; [exact I2|]. split; [exact I6|].
      split; [|replace (k =? N.to_nat (sg_C s))%nat with false by lia; reflexivity].
      intros _. specialize (ST LK). unfold shs, us in ST. cbn [fec_of f_bps f_G] in ST. lia.
    - exists (N.to_nat (sg_C s)). destruct P as (P1 & P2 & _ & P4 & P5 & P6). split; [exact E|]. split; [lia|]. split; [rewrite P1; lia|].
      assert (PA : sum (firstn (N.to_nat (sg_C s)) (payloads (lens_of s))) = tb + 24) by apply (pls_all _ _ _ GM').
      split; [rewrite PA; exact P2|].
      split. { rewrite P2. cbn [fec_of f_tb] in *. rewrite P5. unfold outs. f_equal. symmetry. apply firstn_all2. rewrite map_length.
        rewrite (rs_length comb tdec crc_cb_ok crc_tb_ok descr tdec_length (fec_of q rv) s g c llrs buf a w GM') by (cbn [fec_of f_tb f_G]; lia). lia. }
      split; [lia|]. rewrite Nat.eqb_refl. reflexivity.
  Qed.

  (** ** Checksums *)
  Lemma one_payload s g rv : geom (fec_of q rv) s g -> q_C q = sg_C s -> n = 1%nat -> exists k, lens_of s = [k] /\ k = tb + 24.
  Proof.
    intros GM CE N1. pose proof (lens_length _ _ _ GM) as LL. rewrite <- CE, N1 in LL. destruct (lens_of s) as [|k [|? ?]] eqn:E; cbn in LL; try discriminate.
    exists k. split; [reflexivity|]. pose proof (payloads_sum _ _ _ GM) as PS. rewrite E in PS. unfold payloads, payload, sum in PS. cbn in PS. cbn [fec_of f_tb] in PS. lia.
  Qed.
  Lemma first_good_ok ok x k is o : first_good ok (tdec x k) is = (o, true) -> ok o = true /\ length o = N.to_nat k.
  Proof.
    induction is as [|i is IH]; cbn [first_good]; [discriminate|]. destruct (ok (tdec x k i)) eqn:E; [|exact IH].
    intros [= <-]. split; [exact E|apply tdec_length].
  Qed.
  (** no data of a single block is held back as good *)
  Definition fresh (w : list blk) : Prop := n = 1%nat -> forall b, nth_error w 0 = Some b -> b_ok b = false.

  Lemma pass_sound s g rv : geom (fec_of q rv) s g -> q_C q = sg_C s -> forall c buf a w llrs chunks st v, ample c buf a w -> N.of_nat (length llrs) = G -> concat chunks = llrs -> fresh w ->
    run rv c buf a w chunks = Ok (st, v) ->
    (v = true -> crc_tb_ok (firstn (N.to_nat (tb + 24)) (d_a st)) = true) /\ (v = false -> fresh (d_soft st)).
  Proof.
    intros GM CE c buf a w llrs chunks st v AM LE CC FR E.
    destruct (run_all s g rv GM CE c buf a w llrs chunks AM LE CC) as (st' & E' & E1 & _ & E2 & E3). rewrite E in E'. injection E' as <- ->.
    rewrite E2, E3. destruct (Nat.eq_dec n 1) as [N1|N1].
    - destruct (one_payload s g rv GM CE N1) as (k & LK & KT). unfold fresh in *. specialize (FR N1). unfold outcome. rewrite LK, N1.
      pose proof AM as (_ & _ & _ & A4 & _). destruct w as [|b w]; [cbn in A4; lia|]. specialize (FR b eq_refl).
      pose proof (outcome_eq s rv c (b :: w) llrs CE) as OE.
      assert (YL : length (soft_bits descr llrs c (shares qm G 1) (used qm G 1)) = 1%nat).
      { unfold soft_bits. rewrite map_length, combine_length, cut_length.
        pose proof (shs_length _ _ _ GM) as S1. pose proof (us_length _ _ _ GM) as S2. unfold shs in S1. unfold us in S2. cbn [fec_of f_bps f_G] in S1, S2.
        rewrite <- CE, N1 in S1, S2. rewrite S1, S2. reflexivity. }
      destruct (soft_bits descr llrs c (shares qm G 1) (used qm G 1)) as [|y [|? ?]]; cbn in YL; try discriminate.
      cbn [results]. unfold block_result. rewrite FR. cbn [Nat.eqb]. unfold payload. cbn [Nat.eqb].
      destruct (first_good crc_tb_ok (tdec (comb (b_soft b) y rv k) k) (seq 2 9)) as (o, ok) eqn:FG. cbn [fst snd map concat].
      unfold accepted. cbn [forallb snd b_ok Nat.eqb]. rewrite andb_true_r. cbn [orb]. rewrite andb_true_r, app_nil_r.
      split.
      + intros ->. destruct (first_good_ok _ _ _ _ _ FG) as (H1 & H2). rewrite <- H2, firstn_all. exact H1.
      + intros -> _ b' H. unfold kept, accepted in H. cbn in H. injection H as <-. reflexivity.
    - split; [|intros _ X; congruence]. unfold accepted. intros H. apply andb_true_iff in H. destruct H as (_ & H).
      replace (n =? 1)%nat with false in H by lia. exact H.
  Qed.

  (** Transmissions of one transport block, each with its redundancy version, scrambling sequence, buffers and
      symbols, into one soft buffer until one of them is accepted; the data accepted. *)
  Record pass := mkPass { p_rv : N; p_c : list bool; p_buf : list L; p_a : list bool; p_chunks : list (list L) }.
  Fixpoint retry (w : list blk) (l : list pass) : res (option (list bool)) :=
    match l with
    | [] => Ok None
    | p :: t => do r <- run (p_rv p) (p_c p) (p_buf p) (p_a p) w (p_chunks p) ;
                if snd r then Ok (Some (firstn (N.to_nat (tb + 24)) (d_a (fst r)))) else retry (d_soft (fst r)) t
    end.

  (** From a soft buffer that holds back nothing, retransmissions never leave a buffer, and data are delivered only
      if the checksum of the transport block holds. *)
  Theorem C58_sound : forall l w, fresh w -> Forall (fun p => ample (p_c p) (p_buf p) (p_a p) w /\ N.of_nat (length (concat (p_chunks p))) = G) l ->
    exists r, retry w l = Ok r /\ forall x, r = Some x -> crc_tb_ok x = true.
  Proof.
    destruct facts as (s & SG & LL & AS & CE & GM).
    induction l as [|p l IH]; intros w FR F; cbn [retry]; [exists None; split; [reflexivity|discriminate]|].
    inversion F as [|? ? (AM & LE) F2]; subst. destruct (GM (p_rv p)) as (g & GM').
    destruct (run_all s g (p_rv p) GM' CE (p_c p) (p_buf p) (p_a p) w _ (p_chunks p) AM LE eq_refl) as (st & E & E1 & _ & E2 & E3).
    rewrite E. cbn [bind fst snd].
    destruct (pass_sound s g (p_rv p) GM' CE _ _ _ _ _ _ _ _ AM LE eq_refl FR E) as (V1 & V2).
    destruct (accepted _ _ _) eqn:V.
    - eexists. split; [reflexivity|]. intros x [= <-]. apply V1. reflexivity.
    - apply IH; [apply V2; reflexivity|]. eapply Forall_impl; [|exact F2]. cbv beta. intros p' ((B1 & B2 & B3 & B4 & B5) & B6). split; [|exact B6].
      pose proof AM as (A1 & A2 & A3 & A4 & A5).
      split; [exact B1|]. split; [exact B2|]. split; [exact B3|]. rewrite E3, (outcome_eq s) by exact CE. rewrite app_length.
      rewrite CE in A3, A4 |- *.
      rewrite (keep_length comb tdec crc_cb_ok crc_tb_ok descr tdec_length (fec_of q (p_rv p)) s g _ _ (p_buf p) (p_a p) w GM') by (cbn [fec_of f_tb f_G]; lia). split; [lia|].
      apply Forall_app. split; [|rewrite <- (firstn_skipn (N.to_nat (sg_C s)) w) in A5; apply Forall_app in A5; apply A5].
      apply (keep_data comb tdec crc_cb_ok crc_tb_ok descr tdec_length (fec_of q (p_rv p)) s g _ _ (p_buf p) (p_a p)); cbn [fec_of f_tb f_G]; lia || assumption.
  Qed.

  (** "A soft buffer can be used for the next packet" is false once a packet has been accepted: the soft bits of the
      next packet are not looked at. Its verdict and its data depend only on what earlier passes had stored. *)
  Theorem C58_stale_refuted : n = 1%nat -> forall rv c buf a b w llrs chunks st,
    ample c buf a (b :: w) -> N.of_nat (length llrs) = G -> concat chunks = llrs -> run rv c buf a (b :: w) chunks = Ok (st, true) ->
    forall rv' c' buf' a' llrs' chunks', ample c' buf' a' (d_soft st) -> N.of_nat (length llrs') = G -> concat chunks' = llrs' ->
    exists st', run rv' c' buf' a' (d_soft st) chunks' = Ok (st', true) /\
      firstn (N.to_nat (tb + 24)) (d_a st') = firstn (N.to_nat (tb + 24)) (b_data b).
  Proof.
    intros N1 rv c buf a b w llrs chunks st AM LE CC E rv' c' buf' a' llrs' chunks' AM' LE' CC'.
    destruct facts as (s & SG & LL & AS & CE & GM). destruct (GM rv) as (g & GM1). destruct (GM rv') as (g' & GM2).
    destruct (one_payload s g rv GM1 CE N1) as (k & LK & KT).
    destruct (run_all s g rv GM1 CE c buf a (b :: w) llrs chunks AM LE CC) as (st1 & E1 & _ & _ & _ & E3). rewrite E in E1. injection E1 as <- V.
    destruct (run_all s g' rv' GM2 CE c' buf' a' (d_soft st) llrs' chunks' AM' LE' CC') as (st2 & F1 & _ & _ & F2 & F3). exists st2.
    assert (YL : forall x y, length (soft_bits descr x y (shares qm G n) (used qm G n)) = 1%nat).
    { intros x y. unfold soft_bits. rewrite map_length, combine_length, cut_length.
      pose proof (shs_length _ _ _ GM1) as S1. pose proof (us_length _ _ _ GM1) as S2. unfold shs in S1. unfold us in S2. cbn [fec_of f_bps f_G] in S1, S2.
      rewrite <- CE, N1 in S1, S2. rewrite N1, S1, S2. reflexivity. }
    assert (SB : exists x, d_soft st = mkBlk x true (b_data b) :: w).
    { rewrite E3. unfold outcome in *. rewrite LK in *. pose proof (YL llrs c) as Y. destruct (soft_bits _ _ _ _ _) as [|y [|? ?]]; cbn in Y; try discriminate.
      cbn [results] in *. unfold kept. rewrite <- V. unfold accepted in V. cbn [forallb map] in *. rewrite N1 in V |- *. cbn [skipn].
      unfold block_result in *. destruct b as [bs bo bd]. cbn [b_ok b_soft b_data] in *. destruct bo; cbn [snd b_ok b_soft b_data] in *.
      - exists bs. reflexivity.
      - destruct (snd (first_good _ _ _)); [|discriminate]. eexists. reflexivity. }
    destruct SB as (x & SB). rewrite F1, F2, SB. unfold outcome. rewrite LK. pose proof (YL llrs' c') as Y. destruct (soft_bits _ _ _ _ _) as [|y [|? ?]]; cbn in Y; try discriminate.
    cbn [results]. unfold block_result, payload, accepted. cbn [b_ok forallb snd fst map concat b_data]. rewrite N1. cbn [Nat.eqb andb orb]. rewrite app_nil_r, KT. auto.
  Qed.

  (** "All received bits are used" is false: one cell is lost whenever the blocks have different shares. *)
  Theorem C58_lost_cell : (G / qm) mod q_C q <> 0 -> sum (used qm G n) + qm = G.
  Proof.
    intros R. destruct facts as (s & SG & LL & AS & CE & GM). destruct (GM 0) as (g & GM').
    pose proof (shs_sum _ _ _ GM') as SS. pose proof (C_pos _ _ _ GM') as CP. unfold shs in SS. cbn [fec_of f_bps f_G] in SS. rewrite <- CE in SS, CP. rewrite <- SS at 2.
    unfold used, shares. rewrite N2Nat.id. set (r := (G / qm) mod q_C q) in *. set (v := G / qm / q_C q).
    assert (RL : r < q_C q) by (apply N.mod_lt; lia).
    assert (SA : forall l m, sum (l ++ m) = sum l + sum m). { clear. intros l m. unfold sum. induction l as [|x l IH]; cbn [app fold_right]; lia. }
    assert (SR : forall (x : N) k, sum (repeat x k) = N.of_nat k * x). { clear. intros x k. unfold sum. induction k as [|k IH]; cbn [repeat fold_right]; lia. }
    rewrite !SA, !SR. replace (N.of_nat (n - (N.to_nat r - 1))) with (N.of_nat (n - N.to_nat r) + 1) by lia.
    replace (N.of_nat (N.to_nat r - 1)) with (r - 1) by lia. rewrite N2Nat.id.
    rewrite N.mul_add_distr_l, N.mul_1_r. generalize (N.of_nat (n - N.to_nat r)) (qm * v). intros x y.
    set (t := r - 1). replace r with (t + 1) by lia. rewrite !N.mul_add_distr_r, !N.mul_add_distr_l. lia.
  Qed.

  (** "The number of bits can be left out", as in the encoder, is false. *)
  Theorem C58_all_refuted rv s c st : segmentate (fec_of q rv) = Ok s ->
    decode_tb_all comb tdec crc_cb_ok crc_tb_ok descr (fec_of q rv) s c st = Abort.
  Proof.
    intros E. destruct facts as (s' & SG & LL & AS & CE & GM). destruct (GM rv) as (g & GM'). pose proof (gm_Gmax _ _ _ GM') as GX.
    unfold decode_tb_all, decode_tb. replace (4294967295 <=? f_G (fec_of q rv)) with false by lia. reflexivity.
  Qed.

  (** "A buffer as large as the transport block suffices" is false: the checksum is written behind it. *)
  Theorem C58_buffer_refuted rv c buf a b w llrs : q_C q = 1 -> G <= N.of_nat (length c) -> G <= N.of_nat (length buf) -> N.of_nat (length llrs) = G ->
    b_ok b = false -> N.of_nat (length a) < tb + 24 -> run rv c buf a (b :: w) [llrs] = Oob.
  Proof.
    intros C1 HC HB HL OK HA. destruct facts as (s & SG & LL & AS & CE & GM). destruct (GM rv) as (g & GM').
    assert (N1 : n = 1%nat) by lia. destruct (one_payload s g rv GM' CE N1) as (k & LK & KT).
    assert (KE : cb_len s 0 = k). { pose proof (lens_nth _ _ _ GM' 0 ltac:(lia)) as X. rewrite LK in X. cbn [nth N.of_nat] in X. symmetry. exact X. }
    unfold receive. rewrite (gm_seg _ _ _ GM'). cbn [bind symbols].
    cbn [dec_start d_bits d_cb d_wp d_a d_soft]. rewrite blit_eq by lia. cbn [bind]. set (bits := firstn 0 buf ++ llrs ++ skipn (0 + length llrs) buf).
    assert (BL : length bits = length buf). { subst bits. rewrite !app_length, firstn_length, skipn_length. lia. }
    unfold decode_tb. cbn [Nat.add]. replace (N.of_nat (length llrs) <=? f_G (fec_of q rv)) with true by (cbn [fec_of f_G]; lia). cbn [guard].
    unfold decode_codeblocks. rewrite (gm_F _ _ _ GM'). cbn [N.eqb guard d_soft length]. rewrite <- CE, C1.
    replace (1 <=? N.of_nat (S (length w))) with true by lia. cbn [guard]. pose proof (gm_bps _ _ _ GM') as BP. replace (negb (f_bps (fec_of q rv) =? 0)) with true by lia. cbn [guard].
    change (N.to_nat 1) with 1%nat. cbn [dec_loop d_cb]. rewrite <- CE, C1. change (0 <? 1) with true. cbn iota.
    assert (I : (0 < N.to_nat (sg_C s))%nat) by lia. pose proof (range_eq _ _ _ GM' 0 I) as RE. cbn [N.of_nat firstn] in RE. change (sum []) with 0 in RE. rewrite RE.
    pose proof (us_le _ _ _ GM' 0 I) as UL. destruct (shs_step _ _ _ GM' 0 I) as (SS & SB). cbn [fec_of f_G] in SB.
    pose proof (gm_Gmax _ _ _ GM') as GX. cbn [fec_of f_G] in GX.
    rewrite add32_small by lia. rewrite N.add_0_l. replace (N.of_nat (length llrs) <? nth 0 (us (fec_of q rv) s) 0) with false by lia.
    unfold dec_block. cbn [d_cb d_wp d_bits d_a d_soft]. rewrite RE. rewrite !slice_ok by lia. cbn [bind].
    match goal with |- context [blit bits ?p ?y] => destruct (blit_ok bits p y) as (b2 & B1 & _) end.
    { rewrite descramble_length, !firstn_length, !skipn_length. lia. }
    rewrite B1. cbn [bind N.to_nat rd nth_error]. unfold rd. cbn [nth_error bind]. rewrite OK. cbn [negb].
    unfold max_iters. cbn [iterate]. change (8 * N.to_nat (0 / 8))%nat with 0%nat.
    match goal with |- context [blit a 0 ?x] => assert (BO : blit a 0 x = Oob) end.
    { unfold blit. match goal with |- context [length ?x] => assert (TLn : length x = N.to_nat k) by (rewrite tdec_length, KE; reflexivity) end.
      destruct (tdec _ _ 1) eqn:TE; [cbn in TLn; lia|]. rewrite TLn. replace (0 + N.to_nat k <=? length a)%nat with false by lia. reflexivity. }
    rewrite BO. reflexivity.
  Qed.
End Decoding.
Print Assumptions C58_decode.
Print Assumptions C58_early.
Print Assumptions C58_sound.
Print Assumptions C58_stale_refuted.
Print Assumptions C58_lost_cell.
Print Assumptions C58_all_refuted.
Print Assumptions C58_buffer_refuted.

(** ** Both ends *)
Lemma cut_concat {A} (ls : list (list A)) ns : Forall2 (fun l n => length l = N.to_nat n) ls ns -> cut ns (concat ls) = ls.
Proof.
  induction 1 as [|l n ls ns H F IH]; [reflexivity|]. cbn [cut concat]. rewrite <- H, firstn_app, firstn_all, Nat.sub_diag. cbn [firstn].
  rewrite app_nil_r, skipn_app, skipn_all, Nat.sub_diag. cbn [skipn app]. f_equal. exact IH.
Qed.
Lemma concat_cut {A} ns : forall l : list A, length l = N.to_nat (sum ns) -> concat (cut ns l) = l.
Proof.
  induction ns as [|n ns IH]; intros l H; cbn [cut concat]; unfold sum in H; cbn [fold_right] in H; [destruct l; [reflexivity|discriminate]|].
  fold (sum ns) in H. rewrite IH; [apply firstn_skipn|]. rewrite skipn_length. lia.
Qed.
Lemma cut_map {A B} (h : A -> B) ns : forall l, cut ns (map h l) = map (map h) (cut ns l).
Proof. induction ns as [|n ns IH]; intros l; cbn [cut map]; [reflexivity|]. rewrite firstn_map, skipn_map, IH. reflexivity. Qed.
Lemma descramble_sent {L} (descr : bool -> L -> L) (modl : bool -> L) : (forall b c, descr c (modl (xorb b c)) = modl b) ->
  forall x c, (length x <= length c)%nat -> descramble descr (map modl (xor_bits x c)) c = map modl x.
Proof.
  intros H. unfold descramble, xor_bits. induction x as [|b x IH]; intros [|y c] LE; cbn in LE; try lia; [reflexivity|reflexivity|].
  cbn [combine map fst snd]. rewrite H. f_equal. apply IH. lia.
Qed.
Lemma results_good {S0 L} (comb : S0 -> list L -> N -> N -> S0) tdec crc_cb_ok crc_tb_ok n rv : forall lens w ys infos,
  length ys = length lens -> (length lens <= length w)%nat -> length infos = length lens ->
  (forall i k b y x, nth_error lens i = Some k -> nth_error w i = Some b -> nth_error ys i = Some y -> nth_error infos i = Some x ->
     fst (block_result comb tdec crc_cb_ok crc_tb_ok n rv k b y) = x /\ b_ok (snd (block_result comb tdec crc_cb_ok crc_tb_ok n rv k b y)) = true) ->
  map fst (results comb tdec crc_cb_ok crc_tb_ok n rv lens w ys) = infos /\
  forallb (fun r => b_ok (snd r)) (results comb tdec crc_cb_ok crc_tb_ok n rv lens w ys) = true.
Proof.
  induction lens as [|k lens IH]; intros w ys infos LY LW LI H.
  - destruct infos; [|discriminate]. split; reflexivity.
  - destruct w as [|b w], ys as [|y ys], infos as [|x infos]; cbn in LY, LW, LI; try discriminate; try lia.
    cbn [results map forallb]. destruct (H 0%nat k b y x eq_refl eq_refl eq_refl eq_refl) as (H1 & H2). rewrite H1, H2.
    destruct (IH w ys infos) as (I1 & I2); [lia|lia|lia|intros i k' b' y' x' E1 E2 E3 E4; exact (H (S i) k' b' y' x' E1 E2 E3 E4)|].
    rewrite I1, I2. split; reflexivity.
Qed.

Section Both.
  Context {CS W S0 L : Type}.
  Variables (turbo : CS -> list bool -> bool -> N -> bool -> W * CS) (select : W -> N -> N -> list bool) (crc0 : CS).
  Hypothesis select_length : forall w n rv, length (select w n rv) = N.to_nat n.
  Variables (comb : S0 -> list L -> N -> N -> S0) (tdec : S0 -> N -> nat -> list bool) (crc_cb_ok crc_tb_ok : list bool -> bool) (descr : bool -> L -> L).
  Hypothesis tdec_length : forall x k i, length (tdec x k i) = N.to_nat k.
  (** The soft bit of a code bit. *)
  Variable modl : bool -> L.
  Hypothesis descr_modl : forall b c, descr c (modl (xorb b c)) = modl b.
  Variables (d : psdef) (q : packet_sizes).
  Hypothesis packet : supported d /\ get_packet_sizes d = Ok (Some q).
  Notation qm := (N_bps (q_mcs q)).
  Notation G := (q_G q).
  Notation tb := (q_N_TB_bits q).
  Notation n := (N.to_nat (q_C q)).

  (** The turbo decoder finds the payload [x] of a block within its iterations. *)
  Definition decodable (k : N) (b : TbCodec.blk (S := S0)) (y : list L) (x : list bool) : Prop :=
    b_ok b = false /\ exists o, first_good (if (n =? 1)%nat then crc_tb_ok else crc_cb_ok) (tdec (comb (b_soft b) y 0 k) k) (seq 2 9) = (o, true) /\
      firstn (N.to_nat (payload n k)) o = x.

  (** If the turbo decoder can decode every block of a packet from the code bits that the encoder has selected for
      that block (all, or all but the last cell), then the receiver accepts the packet and delivers the transport
      block, for every schedule of the encoder that produces the whole packet and every pace of the receiver. *)
  Theorem C58_roundtrip : exists lens, segmentation tb (d_Z d) lens /\ length lens = n /\
    forall data check c buf w l st, N.of_nat (length data) = tb -> length check = 24%nat -> crc_tb_ok (data ++ check) = true ->
    G <= N.of_nat (length c) -> G <= N.of_nat (length buf) -> (length buf mod 8 = 0)%nat -> q_C q <= N.of_nat (length w) ->
    G <= demanded G l -> transmit turbo select crc0 (fec_of q 0) data c buf w l = Ok st ->
    forall buf' a wr chunks, ample q c buf' a wr -> concat chunks = map modl (firstn (N.to_nat G) (e_d st)) ->
    (forall i k v b m u x, nth_error lens i = Some k -> nth_error (coded turbo crc0 (negb (length lens =? 1)%nat) lens (cut (payloads lens) data)) i = Some v ->
       nth_error wr i = Some b -> nth_error (shares qm G n) i = Some m -> nth_error (used qm G n) i = Some u ->
       nth_error (cut (payloads lens) (data ++ check)) i = Some x ->
       decodable k b (map modl (firstn (N.to_nat u) (select v m 0))) x) ->
    exists st', receive comb tdec crc_cb_ok crc_tb_ok descr (fec_of q 0) c buf' a wr chunks = Ok (st', true) /\
      firstn (N.to_nat tb) (d_a st') = data.
  Proof.
    destruct (facts d q packet) as (s & SG & LL & AS & CE & GM). destruct (GM 0) as (g & GM'). exists (lens_of s). split; [exact SG|]. split; [exact LL|].
    intros data check c buf w l st LD LC CRC HC HB HB8 HW DM TX buf' a wr chunks AM CC DEC.
    destruct (P50_TbEncode.run_spec turbo select crc0 select_length q 0 data c buf w) with (s := s) (g := g) (l := l) as (k0 & st0 & E & T1 & T2 & T3 & T4 & T5 & T6 & T7);
      [split; [lia|auto]|exact GM'|exact CE|]. rewrite TX in E. injection E as <-.
    pose proof (shs_sum _ _ _ GM') as SS. pose proof (shs_length _ _ _ GM') as SL. pose proof (us_length _ _ _ GM') as UL.
    unfold shs in SS, SL. unfold us in UL. cbn [fec_of f_bps f_G] in SS, SL, UL. rewrite <- CE in SS, SL, UL.
    assert (WG : e_wp st = G) by (pose proof (sum_firstn_all (shares qm G n) k0); lia).
    rewrite WG in T6.
    set (cwl := codewords select 0 (coded turbo crc0 (negb (length (lens_of s) =? 1)%nat) (lens_of s) (cut (payloads (lens_of s)) data)) (shares qm G n)).
    assert (ST : stream turbo select crc0 q 0 data c w (lens_of s) = xor_bits (concat cwl) c).
    { unfold stream, blocks. cbn [N.eqb]. rewrite LL, firstn_all2 by lia. subst cwl. rewrite LL. reflexivity. }
    assert (CF : Forall2 (fun l n => length l = N.to_nat n) cwl (shares qm G n)).
    { assert (CF : Forall2 (fun l n => length l = N.to_nat n) (cws turbo select crc0 (fec_of q 0) s data w) (shs (fec_of q 0) s)).
      { eapply cws_F; eauto; cbn [fec_of f_tb f_G]; lia. }
      unfold cws, ws, xs, lens, shs in CF. cbn [fec_of f_rv f_bps f_G f_tb N.eqb] in CF.
      rewrite firstn_all2 in CF by lia. rewrite <- CE in CF. subst cwl. rewrite LL. exact CF. }
    assert (CL : length (concat cwl) = N.to_nat G) by (rewrite (concat_length_sum _ _ CF), SS; reflexivity).
    assert (XL : length (xor_bits (concat cwl) c) = N.to_nat G) by (rewrite xor_length; lia).
    rewrite ST, (firstn_all2 (n := N.to_nat G) (xor_bits (concat cwl) c)) in T6 by lia. rewrite T6 in CC.
    assert (LLR : N.of_nat (length (map modl (xor_bits (concat cwl) c))) = G) by (rewrite map_length; lia).
    destruct (run_all comb tdec crc_cb_ok crc_tb_ok descr tdec_length q s g 0 GM' CE c buf' a wr _ chunks AM LLR CC) as (st' & R1 & R2 & R3 & R4 & R5).
    exists st'.
    set (ysl := map (fun p : list L * N => firstn (N.to_nat (snd p)) (fst p)) (combine (map (map modl) cwl) (used qm G n))).
    assert (YS : soft_bits descr (map modl (xor_bits (concat cwl) c)) c (shares qm G n) (used qm G n) = ysl).
    { unfold soft_bits. rewrite (descramble_sent descr modl descr_modl) by lia. rewrite cut_map, (cut_concat _ _ CF). reflexivity. }
    assert (CWL : length cwl = length (shares qm G n)) by (clear - CF; induction CF; cbn [length]; congruence). pose proof AM as (A1 & A2 & A3 & A4 & A5).
    assert (PLN : length (payloads (lens_of s)) = n) by (unfold payloads; rewrite map_length; exact LL).
    destruct (results_good comb tdec crc_cb_ok crc_tb_ok n 0 (lens_of s) wr ysl (cut (payloads (lens_of s)) (data ++ check))) as (G1 & G2).
    - subst ysl. rewrite map_length, combine_length, map_length. lia.
    - lia.
    - rewrite cut_length. lia.
    - intros i k b y x E1 E2 E3 E4. assert (I : (i < n)%nat) by (rewrite <- LL; apply nth_error_Some; congruence).
      destruct (nth_error (used qm G n) i) as [u|] eqn:EU; [|apply nth_error_None in EU; lia].
      destruct (nth_error (shares qm G n) i) as [m|] eqn:EM; [|apply nth_error_None in EM; lia].
      destruct (nth_error cwl i) as [cw|] eqn:EC; [|apply nth_error_None in EC; lia].
      assert (YE : y = firstn (N.to_nat u) (map modl cw)).
      { subst ysl. rewrite nth_error_map in E3. assert (NC : nth_error (combine (map (map modl) cwl) (used qm G n)) i = Some (map modl cw, u)).
        { clear - EC EU. revert EC EU. generalize (used qm G n). revert i. induction cwl as [|z cwl IH]; intros [|i] [|v us0] EC EU; cbn in *; try discriminate; [injection EC as ->; injection EU as ->; reflexivity|exact (IH i us0 EC EU)]. }
        rewrite NC in E3. injection E3 as <-. reflexivity. }
      assert (VE : exists v, nth_error (coded turbo crc0 (negb (length (lens_of s) =? 1)%nat) (lens_of s) (cut (payloads (lens_of s)) data)) i = Some v /\ cw = select v m 0).
      { subst cwl. unfold codewords in EC. rewrite nth_error_map in EC. clear - EC EM. revert EC EM. generalize (coded turbo crc0 (negb (length (lens_of s) =? 1)%nat) (lens_of s) (cut (payloads (lens_of s)) data)) (shares qm G n).
        induction i as [|i IH]; intros [|v vs] [|m0 ms] EC EM; cbn in *; try discriminate.
        - injection EM as ->. injection EC as <-. exists v. split; reflexivity.
        - exact (IH vs ms EC EM). }
      destruct VE as (v & VE & ->). destruct (DEC i k v b m u x E1 VE E2 EM EU E4) as (OK & o & FG & OX).
      rewrite YE, firstn_map. unfold block_result. rewrite OK, FG. cbn [fst snd b_ok]. split; [exact OX|reflexivity].
    - unfold outcome in R1, R4. rewrite YS in R1, R4. rewrite G1 in R4. unfold accepted in R1. rewrite G2, G1 in R1.
      assert (PS : concat (cut (payloads (lens_of s)) (data ++ check)) = data ++ check).
      { apply concat_cut. rewrite (payloads_sum _ _ _ GM'). cbn [fec_of f_tb]. rewrite app_length. lia. }
      rewrite PS in *. rewrite CRC in R1. rewrite orb_true_r in R1. split; [exact R1|].
      assert (F2 : firstn (N.to_nat tb) (d_a st') = firstn (N.to_nat tb) (firstn (N.to_nat (tb + 24)) (d_a st'))) by (rewrite firstn_firstn; f_equal; lia).
      rewrite F2, R4. rewrite firstn_app. replace (N.to_nat tb - length data)%nat with O by lia. rewrite firstn_all2 by lia. cbn [firstn]. apply app_nil_r.
  Qed.
End Both.
Print Assumptions C58_roundtrip.

(** ** Cases *)
(** A decoder for the codec of C57: a soft bit is the bit itself, a checksum of 24 zeros. *)
Definition ex_comb (s y : list bool) (rv k : N) : list bool := y.
Definition ex_tdec (x : list bool) (k : N) (i : nat) : list bool := firstn (N.to_nat k) (skipn 3 x ++ repeat false (N.to_nat k)).
Lemma ex_tdec_length x k i : length (ex_tdec x k i) = N.to_nat k.
Proof. unfold ex_tdec. rewrite firstn_length, app_length, repeat_length. lia. Qed.
Definition ex_ok (x : list bool) : bool := forallb negb (skipn (length x - 24) x).
Definition ex_w (n : nat) : list (TbCodec.blk (S := list bool)) := repeat (mkBlk [] false (repeat false (N.to_nat 6144))) n.
Definition ex_rx (q : packet_sizes) (rv : N) (a : list bool) w chunks :=
  receive ex_comb ex_tdec ex_ok ex_ok xorb (fec_of q rv) ex_c (repeat false (N.to_nat 6832)) a w chunks.
Definition ex_a := repeat true (N.to_nat 5584).
Definition ex_sent : list bool := match ex_run 0 [[]; []; []] [7000] with Ok st => firstn (N.to_nat 6832) (e_d st) | _ => [] end.

(** The packet of C57 comes back in symbols of 1000 soft bits; the buffers are ample; a cell of 8 bits is lost. *)
Definition ex_chunks := cut [1000; 1000; 1000; 1000; 1000; 1000; 832] ex_sent.
Example C58_nonvacuous :
  ample ex_sizes ex_c (repeat false (N.to_nat 6832)) ex_a (ex_w 3) /\ fresh (S0 := list bool) ex_sizes (ex_w 3) /\ (q_G ex_sizes / 8) mod q_C ex_sizes <> 0 /\
  used 8 6832 3%nat = [2272; 2272; 2280] /\
  match ex_rx ex_sizes 0 ex_a (ex_w 3) ex_chunks with
  | Ok (st, v) => v = true /\ firstn (N.to_nat 5536) (d_a st) = ex_data
  | _ => False
  end /\
  match ex_rx ex_sizes 0 ex_a (ex_w 3) (firstn 5 ex_chunks) with
  | Ok (st, v) => v = false /\ d_cb st = 2
  | _ => False
  end.
Proof.
  split. { unfold ample. split; [vm_compute; discriminate|]. split; [vm_compute; discriminate|]. split; [vm_compute; discriminate|]. split; [vm_compute; discriminate|].
    unfold ex_w. repeat constructor; vm_compute; discriminate. }
  split. { intros X. vm_compute in X. discriminate. }
  split; [vm_compute; discriminate|]. vm_compute. repeat split.
Qed.

(** A packet of one block is accepted; the next one, of other data, then yields the zeros of the soft buffer. A buffer
    of exactly the transport block is too small. *)
Definition ex_short := mkPsdef 1 1 1 1 0 1 2048.
Definition ex_short_sizes : packet_sizes := match get_packet_sizes ex_short with Ok (Some q) => q | _ => ex_sizes end.
Definition ex_short_tx (data : list bool) : list bool :=
  match transmit ex_turbo ex_select 0 (fec_of ex_short_sizes 0) data ex_c (repeat true (N.to_nat 648)) [[]] [644] with
  | Ok st => firstn (N.to_nat 644) (e_d st) | _ => [] end.
Example C58_stale_case :
  supported ex_short /\ get_packet_sizes ex_short = Ok (Some ex_short_sizes) /\ q_N_TB_bits ex_short_sizes = 296 /\ q_C ex_short_sizes = 1 /\
  match ex_rx ex_short_sizes 0 (repeat true (N.to_nat 320)) (ex_w 1) [ex_short_tx (firstn (N.to_nat 296) ex_data)] with
  | Ok (st, v) => v = true /\ firstn (N.to_nat 296) (d_a st) = firstn (N.to_nat 296) ex_data /\
      match ex_rx ex_short_sizes 0 (repeat true (N.to_nat 320)) (d_soft st) [ex_short_tx (firstn (N.to_nat 296) ex_c)] with
      | Ok (st2, v2) => v2 = true /\ firstn (N.to_nat 296) (d_a st2) = repeat false (N.to_nat 296)
      | _ => False
      end
  | _ => False
  end /\
  ex_rx ex_short_sizes 0 (repeat true (N.to_nat 296)) (ex_w 1) [ex_short_tx (firstn (N.to_nat 296) ex_data)] = Oob.
Proof.
  split. { unfold supported; cbn [d_u d_b d_type d_length d_tm d_mcs d_Z ex_short In]; lia. }
  vm_compute. repeat split.
Qed.

(** Every block of this packet is decodable in the sense of C58_roundtrip. *)
Definition ex_lens : list N := match segmentate (fec_of ex_sizes 0) with Ok s => lens_of s | _ => [] end.
Example C58_decodable_case :
  let ws := coded ex_turbo 0 true ex_lens (cut (payloads ex_lens) ex_data) in
  let xs := cut (payloads ex_lens) (ex_data ++ repeat false 24) in
  length ex_lens = 3%nat /\ ex_ok (ex_data ++ repeat false 24) = true /\
  Forall (fun i => decodable ex_comb ex_tdec ex_ok ex_ok ex_sizes (nth i ex_lens 0) (nth i (ex_w 3) (mkBlk [] true []))
                     (map (fun b => b) (firstn (N.to_nat (nth i (used 8 6832 3) 0)) (ex_select (nth i ws []) (nth i (shares 8 6832 3) 0) 0)))
                     (nth i xs [])) [0; 1; 2]%nat.
Proof.
  cbv zeta. split; [vm_compute; reflexivity|]. split; [vm_compute; reflexivity|].
  repeat (apply Forall_cons; [unfold decodable; split; [vm_compute; reflexivity|]; eexists; split; vm_compute; reflexivity|]). apply Forall_nil.
Qed.
