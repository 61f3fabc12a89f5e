(** Facts behind C59. *)
From Verif Require Import Base WireSpec BitSolve ByteFacts Identity Feedback FeedbackSpec FeedbackFacts Plcf PlcfSpec PlcfFacts
  PacketSizes TbCodec TbEncFacts PccCodec PlcfDecoderFacts PccCodecSpec.
Open Scope N_scope.

(** * Two bytes as a number *)
Lemma land_byte_shift a b : a < 256 -> N.land a (N.shiftl b 8) = 0.
Proof.
  intros H. apply N.bits_inj. intros n. rewrite N.land_spec, N.bits_0.
  destruct (N.ltb_spec n 8) as [C|C].
  - rewrite N.shiftl_spec_low by lia. apply andb_false_r.
  - assert (N.testbit a n = false); [|rewrite H0; reflexivity].
    destruct (N.eq_dec a 0) as [->|Z]; [apply N.bits_0|]. apply N.bits_above_log2.
    apply N.lt_le_trans with 8; [|lia]. apply N.log2_lt_pow2; [lia|exact H].
Qed.
Lemma two_bytes a b : a < 256 -> a + 256 * b = N.lxor a (N.shiftl b 8).
Proof.
  intros H. rewrite <- N.add_nocarry_lxor by (apply land_byte_shift; exact H).
  rewrite N.shiftl_mul_pow2. change (2 ^ 8) with 256. lia.
Qed.
Lemma lxor_byte a b : a < 256 -> b < 256 -> N.lxor a b < 256.
Proof.
  intros A B. destruct (N.eq_dec (N.lxor a b) 0) as [->|Z]; [lia|].
  change 256 with (2 ^ 8) in *. apply N.log2_lt_pow2; [lia|].
  eapply N.le_lt_trans; [apply N.log2_lxor|].
  apply N.max_lub_lt.
  - destruct (N.eq_dec a 0) as [->|]; [reflexivity|]. apply N.log2_lt_pow2; [lia|exact A].
  - destruct (N.eq_dec b 0) as [->|]; [reflexivity|]. apply N.log2_lt_pow2; [lia|exact B].
Qed.
Lemma lxor_two a b m : a < 256 -> m < 256 -> N.lxor (a + 256 * b) (m + 256 * m) = N.lxor a m + 256 * N.lxor b m.
Proof.
  intros A M. rewrite !two_bytes by (auto using lxor_byte). rewrite N.shiftl_lxor.
  rewrite !N.lxor_assoc. f_equal. rewrite <- !N.lxor_assoc. f_equal. apply N.lxor_comm.
Qed.
Lemma two_bytes_inj a b c d : a < 256 -> c < 256 -> a + 256 * b = c + 256 * d <-> a = c /\ b = d.
Proof. lia. Qed.

Lemma flag_byte_lt cl bf : flag_byte cl bf < 256.
Proof. destruct cl, bf; reflexivity. Qed.
Lemma mask_byte cl bf : mask_of cl bf = flag_byte cl bf + 256 * flag_byte cl bf.
Proof. destruct cl, bf; reflexivity. Qed.
Lemma flag_byte_inj cl bf cl' bf' : flag_byte cl bf = flag_byte cl' bf' -> cl = cl' /\ bf = bf'.
Proof. destruct cl, bf, cl', bf'; intros H; try discriminate H; auto. Qed.
Lemma lxor_cancel a b m : N.lxor a m = b <-> a = N.lxor b m.
Proof.
  split; [intros <-|intros ->]; rewrite N.lxor_assoc, N.lxor_nilpotent, N.lxor_0_r; reflexivity.
Qed.
Lemma lxor_inj a m m' : N.lxor a m = N.lxor a m' -> m = m'.
Proof.
  intros H. assert (E : N.lxor a (N.lxor a m) = N.lxor a (N.lxor a m')) by (rewrite H; reflexivity).
  rewrite <- !N.lxor_assoc, !N.lxor_nilpotent, !N.lxor_0_l in E. exact E.
Qed.

(** The chain of comparisons finds the flags whose mask turns one checksum into the other. *)
Lemma flags_spec rx re cl bf : flags rx re = Some (cl, bf) <-> N.lxor rx (mask_of cl bf) = re.
Proof.
  unfold flags.
  change mask_none with (mask_of false false). change mask_mimo_cl with (mask_of true false).
  change mask_bf with (mask_of false true). change mask_mimo_cl_bf with (mask_of true true).
  assert (U : forall cl' bf', N.lxor rx (mask_of cl' bf') = re -> N.lxor rx (mask_of cl bf) = re -> cl = cl' /\ bf = bf').
  { intros cl' bf' H1 H2. rewrite <- H1 in H2. apply lxor_inj in H2.
    destruct cl, bf, cl', bf'; try discriminate H2; auto. }
  repeat match goal with
  | |- context [if ?c then _ else _] =>
      match c with
      | (Z.of_N ?a - Z.of_N ?b =? 0)%Z => destruct (Z.eqb_spec (Z.of_N a - Z.of_N b) 0) as [?E|?E]
      end
  end; split; intros H; try discriminate H.
  all: try (injection H as <- <-; lia).
  all: try (match goal with U : forall _ _, _, E : (Z.of_N (N.lxor _ (mask_of ?x ?y)) - _ = 0)%Z, H : _ = _ |- _ =>
      destruct (U x y ltac:(lia) H) as [-> ->]; reflexivity end).
  destruct cl, bf; exfalso; lia.
Qed.

(** * Access to a word in a buffer *)
Lemma blit0 {A} (c w : list A) : (length w <= length c)%nat -> blit c 0 w = Ok (w ++ skipn (length w) c).
Proof.
  intros H. destruct w as [|x w]; [reflexivity|]. unfold blit.
  replace (0 + length (x :: w) <=? length c)%nat with true by lia. reflexivity.
Qed.
Lemma blit_app {A} (h w w' r : list A) : length w = length w' -> blit (h ++ w ++ r) (length h) w' = Ok (h ++ w' ++ r).
Proof.
  intros H. destruct w' as [|x w']; [destruct w; [reflexivity|discriminate]|]. unfold blit.
  replace (length h + length (x :: w') <=? length (h ++ w ++ r))%nat with true by (rewrite !app_length; lia).
  rewrite firstn_app, Nat.sub_diag, firstn_all, firstn_O, app_nil_r. rewrite <- H.
  rewrite (app_assoc h w r), <- (app_length h w), skipn_app, skipn_all, Nat.sub_diag. reflexivity.
Qed.
Lemma slice_app {A} (h r : list A) : slice (h ++ r) 0 (length h) = Ok h.
Proof.
  rewrite slice_ok by (rewrite app_length; lia). cbn [skipn]. rewrite firstn_app, Nat.sub_diag, firstn_all, firstn_O, app_nil_r. reflexivity.
Qed.
Lemma ld16_app h x y r : ld16 (h ++ [x; y] ++ r) (length h) = Ok (x + 256 * y).
Proof.
  unfold ld16, rd. rewrite (nth_error_app2 h _ (n := length h)) by lia.
  rewrite (nth_error_app2 h _ (n := length h + 1)) by lia. rewrite Nat.sub_diag.
  replace (length h + 1 - length h)%nat with 1%nat by lia. reflexivity.
Qed.

Definition v (crc : list N -> N) (h : list N) : N := crc h mod 65536.
Lemma split_two (w : list N) n : length w = (n + 2)%nat -> exists h x y, w = h ++ [x; y] /\ length h = n.
Proof.
  intros H. exists (firstn n w). assert (E : length (skipn n w) = 2%nat) by (rewrite skipn_length; lia).
  destruct (skipn n w) as [|x [|y [|z t]]] eqn:K; try discriminate E. exists x, y. split.
  - rewrite <- K. symmetry. apply firstn_skipn.
  - rewrite firstn_length. lia.
Qed.

Section Words.
  Variable crc : list N -> N.
  Lemma attach_app h x y r bits : N.to_nat (bits / 8) = length h ->
    attach crc (h ++ [x; y] ++ r) bits = Ok (h ++ [v crc h / 256; v crc h mod 256] ++ r).
  Proof.
    intros B. unfold attach. rewrite B, slice_app. cbn [bind]. apply blit_app. reflexivity.
  Qed.


  (** A header of a type, and the word it is sent in. *)
  Definition type_ok (type : N) : Prop := type = 1 \/ type = 2.
  Definition bits_of (type : N) : N := if type =? 1 then plcf_type_1_bit else plcf_type_2_bit.
  Lemma bits_bytes type : type_ok type -> N.to_nat (bits_of type / 8) = header_bytes type.
  Proof. intros [-> | ->]; reflexivity. Qed.
  Lemma bits_index type : type_ok type -> block_index (bits_of type) = Ok (block_no type).
  Proof. intros [-> | ->]; reflexivity. Qed.
  Lemma bits_block type : type_ok type -> rd tc_cb_sizes (block_no type) = Ok (block_bits type).
  Proof. intros [-> | ->]; reflexivity. Qed.
  Lemma bits_total type : type_ok type -> bits_of type + 16 = block_bits type.
  Proof. intros [-> | ->]; reflexivity. Qed.
  Lemma block_bytes type : type_ok type -> N.to_nat (block_bits type / 8) = (header_bytes type + 2)%nat.
  Proof. intros [-> | ->]; reflexivity. Qed.
  Lemma small type : type_ok type -> (header_bytes type + 2 <= 12)%nat /\ (header_bytes type <= 10)%nat.
  Proof. intros [-> | ->]; cbn; lia. Qed.

  Lemma v_lt h : v crc h / 256 < 256 /\ v crc h mod 256 < 256.
  Proof. unfold v. pose proof (N.mod_lt (crc h) 65536 ltac:(lia)). split; [apply N.div_lt_upper_bound; lia|apply N.mod_lt; lia]. Qed.

  Lemma word_split h cl bf h' x y : length h = length h' -> word crc h cl bf = h' ++ [x; y] ->
    h = h' /\ x = N.lxor (v crc h / 256) (flag_byte cl bf) /\ y = N.lxor (v crc h mod 256) (flag_byte cl bf).
  Proof.
    intros Hl H. unfold word in H. fold (v crc h) in H.
    apply (f_equal (fun l => (firstn (length h) l, skipn (length h) l))) in H.
    rewrite Hl in H at 3 4. rewrite !firstn_app, !skipn_app, !Nat.sub_diag, !firstn_all, !skipn_all in H.
    cbn [firstn skipn app] in H. rewrite !app_nil_r in H. injection H as H1 H2 H3. auto.
  Qed.
  Lemma word_inj h cl bf h' cl' bf' : length h = length h' -> word crc h cl bf = word crc h' cl' bf' ->
    h = h' /\ cl = cl' /\ bf = bf'.
  Proof.
    intros Hl H. unfold word at 2 in H. apply word_split in H; [|exact Hl]. destruct H as (-> & A & B). split; [reflexivity|].
    apply lxor_inj in A. symmetry in A. apply flag_byte_inj. exact A.
  Qed.

  (** Checking a decoded word *)
  Lemma check_word h x y cl bf : x < 256 -> y < 256 ->
    flags (x + 256 * y) (v crc h / 256 + 256 * (v crc h mod 256)) = Some (cl, bf) <-> h ++ [x; y] = word crc h cl bf.
  Proof.
    intros X Y. rewrite flags_spec, mask_byte, lxor_two by (auto using flag_byte_lt).
    destruct (v_lt h) as [V1 V2].
    rewrite two_bytes_inj by (auto using lxor_byte, flag_byte_lt).
    rewrite (lxor_cancel x), (lxor_cancel y). unfold word. fold (v crc h). split.
    - intros [-> ->]. reflexivity.
    - intros H. apply app_inv_head in H. injection H as H1 H2. auto.
  Qed.

  Definition is_word (type : N) (w h : list N) (cl bf : bool) : Prop :=
    length h = header_bytes type /\ w = word crc h cl bf.

End Words.

Section Decode.
  Context {S L : Type}.
  Variable crc : list N -> N.
  Variable comb : nat -> list L -> S.
  Variable tdec : S -> N -> nat -> list N.
  Variable descr : bool -> L -> L.
  Variable seq : list bool.

  Lemma iteration_run type c x i : type_ok type -> writes_blocks tdec -> length c = 12%nat ->
    exists c' o, pcc_iteration crc tdec c x (bits_of type) i = Ok (c', o) /\ length c' = 12%nat /\
    firstn (header_bytes type) c' = firstn (header_bytes type) (tdec x (block_bits type) i) /\
    forall cl bf, o = Some (cl, bf) <-> exists h, is_word crc type (tdec x (block_bits type) i) h cl bf.
  Proof.
    intros T W C. destruct (W x type i T) as [WL WB]. destruct (small type T) as [SM _].
    unfold pcc_iteration. rewrite bits_total by exact T. rewrite bits_bytes by exact T.
    destruct (split_two _ _ WL) as (h & a & b & E & HL). rewrite E in *.
    rewrite blit0 by lia. cbn [bind]. set (r := skipn _ c).
    assert (RL : length r = (12 - (header_bytes type + 2))%nat) by (unfold r; rewrite skipn_length; lia).
    rewrite <- app_assoc, <- HL, ld16_app. cbn [bind].
    rewrite attach_app by (rewrite bits_bytes by exact T; auto). cbn [bind]. rewrite ld16_app. cbn [bind].
    eexists; eexists. split; [reflexivity|]. split; [rewrite !app_length; cbn [length]; lia|].
    split; [rewrite !firstn_app, !Nat.sub_diag, !firstn_O, !app_nil_r, !firstn_all; reflexivity|].
    apply Forall_app in WB. destruct WB as [_ WB]. inversion WB as [|? ? WA WB']; subst. inversion WB' as [|? ? WB1 _]; subst.
    intros cl bf. rewrite check_word by assumption. unfold is_word. split.
    - intros H. exists h. auto.
    - intros (h' & HL' & H). rewrite H. symmetry in H. apply word_split in H; [|lia]. destruct H as (-> & _). reflexivity.
  Qed.

  Lemma word_head n h cl bf : length h = n -> firstn n (word crc h cl bf) = h.
  Proof. intros <-. unfold word. rewrite firstn_app, Nat.sub_diag, firstn_all, firstn_O, app_nil_r. reflexivity. Qed.

  Lemma loop_run type x : type_ok type -> writes_blocks tdec -> forall more done c, length c = 12%nat ->
    exists c' o, pcc_loop crc tdec more done c x (bits_of type) = Ok (c', o) /\ length c' = 12%nat /\
    match o with
    | Some (cl, bf) => exists i, (done < i <= done + more + 1)%nat /\
        is_word crc type (tdec x (block_bits type) i) (firstn (header_bytes type) c') cl bf /\
        forall j h cl bf, (done < j < i)%nat -> ~ is_word crc type (tdec x (block_bits type) j) h cl bf
    | None => forall j h cl bf, (done < j <= done + more + 1)%nat -> ~ is_word crc type (tdec x (block_bits type) j) h cl bf
    end.
  Proof.
    intros T W. induction more as [|more IH]; intros done c C.
    - cbn [pcc_loop]. destruct (iteration_run type c x (done + 1) T W C) as (c1 & o & E & L1 & F & K).
      rewrite E. cbn [bind fst snd]. exists c1, o.
      split; [destruct o; reflexivity|]. split; [exact L1|]. destruct o as [[cl bf]|].
      + exists (done + 1)%nat. split; [lia|]. split.
        * destruct (proj1 (K cl bf) eq_refl) as (h & HL & H). rewrite F, H, word_head by exact HL. split; [exact HL|reflexivity].
        * intros. lia.
      + intros j h cl bf J I. assert (j = done + 1)%nat as -> by lia.
        assert (X : None = Some (cl, bf)) by (apply K; exists h; exact I). discriminate X.
    - cbn [pcc_loop]. destruct (iteration_run type c x (done + 1) T W C) as (c1 & o & E & L1 & F & K).
      rewrite E. cbn [bind fst snd]. destruct o as [[cl bf]|].
      + exists c1, (Some (cl, bf)). split; [reflexivity|]. split; [exact L1|].
        exists (done + 1)%nat. split; [lia|]. split.
        * destruct (proj1 (K cl bf) eq_refl) as (h & HL & H). rewrite F, H, word_head by exact HL. split; [exact HL|reflexivity].
        * intros. lia.
      + destruct (IH (done + 1)%nat c1 L1) as (c2 & o & E2 & L2 & K2).
        exists c2, o. split; [exact E2|]. split; [exact L2|].
        assert (N1 : forall h cl bf, ~ is_word crc type (tdec x (block_bits type) (done + 1)) h cl bf).
        { intros h cl bf I. assert (X : None = Some (cl, bf)) by (apply K; exists h; exact I). discriminate X. }
        destruct o as [[cl bf]|].
        * destruct K2 as (i & I1 & I2 & I3). exists i. split; [lia|]. split; [exact I2|].
          intros j h cl' bf' J. destruct (Nat.eq_dec j (done + 1)) as [->|]; [apply N1|apply I3; lia].
        * intros j h cl' bf' J. destruct (Nat.eq_dec j (done + 1)) as [->|]; [apply N1|apply K2; lia].
  Qed.

  Lemma yields_unique d type h cl bf h' cl' bf' :
    yields crc comb tdec descr seq d type h cl bf -> yields crc comb tdec descr seq d type h' cl' bf' ->
    h = h' /\ cl = cl' /\ bf = bf'.
  Proof.
    intros (HL & i & I1 & I2 & I3) (HL' & i' & I1' & I2' & I3').
    destruct (Nat.lt_trichotomy i i') as [C|[->|C]].
    - exfalso. eapply I3'; [|exact HL|exact I2]. lia.
    - rewrite I2 in I2'. apply (word_inj crc); [lia|exact I2'].
    - exfalso. eapply I3; [|exact HL'|exact I2']. lia.
  Qed.

  Lemma decode_run q a d type cl bf : type_ok type -> writes_blocks tdec -> pcc_sized q -> length a = 10%nat ->
    (196 <= length d)%nat -> (196 <= length seq)%nat ->
    exists q' a' cl' bf' ok, pcc_decode crc comb tdec descr seq q a d type cl bf = Ok (q', a', cl', bf', ok) /\
    pcc_sized q' /\ length a' = 10%nat /\
    if ok : bool
    then yields crc comb tdec descr seq d type (firstn (header_bytes type) a') cl' bf' /\
         skipn (header_bytes type) a' = skipn (header_bytes type) a
    else a' = a /\ cl' = cl /\ bf' = bf /\ forall h cl bf, ~ yields crc comb tdec descr seq d type h cl bf.
  Proof.
    intros T W [Q1 Q2] A D SQ. unfold pcc_decode. fold (bits_of type). rewrite bits_index by exact T. cbn [bind].
    unfold pcc_bits, pcc_max_iterations. rewrite !slice_ok by lia. cbn [bind skipn].
    set (x := comb (block_no type) (descramble descr (firstn 196 d) (firstn 196 seq))).
    destruct (loop_run type x T W (5 - 1) 0 (c_rx q) Q2) as (c & o & E & L1 & K). rewrite E. cbn [bind fst snd].
    destruct (small type T) as [SM1 SM2].
    destruct o as [[cl' bf']|].
    - destruct K as (i & I1 & (I2 & I3) & I4). rewrite bits_bytes by exact T.
      rewrite slice_ok by lia. cbn [bind skipn]. rewrite blit0 by lia. cbn [bind].
      eexists; eexists; eexists; eexists; eexists. split; [reflexivity|].
      split; [split; [exact Q1|exact L1]|]. split; [rewrite app_length, skipn_length; lia|]. cbv iota.
      rewrite <- I2 at 2. rewrite I2. split.
      + rewrite <- I2 at 1. rewrite firstn_app, Nat.sub_diag, firstn_all, firstn_O, app_nil_r.
        split; [exact I2|]. exists i. split; [lia|]. split; [exact I3|].
        intros j h cl1 bf1 J HL H. apply (I4 j h cl1 bf1); [lia|]. split; [exact HL|exact H].
      + rewrite <- I2 at 1. rewrite skipn_app, Nat.sub_diag, skipn_all. reflexivity.
    - eexists; eexists; eexists; eexists; eexists. split; [reflexivity|].
      split; [split; [exact Q1|exact L1]|]. split; [exact A|]. cbv iota. repeat (split; [reflexivity|]).
      intros h cl1 bf1 (HL & i & I1 & I2 & _). apply (K i h cl1 bf1); [lia|]. split; [exact HL|exact I2].
  Qed.

End Decode.

(** * Encoding *)
Section Encode.
  Variable crc : list N -> N.
  Variable tcode : nat -> list N -> list bool.
  Variable seq : list bool.
  Lemma encode_run q a d type cl bf : type_ok type -> pcc_sized q -> (header_bytes type <= length a)%nat ->
    length d = 200%nat -> (200 <= length seq)%nat ->
    (forall w, length (tcode (block_no type) w) = 196%nat) ->
    exists q' d', pcc_encode crc tcode seq q a d type cl bf = Ok (q', d') /\ pcc_sized q' /\ length d' = 200%nat /\
    firstn 196 d' = xor_bits (tcode (block_no type) (word crc (firstn (header_bytes type) a) cl bf)) (firstn 196 seq).
  Proof.
    intros T [Q1 Q2] A D SQ TC. unfold pcc_encode.
    assert (G : ((type =? 1) || (type =? 2)) = true) by (destruct T as [-> | ->]; reflexivity).
    rewrite G. cbn [guard]. fold (bits_of type). rewrite bits_bytes by exact T.
    destruct (small type T) as [SM1 SM2].
    rewrite slice_ok by lia. cbn [bind skipn]. set (h := firstn (header_bytes type) a).
    assert (HL : length h = header_bytes type) by (unfold h; rewrite firstn_length; lia).
    rewrite blit0 by lia. cbn [bind]. rewrite HL.
    destruct (split_two (firstn 2 (skipn (header_bytes type) (c_systematic q))) 0) as (z & x & y & EZ & Z0).
    { rewrite firstn_length, skipn_length. lia. }
    destruct z; [|discriminate Z0]. cbn [app] in EZ.
    assert (ES : skipn (header_bytes type) (c_systematic q) = [x; y] ++ skipn 2 (skipn (header_bytes type) (c_systematic q)))
      by (rewrite <- EZ; symmetry; apply firstn_skipn).
    rewrite ES. set (r := skipn 2 _).
    assert (RL : length r = (12 - header_bytes type - 2)%nat) by (unfold r; rewrite !skipn_length; lia).
    rewrite attach_app by (rewrite bits_bytes by exact T; auto). cbn [bind].
    rewrite <- HL. rewrite ld16_app. cbn [bind]. unfold st16.
    destruct (v_lt crc h) as [V1 V2].
    rewrite mask_byte, lxor_two by (auto using flag_byte_lt).
    set (m := flag_byte cl bf). pose proof (flag_byte_lt cl bf) as M. fold m in M.
    pose proof (lxor_byte _ _ V1 M) as X1. pose proof (lxor_byte _ _ V2 M) as X2.
    replace ((N.lxor (v crc h / 256) m + 256 * N.lxor (v crc h mod 256) m) mod 256) with (N.lxor (v crc h / 256) m) by lia.
    replace ((N.lxor (v crc h / 256) m + 256 * N.lxor (v crc h mod 256) m) / 256) with (N.lxor (v crc h mod 256) m) by lia.
    rewrite blit_app by reflexivity. cbn [bind].
    rewrite bits_index by exact T. cbn [bind]. rewrite bits_block by exact T. cbn [bind].
    rewrite block_bytes by exact T. rewrite app_assoc. change (h ++ [_; _]) with (word crc h cl bf).
    assert (WL : length (word crc h cl bf) = (header_bytes type + 2)%nat) by (unfold word; rewrite app_length; cbn [length]; lia).
    rewrite <- WL, slice_app. cbn [bind]. specialize (TC (word crc h cl bf)).
    set (u := tcode (block_no type) (word crc h cl bf)) in *.
    rewrite blit0 by lia. cbn [bind]. rewrite slice_ok by lia. cbn [bind skipn].
    assert (S2 : length (firstn 200 seq) = 200%nat) by (rewrite firstn_length; lia).
    destruct (xor_at_ok (u ++ skipn (length u) d) 0 (firstn 200 seq)) as (d' & E & L' & K).
    { rewrite app_length, skipn_length, S2. lia. }
    rewrite E. cbn [bind]. eexists; exists d'. split; [reflexivity|].
    assert (LD : length d' = 200%nat) by (rewrite L', app_length, skipn_length; lia).
    split. { split; [cbn [c_systematic]; rewrite app_length; lia|exact Q2]. }
    split; [exact LD|].
    apply nth_ext with (d := false) (d' := false).
    { rewrite xor_length, !firstn_length. lia. }
    intros i Hi. rewrite firstn_length in Hi. rewrite nth_firstn' by lia. rewrite K, S2.
    replace ((0 <=? i)%nat && (i <? 0 + 200)%nat) with true by lia.
    rewrite xor_nth by (rewrite ?firstn_length; lia). rewrite app_nth1 by lia.
    rewrite !nth_firstn' by lia. rewrite Nat.sub_0_r. reflexivity.
  Qed.
End Encode.
