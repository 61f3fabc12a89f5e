(** The search for headers of both types, over any history of packets. *)
From Verif Require Import Base WireSpec BitSolve ByteFacts Identity Feedback FeedbackSpec FeedbackFacts Plcf PlcfSpec PlcfFacts
  PacketSizes TbCodec TbEncFacts PccCodec PlcfDecoderFacts PccCodecSpec PccCodecFacts.
Open Scope N_scope.

Lemma spells_firstn n m l : (n <= length m)%nat -> spells n (firstn n m) l <-> spells n m l.
Proof.
  intros H. unfold spells. rewrite firstn_firstn, Nat.min_id, firstn_length, Nat.min_l by exact H.
  split; intros (A & B); (split; [lia|exact B]).
Qed.

(** Radio device class of a decoder *)
Definition same_class (d d' : decoder) : Prop :=
  PacketLength_max d = PacketLength_max d' /\ mcs_index_max d = mcs_index_max d' /\ N_SS_max d = N_SS_max d'.

Lemma accepts10_eq d d' m p : same_class d d' -> (5 <= length m)%nat -> accepts10 d m p <-> accepts10 d' (firstn 5 m) p.
Proof. intros (A & B & C) H. unfold accepts10. rewrite spells_firstn by exact H. rewrite A, B, C. tauto. Qed.
Lemma accepts20_eq d d' m p l : same_class d d' -> (10 <= length m)%nat -> accepts20 d m p l <-> accepts20 d' (firstn 10 m) p l.
Proof. intros (A & B & C) H. unfold accepts20. rewrite spells_firstn by exact H. rewrite A, B, C. tauto. Qed.
Lemma accepts21_eq d d' m p l : same_class d d' -> (10 <= length m)%nat -> accepts21 d m p l <-> accepts21 d' (firstn 10 m) p l.
Proof. intros (A & B & C) H. unfold accepts21. rewrite spells_firstn by exact H. rewrite A, B, C. tauto. Qed.

Section Codec.
  Context {S L : Type}.
  Variable crc : list N -> N.
  Variable comb : nat -> list L -> S.
  Variable tdec : S -> N -> nat -> list N.
  Variable descr : bool -> L -> L.
  Variable seq : list bool.
  Hypothesis W : writes_blocks tdec.
  Hypothesis SQ : (200 <= length seq)%nat.
  Let Y := yields crc comb tdec descr seq.

  Lemma yields_bytes d type h cl bf : type_ok type -> Y d type h cl bf -> bytes h.
  Proof.
    intros T (HL & i & _ & E & _). destruct (W (comb (block_no type) (descramble descr (firstn 196 d) (firstn 196 seq))) type i T) as [_ B].
    unfold output in E. rewrite E in B. unfold word in B. apply Forall_app in B. apply B.
  Qed.

  Lemma test_run q f a d type : type_ok type -> pcc_sized q -> length a = 10%nat -> (196 <= length d)%nat ->
    exists q' f' a' ok, decode_plcf_test crc comb tdec descr seq q f a d type = Ok (q', f', a', ok) /\
    pcc_sized q' /\ length a' = 10%nat /\ PLCF_type f' = type /\
    if ok : bool
    then Y d type (firstn (header_bytes type) a') (closed_loop f') (beamforming f') /\
         skipn (header_bytes type) a' = skipn (header_bytes type) a
    else a' = a /\ closed_loop f' = closed_loop f /\ beamforming f' = beamforming f /\ forall h cl bf, ~ Y d type h cl bf.
  Proof.
    intros T Q A D. unfold decode_plcf_test.
    replace ((type =? 1) || (type =? 2)) with true by (destruct T as [-> | ->]; reflexivity). cbn [guard].
    destruct (decode_run crc comb tdec descr seq q a d type (closed_loop f) (beamforming f) T W Q A D ltac:(lia))
      as (q' & a' & cl' & bf' & ok & E & Q' & A' & K). rewrite E. cbn [bind].
    exists q', (mkPcfg type cl' bf'), a', ok. split; [reflexivity|]. split; [exact Q'|]. split; [exact A'|].
    split; [reflexivity|]. exact K.
  Qed.

  Lemma search_run r d : rx_sized r -> (196 <= length d)%nat ->
    exists r', candidate_search crc comb tdec descr seq r d = Ok r' /\ rx_sized r' /\
    same_class (r_dec r) (r_dec r') /\ PLCF_type (r_fec1 r') = 1 /\ PLCF_type (r_fec2 r') = 2 /\
    reports crc comb tdec descr seq r' d.
  Proof.
    intros [Q A] D. unfold candidate_search.
    destruct (test_run (r_pcc r) (r_fec1 r) (r_a r) d 1 (or_introl eq_refl) Q A D) as (q1 & f1 & a1 & ok1 & E1 & Q1 & A1 & P1 & K1).
    rewrite E1. cbn [bind].
    set (dec0 := set_configuration (r_dec r)).
    assert (X1 : exists d1, (if ok1 then decode_and_rdc_check dec0 1 a1 else Ok dec0) = Ok d1 /\ hf2 d1 = None /\
      same_class dec0 d1 /\
      ((hf1 d1 = Some 0 /\ exists h, Y d 1 h (closed_loop f1) (beamforming f1) /\ accepts10 d1 h (d10 d1)) \/
       (hf1 d1 = None /\ forall h cl bf p, Y d 1 h cl bf -> ~ accepts10 d1 h p))).
    { destruct ok1.
      - destruct K1 as [K1 _]. change (header_bytes 1) with 5%nat in K1.
        destruct (decode1 dec0 a1 ltac:(lia) (yields_bytes _ _ _ _ _ (or_introl eq_refl) K1) eq_refl)
          as (d1 & R1 & R2 & R3 & R4 & R5 & R6 & R7 & R8).
        assert (SC : same_class dec0 d1) by (unfold same_class; auto).
        exists d1. split; [exact R1|]. split; [rewrite R2; reflexivity|]. split; [exact SC|].
        destruct R8 as [[R8 R9]|[R8 R9]]; [left|right]; (split; [exact R8|]).
        + exists (firstn 5 a1). split; [exact K1|]. apply (accepts10_eq dec0 d1 a1); [exact SC|lia|exact R9].
        + intros h cl bf p H Ac.
          destruct (yields_unique crc comb tdec descr seq d 1 _ _ _ _ _ _ K1 H) as (<- & _ & _).
          apply (R9 p). apply (accepts10_eq dec0 d1 a1); [exact SC|lia|exact Ac].
      - destruct K1 as (_ & _ & _ & K1). exists dec0. split; [reflexivity|]. split; [reflexivity|].
        split; [repeat split|]. right. split; [reflexivity|]. intros h cl bf p H. exfalso. exact (K1 _ _ _ H). }
    destruct X1 as (dd1 & -> & H2 & SC1 & C1). cbn [bind].
    destruct (test_run q1 (r_fec2 r) a1 d 2 (or_intror eq_refl) Q1 A1 D) as (q2 & f2 & a2 & ok2 & E2 & Q2 & A2 & P2 & K2).
    rewrite E2. cbn [bind].
    assert (X2 : exists d2, (if ok2 then decode_and_rdc_check dd1 2 a2 else Ok dd1) = Ok d2 /\
      hf1 d2 = hf1 dd1 /\ d10 d2 = d10 dd1 /\ same_class dd1 d2 /\
      ((hf2 d2 = Some 0 /\ exists h level, Y d 2 h (closed_loop f2) (beamforming f2) /\
                             accepts20 d2 h (d20 d2) level /\ size_is20 (d20 d2) level) \/
       (hf2 d2 = Some 1 /\ exists h level, Y d 2 h (closed_loop f2) (beamforming f2) /\
                             accepts21 d2 h (d21 d2) level /\ size_is21 (d21 d2) level) \/
       (hf2 d2 = None /\ forall h cl bf, Y d 2 h cl bf ->
          (forall p level, ~ accepts20 d2 h p level) /\ (forall p level, ~ accepts21 d2 h p level)))).
    { destruct ok2.
      - destruct K2 as [K2 _]. change (header_bytes 2) with 10%nat in K2.
        destruct (decode2 dd1 a2 ltac:(lia) (yields_bytes _ _ _ _ _ (or_intror eq_refl) K2) H2)
          as (d2 & R1 & R2 & R3 & R5 & R6 & R7 & R8).
        assert (SC : same_class dd1 d2) by (unfold same_class; auto).
        exists d2. split; [exact R1|]. split; [exact R2|]. split; [exact R3|]. split; [exact SC|].
        destruct R8 as [[R8 (lv & R9 & R10)]|[[R8 (lv & R9 & R10)]|[R8 (R9 & R10)]]];
          [left|right; left|right; right]; (split; [exact R8|]).
        + exists (firstn 10 a2), lv. split; [exact K2|]. split; [|exact R10].
          apply (accepts20_eq dd1 d2 a2); [exact SC|lia|exact R9].
        + exists (firstn 10 a2), lv. split; [exact K2|]. split; [|exact R10].
          apply (accepts21_eq dd1 d2 a2); [exact SC|lia|exact R9].
        + intros h cl bf H.
          destruct (yields_unique crc comb tdec descr seq d 2 _ _ _ _ _ _ K2 H) as (<- & _ & _).
          split; intros p lv Ac; [apply (R9 p lv), (accepts20_eq dd1 d2 a2)|apply (R10 p lv), (accepts21_eq dd1 d2 a2)];
            try exact SC; try lia; exact Ac.
      - destruct K2 as (_ & _ & _ & K2). exists dd1. split; [reflexivity|]. split; [reflexivity|]. split; [reflexivity|].
        split; [repeat split|]. right; right. split; [exact H2|]. intros h cl bf H. exfalso. exact (K2 _ _ _ H). }
    destruct X2 as (dd2 & -> & G1 & G2 & SC2 & C2). cbn [bind].
    eexists. split; [reflexivity|]. split; [split; [exact Q2|exact A2]|].
    assert (SC : same_class dd1 dd2 /\ same_class (r_dec r) dd2).
    { unfold same_class in *. cbn [dec0 set_configuration PacketLength_max mcs_index_max N_SS_max] in SC1. intuition congruence. }
    destruct SC as [_ SC]. cbn [r_dec r_fec1 r_fec2]. split; [exact SC|]. split; [exact P1|]. split; [exact P2|].
    unfold reports. cbn [r_dec r_fec1 r_fec2].
    unfold get_plcf_base, has_any_plcf. change ((1 =? 1) || (1 =? 2)) with true. change ((2 =? 1) || (2 =? 2)) with true.
    change (1 =? 1) with true. change (2 =? 1) with false. cbn [guard]. rewrite G1, G2.
    assert (AC : forall h p, accepts10 dd1 h p <-> accepts10 dd2 h p).
    { intros h p. destruct SC2 as (S1 & S2 & S3). unfold accepts10. rewrite S1, S2, S3. tauto. }
    split; [|split].
    - destruct C1 as [[-> (h & Hh & Ac)]|[-> C1]].
      + exists h. split; [exact Hh|]. apply AC, Ac.
      + intros h cl bf p Hh Ac. apply (C1 h cl bf p Hh). apply AC, Ac.
    - destruct C2 as [[-> C2]|[[-> C2]|[-> C2]]]; exact C2.
    - destruct C1 as [[-> _]|[-> _]]; destruct C2 as [[-> _]|[[-> _]|[-> _]]]; reflexivity.
  Qed.

  Lemma searches_run l : Forall (fun d => (196 <= length d)%nat) l -> forall r, rx_sized r ->
    exists rs, searches crc comb tdec descr seq r l = Ok rs /\
    Forall2 (fun r' d => same_class (r_dec r) (r_dec r') /\ reports crc comb tdec descr seq r' d) rs l.
  Proof.
    induction 1 as [|d l D _ IH]; intros r R; cbn [searches].
    - exists []. split; [reflexivity|constructor].
    - destruct (search_run r d R D) as (r1 & -> & R1 & SC & _ & _ & K). cbn [bind].
      destruct (IH r1 R1) as (rs & -> & F). cbn [bind]. eexists. split; [reflexivity|].
      constructor; [split; assumption|].
      clear - F SC. induction F as [|a b rs l [C1 C2] _ IHF]; constructor; [|exact IHF].
      split; [|exact C2]. unfold same_class in *. intuition congruence.
  Qed.
End Codec.
