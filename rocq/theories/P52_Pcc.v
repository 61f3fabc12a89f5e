(** C59: the control header of a packet is recovered with the flags it was sent with, whatever was received before. *)
From Verif Require Import Base WireSpec ByteFacts Feedback FeedbackSpec Plcf PlcfSpec PlcfFacts PacketSizes TbCodec TbEncFacts
  PccCodec PlcfDecoderFacts PccCodecSpec PccCodecFacts PccSearchFacts P12_Plcf.
Open Scope N_scope.

(** Encoding a header of either type in any state of the coder: the 196 bits of the channel are the scrambled code
    bits of the header followed by its checksum, which carries the flags. *)
Theorem C59_encode : forall crc tcode seq q a d type cl bf,
  type = 1 \/ type = 2 -> pcc_sized q -> (header_bytes type <= length a)%nat -> length d = 200%nat ->
  (200 <= length seq)%nat -> (forall w, length (tcode (block_no type) w) = 196%nat) ->
  exists q' d', pcc_encode crc tcode seq q a d type cl bf = Ok (q', d') /\ pcc_sized q' /\ length d' = 200%nat /\
  firstn 196 d' = xor_bits (tcode (block_no type) (word crc (firstn (header_bytes type) a) cl bf)) (firstn 196 seq).
Proof. exact encode_run. Qed.

(** A word is that of one header and one pair of flags: no header is ever recovered with other flags. *)
Theorem C59_flags_unique : forall crc h cl bf h' cl' bf', length h = length h' ->
  word crc h cl bf = word crc h' cl' bf' -> h = h' /\ cl = cl' /\ bf = bf'.
Proof. exact word_inj. Qed.

(** One attempt to decode: never aborts, succeeds exactly if one of five iterations gives the word of a header, then
    delivers the header and the flags of the first such iteration; otherwise header and flags stay as they were. *)
Theorem C59_decode : forall S L crc comb tdec descr seq q a (d : list L) type cl bf,
  type = 1 \/ type = 2 -> writes_blocks (S := S) tdec -> pcc_sized q -> length a = 10%nat ->
  (196 <= length d)%nat -> (196 <= length seq)%nat ->
  exists q' a' cl' bf' ok, pcc_decode crc comb tdec descr seq q a d type cl bf = Ok (q', a', cl', bf', ok) /\
  pcc_sized q' /\ length a' = 10%nat /\
  (ok = true <-> exists h cl bf, yields crc comb tdec descr seq d type h cl bf) /\
  (ok = true -> yields crc comb tdec descr seq d type (firstn (header_bytes type) a') cl' bf' /\
                skipn (header_bytes type) a' = skipn (header_bytes type) a) /\
  (ok = false -> a' = a /\ cl' = cl /\ bf' = bf).
Proof.
  intros S L crc comb tdec descr seq q a d type cl bf T W Q A D SQ.
  destruct (decode_run crc comb tdec descr seq q a d type cl bf T W Q A D SQ) as (q' & a' & cl' & bf' & ok & E & Q' & A' & K).
  exists q', a', cl', bf', ok. split; [exact E|]. split; [exact Q'|]. split; [exact A'|].
  destruct ok; (split; [|split]); try discriminate.
  - split; [|reflexivity]. intros _. destruct K as [K _]. eauto.
  - intros _. exact K.
  - split; [discriminate|]. intros (h & c & b & Y). destruct K as (_ & _ & _ & K). exfalso. exact (K _ _ _ Y).
  - intros _. destruct K as (K1 & K2 & K3 & _). auto.
Qed.

(** The soft bits of a packet yield at most one header per type. *)
Theorem C59_yields_unique : forall S L crc comb tdec descr seq (d : list L) type h cl bf h' cl' bf',
  yields (S := S) crc comb tdec descr seq d type h cl bf -> yields crc comb tdec descr seq d type h' cl' bf' ->
  h = h' /\ cl = cl' /\ bf = bf'.
Proof. intros S L. exact yields_unique. Qed.

(** Any number of packets, in any state of the receiver: the search never aborts, and what it reports on each packet
    is determined by the soft bits of that packet and the device class. *)
Theorem C59_search : forall S L crc comb tdec descr seq, writes_blocks (S := S) tdec -> (200 <= length seq)%nat ->
  forall l : list (list L), Forall (fun d => (196 <= length d)%nat) l -> forall r, rx_sized r ->
  exists rs, searches crc comb tdec descr seq r l = Ok rs /\
  Forall2 (fun r' d => same_class (r_dec r) (r_dec r') /\ reports crc comb tdec descr seq r' d) rs l.
Proof. intros S L. exact searches_run. Qed.

(** Sender to receiver, for headers of both types: soft bits from which the codec recovers the word of a header by the
    fifth iteration, without a false word before, yield exactly this header and the flags it was sent with. *)
Theorem C59_channel : forall S L crc tcode comb tdec descr seq (soft : bool -> L) type a q d cl bf,
  type = 1 \/ type = 2 -> (header_bytes type <= length a)%nat -> pcc_sized q -> length d = 200%nat -> length seq = 200%nat ->
  (forall w, length (tcode (block_no type) w) = 196%nat) ->
  (forall s b, descr s (soft b) = soft (xorb b s)) ->
  let h := firstn (header_bytes type) a in
  let out := tdec (comb (block_no type) (map soft (tcode (block_no type) (word crc h cl bf)))) (block_bits type) in
  (exists i, (1 <= i <= 5)%nat /\ out i = word crc h cl bf /\
     forall j h cl bf, (1 <= j < i)%nat -> length h = header_bytes type -> out j <> word crc h cl bf) ->
  exists q' d', pcc_encode crc tcode seq q a d type cl bf = Ok (q', d') /\ length d' = 200%nat /\
  forall h' cl' bf', yields (S := S) crc comb tdec descr seq (map soft (firstn 196 d')) type h' cl' bf' <->
                     h' = h /\ cl' = cl /\ bf' = bf.
Proof.
  intros S L crc tcode comb tdec descr seq soft type m' q d cl bf T Hl' Q D SQ TC DS h out (i & I1 & I2 & I3).
  destruct (encode_run crc tcode seq q m' d type cl bf T Q Hl' D ltac:(lia) TC) as (q' & d' & E1 & _ & LD & K1).
  fold h in K1. subst out. set (w := word crc h cl bf) in *. specialize (TC w). set (u := tcode (block_no type) w) in *.
  exists q', d'. split; [exact E1|]. split; [exact LD|].
  assert (DE : descramble descr (firstn 196 (map soft (firstn 196 d'))) (firstn 196 seq) = map soft u).
  { rewrite firstn_map, firstn_firstn, Nat.min_id, K1. unfold descramble.
    assert (SL : length (firstn 196 seq) = length u) by (rewrite firstn_length; lia).
    clear - SL DS. revert SL. generalize (firstn 196 seq) as s. generalize u as x. clear - DS.
    induction x as [|b x IH]; intros [|c s] H; try discriminate H; [reflexivity|].
    cbn [xor_bits combine map fst snd]. rewrite DS. f_equal.
    - f_equal. destruct b, c; reflexivity.
    - apply IH. cbn in H. lia. }
  assert (Y : yields crc comb tdec descr seq (map soft (firstn 196 d')) type h cl bf).
  { split; [unfold h; rewrite firstn_length; lia|]. exists i. split; [exact I1|]. unfold output. rewrite DE. split; [exact I2|exact I3]. }
  intros h' cl' bf'. split.
  - intros Y'. destruct (yields_unique _ _ _ _ _ _ _ _ _ _ _ _ _ Y Y') as (-> & -> & ->). auto.
  - intros (-> & -> & ->). exact Y.
Qed.

(** Down to the fields: a valid type 1 header within the device class of the receiver, sent with any flags and
    received with soft bits from which the codec recovers the word by the fifth iteration without a false word
    before, is reported with its fields and its flags. *)
Theorem C59_roundtrip : forall S L crc tcode comb tdec descr seq (soft : bool -> L) p m m' q d cl bf r,
  p10_ok p -> (5 <= length m)%nat -> p10_pack p m = Ok m' ->
  PacketLength_m1 (p10_base p) + 1 <= PacketLength_max (r_dec r) -> p10_mcs p <= mcs_index_max (r_dec r) ->
  1 <= N_SS_max (r_dec r) ->
  pcc_sized q -> length d = 200%nat -> length seq = 200%nat -> rx_sized r -> writes_blocks (S := S) tdec ->
  (forall w, length (tcode 2%nat w) = 196%nat) ->
  (forall s b, descr s (soft b) = soft (xorb b s)) ->
  (exists i, (1 <= i <= 5)%nat /\
     let out := tdec (comb 2%nat (map soft (tcode 2%nat (word crc (firstn 5 m') cl bf)))) 56 in
     out i = word crc (firstn 5 m') cl bf /\
     forall j h cl bf, (1 <= j < i)%nat -> length h = 5%nat -> out j <> word crc h cl bf) ->
  exists q' d' r', pcc_encode crc tcode seq q m' d 1 cl bf = Ok (q', d') /\
  candidate_search crc comb tdec descr seq r (map soft (firstn 196 d')) = Ok r' /\
  get_plcf_base (r_dec r') 1 = Ok (Some (P10 p)) /\ closed_loop (r_fec1 r') = cl /\ beamforming (r_fec1 r') = bf.
Proof.
  intros S L crc tcode comb tdec descr seq soft p m m' q d cl bf r Hok Hl Hp R1 R2 R3 Q D SQ R W TC DS (i & I1 & I2 & I3).
  destruct (p10_pack_writes p m Hl Hok) as (m'' & E & Wr). rewrite Hp in E. injection E as <-.
  pose proof (writes_spells _ _ _ _ Wr) as Hs.
  assert (Hl' : (5 <= length m')%nat) by (destruct Wr as (-> & _); lia).
  destruct (C59_channel S L crc tcode comb tdec descr seq soft 1 m' q d cl bf (or_introl eq_refl) Hl' Q D SQ TC DS)
    as (q' & d' & E1 & LD & K1); [exists i; split; [exact I1|]; split; [exact I2|exact I3]|].
  destruct (search_run crc comb tdec descr seq W ltac:(lia) r (map soft (firstn 196 d'))) as (r' & E2 & _ & SC & _ & _ & K2 & _).
  { exact R. } { rewrite map_length, firstn_length. lia. }
  exists q', d', r'. split; [exact E1|]. split; [exact E2|].
  pose proof (proj2 (K1 _ _ _) (conj eq_refl (conj eq_refl eq_refl))) as Y. change (header_bytes 1) with 5%nat in Y.
  assert (Ac : accepts10 (r_dec r') (firstn 5 m') p).
  { apply (accepts10_eq (r_dec r) (r_dec r') m'); [exact SC|exact Hl'|]. unfold accepts10. tauto. }
  destruct (get_plcf_base (r_dec r') 1) as [[[p'| |]|]| | |] eqn:G; try contradiction.
  - destruct K2 as (h & Yh & Ac'). destruct (yields_unique _ _ _ _ _ _ _ _ _ _ _ _ _ Y Yh) as (<- & -> & ->).
    split; [|split; reflexivity]. do 3 f_equal.
    destruct Ac as (Hp1 & Hp2 & _), Ac' as (Hq1 & Hq2 & _).
    pose proof (spells_inj _ _ _ _ Hq2 Hp2 eq_refl) as F.
    destruct p as [b s t o z k], p' as [b' s' t' o' z' k']. destruct b as [b1 b2 b3], b' as [b1' b2' b3'].
    cbv [p10_fields base_fields app HeaderFormat PacketLengthType PacketLength_m1 p10_base p10_snid p10_tx p10_power p10_mcs] in F.
    destruct Hp1 as (_ & _ & _ & _ & Z1 & _), Hq1 as (_ & _ & _ & _ & Z2 & _). cbn [p10_reserved] in Z1, Z2. congruence.
  - exfalso. exact (K2 _ _ _ _ Y Ac).
Qed.

(** A toy codec: no redundancy, and a decoder whose first output is wrong. *)
Definition byte_bits (b : N) : list bool := map (N.testbit b) [7; 6; 5; 4; 3; 2; 1; 0].
Definition toy_crc (l : list N) : N := 1 + 3 * fold_left N.add l 0.
Definition toy_code (j : nat) (w : list N) : list bool := firstn 196 (flat_map byte_bits w ++ repeat false 196).
Fixpoint toy_bytes (n : nat) (x : list bool) : list N :=
  match n with
  | O => []
  | S n => fold_left (fun a b => 2 * a + N.b2n b) (firstn 8 x) 0 mod 256 :: toy_bytes n (skipn 8 x)
  end.
Definition toy_dec (x : list bool) (k : N) (i : nat) : list N :=
  if (i =? 1)%nat then repeat 255 (N.to_nat (k / 8)) else toy_bytes (N.to_nat (k / 8)) x.
Definition toy_seq : list bool := map (fun i => (i mod 3 =? 0)%nat) (List.seq 0 200).
Definition toy_soft (b : bool) : Z := if b then 5%Z else (-5)%Z.
Definition toy_descr (s : bool) (x : Z) : Z := if s then (- x)%Z else x.
Definition toy_comb (j : nat) (l : list Z) : list bool := map (fun x => (0 <? x)%Z) l.
Definition toy_pcc := mkPcc (repeat 7 12) (repeat 9 12).
Definition toy_rx := mkRx toy_pcc (Plcf.mkDec 16 9 4 (Some 0) None ex10 ex20 ex21) (mkPcfg 0 true false) (mkPcfg 0 false false) (repeat 3 10).

Lemma toy_blocks : writes_blocks toy_dec.
Proof.
  assert (B : forall n x, length (toy_bytes n x) = n /\ bytes (toy_bytes n x)).
  { induction n as [|n IH]; intros x; [split; [reflexivity|constructor]|].
    cbn [toy_bytes length]. destruct (IH (skipn 8 x)) as [-> H]. split; [reflexivity|].
    constructor; [apply N.mod_lt; lia|exact H]. }
  intros x type i [-> | ->]; unfold toy_dec.
  - change (N.to_nat (block_bits 1 / 8)) with 7%nat. destruct (i =? 1)%nat; [split; [reflexivity|repeat constructor]|apply B].
  - change (N.to_nat (block_bits 2 / 8)) with 12%nat. destruct (i =? 1)%nat; [split; [reflexivity|repeat constructor]|apply B].
Qed.

(** The hypotheses of C59_roundtrip hold for the toy codec and a header with both flags. *)
Example C59_nonvacuous :
  exists q' d' r', pcc_encode toy_crc toy_code toy_seq toy_pcc [19; 77; 18; 52; 198; 6] (repeat true 200) 1 true true = Ok (q', d') /\
  candidate_search toy_crc toy_comb toy_dec toy_descr toy_seq toy_rx (map toy_soft (firstn 196 d')) = Ok r' /\
  get_plcf_base (r_dec r') 1 = Ok (Some (P10 ex10)) /\ closed_loop (r_fec1 r') = true /\ beamforming (r_fec1 r') = true.
Proof.
  apply (C59_roundtrip (list bool) Z toy_crc toy_code toy_comb toy_dec toy_descr toy_seq toy_soft ex10 [1; 2; 3; 4; 5; 6]); try reflexivity.
  - vm_compute. intuition discriminate.
  - cbn [length]. lia.
  - vm_compute. discriminate.
  - vm_compute. discriminate.
  - vm_compute. discriminate.
  - split; reflexivity.
  - split; [split|]; reflexivity.
  - exact toy_blocks.
  - intros w. unfold toy_code. rewrite firstn_length, app_length, repeat_length. lia.
  - intros [] []; reflexivity.
  - exists 2%nat. split; [lia|]. cbv zeta. split; [vm_compute; reflexivity|].
    intros j h cl bf J HL. assert (j = 1%nat) as -> by lia.
    change (repeat 255 7 <> word toy_crc h cl bf). intros H. symmetry in H.
    change (repeat 255 7) with (repeat 255 5 ++ [255; 255]) in H.
    apply word_split in H; [|rewrite HL; reflexivity]. destruct H as (-> & A & B).
    destruct cl, bf; vm_compute in A; discriminate A.
Qed.

(** The flags of an earlier packet stay in the configuration of a type if a later packet yields no header of this
    type: they mean something only together with a header. *)
Definition toy_packets : list (list Z) :=
  match pcc_encode toy_crc toy_code toy_seq toy_pcc [19; 77; 18; 52; 198; 6] (repeat true 200) 1 true true with
  | Ok (_, d) => [map toy_soft (firstn 196 d); repeat 1%Z 196]
  | _ => []
  end.
Theorem C59_flags_stale_refuted :
  ~ (forall r l rs r', rx_sized r -> searches toy_crc toy_comb toy_dec toy_descr toy_seq r l = Ok rs -> In r' rs ->
     closed_loop (r_fec1 r') = true -> has_any_plcf (r_dec r') <> 0).
Proof.
  intros H.
  destruct (searches toy_crc toy_comb toy_dec toy_descr toy_seq toy_rx toy_packets) as [rs| | |] eqn:E; vm_compute in E; try discriminate E.
  injection E as <-. eapply (H toy_rx toy_packets _ _).
  - repeat split; reflexivity.
  - vm_compute. reflexivity.
  - right. left. reflexivity.
  - reflexivity.
  - reflexivity.
Qed.

Print Assumptions C59_encode.
Print Assumptions C59_flags_unique.
Print Assumptions C59_decode.
Print Assumptions C59_yields_unique.
Print Assumptions C59_search.
Print Assumptions C59_channel.
Print Assumptions C59_roundtrip.
Print Assumptions C59_flags_stale_refuted.
