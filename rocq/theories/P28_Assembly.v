(** C22, C23: assembly of a MAC PDU and padding. *)
From Verif Require Import Base Bytes WireSpec MacHeader MacHeaderSpec Mux Beacons BeaconsSpec SmallIes SmallIesSpec SmallIesFacts Decoder DecoderSpec DecoderFacts
  Assembly AssemblySpec AssemblyFacts P27_Decoder.
Open Scope N_scope.

(** *** C23 *)
(** Filling n bytes writes exactly these n bytes, with padding elements of the standard. *)
Theorem C23_padding : forall m off n, (off + n <= length m)%nat ->
  exists pad, fill_with_padding_ies m off (N.of_nat n) = Ok (firstn off m ++ pad ++ skipn (off + n) m) /\
  length pad = n /\ paddings pad.
Proof.
  intros m off n L. exists (filling n n). split; [|split; [now apply filling_length|apply filling_paddings]].
  pose proof (fill_ok (firstn off m) (skipn off m) n ltac:(rewrite skipn_length; lia)) as E. rewrite firstn_length, Nat.min_l, firstn_skipn, Fields.skipn_add in E by lia. exact E.
Qed.
(** A receiver finds no message or element in padding. *)
Theorem C23_padding_is_silent : forall mu caps pad, paddings pad -> items mu caps pad = [].
Proof. intros. now apply items_paddings. Qed.
(** A single element pads at most 257 bytes; other sizes abort. *)
Theorem C23_single : forall h n m,
  ((1 <= n <= 257)%nat -> (n <= length m)%nat -> exists h' ie, set_nof_padding_bytes h (N.of_nat n) = Ok h' /\
     padding_pack h' m = Ok (ie ++ skipn n m) /\ length ie = n /\ padding_ie ie) /\
  (~ (1 <= n <= 257)%nat -> set_nof_padding_bytes h (N.of_nat n) = Abort).
Proof.
  intros h n m. split.
  - intros H L. destruct (one_padding_pack h n m H L) as (h' & E & P). exists h', (one_padding n). split; [exact E|]. split; [exact P|]. split; [apply one_padding_length; lia|now apply one_padding_ie].
  - intros H. unfold set_nof_padding_bytes, N_PADDING_BYTES_MAX. replace ((1 <=? N.of_nat n) && (N.of_nat n <=? 257)) with false by lia. reflexivity.
Qed.
Example C23_nonvacuous : exists pad, fill_with_padding_ies (repeat 7 300) 1 298 = Ok ([7] ++ pad ++ [7]) /\ length pad = 298%nat.
Proof. exists (filling 298 298). split; vm_compute; reflexivity. Qed.

(** *** C22 *)
(** What is assembled is a block of the same size; reading it gives the header type, the common header (but for the lowest
    byte of the network ID in a beacon header, C19) and the elements in the order they were put in, and behind them is
    only padding. *)
Definition total (mu : N) (es : list element_tx) : nat := list_sum (map (element_size mu) es).
Theorem C22_assembled : forall mu h c es m,
  mht_ok h -> mht_type h = type_of c -> mch_ok c -> bytes m -> Forall (element_ok mu) es -> (forall k, how_many k es <= room k)%nat ->
  (1 + mch_size c + total mu es <= length m)%nat ->
  exists m', assemble mu h c es m = Ok m' /\ length m' = length m /\ bytes m' /\
    read_pdu mu m' = mkPdu (Some h) (Some (as_received c)) (map as_item es) /\
    paddings (skipn (1 + mch_size c + total mu es) m').
Proof.
  intros mu h c es m Hh Ht Hc B F Rm L. destruct (assemble_ok mu h c es m Hh Ht Hc B F L) as (b & x & pad & Lx & Bx & Pd & Lm & E & Rd).
  eexists. split; [exact E|]. split; [exact Lm|]. inversion Bx as [|? ? B1 B2]; subst. split; [|split].
  - constructor; [exact B1|]. apply Forall_app. split; [exact B2|]. apply Forall_app. split; [now apply elements_bytes_ok|now apply paddings_bytes].
  - rewrite Rd, (items_elements mu es F room pad Rm (items_paddings mu pad Pd)). reflexivity.
  - replace (skipn (1 + mch_size c + total mu es) (b :: x ++ elements_bytes mu es ++ pad)) with pad; [exact Pd|].
    symmetry. change (b :: x ++ elements_bytes mu es ++ pad) with ((b :: x) ++ elements_bytes mu es ++ pad). rewrite app_assoc.
    replace (1 + mch_size c + total mu es)%nat with (length ((b :: x) ++ elements_bytes mu es)) by (rewrite app_length, elements_length by exact F; cbn [length]; unfold total, elements_size; lia).
    now rewrite skipn_app, skipn_all, Nat.sub_diag.
Qed.
(** End to end: a receiver that gets the bytes in any portions delivers exactly these elements. *)
Theorem C22_delivered : forall mu h c es m d0 ws,
  In mu [1; 2; 4; 8] -> mht_ok h -> mht_type h = type_of c -> mch_ok c -> bytes m -> Forall (element_ok mu) es -> (forall k, how_many k es <= room k)%nat ->
  (1 + mch_size c + total mu es <= length m)%nat -> N.of_nat (length m) < 2 ^ 31 -> sized d0 -> increments 0 (length m) ws ->
  exists m' d d', assemble mu h c es m = Ok m' /\ set_configuration d0 (N.of_nat (length m')) mu = Ok d /\ feed m' (ws ++ [length m']) d = Ok d' /\
    has_reached_valid_final_state d' = Ok true /\ d_mht d' = Some h /\ common_of d' = Some (as_received c) /\
    delivered m' d' = map (fun e => Some (as_item e)) es.
Proof.
  intros mu h c es m d0 ws Hmu Hh Ht Hc B F Rm L Lm Hs Inc. destruct (C22_assembled mu h c es m Hh Ht Hc B F Rm L) as (m' & E & Lm' & B' & Rd & _).
  destruct (C21_decodes d0 mu m' ws Hs Hmu B' ltac:(lia) ltac:(lia) ltac:(now rewrite Lm')) as (d & d' & E1 & E2 & E3 & E4 & E5 & E6 & _).
  rewrite Rd in E4, E5, E6. cbn [pdu_type pdu_common pdu_items] in *. exists m', d, d'. rewrite map_map in E6. tauto.
Qed.
(** Elements that do not fit into the block are never written: the assembly aborts. *)
Theorem C22_too_large_aborts : forall mu h c es m,
  mht_ok h -> mht_type h = type_of c -> mch_ok c -> bytes m -> Forall (element_ok mu) es ->
  (1 + mch_size c <= length m)%nat -> (length m < 1 + mch_size c + total mu es)%nat -> assemble mu h c es m = Abort.
Proof.
  intros mu h c es m Hh Ht Hc B F L0 L. destruct (headers_ok h c m Hh Ht Hc B L0) as (b & x & Lx & Bx & E & _).
  unfold assemble. rewrite E. cbn [bind]. set (rest := skipn (1 + mch_size c) m) in *. assert (Lr : length rest = (length m - (1 + mch_size c))%nat) by (unfold rest; now rewrite skipn_length).
  change (b :: x ++ rest) with ((b :: x) ++ rest). assert (Lbx : (1 + mch_size c)%nat = length (b :: x)) by (cbn [length]; lia).
  assert (Lm : length m = (length (b :: x) + length rest)%nat) by lia. rewrite Lbx, Lm, (puts_too_large mu es F (b :: x) rest) by (unfold total in L; unfold elements_size; lia). reflexivity.
Qed.
(** More than eight user plane data items, or two of another element, are sent but not delivered. *)
Theorem C22_more_than_room_refuted : exists h c es m m', mht_ok h /\ mht_type h = type_of c /\ mch_ok c /\ Forall (element_ok 1) es /\
  assemble 1 h c es m = Ok m' /\ pdu_items (read_pdu 1 m') <> map as_item es.
Proof.
  exists (mkMht 0 0 4), MchEmpty, (repeat (TxData 1 [5]) 9), (repeat 0 40). eexists. split; [unfold mht_ok; cbn; lia|]. split; [reflexivity|]. split; [exact I|].
  split; [apply Forall_forall; intros e He; apply repeat_spec in He; subst e; cbn; repeat split; try lia; repeat constructor|].
  split; [vm_compute; reflexivity|]. vm_compute. discriminate.
Qed.
Example C22_nonvacuous : exists h c es m, mht_ok h /\ mht_type h = type_of c /\ mch_ok c /\ bytes m /\ Forall (element_ok 1) es /\
  (forall k, how_many k es <= room k)%nat /\ (1 + mch_size c + total 1 es <= length m)%nat /\ length es = 4%nat.
Proof.
  exists (mkMht 0 0 1), (MchBeacon (mkBh 1193046 5)),
   [TxBeacon (mkCb 3 None false None None None 2 2 1 1 1); TxPower 50; TxTime (mkTa 0 0 7 0); TxData 2 [1; 2]], (repeat 0 60).
  split; [unfold mht_ok; cbn; lia|]. split; [reflexivity|]. split; [cbn; unfold bh_ok, long_rd_id; cbn; lia|]. split; [|split; [|split; [|split; [|reflexivity]]]].
  - apply Forall_forall. intros e He. apply repeat_spec in He. subst. lia.
  - repeat constructor; cbn; try lia; repeat constructor; try lia. 
  - intros []; vm_compute; lia.
  - vm_compute. lia.
Qed.

Print Assumptions C23_padding.
Print Assumptions C23_padding_is_silent.
Print Assumptions C23_single.
Print Assumptions C22_assembled.
Print Assumptions C22_delivered.
Print Assumptions C22_too_large_aborts.
Print Assumptions C22_more_than_room_refuted.
