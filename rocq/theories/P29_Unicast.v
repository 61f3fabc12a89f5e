(** C37: filling a unicast transport block from the application queue. *)
From Verif Require Import Base Bytes WireSpec Fields MacHeader MacHeaderSpec Mux Beacons SmallIes SmallIesSpec SmallIesFacts Decoder DecoderSpec DecoderFacts
  Assembly AssemblySpec AssemblyFacts P27_Decoder.
Open Scope N_scope.

Definition datagram (d : list N) : Prop := 1 <= N.of_nat (length d) <= 65535 /\ bytes d.
Notation dg := (TxData 1).
Lemma dg_ok mu d : datagram d -> element_ok mu (dg d). Proof. intros (H & B). cbn. split; [lia|]. split; [exact H|exact B]. Qed.
Lemma taken_app n q : exists more, q = taken n q ++ more.
Proof.
  revert n. induction q as [|d q IH]; intros n; [exists []; reflexivity|]. cbn [taken]. cbv zeta. destruct (_ <? n)%nat; [|exists (d :: q); reflexivity].
  destruct (IH (n - element_size 1 (dg d))%nat) as (more & E). exists more. cbn [app]. now rewrite <- E.
Qed.
Lemma taken_size n q : (0 < n)%nat -> (elements_size 1 (map dg (taken n q)) < n)%nat.
Proof.
  revert n. induction q as [|d q IH]; intros n H; [exact H|]. cbn [taken]. cbv zeta. destruct (Nat.ltb_spec (element_size 1 (dg d)) n); [|exact H].
  unfold elements_size in *. cbn [map list_sum fold_right]. specialize (IH (n - element_size 1 (dg d))%nat ltac:(lia)). fold (list_sum (map (element_size 1) (map dg (taken (n - element_size 1 (dg d)) q)))). lia.
Qed.
Lemma step_ok d pre rest : datagram d -> (element_size 1 (dg d) <= length rest)%nat ->
  exists h s p m, data_mmh 1 (length d) = Ok h /\ flowing_size h = Ok s /\ s = N.of_nat (element_size 1 (dg d)) /\
    flowing_pack h (pre ++ rest) (length pre) = Ok (m, p) /\ (p + length d = length pre + element_size 1 (dg d))%nat /\
    cp m p d = Ok (pre ++ element_bytes 1 (dg d) ++ skipn (element_size 1 (dg d)) rest).
Proof.
  intros D L. pose proof (put_ok 1 (dg d) pre rest (dg_ok 1 d D) L) as P. destruct D as (Ld & _). pose proof (data_mmh_ok 1 (length d) ltac:(lia) Ld) as E.
  cbn [put_element] in P. rewrite E in P. cbn [bind] in P. set (h := mkMmh _ _ _ _) in *. exists h.
  assert (F : flowing_size h = Ok (N.of_nat (element_size 1 (dg d)))).
  { unfold flowing_size, h. rewrite data_small. cbn [element_size]. destruct (length d <=? 255)%nat; [change (mmh_size _) with (Ok 2%nat)|change (mmh_size _) with (Ok 3%nat)]; cbn [bind mx_len]; f_equal; lia. }
  rewrite F in P. cbn [bind] in P. destruct (_ <=? _) in P; [|discriminate P]. cbn [guard] in P.
  destruct (flowing_pack h (pre ++ rest) (length pre)) as [(m, p)| | |] eqn:G; try discriminate P. cbn [bind] in P. destruct (cp m p d) as [m2| | |] eqn:C; try discriminate P. cbn [bind] in P.
  injection P as P _. exists (N.of_nat (element_size 1 (dg d))), p, m. split; [exact E|]. split; [exact F|]. split; [reflexivity|]. split; [reflexivity|]. split; [|now rewrite C, P].
  unfold flowing_pack in G. apply bind_ok_inv in G. destruct G as (m0 & _ & G). unfold h in G. rewrite data_small in G. cbn [element_size].
  destruct (length d <=? 255)%nat; [change (mmh_size _) with (Ok 2%nat) in G|change (mmh_size _) with (Ok 3%nat) in G]; cbn [bind] in G; injection G as _ <-; lia.
Qed.
(** The loop over the reported datagrams [ds]; [q] was enqueued since. *)
Lemma loop_ok ds : Forall datagram ds -> forall q arrivals pre rest, (0 < length rest)%nat ->
  unicast_loop (length pre + length rest) (map (@length N) ds) arrivals (ds ++ q) (pre ++ rest) (length pre) =
    Ok (pre ++ elements_bytes 1 (map dg (taken (length rest) ds)) ++ skipn (elements_size 1 (map dg (taken (length rest) ds))) rest,
        (length pre + elements_size 1 (map dg (taken (length rest) ds)))%nat,
        skipn (length (taken (length rest) ds)) (ds ++ q) ++ concat (firstn (length (taken (length rest) ds)) arrivals)).
Proof.
  induction 1 as [|d ds D _ IH]; intros q arr pre rest L0.
  - cbn. rewrite Nat.add_0_r, app_nil_r. reflexivity.
  - cbn [map unicast_loop taken]. cbv zeta. destruct (Nat.ltb_spec (element_size 1 (dg d)) (length rest)) as [Q|Q].
    + destruct (step_ok d pre rest D ltac:(lia)) as (h & s & p & m & E1 & E2 & -> & E4 & E5 & E6). rewrite E1. cbn [bind]. rewrite E2. cbn [bind].
      replace (N.of_nat (length pre + length rest) <=? N.of_nat (length pre) + N.of_nat (element_size 1 (dg d))) with false by lia.
      rewrite E4. cbn [bind]. replace (p + length d <=? length pre + length rest)%nat with true by (symmetry; apply Nat.leb_le; lia). cbn [guard app]. rewrite E6. cbn [bind].
      replace (length d =? 0)%nat with false by (symmetry; apply Nat.eqb_neq; destruct D; lia). rewrite Nat2N.id.
      set (rest' := skipn (element_size 1 (dg d)) rest). assert (Lr : length rest' = (length rest - element_size 1 (dg d))%nat) by (unfold rest'; now rewrite skipn_length).
      rewrite app_assoc. assert (Lp : (length pre + element_size 1 (dg d))%nat = length (pre ++ element_bytes 1 (dg d))).
      { pose proof (element_length 1 (dg d) (dg_ok 1 d D)) as El. rewrite app_length. lia. }
      assert (T : (length pre + length rest)%nat = (length (pre ++ element_bytes 1 (dg d)) + length rest')%nat) by lia.
      rewrite Lp, T, <- app_assoc, IH by lia. rewrite Lr. set (t := taken _ ds). unfold elements_bytes, elements_size. cbn [map concat list_sum fold_right length skipn firstn].
      fold (list_sum (map (element_size 1) (map dg t))). unfold rest'. rewrite skipn_add, <- Lp, <- !app_assoc, Nat.add_assoc.
      assert (Lt : (length t <= length ds)%nat) by (destruct (taken_app (length rest - element_size 1 (dg d)) ds) as (more & E); apply (f_equal (@length _)) in E; rewrite app_length in E; fold t in E; lia).
      f_equal. f_equal. rewrite !skipn_app, <- !app_assoc. replace (length t - length ds)%nat with 0%nat by lia. cbn [skipn]. do 2 f_equal. destruct arr as [|a arr]; cbn [hd tl firstn concat app]; [now rewrite firstn_nil|reflexivity].
    + assert (E1 := data_mmh_ok 1 (length d) ltac:(lia) (proj1 D)). rewrite E1. cbn [bind].
      assert (E2 : flowing_size (mkMmh (if N.of_nat (length d) <=? 255 then 1 else 2) (2 + 1) (N.of_nat (length d)) None) = Ok (N.of_nat (element_size 1 (dg d)))).
      { unfold flowing_size. rewrite data_small. cbn [element_size]. destruct (length d <=? 255)%nat; [change (mmh_size _) with (Ok 2%nat)|change (mmh_size _) with (Ok 3%nat)]; cbn [bind mx_len]; f_equal; lia. }
      rewrite E2. cbn [bind]. replace (N.of_nat (length pre + length rest) <=? N.of_nat (length pre) + N.of_nat (element_size 1 (dg d))) with true by lia.
      cbn. rewrite Nat.add_0_r, app_nil_r. reflexivity.
Qed.
Lemma how_many_data ds : how_many User_Plane_Data (map dg ds) = length ds /\ forall k, k <> User_Plane_Data -> how_many k (map dg ds) = 0%nat.
Proof.
  induction ds as [|d ds (IH1 & IH2)]; [split; reflexivity|]. cbn [map]. split.
  - rewrite how_many_cons, IH1. reflexivity.
  - intros k Hk. rewrite how_many_cons, IH2 by exact Hk. cbn [element_kind]. destruct (kind_dec User_Plane_Data k); [congruence|reflexivity].
Qed.

(** The firmware asks for the lengths of the first eight datagrams and then fills the block. It takes a beginning of these,
    as many as leave at least one byte of the block free, exactly these leave the queue, and the block tells exactly these,
    in order, all the rest of it being padding; without any it sends nothing. *)
Theorem C37_sends : forall h c q arrivals m,
  let ds := taken (length m - (1 + mch_size c)) (firstn 8 q) in
  mht_ok h -> mht_type h = type_of c -> mch_ok c -> bytes m -> Forall datagram q -> (1 + mch_size c < length m)%nat ->
  exists sent m', unicast_mac_sdu h c (map (@length N) (firstn 8 q)) arrivals q m =
      Ok (sent, m', skipn (length ds) q ++ concat (firstn (length ds) arrivals)) /\
    length m' = length m /\
    (sent = false <-> ds = []) /\
    (sent = true -> bytes m' /\ paddings (skipn (1 + mch_size c + list_sum (map (fun d => element_size 1 (dg d)) ds)) m') /\
       forall mu, read_pdu mu m' = mkPdu (Some h) (Some (as_received c)) (map (Data 1) ds)).
Proof.
  intros h c q arr m ds Hh Ht Hc B F L.
  destruct (headers_ok h c m Hh Ht Hc B ltac:(lia)) as (b & x & Lx & Bx & E & Rd).
  set (rest := skipn (1 + mch_size c) m) in *. assert (Lr : length rest = (length m - (1 + mch_size c))%nat) by (unfold rest; now rewrite skipn_length).
  assert (Fd : Forall datagram (firstn 8 q)) by (rewrite <- (firstn_skipn 8 q) in F; now apply Forall_app in F).
  unfold unicast_mac_sdu. rewrite E. cbn [bind]. change (b :: x ++ rest) with ((b :: x) ++ rest).
  assert (Lbx : (1 + mch_size c)%nat = length (b :: x)) by (cbn [length]; lia).
  assert (Lm : length m = (length (b :: x) + length rest)%nat) by lia.
  assert (E2 : unicast_loop (length m) (map (@length N) (firstn 8 q)) arr q ((b :: x) ++ rest) (1 + mch_size c) =
    Ok ((b :: x) ++ elements_bytes 1 (map dg ds) ++ skipn (elements_size 1 (map dg ds)) rest, (length (b :: x) + elements_size 1 (map dg ds))%nat,
        skipn (length ds) q ++ concat (firstn (length ds) arr))).
  { rewrite <- (firstn_skipn 8 q) at 2. rewrite Lbx, Lm, (loop_ok _ Fd) by lia. rewrite firstn_skipn, Lr. reflexivity. }
  rewrite E2. cbn [bind]. clear E2.
  assert (Fs : Forall datagram ds).
  { destruct (taken_app (length m - (1 + mch_size c)) (firstn 8 q)) as (more & Eq). fold ds in Eq. rewrite Eq in Fd. now apply Forall_app in Fd. }
  assert (Fe : Forall (element_ok 1) (map dg ds)) by (apply Forall_map; revert Fs; apply Forall_impl; intros d; apply dg_ok).
  assert (Sz : (elements_size 1 (map dg ds) < length rest)%nat) by (rewrite Lr; apply taken_size; lia).
  destruct (Nat.eqb_spec (1 + mch_size c) (length (b :: x) + elements_size 1 (map dg ds))) as [Z|Z].
  - assert (D0 : ds = []).
    { destruct ds as [|d l] eqn:Dq; [reflexivity|]. exfalso. unfold elements_size in Z. cbn [map list_sum fold_right] in Z.
      assert (0 < element_size 1 (dg d))%nat by (apply size_pos, dg_ok; now inversion Fs). lia. }
    eexists false, _. split; [reflexivity|]. rewrite D0. cbn [map elements_bytes elements_size concat list_sum fold_right skipn app]. split; [cbn [length]; rewrite app_length; cbn [length] in Lm; lia|]. split; [tauto|discriminate].
  - assert (D0 : ds <> []) by (intros D0; rewrite D0 in Z; cbn in Z; lia).
    assert (Lo : (length (b :: x) + elements_size 1 (map dg ds))%nat = length ((b :: x) ++ elements_bytes 1 (map dg ds))) by (rewrite app_length, elements_length by exact Fe; reflexivity).
    set (n := (length rest - elements_size 1 (map dg ds))%nat).
    rewrite Lo, app_assoc. replace (N.of_nat (length m) - N.of_nat (length ((b :: x) ++ elements_bytes 1 (map dg ds)))) with (N.of_nat n) by (rewrite <- Lo; unfold n; lia).
    rewrite fill_ok by (rewrite skipn_length; unfold n; lia). cbn [bind]. rewrite skipn_add. replace (elements_size 1 (map dg ds) + n)%nat with (length rest) by (unfold n; lia).
    rewrite skipn_all, app_nil_r. eexists true, _. split; [reflexivity|].
    split; [rewrite app_length, <- Lo, filling_length by lia; unfold n; lia|]. split; [split; [discriminate|intros D1; contradiction]|]. intros _.
    inversion Bx as [|? ? B1 B2]; subst. split; [|split].
    + rewrite <- app_assoc. constructor; [exact B1|]. apply Forall_app. split; [exact B2|]. apply Forall_app. split; [now apply elements_bytes_ok|apply paddings_bytes, filling_paddings].
    + rewrite <- (map_map dg (element_size 1)). fold (elements_size 1 (map dg ds)). rewrite Lbx, Lo, skipn_app, skipn_all, Nat.sub_diag. apply filling_paddings.
    + intros mu. rewrite <- app_assoc. cbn [app]. rewrite Rd. f_equal.
      assert (Eb : elements_bytes 1 (map dg ds) = elements_bytes mu (map dg ds)) by (unfold elements_bytes; f_equal; rewrite !map_map; reflexivity). rewrite Eb.
      rewrite items_elements.
      * rewrite map_map. reflexivity.
      * apply Forall_map. revert Fs. apply Forall_impl. intros d. apply dg_ok.
      * destruct (how_many_data ds) as (H1 & H2). intros k. destruct (kind_dec k User_Plane_Data) as [->|N0]; [rewrite H1|rewrite H2 by exact N0; lia].
        destruct (taken_app (length m - (1 + mch_size c)) (firstn 8 q)) as (more & Eq). fold ds in Eq. apply (f_equal (@length _)) in Eq. rewrite app_length, firstn_length in Eq. cbn [room]. lia.
      * intros caps. apply items_paddings, filling_paddings.
Qed.
(** What [taken] takes: a beginning of the queue, which leaves at least a byte free, and which the next datagram does not. *)
Theorem C37_taken : forall n q, (0 < n)%nat -> exists more, q = taken n q ++ more /\
  let size l := list_sum (map (fun d => element_size 1 (dg d)) l) in
  (size (taken n q) < n)%nat /\ match more with [] => True | d :: _ => (n <= size (taken n q ++ [d]))%nat end.
Proof.
  intros n q. revert n. induction q as [|d q IH]; intros n Hn.
  - exists []. cbn. auto.
  - cbn [taken]. cbv zeta. destruct (Nat.ltb_spec (element_size 1 (dg d)) n) as [Q|Q].
    + destruct (IH (n - element_size 1 (dg d))%nat ltac:(lia)) as (more & E & H1 & H2). exists more. cbn [app]. rewrite <- E. split; [reflexivity|]. cbn [map list_sum fold_right] in *.
      split; [unfold list_sum in *; lia|]. destruct more; [exact I|]. unfold list_sum in *. lia.
    + exists (d :: q). split; [reflexivity|]. cbn -[element_size]. split; lia.
Qed.
(** A datagram at the head of the queue that needs all the free bytes, or more, is never sent and keeps every datagram
    behind it in the queue. *)
Theorem C37_head_blocks : forall h c d q arrivals m,
  mht_ok h -> mht_type h = type_of c -> mch_ok c -> bytes m -> Forall datagram (d :: q) -> (1 + mch_size c < length m)%nat ->
  (length m <= 1 + mch_size c + element_size 1 (dg d))%nat ->
  exists m', unicast_mac_sdu h c (map (@length N) (firstn 8 (d :: q))) arrivals (d :: q) m = Ok (false, m', d :: q).
Proof.
  intros h c d q arr m Hh Ht Hc B F L Big. destruct (C37_sends h c (d :: q) arr m Hh Ht Hc B F L) as (sent & m' & E & _ & S & _). cbv zeta in *.
  assert (T : taken (length m - (1 + mch_size c)) (firstn 8 (d :: q)) = []).
  { cbn [firstn taken]. cbv zeta. destruct (Nat.ltb_spec (element_size 1 (dg d)) (length m - (1 + mch_size c))); [lia|reflexivity]. }
  rewrite T in *. exists m'. rewrite E. cbn [length skipn firstn concat]. rewrite app_nil_r. destruct S as (_ & S). now rewrite S.
Qed.
(** So a datagram that exactly fits into the block is not sent, although there is room for it. *)
Theorem C37_exact_fit_refuted : exists h c d m m', mht_ok h /\ mht_type h = type_of c /\ mch_ok c /\ datagram d /\
  length m = (1 + mch_size c + element_size 1 (dg d))%nat /\ unicast_mac_sdu h c [length d] [] [d] m = Ok (false, m', [d]).
Proof.
  exists (mkMht 0 0 4), MchEmpty, [5; 6; 7], (repeat 0 6). eexists. split; [unfold mht_ok; cbn; lia|]. split; [reflexivity|]. split; [exact I|].
  split; [split; [cbn; lia|repeat constructor]|]. split; [reflexivity|vm_compute; reflexivity].
Qed.
(** An empty datagram in the queue (C01 shows that one can be enqueued) aborts the program. *)
Theorem C37_empty_datagram_aborts : forall h c levels arrivals q m,
  mht_ok h -> mht_type h = type_of c -> mch_ok c -> bytes m -> (1 + mch_size c <= length m)%nat ->
  unicast_mac_sdu h c (0%nat :: levels) arrivals q m = Abort.
Proof.
  intros h c levels arr q m Hh Ht Hc B L. destruct (headers_ok h c m Hh Ht Hc B L) as (b & x & _ & _ & E & _). unfold unicast_mac_sdu. rewrite E. reflexivity.
Qed.
Example C37_nonvacuous : exists h c q m, mht_ok h /\ mht_type h = type_of c /\ mch_ok c /\ bytes m /\ Forall datagram q /\ (1 + mch_size c < length m)%nat /\
  taken (length m - (1 + mch_size c)) (firstn 8 q) = [[1; 2]; [3]] /\ length q = 3%nat.
Proof.
  exists (mkMht 0 0 0), (MchData (mkDh 0 0 5)), [[1; 2]; [3]; [4; 5; 6; 7; 8; 9]], (repeat 0 13). split; [unfold mht_ok; cbn; lia|]. split; [reflexivity|].
  split; [cbn; unfold dh_ok; cbn; lia|]. split; [unfold bytes; cbn; repeat constructor|]. split; [repeat constructor; cbn; lia|]. split; [cbn; lia|]. split; reflexivity.
Qed.

Print Assumptions C37_sends.
Print Assumptions C37_taken.
Print Assumptions C37_head_blocks.
Print Assumptions C37_exact_fit_refuted.
Print Assumptions C37_empty_datagram_aborts.
