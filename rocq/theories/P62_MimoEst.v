(** C69: the matrix proposed by the estimator is the best of the codebook. *)
From Verif Require Import Base Beamforming BeamformingSpec BeamformingFacts P61_Beamforming MimoEst MimoEstSpec MimoEstFacts.
From Coq Require Import ZArith QArith Lia.
Open Scope nat_scope.

(** The codebooks of two and four antennas. *)
Lemma book n_tx : In n_tx [2; 4] -> exists R D a s, get_W_all the_W 1 n_tx = Ok R /\ get_scaling_all the_W 1 n_tx = Ok D /\ codebook_index_nonzero 1 n_tx = Ok a /\
  codebook_index_max 1 n_tx = Ok (length R - 1) /\ a < length R /\ length R <= 28 /\ (forall idx, get_W the_W 1 n_tx idx = at_ R idx) /\ (forall m, In m R -> length m = n_tx) /\
  (forall k, a <= k < length R -> rd D k = Ok s) /\ In (1, n_tx) pairs.
Proof.
  assert (G : forall a D s m, forallb (fun k => match rd D k with Ok x => x =? s | _ => false end) (seq a (m - a)) = true -> forall k, a <= k < m -> rd D k = Ok s).
  { intros a D s m F k Hk. rewrite forallb_forall in F. specialize (F k ltac:(apply in_seq; lia)). destruct (rd D k) as [x| | |]; try discriminate. apply Nat.eqb_eq in F. congruence. }
  assert (L : forall R n, forallb (fun m : list weight => length m =? n) R = true -> forall m, In m R -> length m = n).
  { intros R n F m I. rewrite forallb_forall in F. apply Nat.eqb_eq, F, I. }
  intros [<-|[<-|[]]].
  - exists (nth 1 (W the_W) []), (nth 1 (scaling the_W) []), 2, 2. split; [reflexivity|]. split; [reflexivity|]. split; [reflexivity|]. split; [reflexivity|]. split; [apply Nat.ltb_lt; reflexivity|].
    split; [apply Nat.leb_le; reflexivity|]. split; [reflexivity|]. split; [apply L; reflexivity|]. split; [apply G; reflexivity|]. cbn. tauto.
  - exists (nth 2 (W the_W) []), (nth 2 (scaling the_W) []), 12, 4. split; [reflexivity|]. split; [reflexivity|]. split; [reflexivity|]. split; [reflexivity|]. split; [apply Nat.ltb_lt; reflexivity|].
    split; [apply Nat.leb_le; reflexivity|]. split; [reflexivity|]. split; [apply L; reflexivity|]. split; [apply G; reflexivity|]. cbn. tauto.
Qed.

(** The search finds an index of the codebook for every channel, and the best one unless an amplitude is above one million. *)
Lemma mode_ok h n_tx n_rx stages : In n_tx [2; 4] -> 0 < n_rx -> (forall rx, rx < n_rx -> exists st, nth_error stages rx = Some st /\ holds h n_tx rx st) ->
  exists i m, mode_3_7 the_W n_tx n_rx stages = Ok i /\ codebook_index_max 1 n_tx = Ok m /\ i <= m /\ m <= 27 /\ (bounded h n_tx n_rx the_W -> best_index the_W h n_tx n_rx i).
Proof.
  intros Ht Hr Hst. destruct (book n_tx Ht) as (R & D & a & s & ER & ED & Ea & Em & Ha & H28 & HW & HL & HD & Hp).
  set (val := fun k => match min_rx stages (nth k R []) n_tx 0 n_rx 1000000000000 with Ok v => v | _ => 0%Z end).
  assert (Hv : forall k, k < length R -> min_rx stages (nth k R []) n_tx 0 n_rx 1000000000000 = Ok (val k) /\
    (bounded h n_tx n_rx the_W -> weakest h n_tx n_rx (nth k R []) (val k))).
  { intros k Hk. destruct (min_rx_weakest h n_tx n_rx stages (nth k R []) Hst) as (v & E & K); [rewrite (HL (nth k R [])) by (apply nth_In; exact Hk); lia|].
    unfold val. rewrite E. split; [reflexivity|]. intros B. apply K; [exact Hr|]. intros rx Hx. apply (B k); [|exact Hx]. rewrite HW. unfold at_. rewrite (nth_error_nth' R []) by exact Hk. reflexivity. }
  destruct (search_best R D stages n_tx n_rx a s val) as (i & E & Hi & Hb).
  { intros k Hk. exists (nth k R []). split; [apply rd_ok; lia|]. split; [apply Hv; lia|apply HD; exact Hk]. }
  { exact Ha. }
  exists i, (length R - 1). split.
  { unfold mode_3_7, guard. replace (1 <? n_tx) with true by (destruct Ht as [<-|[<-|[]]]; reflexivity). rewrite ER, ED. cbn [bind]. rewrite Ea. cbn [bind].
    replace (a <? length R) with true by (symmetry; apply Nat.ltb_lt; exact Ha). rewrite E. reflexivity. }
  split; [exact Em|]. split; [lia|]. split; [lia|]. intros B.
  assert (N8 : n_tx <> 8) by (destruct Ht as [<-|[<-|[]]]; discriminate).
  exists (nth i R []), (val i). split. { rewrite HW. unfold at_. rewrite (nth_error_nth' R []) by lia. reflexivity. }
  split. { apply (C68_nonzero 1 n_tx i _ a Hp N8); [rewrite HW; unfold at_; rewrite (nth_error_nth' R []) by lia; reflexivity|exact Ea|lia]. }
  split; [apply Hv; [lia|exact B]|].
  intros idx' m' p' G NZ [W1 W2]. assert (Hk : a <= idx') by (apply (C68_nonzero 1 n_tx idx' m' a Hp N8 G Ea); exact NZ).
  rewrite HW in G. unfold at_ in G. destruct (nth_error R idx') as [x|] eqn:Ex; [|discriminate]. injection G as ->.
  assert (Hl : idx' < length R) by (apply nth_error_Some; congruence). apply nth_error_nth with (d := []) in Ex.
  assert (p' = val idx').
  { destruct (Hv idx' Hl) as [_ K]. destruct (K B) as [V1 (rv & Hrv & V2)]. destruct W2 as (rw & Hrw & W2). subst m'. specialize (V1 rw Hrw). specialize (W1 rv Hrv). lia. }
  subst p'. apply Hb. lia.
Qed.

Section Packet.
  Variables (m : est) (ch : list (list (list weight))) (b n_rx n_ts n_ts_max : nat).
  Hypotheses (Hm : est_ok m n_rx n_ts_max) (Hch : estimates_ok ch b n_rx n_ts) (Hb : 1 <= b) (Hts : In n_ts [1; 2; 4]) (Hmax : n_ts <= n_ts_max).
  Let h := channel_of ch b.

  Lemma staged : 0 < n_rx -> exists st tr, stages_rx ch (m_stages m) (step_width b) (step_offset b) n_ts = Ok st /\ transpose st (m_transp m) 0 n_ts = Ok tr /\
    est_ok (mkEst (m_rx m) (m_ts_max m) st tr) n_rx n_ts_max /\
    (forall rx, rx < n_rx -> exists s, nth_error st rx = Some s /\ holds h n_ts rx s) /\
    (forall ts, ts < n_ts -> exists s, nth_error tr ts = Some s /\ holds (reverse h) n_rx ts s).
  Proof using Hm Hch Hb Hmax.
    intros Hr. destruct Hm as (M1 & M2 & M3 & M4 & M5 & M6), Hch as (C1 & C2).
    destruct (stages_rx_ok b n_ts (n_ts_max * n_cells) Hb ch (m_stages m)) as (st & E & L & S1 & A); [lia|exact C2|exact M5|unfold n_cells; lia|].
    destruct (transpose_ok st (n_ts_max * n_cells) n_rx ltac:(lia) S1 n_ts 0 (m_transp m)) as (tr & E' & L' & S1' & A' & _); [unfold n_cells; lia|lia|exact M6|].
    exists st, tr. split; [exact E|]. split; [exact E'|]. split. { unfold est_ok. cbn. repeat (split; [lia|]). split; [exact S1|exact S1']. }
    split.
    - intros rx Hx. exists (nth rx st []). split; [apply nth_error_nth'; lia|]. split.
      + rewrite S1 by (apply nth_In; lia). unfold n_cells. lia.
      + intros tx c Htx Hc. apply A; lia.
    - intros ts Ht. exists (nth ts tr []). split; [apply nth_error_nth'; lia|]. split.
      + rewrite S1' by (apply nth_In; lia). lia.
      + intros rx c Hx Hc. rewrite A' by lia. apply A; lia.
  Qed.

  (** At the end of a packet of one, two or four streams, received with one, two or four antennas, the report names the numbers of antennas and streams, and
      both indices are entries of the codebook: the one for the transmitter and the one for the receiver. They are best for the estimated channel and for the
      channel in the other direction. *)
  Theorem C69_report : In n_rx [1; 2; 4] -> exists m' r, packet_end the_W m ch b n_ts 0 = Ok (m', r) /\ est_ok m' n_rx n_ts_max /\ p_rx r = n_rx /\ p_ts r = n_ts /\
    (exists k, codebook_index_max 1 n_ts = Ok k /\ p_idx r <= k <= 27) /\ (exists k, codebook_index_max 1 n_rx = Ok k /\ p_rec r <= k <= 27) /\
    (n_ts <> 1 -> bounded h n_ts n_rx the_W -> best_index the_W h n_ts n_rx (p_idx r)) /\
    (n_rx <> 1 -> bounded (reverse h) n_rx n_ts the_W -> best_index the_W (reverse h) n_rx n_ts (p_rec r)).
  Proof using Hm Hch Hb Hts Hmax.
    intros Hrx. assert (P : 0 < n_rx) by (destruct Hrx as [<-|[<-|[<-|[]]]]; lia). assert (Pt : 0 < n_ts) by (destruct Hts as [<-|[<-|[<-|[]]]]; lia).
    destruct (staged P) as (st & tr & E & E' & Ho & Hst & Htr). destruct Hm as (M1 & _), Hch as (C1 & _).
    assert (F : exists i k, (if n_ts =? 1 then Ok 0 else mode_3_7 the_W n_ts n_rx st) = Ok i /\ codebook_index_max 1 n_ts = Ok k /\ i <= k <= 27 /\
      (n_ts <> 1 -> bounded h n_ts n_rx the_W -> best_index the_W h n_ts n_rx i)).
    { destruct (Nat.eqb_spec n_ts 1) as [->|N1]; [exists 0, 0; split; [reflexivity|]; split; [reflexivity|]; split; [lia|congruence]|].
      destruct (mode_ok h n_ts n_rx st) as (i & k & A1 & A2 & A3 & A4 & A5); [|exact P|exact Hst|].
      - clear - Hts N1. cbn [In] in *. destruct Hts as [H|[H|[H|[]]]]; [congruence|left; exact H|right; left; exact H].
      - exists i, k. split; [exact A1|]. split; [exact A2|]. split; [lia|]. intros _. exact A5. }
    assert (G : exists i k, (if n_rx =? 1 then Ok 0 else mode_3_7 the_W n_rx n_ts tr) = Ok i /\ codebook_index_max 1 n_rx = Ok k /\ i <= k <= 27 /\
      (n_rx <> 1 -> bounded (reverse h) n_rx n_ts the_W -> best_index the_W (reverse h) n_rx n_ts i)).
    { destruct (Nat.eqb_spec n_rx 1) as [R1|N1]; [exists 0, 0; rewrite R1; split; [reflexivity|]; split; [reflexivity|]; split; [lia|congruence]|].
      destruct (mode_ok (reverse h) n_rx n_ts tr) as (i & k & A1 & A2 & A3 & A4 & A5); [|exact Pt|exact Htr|].
      - clear - Hrx N1. cbn [In] in *. destruct Hrx as [H|[H|[H|[]]]]; [congruence|left; exact H|right; left; exact H].
      - exists i, k. split; [exact A1|]. split; [exact A2|]. split; [lia|]. intros _. exact A5. }
    destruct F as (i & k & F1 & F2 & F3 & F4), G as (i' & k' & G1 & G2 & G3 & G4).
    assert (EL : drs_last n_ts 0 = n_ts - 1) by (clear - Hts; unfold drs_last; destruct Hts as [<-|[<-|[<-|[]]]]; reflexivity).
    exists (mkEst (m_rx m) (m_ts_max m) st tr), (mkMimo (m_rx m) n_ts i i'). split.
    { unfold packet_end, process_drs, guard. rewrite EL, Nat.eqb_refl. replace (m_rx m =? length ch) with true by (symmetry; apply Nat.eqb_eq; lia). rewrite Nat.eqb_refl.
      replace (n_ts - 1 + 1) with n_ts by lia. rewrite Nat.eqb_refl, E. cbn [bind]. rewrite E'. cbn [bind]. rewrite M1, F1. cbn [bind]. rewrite G1. reflexivity. }
    split; [exact Ho|]. cbn [p_rx p_ts p_idx p_rec]. split; [exact M1|]. split; [reflexivity|]. split; [exists k; split; [exact F2|exact F3]|]. split; [exists k'; split; [exact G2|exact G3]|].
    split; [exact F4|exact G4].
  Qed.

  (** A receiver with eight antennas, as the classes with eight antennas require, fails at the end of every packet with valid CRC, whatever was received: the
      codebook has no single-stream matrices for eight antennas, and the single weight it has instead is read out of range. *)
  Theorem C69_eight_antennas_refuted : n_rx = 8 -> packet_end the_W m ch b n_ts 0 = Throw.
  Proof using Hm Hch Hb Hts Hmax.
    intros R8. assert (P : 0 < n_rx) by lia. destruct (staged P) as (st & tr & E & E' & Ho & Hst & Htr). destruct Hm as (M1 & _), Hch as (C1 & _).
    assert (Pt : 0 < n_ts) by (destruct Hts as [<-|[<-|[<-|[]]]]; lia).
    assert (F : exists i, (if n_ts =? 1 then Ok 0 else mode_3_7 the_W n_ts n_rx st) = Ok i).
    { destruct (Nat.eqb_spec n_ts 1) as [->|N1]; [exists 0; reflexivity|].
      destruct (mode_ok h n_ts n_rx st) as (i & k & A1 & _); [|exact P|exact Hst|exists i; exact A1].
      clear - Hts N1. cbn [In] in *. destruct Hts as [H|[H|[H|[]]]]; [congruence|left; exact H|right; left; exact H]. }
    destruct F as (i & F1).
    assert (EL : drs_last n_ts 0 = n_ts - 1) by (clear - Hts; unfold drs_last; destruct Hts as [<-|[<-|[<-|[]]]]; reflexivity).
    unfold packet_end, process_drs, guard. rewrite EL, Nat.eqb_refl. replace (m_rx m =? length ch) with true by (symmetry; apply Nat.eqb_eq; lia). rewrite Nat.eqb_refl.
    replace (n_ts - 1 + 1) with n_ts by lia. rewrite Nat.eqb_refl, E. cbn [bind]. rewrite E'. cbn [bind]. rewrite M1, F1. cbn [bind].
    replace (n_rx =? 1) with false by (rewrite R8; reflexivity). destruct (Htr 0 Pt) as (s & Hs & Hl & _). clear - Hs Hl Pt R8. rewrite R8 in *.
    assert (K : mode_3_7 the_W 8 n_ts tr = Throw).
    { unfold mode_3_7. cbn [guard Nat.ltb Nat.leb]. change (get_W_all the_W 1 8) with (Ok [[(1, 0)%Z]]). change (get_scaling_all the_W 1 8) with (Ok [1]). change (codebook_index_nonzero 1 8) with (Ok 0).
      cbn [bind]. change (0 <? length [[(1, 0)%Z]]) with true. cbn [guard]. change (length [[(1, 0)%Z]] - 0) with 1. cbn [search]. change (rd [[(1, 0)%Z]] 0) with (Ok [(1, 0)%Z]). cbn [bind].
      destruct n_ts as [|n]; [lia|]. cbn [min_rx]. unfold at_ at 1. rewrite Hs. cbn [bind sum_tx]. change (at_ [(1, 0)%Z] 0) with (Ok (1, 0)%Z). cbn [bind].
      rewrite (accumulate_ok s (1, 0)%Z n_cells (0 * n_cells)) by (unfold n_cells in *; lia). cbn [bind]. change (at_ [(1, 0)%Z] 1) with (@Throw weight). reflexivity. }
    rewrite K. reflexivity.
  Qed.
End Packet.
(** A packet of eight streams stops every receiver: if the last reference symbol carries the streams 0 to 3 the first assertion fails, if it carries 4 to 7
    the estimator's does. *)
Theorem C69_eight_streams_refuted : forall w m ch b first, packet_end w m ch b 8 first = Abort.
Proof.
  intros w m ch b first. unfold packet_end, drs_last. destruct first as [|first]; [reflexivity|]. cbn [Nat.eqb]. change (7 =? 8 - 1) with true. cbn [guard].
  unfold process_drs. destruct (m_rx m =? length ch); reflexivity.
Qed.
Print Assumptions C69_report.
Print Assumptions C69_eight_antennas_refuted.
Print Assumptions C69_eight_streams_refuted.

(** ** Cases *)
(** Two streams at two antennas: the second stream arrives turned by 90 degrees, so weight -j on the second transmit antenna brings them in phase. *)
Definition ex_ch : list (list (list weight)) := [[repeat (3, 0)%Z 14; repeat (0, 2)%Z 14]; [repeat (5, 0)%Z 14; repeat (0, 4)%Z 14]].
Definition ex_m : est := mkEst 2 2 (repeat (repeat wd 8) 2) (repeat (repeat wd 8) 2).
Example C69_nonvacuous : est_ok ex_m 2 2 /\ estimates_ok ex_ch 1 2 2 /\ bounded (channel_of ex_ch 1) 2 2 the_W /\ bounded (reverse (channel_of ex_ch 1)) 2 2 the_W /\
  match packet_end the_W ex_m ex_ch 1 2 0 with Ok (_, r) => r = mkMimo 2 2 5 2 | _ => False end /\ get_W the_W 1 2 5 = Ok [(1, 0); (0, -1)]%Z /\
  amplitude (channel_of ex_ch 1) 2 [(1, 0); (0, -1)]%Z 0 = (20, 0)%Z /\ amplitude (channel_of ex_ch 1) 2 [(1, 0); (1, 0)]%Z 0 = (12, 8)%Z /\
  weakest (channel_of ex_ch 1) 2 2 [(1, 0); (0, -1)]%Z 400.
Proof.
  split. { unfold est_ok. repeat (split; [reflexivity|]). split; intros s [<-|[<-|[]]]; reflexivity. }
  split. { split; [reflexivity|]. intros e [<-|[<-|[]]]; (split; [apply Nat.leb_le; reflexivity|]); intros x [<-|[<-|[]]]; apply Nat.leb_le; reflexivity. }
  assert (B : forall h, forallb (fun m => forallb (fun rx => (norm2 (amplitude h 2 m rx) <=? 1000000000000)%Z) [0; 1]) (nth 1 (W the_W) []) = true -> bounded h 2 2 the_W).
  { intros h F idx m rx G Hx. rewrite forallb_forall in F. change (get_W the_W 1 2 idx) with (at_ (nth 1 (W the_W) []) idx) in G. unfold at_ in G.
    destruct (nth_error (nth 1 (W the_W) []) idx) as [x|] eqn:E; [|discriminate]. injection G as ->. specialize (F m (nth_error_In _ _ E)). rewrite forallb_forall in F.
    apply Z.leb_le, F. destruct rx as [|[|rx]]; [left; reflexivity|right; left; reflexivity|lia]. }
  split; [apply B; vm_compute; reflexivity|]. split; [apply B; vm_compute; reflexivity|]. split; [vm_compute; reflexivity|]. split; [vm_compute; reflexivity|].
  split; [vm_compute; reflexivity|]. split; [vm_compute; reflexivity|]. split.
  - intros [|[|rx]] Hx; [vm_compute; discriminate|vm_compute; discriminate|lia].
  - exists 0. split; [lia|vm_compute; reflexivity].
Qed.
(** Eight antennas, one stream: the hypotheses of the refutation are met. *)
Definition ex_m8 : est := mkEst 8 8 (repeat (repeat wd 32) 8) (repeat (repeat wd 32) 8).
Definition ex_ch8 : list (list (list weight)) := repeat [repeat (1, 0)%Z 14] 8.
Example C69_eight_antennas_case : (est_ok ex_m8 8 8) /\ (estimates_ok ex_ch8 1 8 1) /\ packet_end the_W ex_m8 ex_ch8 1 1 0 = Throw.
Proof.
  split. { unfold est_ok. repeat (split; [reflexivity|]). split; intros s Hs; apply repeat_spec in Hs; subst s; reflexivity. }
  split; [|vm_compute; reflexivity]. split; [reflexivity|]. intros e He. apply repeat_spec in He. subst e. split; [apply Nat.leb_le; reflexivity|]. intros x [<-|[]]. apply Nat.leb_le. reflexivity.
Qed.
