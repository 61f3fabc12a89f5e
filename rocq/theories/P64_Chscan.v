(** Property C71: the channel measurement. *)
From Verif Require Import Base RxRing RxRingSpec RxRingFacts Chscan ChscanSpec ChscanFacts.
From Coq Require Import QArith Qcanon.
Open Scope Z_scope.

(** Whatever the hardware delivered before: a sensible request for samples that have been received and are still buffered is answered with the root mean
    square of exactly these samples, one value for each piece in order of time, over the requested antennas or all if there are fewer. The second
    component is what get_rms_avg returns: the sum of the values. *)
Theorem C71_measurement : forall root c zero st0 (bs : list (block C)) st now now' r,
  (0 < cL c)%nat -> Z.of_nat (cL c) < 2 ^ 32 -> (0 < cant c)%nat -> init c zero = Ok st0 -> Forall (block_ok c) bs -> run c st0 bs = Ok st ->
  let L := Z.of_nat (cL c) in
  let '(from, n, good) := timeline 0 0 [] bs in
  sensible L r -> q_end r <= now -> now' - L <= piece_start r 0 ->
  from <= piece_start r 0 -> n - L <= piece_start r 0 -> q_end r < n ->
  let v := map (fun i => root (mean_power from good (Nat.min (q_ants r) (cant c)) (piece_start r i) (Z.to_nat (q_len r)))) (seq 0 (q_parts r)) in
  scan root (mem st) L now now' r = Ok (v, qsum v).
Proof.
  intros root c zero st0 bs st now now' r HL HL32 Ha Hi Hok R L.
  destruct (ring_holds c zero st0 bs HL Hi Hok) as (st1 & R1 & H). rewrite R in R1. injection R1 as <-.
  destruct (init_inv c zero st0 HL Hi) as [I0 Hc0]. destruct (run_inv c bs st0 0 [] I0 Hok) as (st1 & R1 & I1). rewrite R in R1. injection R1 as <-.
  rewrite Hc0 in I1. destruct (timeline 0 0 [] bs) as [[from n] good]. destruct H as [Hc H]. destruct I1 as [_ (_ & _ & Hf & _ & Hm & _)].
  intros Hs Hn1 Hn2 Hfrom Hold Hend v. apply scan_ok; try assumption; [unfold L; change 4294967296 with (2 ^ 32); lia|].
  intros a t Hat Ht. destruct (H a t Hat ltac:(lia) ltac:(unfold L in Hold; lia) ltac:(lia)) as [E NE].
  destruct (sample_at from good a t) as [x|] eqn:Es; [|congruence]. unfold read in E.
  destruct (nth_error (mem st) a) as [m|] eqn:Em; [|discriminate]. exists m, x. auto.
Qed.
Print Assumptions C71_measurement.

(** The same in the middle of the hardware's next write, for all but the oldest M of the buffered samples. *)
Theorem C71_measurement_while_hardware_writes : forall root c zero st0 (bs : list (block C)) st b k st' now now' r,
  (0 < cL c)%nat -> Z.of_nat (cL c) < 2 ^ 32 -> (0 < cant c)%nat -> init c zero = Ok st0 -> Forall (block_ok c) bs -> run c st0 bs = Ok st ->
  block_ok c b -> (k <= cM c)%nat -> hw_write c st b k = Ok st' ->
  let L := Z.of_nat (cL c) in
  let '(from, n, good) := timeline 0 0 [] bs in
  sensible L r -> q_end r <= now -> now' - L <= piece_start r 0 ->
  from <= piece_start r 0 -> n - L + Z.of_nat (cM c) <= piece_start r 0 -> q_end r < n ->
  let v := map (fun i => root (mean_power from good (Nat.min (q_ants r) (cant c)) (piece_start r i) (Z.to_nat (q_len r)))) (seq 0 (q_parts r)) in
  scan root (mem st') L now now' r = Ok (v, qsum v).
Proof.
  intros root c zero st0 bs st b k st' now now' r HL HL32 Ha Hi Hok R Hb Hk W L.
  destruct (ring_holds c zero st0 bs HL Hi Hok) as (st1 & R1 & H). rewrite R in R1. injection R1 as <-.
  destruct (ring_holds_midwrite c zero st0 bs b k HL Hi Hok Hb Hk) as (st1 & st2 & R1 & W1 & H').
  rewrite R in R1. injection R1 as <-. rewrite W in W1. injection W1 as <-.
  destruct (init_inv c zero st0 HL Hi) as [I0 Hc0]. destruct (run_inv c bs st0 0 [] I0 Hok) as (st1 & R1 & I1). rewrite R in R1. injection R1 as <-.
  rewrite Hc0 in I1. destruct (timeline 0 0 [] bs) as [[from n] good]. destruct H as [Hc H]. destruct I1 as [_ (_ & _ & Hf & _ & Hm & _)].
  assert (Hm' : length (mem st') = cant c).
  { unfold hw_write in W. destruct (Nat.ltb _ _); [discriminate|]. injection W as <-. cbn [mem]. rewrite map_length, combine_length.
    destruct Hb as (_ & Hd & _). rewrite Hd, Hm. apply Nat.min_id. }
  intros Hs Hn1 Hn2 Hfrom Hold Hend v. apply scan_ok; try assumption; [unfold L; change 4294967296 with (2 ^ 32); lia|].
  intros a t Hat Ht. pose proof (H' a t Hat ltac:(lia) ltac:(unfold L in Hold; lia) ltac:(lia)) as E.
  destruct (H a t Hat ltac:(lia) ltac:(unfold L in Hold; lia) ltac:(lia)) as [_ NE].
  destruct (sample_at from good a t) as [x|] eqn:Es; [|congruence]. unfold read in E.
  destruct (nth_error (mem st') a) as [m|] eqn:Em; [|discriminate]. exists m, x. auto.
Qed.
Print Assumptions C71_measurement_while_hardware_writes.

(** Twelve blocks of two samples: sample number t of antenna a is [f a t]. *)
Definition cfg16 : cfg := {| cL := 16; cM := 2; cant := 2; cpre := 0; cper := 4 |}.
Definition blocks (f : nat -> nat -> C) (n : nat) : list (block C) :=
  map (fun i => {| btime := 2 * Z.of_nat i; blen := 2; bdata := [[f 0 (2 * i); f 0 (2 * i + 1)]; [f 1 (2 * i); f 1 (2 * i + 1)]]%nat |}) (seq 0 n).
Lemma blocks_ok f n : Forall (block_ok cfg16) (blocks f n).
Proof.
  apply Forall_forall. intros b Hb. apply in_map_iff in Hb. destruct Hb as (i & <- & _). unfold block_ok; cbn. repeat split; try lia. repeat constructor.
Qed.
Definition one : C := (1%Qc, 0%Qc).
Definition silence : C := (0%Qc, 0%Qc).
Definition values (x : res (list Qc * Qc)) : res (list Q * Q) := do (v, s) <- x ; Ok (map this v, this s).

(** A request over two pieces of three samples that meets the hypotheses; the buffer wraps within the second one. *)
Example C71_nonvacuous :
  let r := mkReq 17 3 2 7 in
  sensible 16 r /\ timeline 0 0 [] (blocks (fun a t => (qz (Z.of_nat t), qz (Z.of_nat a))) 12) = (0, 24, blocks (fun a t => (qz (Z.of_nat t), qz (Z.of_nat a))) 12) /\
  0 <= piece_start r 0 /\ 24 - 16 + 2 <= piece_start r 0 /\ q_end r < 24 /\
  exists st0 st, init cfg16 silence = Ok st0 /\ run cfg16 st0 (blocks (fun a t => (qz (Z.of_nat t), qz (Z.of_nat a))) 12) = Ok st /\
    values (scan (fun x => x) (mem st) 16 24 24 r) = Ok ([1021 # 6; 1543 # 6]%Q, (1282 # 3)%Q).
Proof.
  cbn zeta. split; [unfold sensible; cbn; lia|]. split; [reflexivity|]. do 3 (split; [unfold piece_start; cbn [q_end q_parts q_len Nat.sub Z.of_nat Pos.of_succ_nat Pos.succ]; lia|]).
  eexists. eexists. split; [reflexivity|]. split; [vm_compute; reflexivity|]. vm_compute. reflexivity.
Qed.

(** Finding: the assertion allows a measurement that ends with the published clock, which is the number of the next sample; the firmware chscanner asks
    for exactly that. The oldest buffered sample is measured instead: all samples since number 9 are silent, and yet power is reported. *)
Theorem C71_up_to_now_refuted : exists (bs : list (block C)) st0 st,
  init cfg16 silence = Ok st0 /\ Forall (block_ok cfg16) bs /\ run cfg16 st0 bs = Ok st /\ rxt st = 24 /\
  (forall a t, 9 <= t -> power_at 0 bs a t = 0%Qc) /\
  values (scan (fun x => x) (mem st) 16 (rxt st) (rxt st) (firmware_request (rxt st) 3 2)) = Ok ([0; 0; 0; 0; 1 # 3]%Q, (1 # 3)%Q).
Proof.
  exists (blocks (fun a t => if Nat.eqb t 8 then one else silence) 12). eexists. eexists.
  split; [reflexivity|]. split; [apply blocks_ok|]. split; [vm_compute; reflexivity|]. split; [reflexivity|]. split; [|vm_compute; reflexivity].
  intros a t Ht. unfold power_at, sample_at. destruct (Z.ltb_spec t 0); [reflexivity|].
  rewrite Z.sub_0_r. assert (Hn : (9 <= Z.to_nat t)%nat) by lia. revert Hn. generalize (Z.to_nat t) as i. intros i Hi.
  destruct (Nat.ltb_spec i 24).
  - destruct a as [|[|a]].
    + do 24 (destruct i as [|i]; [first [exfalso; lia|apply Qc_is_canon; vm_compute; reflexivity]|]). exfalso. lia.
    + do 24 (destruct i as [|i]; [first [exfalso; lia|apply Qc_is_canon; vm_compute; reflexivity]|]). exfalso. lia.
    + assert (E : flat_map (fun b : block C => nth (S (S a)) (bdata b) []) (blocks (fun _ t0 => if Nat.eqb t0 8 then one else silence) 12) = []).
      { cbn. destruct a; reflexivity. }
      rewrite E. destruct i; reflexivity.
  - replace (nth_error _ i) with (@None C); [reflexivity|]. symmetry. apply nth_error_None.
    destruct a as [|[|a]]; [cbn; lia|cbn; lia|]. cbn. destruct a; cbn; lia.
Qed.
Print Assumptions C71_up_to_now_refuted.

(** Finding: the average is the sum of the pieces, not divided by their number. *)
Theorem C71_average_refuted : forall root : Qc -> Qc, root 1%Qc = 1%Qc -> exists (bs : list (block C)) st0 st r,
  init cfg16 silence = Ok st0 /\ Forall (block_ok cfg16) bs /\ run cfg16 st0 bs = Ok st /\ sensible 16 r /\
  scan root (mem st) 16 24 24 r = Ok ([1%Qc; 1%Qc], (1 + 1)%Qc).
Proof.
  intros root Hr. destruct (init cfg16 silence) as [st0| | |] eqn:I; try discriminate.
  destruct (ring_holds cfg16 silence st0 (blocks (fun _ _ => one) 12) ltac:(cbn; lia) I (blocks_ok _ _)) as (st & R & _).
  exists (blocks (fun _ _ => one) 12), st0, st, (mkReq 18 3 2 2).
  split; [reflexivity|]. split; [apply blocks_ok|]. split; [exact R|]. split; [unfold sensible; cbn; lia|].
  pose proof (C71_measurement root cfg16 silence st0 _ st 24 24 (mkReq 18 3 2 2) ltac:(cbn; lia) ltac:(cbn; lia) ltac:(cbn; lia) I (blocks_ok _ _) R) as M.
  cbn zeta in M. change (timeline 0 0 [] (blocks (fun _ _ => one) 12)) with (0, 24, blocks (fun _ _ => one) 12) in M. cbn iota beta in M.
  change (Z.of_nat (cL cfg16)) with 16 in M.
  rewrite M by (first [unfold sensible; cbn; lia | unfold piece_start; cbn [q_end q_parts q_len Nat.sub Z.of_nat Pos.of_succ_nat Pos.succ]; lia]). clear M.
  cbn [q_parts seq map qsum].
  assert (E : forall i, (i < 2)%nat -> mean_power 0 (blocks (fun _ _ => one) 12) (Nat.min 2 2) (piece_start (mkReq 18 3 2 2) i) (Z.to_nat 3) = 1%Qc).
  { intros i Hi. apply Qc_is_canon. do 2 (destruct i as [|i]; [vm_compute; reflexivity|]). lia. }
  change (q_ants (mkReq 18 3 2 2)) with 2%nat. change (cant cfg16) with 2%nat. change (q_len (mkReq 18 3 2 2)) with 3.
  rewrite !E by lia. rewrite Hr, Qcplus_0_r. reflexivity.
Qed.
Print Assumptions C71_average_refuted.

(** Finding: for pieces of a single sample the two indices are equal, which is taken for a wrap: the whole buffer and one sample twice are added up. *)
Theorem C71_single_sample_refuted : exists (bs : list (block C)) st0 st,
  init cfg16 silence = Ok st0 /\ Forall (block_ok cfg16) bs /\ run cfg16 st0 bs = Ok st /\
  power_at 0 bs 0 18 = 1%Qc /\ power_at 0 bs 1 18 = 1%Qc /\
  values (scan (fun x => x) (mem st) 16 24 24 (mkReq 18 1 1 2)) = Ok ([17 # 1]%Q, (17 # 1)%Q).
Proof.
  exists (blocks (fun _ _ => one) 12). eexists. eexists. split; [reflexivity|]. split; [apply blocks_ok|]. split; [vm_compute; reflexivity|].
  split; [apply Qc_is_canon; vm_compute; reflexivity|]. split; [apply Qc_is_canon; vm_compute; reflexivity|]. vm_compute. reflexivity.
Qed.
Print Assumptions C71_single_sample_refuted.

(** Finding: a measurement that begins before the first sample passes all assertions and reads outside the buffer. *)
Theorem C71_early_refuted : exists (bs : list (block C)) st0 st,
  init cfg16 silence = Ok st0 /\ Forall (block_ok cfg16) bs /\ run cfg16 st0 bs = Ok st /\ sensible 16 (mkReq 3 3 2 2) /\ 3 <= rxt st /\
  scan (fun x => x) (mem st) 16 (rxt st) (rxt st) (mkReq 3 3 2 2) = Oob.
Proof.
  exists (blocks (fun _ _ => one) 2). eexists. eexists. split; [reflexivity|]. split; [apply blocks_ok|]. split; [vm_compute; reflexivity|].
  split; [unfold sensible; cbn; lia|]. split; [cbn; lia|]. vm_compute. reflexivity.
Qed.
Print Assumptions C71_early_refuted.
