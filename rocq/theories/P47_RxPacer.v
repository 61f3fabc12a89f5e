(** C54: the local buffers of a receiver and the symbols of a packet cut from them. *)
From Verif Require Import Base IntHelpers Cells CellsFacts RxRing RxRingSpec RxRingFacts Resampler ResamplerSpec ResamplerFacts ResamplerStream ResamplerMeaning RxPacer RxPacerSpec RxPacerFacts RxPacerStream RxPacerCalls RxPacerAll.
Open Scope N_scope.

(** Filter side. For any sequence of calls that ask for no more than the size the buffer was made for, and any
    progress of the radio: memory outside of the buffers is never touched; a call returns the next full unit; and
    what is in the buffer of an antenna is what the ring buffer had, from the start time on, without a gap. If the
    clock of the radio does not go back, each unit was complete when it was read. *)
Theorem C54_filter : forall smp coef (s0 : smp) c rc ant unit p max junk b b0 rs t mins obs,
  create_pacer coef ant c unit rc = Ok p -> (0 < cL c)%nat -> N.of_nat (cL c) < 2 ^ 32 -> (1 <= ant)%nat ->
  create_filter smp p max junk = Ok b -> max + unit <= 2 ^ 32 ->
  map len (b_mem _ b0) = map len (b_mem _ b) -> (0 <= t)%Z -> Forall (fun m => m <= max) mins -> Forall (ring_ok c) obs ->
  exists r, filter_calls smp p mins obs (reset_filter _ t b0, rs) = Ok r /\
    match r with
    | None => True
    | Some (s', _, l, ns) =>
        ns = filter_returns unit 0 mins /\ consecutive unit t l /\ (rising obs -> complete unit l) /\
        b_cnt _ (fst s') = len l * unit /\ b_time _ (fst s') = (t + Z.of_N (len l * unit))%Z /\
        map len (b_mem _ (fst s')) = map len (b_mem _ b) /\
        forall a, (a < ant)%nat -> firstn (N.to_nat (b_cnt _ (fst s'))) (nth a (b_mem _ (fst s')) []) = heard s0 c unit l a
    end.
Proof. exact filter_all. Qed.
Print Assumptions C54_filter.

(** Such a call returns once the clock is far enough. *)
Theorem C54_filter_returns : forall smp coef (s0 : smp) c rc ant unit p max junk b b0 rs t m o obs,
  create_pacer coef ant c unit rc = Ok p -> (0 < cL c)%nat -> N.of_nat (cL c) < 2 ^ 32 -> (1 <= ant)%nat ->
  create_filter smp p max junk = Ok b -> max + unit <= 2 ^ 32 ->
  map len (b_mem _ b0) = map len (b_mem _ b) -> (0 <= t)%Z -> m <= max -> Forall (ring_ok c) (o :: obs) ->
  (N.to_nat m + 1 <= length obs)%nat -> (t + Z.of_N unit * (Z.of_N m + 1) <= rxt o)%Z ->
  exists x, filter_until_nto smp p m (o :: obs) (reset_filter _ t b0, rs) = Ok (Some x).
Proof. exact filter_returns_all. Qed.
Print Assumptions C54_filter_returns.

(** Resampling side. A new receiver is usable, ... *)
Theorem C54_usable : forall smp coef (s0 : smp) (f0 : coef) L M h junk0 rc r0 ant b,
  L < 2 ^ 31 -> M < 2 ^ 31 -> len h + L <= 2 ^ 32 -> create smp coef s0 f0 L M h junk0 = Ok (rc, r0) ->
  (ant <= length junk0)%nat -> Forall (fun v => len v = 2 * c_hist _ rc) junk0 -> usable rc ant b (b, r0).
Proof. intros smp coef s0 f0 L M h junk0 rc r0 ant b A B C D.
  exact (usable_created smp coef s0 f0 (fun _ _ => s0) L M h junk0 rc r0 A B C D ant b). Qed.
Print Assumptions C54_usable.

(** ... and whatever it was used for before, and stays so. For any sequence of calls and rewinds, and any progress
    of the radio: memory outside of the buffers is never touched; a call returns after the unit that brought
    enough samples; and the buffer of an antenna has the outputs of the resampled signal of what the ring buffer
    had from the start time on, the first one after the last rewinding. *)
Theorem C54_resample : forall smp coef (s0 : smp) (f0 : coef) dot L M h junk0 rc r0,
  L < 2 ^ 31 -> M < 2 ^ 31 -> len h + L <= 2 ^ 32 -> create smp coef s0 f0 L M h junk0 = Ok (rc, r0) ->
  forall c ant unit p max junk b,
  create_pacer coef ant c unit rc = Ok p -> (0 < cL c)%nat -> N.of_nat (cL c) < 2 ^ 32 -> (1 <= ant)%nat ->
  create_resample smp coef p rc max junk = Ok b -> unit + M <= 2 ^ 32 -> max + 2 * ((unit + M - 1) / M * L) <= 2 ^ 32 ->
  forall t s, (0 <= t)%Z -> usable rc ant b s ->
  forall cs obs, Forall (fun x => match x with Until m => m <= max | Rewind => True end) cs -> Forall (ring_ok c) obs ->
  exists r, resample_calls smp coef dot p rc cs obs (reset_resample _ _ s0 rc t s) = Ok r /\
    match r with
    | None => True
    | Some (s', _, l, ns) => exists d,
        served L M h unit 0 0 cs ns (len l) d /\ consecutive unit t l /\ (rising obs -> complete unit l) /\
        b_cnt _ (fst s') = avail L M h (len l * unit) - d /\ b_time _ (fst s') = (t + Z.of_N (len l * unit))%Z /\
        usable rc ant b s' /\
        forall a, (a < ant)%nat -> firstn (N.to_nat (b_cnt _ (fst s'))) (nth a (b_mem _ (fst s')) []) =
          map (resampled s0 f0 dot L M h (sig s0 (heard s0 c unit l a))) (nseq d (N.to_nat (b_cnt _ (fst s'))))
    end.
Proof. exact resample_all. Qed.
Print Assumptions C54_resample.

(** [avail] counts the outputs that can be computed. *)
Theorem C54_available : forall smp coef (s0 : smp) (f0 : coef) L M h junk0 rc r0,
  L < 2 ^ 31 -> M < 2 ^ 31 -> len h + L <= 2 ^ 32 -> create smp coef s0 f0 L M h junk0 = Ok (rc, r0) ->
  forall n k, k < avail L M h n <-> computable L M h n k.
Proof.
  intros smp coef s0 f0 L M h junk0 rc r0 BL BM BF E.
  exact (ready_iff smp coef f0 (fun _ _ => s0) L M h rc 1 BL BM BF (le_n 1)
    (created1 smp coef s0 f0 L M h junk0 rc r0 E) (created2 smp coef s0 f0 (fun _ _ => s0) L M h junk0 rc r0 BL BM BF E)).
Qed.
Print Assumptions C54_available.

(** A call returns once the clock is far enough, if a unit is worth an output. *)
Theorem C54_resample_returns : forall smp coef (s0 : smp) (f0 : coef) dot L M h junk0 rc r0,
  L < 2 ^ 31 -> M < 2 ^ 31 -> len h + L <= 2 ^ 32 -> create smp coef s0 f0 L M h junk0 = Ok (rc, r0) ->
  forall c ant unit p max junk b,
  create_pacer coef ant c unit rc = Ok p -> (0 < cL c)%nat -> N.of_nat (cL c) < 2 ^ 32 -> (1 <= ant)%nat ->
  create_resample smp coef p rc max junk = Ok b -> unit + M <= 2 ^ 32 -> max + 2 * ((unit + M - 1) / M * L) <= 2 ^ 32 ->
  forall t s, (0 <= t)%Z -> usable rc ant b s ->
  forall m o obs, M <= unit * L -> m <= max -> Forall (ring_ok c) (o :: obs) ->
  (N.to_nat m + 1 <= length obs)%nat -> (t + Z.of_N unit * (Z.of_N m + 1) <= rxt o)%Z ->
  exists x, resample_until_nto smp coef dot p rc m (o :: obs) (reset_resample _ _ s0 rc t s) = Ok (Some x).
Proof. exact resample_returns_all. Qed.
Print Assumptions C54_resample_returns.

(** The symbols of a packet. Whatever their lengths, the residue left by each of them, the changes of the mixer in
    between and the progress of the radio: they are the resampled signal from the start of the packet on, cut
    without gap and overlap, each sample rotated by the phase of its position, the same for all antennas. *)
Theorem C54_packet : forall smp coef (s0 : smp) (f0 : coef) dot L M h junk0 rc r0,
  L < 2 ^ 31 -> M < 2 ^ 31 -> len h + L <= 2 ^ 32 -> create smp coef s0 f0 L M h junk0 = Ok (rc, r0) ->
  forall c ant unit p max junk b,
  create_pacer coef ant c unit rc = Ok p -> (0 < cL c)%nat -> N.of_nat (cL c) < 2 ^ 32 -> (1 <= ant)%nat ->
  create_resample smp coef p rc max junk = Ok b -> unit + M <= 2 ^ 32 -> max + 2 * ((unit + M - 1) / M * L) <= 2 ^ 32 ->
  forall t s, (0 <= t)%Z -> usable rc ant b s ->
  forall phase (rot : phase -> smp -> smp) adv stage ph ns obs,
  Forall (fun x => fst x <= max /\ fst x <= stage) ns -> Forall (ring_ok c) obs ->
  exists r, packet smp coef s0 dot phase rot adv p rc stage t ph ns obs s = Ok r /\
    match r with
    | None => True
    | Some (s', l, ys) =>
        consecutive unit t l /\ (rising obs -> complete unit l) /\ usable rc ant b s' /\
        length ys = length ns /\ Forall (fun y => length y = ant) ys /\
        forall a, (a < ant)%nat -> map (fun y => nth a y []) ys =
          cut rot adv (resampled s0 f0 dot L M h (sig s0 (heard s0 c unit l a))) 0 ph ns
    end.
Proof. exact packet_all. Qed.
Print Assumptions C54_packet.

(** What was heard is the signal the radio received, if each unit was complete, nothing was lost between its
    first sample and the time it was read, and it was read before the radio came around (C12). The memory of the
    ring buffer always has its size. *)
Theorem C54_ring : forall smp (c : RxRing.cfg) (zero : smp) bs o, (0 < cL c)%nat -> (0 <= cpre c)%Z -> seen c zero bs o -> ring_ok c o.
Proof. intros smp c zero bs o A B C. exact (proj1 (seen_facts c zero bs o A B C)). Qed.
Print Assumptions C54_ring.
Theorem C54_heard : forall smp (s0 : smp) (c : RxRing.cfg) (zero : smp) unit a x,
  (0 < cL c)%nat -> (0 <= cpre c)%Z -> (a < cant c)%nat -> 1 <= unit ->
  forall l t, (0 <= t)%Z -> consecutive unit t l -> complete unit l ->
  Forall (fun e => exists bs, seen c zero bs (snd e) /\ kept c unit bs a x (fst e)) l ->
  heard s0 c unit l a = map x (times t (len l * unit)).
Proof. intros smp. exact heard_is_signal. Qed.
Print Assumptions C54_heard.

(** ** An example: a radio with two antennas and a ring buffer of 16 samples, units of 4, a receiver that halves the
    rate with the filter 1 2 1. Antenna 0 receives 0, 1, 2, ..., antenna 1 receives 100, 101, 102, ... *)
Definition ex_cfg : RxRing.cfg := {| cL := 16; cM := 2; cant := 2; cpre := 3; cper := 4 |}.
Definition ex_block (i : nat) : block Z :=
  {| btime := 2 * Z.of_nat i; blen := 2; bdata := [[2 * Z.of_nat i; 2 * Z.of_nat i + 1]; [100 + 2 * Z.of_nat i; 100 + 2 * Z.of_nat i + 1]]%Z |}.
Definition ex_blocks (n : nat) : list (block Z) := map ex_block (seq 0 n).
Definition ex_ring (n : nat) : ring Z :=
  match (do o <- init ex_cfg 0%Z ; RxRing.run ex_cfg o (ex_blocks n)) with Ok o => o | _ => {| mem := []; ptr := 0; cnt := 0; pre := 0; rxt := 0; nxt := 0; notes := 0 |} end.
Definition ex_h : list Z := [1; 2; 1]%Z.
Definition ex_junk : list (list Z) := repeat (repeat 77%Z 4) 2.
Definition ex_rc : config Z := match create Z Z 0%Z 0%Z 1 2 ex_h ex_junk with Ok (c, _) => c | _ => mkCfg _ 0 0 0 [] 0 [] 0 Generic end.
Definition ex_r0 : state Z := match create Z Z 0%Z 0%Z 1 2 ex_h ex_junk with Ok (_, s) => s | _ => mkSt _ [] 0 0 end.
Definition ex_p : pacer := mkPc 2 16 4.
Definition ex_b : lbuf Z := create_lbuf Z 2 8 55%Z.
(** The radio is read with more and more samples; the unit at 14 is around the edge of the ring buffer. *)
Definition ex_obs : list (ring Z) := map ex_ring [5; 6; 9; 9; 10; 11; 11; 12; 13; 13; 13; 14; 14; 15; 15; 15; 16; 16]%nat.

Lemma ex_blocks_ok n : Forall (block_ok ex_cfg) (ex_blocks n).
Proof.
  apply Forall_forall. intros b I. apply in_map_iff in I as (i & <- & _). split; [cbn; lia|]. split; [reflexivity|].
  split; [repeat constructor|cbn; lia].
Qed.
Lemma ex_seen : Forall (fun o => exists bs, seen ex_cfg 0%Z bs o) ex_obs.
Proof.
  assert (X : forall n, (exists o, (do o <- init ex_cfg 0%Z ; RxRing.run ex_cfg o (ex_blocks n)) = Ok o) -> exists bs, seen ex_cfg 0%Z bs (ex_ring n)).
  { intros n (o & E). exists (ex_blocks n). split; [apply ex_blocks_ok|]. unfold ex_ring. rewrite E.
    apply bind_ok_inv in E as (o0 & E0 & E1). exists o0, o. split; [exact E0|]. split; [exact E1|left; reflexivity]. }
  unfold ex_obs. apply Forall_forall. intros o I. apply in_map_iff in I as (n & <- & I). apply X.
  cbn in I. repeat (destruct I as [<-|I]; [eexists; vm_compute; reflexivity|]). destruct I.
Qed.
Example C54_nonvacuous_setup :
  create Z Z 0%Z 0%Z 1 2 ex_h ex_junk = Ok (ex_rc, ex_r0) /\ create_pacer Z 2 ex_cfg 4 ex_rc = Ok ex_p /\
  create_resample Z Z ex_p ex_rc 6 55%Z = Ok ex_b /\ usable ex_rc 2 ex_b (ex_b, ex_r0) /\
  Forall (ring_ok ex_cfg) ex_obs /\ rising ex_obs.
Proof.
  split; [vm_compute; reflexivity|]. split; [vm_compute; reflexivity|]. split; [vm_compute; reflexivity|]. split.
  - refine (C54_usable Z Z 0%Z 0%Z 1 2 ex_h ex_junk ex_rc ex_r0 2 ex_b _ _ _ _ _ _); try (vm_compute; reflexivity); [vm_compute; discriminate|].
    repeat constructor.
  - split.
    + eapply Forall_impl; [|exact ex_seen]. intros o (bs & S1). eapply C54_ring; [| |exact S1]; cbn; lia.
    + unfold rising. repeat (constructor; [repeat constructor; vm_compute; discriminate|]). constructor.
Qed.
(** Three symbols of 3, 2 and 4 samples from time 10 on, with a mixer that adds its phase, 1000 more at each sample;
    half a million more before the last symbol. *)
Example C54_nonvacuous :
  match packet Z Z 0%Z zdot Z Z.add (Z.add 1000) ex_p ex_rc 6 10 0%Z
          [(3, fun x => x); (2, fun x => x); (4, Z.add 500000)] ex_obs (ex_b, ex_r0) with
  | Ok (Some (_, l, ys)) =>
      map fst l = [10; 14; 18; 22; 26]%Z /\
      ys = [[[31; 1048; 2056]; [331; 1448; 2456]]; [[3064; 4072]; [3464; 4472]];
            [[505080; 506088; 507096; 508104]; [505480; 506488; 507496; 508504]]]%Z
  | _ => False
  end.
Proof. vm_compute. auto. Qed.
(** Its first unit is kept, for the signal 0, 1, 2, ... of antenna 0. *)
Example C54_nonvacuous_kept : seen ex_cfg 0%Z (ex_blocks 11) (ex_ring 11) /\ kept ex_cfg 4 (ex_blocks 11) 0 (fun t => t) 14 /\
  complete 4 [(14%Z, ex_ring 11)] /\ heard 0%Z ex_cfg 4 [(14%Z, ex_ring 11)] 0 = [14; 15; 16; 17]%Z.
Proof.
  split; [|split; [|split]].
  - split; [apply ex_blocks_ok|]. eexists _, _. split; [vm_compute; reflexivity|]. split; [vm_compute; reflexivity|left; vm_compute; reflexivity].
  - unfold kept. change (timeline 0 0 [] (ex_blocks 11)) with (0, 22, ex_blocks 11)%Z. split; [lia|]. split; [cbn; lia|].
    intros t A _. assert (T : (t = 14 \/ t = 15 \/ t = 16 \/ t = 17)%Z) by lia. destruct T as [E|[E|[E|E]]]; rewrite E; vm_compute; reflexivity.
  - repeat constructor. vm_compute. discriminate.
  - vm_compute. reflexivity.
Qed.
Example C54_nonvacuous_filter :
  create_filter Z ex_p 6 55%Z = Ok (create_lbuf Z 2 8 55%Z) /\
  match filter_calls Z ex_p [3; 2; 6] ex_obs (reset_filter _ 14 (create_lbuf Z 2 8 55%Z), ex_r0) with
  | Ok (Some (s, _, _, ns)) => ns = [4; 4; 8] /\ b_mem _ (fst s) = [[14; 15; 16; 17; 18; 19; 20; 21]; [114; 115; 116; 117; 118; 119; 120; 121]]%Z
  | _ => False
  end.
Proof. split; vm_compute; auto. Qed.
Example C54_nonvacuous_calls :
  match resample_calls Z Z zdot ex_p ex_rc [Until 3; Rewind; Until 1; Until 4] (ex_obs ++ repeat (ex_ring 14) 9) (reset_resample _ _ 0%Z ex_rc 6 (ex_b, ex_r0)) with
  | Ok (Some (s, _, l, ns)) => ns = [4; 2; 4] /\ map fst l = [6; 10; 14; 18]%Z /\
      map (firstn 4) (b_mem _ (fst s)) = [[56; 64; 72; 80]; [456; 464; 472; 480]]%Z
  | _ => False
  end.
Proof. vm_compute. auto. Qed.

(** ** Limits *)
(** A start before time 0 reads outside of the ring buffer. *)
Theorem C54_negative_time_refuted : exists t obs, (t < 0)%Z /\ Forall (ring_ok ex_cfg) obs /\
  filter_calls Z ex_p [4] obs (reset_filter _ t (create_lbuf Z 2 8 55%Z), ex_r0) = Oob.
Proof.
  exists (-2)%Z, ex_obs. split; [lia|]. split; [apply C54_nonvacuous_setup|]. vm_compute. reflexivity.
Qed.
Print Assumptions C54_negative_time_refuted.
(** A reader that is late by more than the ring buffer gets other samples than those of its time ... *)
Theorem C54_late_reader_refuted : exists obs, Forall (fun o => exists bs, seen ex_cfg 0%Z bs o) obs /\ rising obs /\
  match filter_calls Z ex_p [4] obs (reset_filter _ 0 (create_lbuf Z 2 8 55%Z), ex_r0) with
  | Ok (Some (s, _, _, ns)) => ns = [4] /\ firstn 4 (nth 0 (b_mem _ (fst s)) []) = [16; 17; 18; 19]%Z
  | _ => False
  end.
Proof.
  exists [ex_ring 13; ex_ring 13]. split; [|split].
  - pose proof ex_seen as E. rewrite Forall_forall in E. repeat (constructor; [apply E; unfold ex_obs; apply in_map; cbn; tauto|]). constructor.
  - unfold rising. repeat (constructor; [repeat constructor; vm_compute; discriminate|]). constructor.
  - vm_compute. auto.
Qed.
Print Assumptions C54_late_reader_refuted.
(** ... and the check against this lag, in builds with assertions, applies only until 2.5 s after the start; later
    it accepts any lag. *)
Theorem C54_lag_check : forall p rate start now t,
  (assert_time_lag p rate start now t = Ok tt <->
   (t <= now)%Z /\ ((start + Z.of_N rate * 2500 / 1000 <= now)%Z \/ (now - t <= Z.of_N (p_len p) * 9 / 10)%Z)) /\
  (assert_time_lag p rate start now t = Abort <->
   ~ ((t <= now)%Z /\ ((start + Z.of_N rate * 2500 / 1000 <= now)%Z \/ (now - t <= Z.of_N (p_len p) * 9 / 10)%Z))).
Proof.
  intros p rate start now t. unfold assert_time_lag, guard. generalize (start + Z.of_N rate * 2500 / 1000)%Z as u. intros u.
  generalize (Z.of_N (p_len p) * 9 / 10)%Z as v. intros v.
  destruct (Z.leb_spec t now); destruct (Z.leb_spec u now); destruct (Z.leb_spec (now - t) v); split; split; intros X; try discriminate; try reflexivity; try lia.
Qed.
Print Assumptions C54_lag_check.
Theorem C54_lag_not_detected_refuted : exists p rate start now t,
  (start + Z.of_N rate * 2500 / 1000 <= now)%Z /\ (now - t > 1000 * Z.of_N (p_len p))%Z /\ assert_time_lag p rate start now t = Ok tt.
Proof. exists ex_p, 1728000, 0%Z, 5000000%Z, 4000000%Z. split; [vm_compute; discriminate|]. split; [vm_compute; reflexivity|]. vm_compute. reflexivity. Qed.
Print Assumptions C54_lag_not_detected_refuted.
