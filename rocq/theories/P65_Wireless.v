(** C72: The simulated channel delivers, whatever the packets, the sum over all transmit antennas of the delayed and faded signals. *)
From Verif Require Import Base Wireless WirelessSpec WirelessFacts WirelessChannelFacts.
From Coq Require Import QArith Qcanon Qround Sorted.
Open Scope Qc_scope.

(** One link: for packets without gaps, in any interleaving of the two directions, each direction hears its own signal through all taps, wherever the
    packets are cut. *)
Theorem C72_link : forall cis spp ts t0 cs, periodic cis -> taps_ok spp ts -> seamless spp t0 cs ->
  exists os, link_run cis spp (link_new spp ts) cs = Ok os /\
    forall d, heard d os = map (echo cis ts (sent d cs) (t0 d)) (seq 0 (length (sent d cs))).
Proof.
  intros cis spp ts t0 cs Per T S.
  destruct (link_run_ok cis Per spp ts T cs (link_new spp ts) (fun _ => []) t0 eq_refl) as (os & E & H).
  - intros d. split; [destruct d; apply repeat_length|]. intros k Hk. unfold past. cbn [length].
    destruct (Z.ltb_spec (Z.of_nat 0 - Z.of_nat spp + Z.of_nat k) 0); [|lia]. destruct d; cbn [hist link_new hist0 hist1]; apply nth_repeat.
  - assert (Ext : forall cs f h, (forall d, f d = h d) -> seamless spp f cs -> seamless spp h cs).
    { clear. induction cs as [|c cs IH]; intros f h Q S; [exact I|]. cbn [seamless] in *. destruct S as (A & B & S). split; [rewrite <- Q; exact A|].
      split; [exact B|]. eapply IH; [|exact S]. intros d. cbn. rewrite Q. reflexivity. }
    eapply Ext; [|exact S]. intros d. cbn. lia.
  - exists os. split; [exact E|]. intros d. rewrite (H d). reflexivity.
Qed.

(** The link is reciprocal: the same signal at the same time is heard alike in both directions. *)
Theorem C72_link_reciprocal : forall cis spp ts t0 cs, periodic cis -> taps_ok spp ts -> seamless spp t0 cs ->
  t0 true = t0 false -> sent true cs = sent false cs ->
  exists os, link_run cis spp (link_new spp ts) cs = Ok os /\ heard true os = heard false os.
Proof.
  intros cis spp ts t0 cs Per T S Et Es. destruct (C72_link cis spp ts t0 cs Per T S) as (os & E & H). exists os. split; [exact E|].
  rewrite !H, Et, Es. reflexivity.
Qed.

(** A doubly selective channel between devices with n0 and n1 antennas: every antenna hears the sum, over all antennas of the other device, of what link
    [a * receivers + b] makes of the signal of antenna [a]. *)
Theorem C72_doubly : forall cis spp n0 n1 tss t0 ps, periodic cis -> length tss = (n0 * n1)%nat -> Forall (taps_ok spp) tss ->
  packets_ok spp n0 n1 t0 ps ->
  exists os, channel_run cis spp n0 n1 (Doubly (map (link_new spp) tss)) ps = Ok os /\
    forall d b, (b < receivers n0 n1 d)%nat ->
      heard_at d b os =
        map (fun n => csum (map (fun a => echo cis (nth (a * receivers n0 n1 d + b) tss []) (sent_to d a b ps) (t0 d) n) (seq 0 (senders n0 n1 d))))
            (seq 0 (nof d ps * spp)).
Proof.
  intros cis spp n0 n1 tss t0 ps Per L T Pk.
  assert (La : forall i, taps (la (map (link_new spp) tss) i) = nth i tss []).
  { intros i. unfold la. destruct (Nat.ltb_spec i (length tss)) as [Q|Q].
    - rewrite (nth_indep _ no_link (link_new spp [])) by (rewrite map_length; exact Q). rewrite map_nth. reflexivity.
    - rewrite !nth_overflow by (rewrite ?map_length; exact Q). reflexivity. }
  destruct (run_ok cis Per spp n0 n1 (fun i => nth i tss []) ps (map (link_new spp) tss) (fun _ _ _ => []) t0 (fun _ => 0%nat)) as (os & E & H).
  - rewrite map_length. exact L.
  - intros i. rewrite La. destruct (Nat.ltb_spec i (length tss)) as [Q|Q].
    + rewrite Forall_forall in T. apply T. apply nth_In. exact Q.
    + rewrite nth_overflow by exact Q. constructor.
  - intros i _. apply La.
  - intros d a b. reflexivity.
  - intros d a b Ha Hb. unfold la. rewrite (nth_indep _ no_link (link_new spp [])).
    2:{ rewrite map_length, L. unfold senders, receivers in *. destruct d; nia. }
    rewrite map_nth. split; [destruct d; apply repeat_length|]. intros k Hk. unfold past. cbn [length].
    destruct (Z.ltb_spec (Z.of_nat 0 - Z.of_nat spp + Z.of_nat k) 0); [|lia]. destruct d; cbn [hist link_new hist0 hist1]; apply nth_repeat.
  - assert (Ext : forall ps f h, (forall d, f d = h d) -> packets_ok spp n0 n1 f ps -> packets_ok spp n0 n1 h ps).
    { clear. induction ps as [|p ps IH]; intros f h Q S; [exact I|]. cbn [packets_ok] in *. destruct S as (A & B & D & S). split; [rewrite <- Q; exact A|].
      split; [exact B|]. split; [exact D|]. eapply IH; [|exact S]. intros d. cbn. rewrite Q. reflexivity. }
    eapply Ext; [|exact Pk]. intros d. cbn. lia.
  - exists os. split; [exact E|]. intros d b Hb. rewrite (H d b Hb). reflexivity.
Qed.

(** The channels without memory: every receive antenna keeps what it had and gets the sum over all transmit antennas. *)
Theorem C72_flat : forall cis spp coeffs id_tx id_rx time g txs rxs,
  length coeffs = (length txs * length rxs)%nat -> Forall (fun x => length x = spp) txs -> Forall (fun r => length r = spp) rxs ->
  exists rs, superimpose cis spp (Flat coeffs) id_tx id_rx time g txs rxs = Ok (Flat coeffs, rs) /\ length rs = length rxs /\
    forall b k, (b < length rxs)%nat -> (k < spp)%nat -> nth k (nth b rs []) c0 =
      cadd (nth k (nth b rxs []) c0)
        (csum (map (fun a => cmul (cscale (g a b) (nth k (nth a txs []) c0)) (nth (a * length rxs + b) coeffs c0)) (seq 0 (length txs)))).
Proof.
  intros cis spp coeffs id_tx id_rx time g txs rxs L Fx Fr. unfold superimpose.
  destruct (tx_loop_pure cis spp (length rxs) (id_tx <? id_rx)%nat time g (Flat coeffs)
              (fun a b s => cmul (cscale (g a b) s) (nth (a * length rxs + b) coeffs c0))) with (txs := txs) (a := 0%nat) (rxs := rxs) as (rs & E & Lr & _ & H).
  - intros a b. now rewrite cscale_0, cmul_0_l.
  - reflexivity.
  - exact Fx.
  - exact Fr.
  - intros j b Hj Hb. cbn [one_pair Nat.add]. rewrite (rd_ok coeffs (j * length rxs + b) c0) by nia. cbn [bind]. rewrite map_map. reflexivity.
  - exists rs. split; [exact E|]. split; [exact Lr|]. intros b k Hb Hk. exact (H b k Hb Hk).
Qed.

Theorem C72_awgn : forall cis spp id_tx id_rx time g txs rxs,
  Forall (fun x => length x = spp) txs -> Forall (fun r => length r = spp) rxs ->
  exists rs, superimpose cis spp Awgn id_tx id_rx time g txs rxs = Ok (Awgn, rs) /\ length rs = length rxs /\
    forall b k, (b < length rxs)%nat -> (k < spp)%nat -> nth k (nth b rs []) c0 =
      cadd (nth k (nth b rxs []) c0) (csum (map (fun a => cscale (g a b) (nth k (nth a txs []) c0)) (seq 0 (length txs)))).
Proof.
  intros cis spp id_tx id_rx time g txs rxs Fx Fr. unfold superimpose.
  destruct (tx_loop_pure cis spp (length rxs) (id_tx <? id_rx)%nat time g Awgn (fun a b s => cscale (g a b) s))
    with (txs := txs) (a := 0%nat) (rxs := rxs) as (rs & E & Lr & _ & H).
  - intros a b. apply cscale_0.
  - reflexivity.
  - exact Fx.
  - exact Fr.
  - intros j b Hj Hb. reflexivity.
  - exists rs. split; [exact E|]. split; [exact Lr|]. intros b k Hb Hk. exact (H b k Hb Hk).
Qed.

(** The power delay profile: equal delays are joined, nothing is lost, and the sum of the powers is one. *)
Theorem C72_profile : forall spp generic l, StronglySorted le (map fst generic) -> total generic <> 0 -> set_pdp spp generic = Ok l ->
  StronglySorted lt (map fst l) /\ (forall d, In d (map fst l) <-> In d (map fst generic)) /\ fst (hd (0%nat, 0%Qc) l) = 0%nat /\
  Forall (fun p => (fst p < spp)%nat) l /\ (forall d, power_of d l = power_of d generic / total generic) /\ total l = 1.
Proof.
  intros spp generic l S N E. unfold set_pdp in E.
  destruct (collect_ok generic [] S) as (R & I & P & T); [constructor|constructor|].
  assert (Tot : total (collect generic []) = total generic) by (rewrite T; cbn; ring).
  destruct (length (normalize (collect generic [])) =? 0)%nat; cbn [negb guard] in E; [discriminate|].
  destruct (fst (hd (0%nat, 0%Qc) (normalize (collect generic []))) =? 0)%nat eqn:E0; cbn [guard] in E; [|discriminate].
  destruct (fst (last (normalize (collect generic [])) (0%nat, 0%Qc)) <? spp)%nat eqn:E1; cbn [guard] in E; [|discriminate].
  injection E as <-. apply Nat.eqb_eq in E0. apply Nat.ltb_lt in E1.
  assert (R' : rising (normalize (collect generic []))) by (unfold rising; rewrite normalize_fst; exact R).
  split; [exact R'|]. split; [|split; [exact E0|split; [|split]]].
  - intros d. rewrite normalize_fst, I. cbn. tauto.
  - apply Forall_forall. intros p Hp. pose proof (rising_last _ (0%nat, 0%Qc) R' (fst p) (in_map fst _ _ Hp)). lia.
  - intros d. rewrite power_normalize, P, Tot. cbn [power_of fold_right]. unfold Qcdiv. ring.
  - apply total_normalize. rewrite Tot. exact N.
Qed.

(** The pair of antennas 0 of one device and 1 of the other does not use the same coefficient in both directions when both have two antennas, although
    link.hpp 52 calls the channel reciprocal. *)
Definition unit_gain (_ _ : nat) : Qc := 1.
Definition cz (a b : Z) : C := (qz a, qz b).
Theorem C72_reciprocity_refuted :
  ~ (forall cis spp coeffs n0 n1 time a b s, length coeffs = (n0 * n1)%nat -> (a < n0)%nat -> (b < n1)%nat -> length s = spp ->
       forall ch rs ch' rs',
         superimpose cis spp (Flat coeffs) 0 1 time unit_gain (upd (repeat (repeat c0 spp) n0) a s) (repeat (repeat c0 spp) n1) = Ok (ch, rs) ->
         superimpose cis spp (Flat coeffs) 1 0 time unit_gain (upd (repeat (repeat c0 spp) n1) b s) (repeat (repeat c0 spp) n0) = Ok (ch', rs') ->
         nth b rs [] = nth a rs' []).
Proof.
  intros H. specialize (H (fun _ => c0) 1%nat [cz 1 0; cz 2 0; cz 3 0; cz 4 0] 2%nat 2%nat 0%Z 0%nat 1%nat [cz 1 0] eq_refl ltac:(lia) ltac:(lia) eq_refl
    _ _ _ _ eq_refl eq_refl).
  apply (f_equal (map (fun c => this (fst c)))) in H. vm_compute in H. discriminate H.
Qed.

(** It is reciprocal if one of the two devices has one antenna. *)
Theorem C72_reciprocal_single : forall cis spp coeffs n time b s, length coeffs = n -> (b < n)%nat -> length s = spp ->
  exists ch rs ch' rs',
    superimpose cis spp (Flat coeffs) 0 1 time unit_gain [s] (repeat (repeat c0 spp) n) = Ok (ch, rs) /\
    superimpose cis spp (Flat coeffs) 1 0 time unit_gain (upd (repeat (repeat c0 spp) n) b s) [repeat c0 spp] = Ok (ch', rs') /\
    forall k, (k < spp)%nat -> nth k (nth b rs []) c0 = nth k (nth 0 rs' []) c0 /\ nth k (nth b rs []) c0 = cmul (nth k s c0) (nth b coeffs c0).
Proof.
  intros cis spp coeffs n time b s L Hb Ls.
  assert (Fz : forall m, Forall (fun r => length r = spp) (repeat (repeat c0 spp) m)).
  { intros m. apply Forall_forall. intros r Hr. apply repeat_spec in Hr. subst r. apply repeat_length. }
  destruct (C72_flat cis spp coeffs 0 1 time unit_gain [s] (repeat (repeat c0 spp) n)) as (rs & E & _ & H).
  { rewrite repeat_length. cbn. lia. } { constructor; [exact Ls|constructor]. } { apply Fz. }
  destruct (C72_flat cis spp coeffs 1 0 time unit_gain (upd (repeat (repeat c0 spp) n) b s) [repeat c0 spp]) as (rs' & E' & _ & H').
  { rewrite upd_length, repeat_length. cbn. lia. }
  { apply Forall_forall. intros r Hr. apply (In_nth _ _ []) in Hr. destruct Hr as (j & Hj & <-). rewrite upd_length in Hj.
    destruct (Nat.eq_dec b j) as [<-|N].
    - rewrite nth_upd_same by exact Hj. exact Ls.
    - rewrite nth_upd_other by congruence. specialize (Fz n). rewrite Forall_forall in Fz. apply Fz. apply nth_In. exact Hj. }
  { apply (Fz 1%nat). }
  exists (Flat coeffs), rs, (Flat coeffs), rs'. split; [exact E|]. split; [exact E'|]. intros k Hk.
  assert (One : forall c, cscale (unit_gain 0 b) c = c /\ forall a b, cscale (unit_gain a b) c = c).
  { intros [c1 c2]. unfold cscale, unit_gain. cbn [fst snd]. split; [|intros _ _]; f_equal; ring. }
  assert (V : nth k (nth b rs []) c0 = cmul (nth k s c0) (nth b coeffs c0)).
  { rewrite H by (rewrite ?repeat_length; assumption). rewrite repeat_length.
    replace (nth b (repeat (repeat c0 spp) n) []) with (repeat c0 spp).
    2:{ symmetry. apply (repeat_spec n). apply nth_In. rewrite repeat_length. exact Hb. }
    rewrite nth_repeat, cadd_0_l. cbn [length seq map csum fold_right nth Nat.mul Nat.add]. rewrite cadd_0_r. rewrite (proj1 (One _)). reflexivity. }
  split; [|exact V]. rewrite V. rewrite H' by (cbn; lia || assumption).
  cbn [nth]. rewrite nth_repeat, cadd_0_l, upd_length, repeat_length. clear - Hb One.
  assert (G : forall l a0, (forall i, nth i l [] = if (i =? b)%nat then s else nth i l []) ->
     (forall i, i <> b -> nth k (nth i l []) c0 = c0) ->
     csum (map (fun a => cmul (cscale (unit_gain a 0) (nth k (nth a l []) c0)) (nth (a * length [repeat c0 spp] + 0) coeffs c0)) (seq a0 n)) =
     if ((a0 <=? b) && (b <? a0 + n))%nat then cmul (nth k s c0) (nth b coeffs c0) else c0).
  { intros l a0 H1 H2. revert a0. clear Hb. induction n as [|m IH]; intros a0; cbn [seq map csum fold_right].
    - destruct (Nat.leb_spec a0 b), (Nat.ltb_spec b (a0 + 0)); try reflexivity. lia.
    - change (fold_right cadd c0) with csum. rewrite IH. rewrite (proj2 (One _)). cbn [length]. rewrite Nat.mul_1_r, Nat.add_0_r.
      destruct (Nat.eq_dec a0 b) as [->|Nb].
      + rewrite H1, Nat.eqb_refl. destruct (Nat.leb_spec (S b) b); [lia|]. cbn [andb]. rewrite cadd_0_r.
        destruct (Nat.leb_spec b b), (Nat.ltb_spec b (b + S m)); try lia. reflexivity.
      + rewrite (H2 a0 Nb), cmul_0_l, cadd_0_l.
        destruct (Nat.leb_spec (S a0) b), (Nat.leb_spec a0 b), (Nat.ltb_spec b (S a0 + m)), (Nat.ltb_spec b (a0 + S m)); cbn [andb]; try reflexivity; lia. }
  rewrite G.
  - destruct (Nat.leb_spec 0 b), (Nat.ltb_spec b (0 + n)); try lia. reflexivity.
  - intros i. destruct (Nat.eqb_spec i b) as [->|N]; [|reflexivity]. apply nth_upd_same. rewrite repeat_length. exact Hb.
  - intros i N. rewrite nth_upd_other by congruence. destruct (Nat.ltb_spec i n).
    + replace (nth i (repeat (repeat c0 spp) n) []) with (repeat c0 spp); [apply nth_repeat|].
      symmetry. apply (repeat_spec n). apply nth_In. rewrite repeat_length. assumption.
    + rewrite (nth_overflow (repeat _ _)) by (rewrite repeat_length; assumption). destruct k; reflexivity.
Qed.

(** The leakage from a device into itself (vspace.cpp 481-487) is not limited to the corresponding receive path: antenna 1 leaks into path 0. *)
Theorem C72_leakage_refuted :
  ~ (forall cis spp id time g txs rxs ch rs a b, length txs = length rxs -> Forall (fun x => length x = spp) txs -> Forall (fun r => length r = spp) rxs ->
       superimpose cis spp Awgn id id time g txs rxs = Ok (ch, rs) -> (forall i, i <> a -> Forall (fun c => c = c0) (nth i txs [])) ->
       b <> a -> nth b rs [] = nth b rxs []).
Proof.
  intros H. specialize (H (fun _ => c0) 1%nat 0%nat 0%Z unit_gain [[c0]; [cz 1 0]] [[c0]; [c0]] _ _ 1%nat 0%nat eq_refl
    ltac:(repeat constructor) ltac:(repeat constructor) eq_refl).
  assert (A : forall i, i <> 1%nat -> Forall (fun c => c = c0) (nth i [[c0]; [cz 1 0]] [])).
  { intros [|[|[|i]]] Hi; [repeat constructor|lia|constructor|constructor]. }
  specialize (H A ltac:(lia)). apply (f_equal (map (fun c => this (fst c)))) in H. vm_compute in H. discriminate H.
Qed.

(** A concrete rotation by quarter turns, two links with two taps, packets of three samples in both directions. *)
Definition quarter (a : Qc) : C :=
  match (Qfloor (4 * this a) mod 4)%Z with 0%Z => cz 1 0 | 1%Z => cz 0 1 | 2%Z => cz (-1) 0 | _ => cz 0 (-1) end.
Lemma quarter_periodic : periodic quarter.
Proof.
  intros a z. unfold quarter.
  assert (E : (Qfloor (4 * this (a + qz z)) = Qfloor (4 * this a) + z * 4)%Z).
  { rewrite (Qfloor_comp (4 * this (a + qz z)) (4 * this a + inject_Z (z * 4))%Q).
    - destruct (4 * this a)%Q as [n d]. unfold Qfloor, Qplus, inject_Z. cbn [Qnum Qden].
      rewrite Pos.mul_1_r, Z.mul_1_r. apply Z.div_add. discriminate.
    - change (this (a + qz z)) with (Qred (this a + this (qz z))). rewrite Qred_correct. change (this (qz z)) with (Qred (inject_Z z)). rewrite Qred_correct.
      rewrite inject_Z_mult. change (inject_Z 4) with 4%Q. ring. }
  rewrite E, Z_mod_plus_full. reflexivity.
Qed.
Definition ex_taps : list (list tap) :=
  [[mkTap 0 (qz 1) [(4, qz 0)%Z]; mkTap 2 (qz 2) [(-3, qz 1)%Z; (8, qz 0)%Z]]; [mkTap 0 (qz 3) [(5, qz 0)%Z]]].
Definition ex_packets : list packet :=
  [mkPacket true 7 unit_gain [[cz 1 0; cz 0 1; cz 2 0]]; mkPacket false 9 unit_gain [[cz 1 1; cz 0 1; cz 5 0]; [cz 1 0; cz 1 0; cz 1 0]];
   mkPacket true 10 (fun _ _ => qz 2) [[cz 1 0; cz 3 1; cz 2 0]]].
Example C72_nonvacuous :
  periodic quarter /\ Forall (taps_ok 3) ex_taps /\ packets_ok 3 1 2 (fun d => if d then 7 else 9)%Z ex_packets /\
  exists os, channel_run quarter 3 1 2 (Doubly (map (link_new 3) ex_taps)) ex_packets = Ok os /\
    map (fun c => (this (fst c), this (snd c))) (heard_at true 0 os) <> map (fun c => (this (fst c), this (snd c))) (sent_to true 0 0 ex_packets) /\
    length (heard_at true 0 os) = 6%nat.
Proof.
  split; [exact quarter_periodic|]. split.
  { repeat (constructor; [|try constructor]); cbn; try lia; try discriminate; repeat constructor; cbn; discriminate. }
  split; [cbn; repeat split; repeat constructor|]. eexists. split; [reflexivity|]. split; [|reflexivity]. vm_compute. discriminate.
Qed.
Example C72_profile_nonvacuous : exists l, set_pdp 5 [(0%nat, qz 3); (2%nat, qz 1); (2%nat, qz 2)] = Ok l /\ map fst l = [0; 2]%nat.
Proof. eexists. split; reflexivity. Qed.

Print Assumptions C72_link.
Print Assumptions C72_link_reciprocal.
Print Assumptions C72_doubly.
Print Assumptions C72_flat.
Print Assumptions C72_awgn.
Print Assumptions C72_profile.
Print Assumptions C72_reciprocity_refuted.
Print Assumptions C72_reciprocal_single.
Print Assumptions C72_leakage_refuted.
