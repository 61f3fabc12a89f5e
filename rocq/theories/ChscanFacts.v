(** Facts about Chscan. *)
From Verif Require Import Base RxRing RxRingSpec RxRingFacts Chscan ChscanSpec.
From Coq Require Import QArith Qcanon.
Open Scope Z_scope.

Lemma qsum_app l l' : qsum (l ++ l') = (qsum l + qsum l')%Qc.
Proof. induction l as [|x l IH]; cbn [qsum app]; [ring|]. rewrite IH. ring. Qed.

(** A stretch of memory that holds known values. *)
Lemma stretch {X} (m : list X) (f : nat -> X) k : forall i, (forall j, (j < k)%nat -> nth_error m (i + j) = Some (f j)) ->
  firstn k (skipn i m) = map f (seq 0 k).
Proof.
  revert f. induction k as [|k IH]; intros f i H; [reflexivity|].
  pose proof (H 0%nat ltac:(lia)) as H0. rewrite Nat.add_0_r in H0.
  assert (E : skipn i m = f 0%nat :: skipn (S i) m).
  { clear - H0. revert m H0. induction i as [|i IH]; intros [|x m] H0; try discriminate.
    - cbn in H0. injection H0 as <-. reflexivity.
    - cbn [nth_error] in H0. rewrite !skipn_cons. apply IH, H0. }
  rewrite E. cbn [firstn seq map]. f_equal.
  rewrite (IH (fun j => f (S j))).
  - rewrite <- seq_shift, map_map. reflexivity.
  - intros j Hj. rewrite <- (H (S j)) by lia. f_equal. lia.
Qed.

Lemma nth_error_len {X} (m : list X) i x : nth_error m i = Some x -> (i < length m)%nat.
Proof. intros E. apply nth_error_Some. congruence. Qed.

Lemma antennas_ok (f : list C -> Qc -> res Qc) (g : nat -> Qc) streams : forall ids e,
  (forall a, In a ids -> exists m, rd streams a = Ok m /\ forall e, f m e = Ok (e + g a)%Qc) ->
  antennas f streams ids e = Ok (e + qsum (map g ids))%Qc.
Proof.
  induction ids as [|a ids IH]; intros e H; cbn [antennas map qsum].
  - f_equal. ring.
  - destruct (H a (or_introl eq_refl)) as (m & Em & Ef). rewrite Em. cbn [bind]. rewrite Ef. cbn [bind].
    rewrite IH by (intros b Hb; apply H; right; exact Hb). f_equal. ring.
Qed.

Section Partial.
  Variables (root : Qc -> Qc) (streams : list (list C)) (L : Z) (s : nat -> Z -> C) (nant : nat).
  Hypothesis HL : 0 < L < 4294967296.
  Hypothesis Hn : (nant <= length streams)%nat.

  Definition holds (lo hi : Z) : Prop := forall a t, (a < nant)%nat -> lo <= t < hi ->
    exists m, nth_error streams a = Some m /\ nth_error m (Z.to_nat (t mod L)) = Some (s a t).

  Lemma dot_piece a m t i k : nth_error streams a = Some m -> 0 <= i -> 0 < k ->
    (forall j, 0 <= j < k -> nth_error m (Z.to_nat (i + j)) = Some (s a (t + j))) ->
    dot m i k = Ok (qsum (map (fun j => power (s a (t + Z.of_nat j))) (seq 0 (Z.to_nat k)))).
  Proof.
    intros Em Hi Hk H. unfold dot.
    assert (Hlast := H (k - 1) ltac:(lia)). apply nth_error_len in Hlast.
    destruct (Z.leb_spec (i + k) (Z.of_nat (length m))); [|lia].
    f_equal. rewrite (stretch m (fun j => s a (t + Z.of_nat j))).
    - rewrite map_map. reflexivity.
    - intros j Hj. rewrite <- H by lia. f_equal. lia.
  Qed.

  Lemma partial_ok start len : 0 <= start -> 2 <= len <= L -> holds start (start + len) ->
    scan_partial root streams L nant start len =
    Ok (root (qsum (map (fun a => qsum (map (fun i => power (s a (start + Z.of_nat i))) (seq 0 (Z.to_nat len)))) (seq 0 nant))
              / (qz len * qz (Z.of_nat nant)))%Qc).
  Proof.
    intros Hs Hlen H. unfold scan_partial.
    rewrite !Z.rem_mod_nonneg by lia.
    assert (HA := Z.mod_pos_bound start L ltac:(lia)). assert (HB := Z.mod_pos_bound (start + len - 1) L ltac:(lia)).
    unfold u32. rewrite (Z.mod_small (start mod L)), (Z.mod_small ((start + len - 1) mod L)) by lia.
    set (A := start mod L) in *. set (B := (start + len - 1) mod L) in *.
    assert (Wrap : A + len <= L /\ B = A + len - 1 \/ L < A + len /\ B = A + len - 1 - L).
    { unfold A, B. pose proof (Z.div_mod start L ltac:(lia)) as D.
      destruct (Z_le_gt_dec (start mod L + len) L); [left|right]; (split; [lia|]).
      - symmetry. apply (Zmod_unique _ _ (start / L)); lia.
      - symmetry. apply (Zmod_unique _ _ (start / L + 1)); nia. }
    assert (Pos : forall j, 0 <= j < len -> (start + j) mod L = if A + j <? L then A + j else A + j - L).
    { intros j Hj. unfold A. pose proof (Z.div_mod start L ltac:(lia)) as D.
      destruct (Z.ltb_spec (start mod L + j) L).
      - symmetry. apply (Zmod_unique _ _ (start / L)); lia.
      - symmetry. apply (Zmod_unique _ _ (start / L + 1)); nia. }
    assert (Any : forall a, (a < nant)%nat -> exists m, rd streams a = Ok m /\ nth_error streams a = Some m).
    { intros a Ha. destruct (H a start Ha ltac:(lia)) as (m & Em & _). exists m. split; [|exact Em]. unfold rd. rewrite Em. reflexivity. }
    assert (At : forall a m j, (a < nant)%nat -> nth_error streams a = Some m -> 0 <= j < len ->
      nth_error m (Z.to_nat ((start + j) mod L)) = Some (s a (start + j))).
    { intros a m j Ha Em Hj. destruct (H a (start + j) Ha ltac:(lia)) as (m' & Em' & E). congruence. }
    destruct Wrap as [(W & EB)|(W & EB)].
    - destruct (Z.ltb_spec A B); [|lia]. rewrite Z.mod_small by lia.
      rewrite (antennas_ok _ (fun a => qsum (map (fun i => power (s a (start + Z.of_nat i))) (seq 0 (Z.to_nat len))))).
      + cbn [bind]. f_equal. f_equal. f_equal. ring.
      + intros a Ha. apply in_seq in Ha. destruct (Any a ltac:(lia)) as (m & Er & Em). exists m. split; [exact Er|]. intros e.
        rewrite (dot_piece a m start A (B - A + 1)); [|exact Em|lia|lia|].
        * cbn [bind]. replace (B - A + 1) with len by lia. reflexivity.
        * intros j Hj. rewrite <- (At a m j) by (try exact Em; lia). rewrite Pos by lia.
          destruct (Z.ltb_spec (A + j) L); [reflexivity|lia].
    - destruct (Z.ltb_spec A B); [lia|]. rewrite !Z.mod_small by lia.
      rewrite (antennas_ok _ (fun a => qsum (map (fun i => power (s a (start + Z.of_nat i))) (seq 0 (Z.to_nat len))))).
      + cbn [bind]. f_equal. f_equal. f_equal. ring.
      + intros a Ha. apply in_seq in Ha. destruct (Any a ltac:(lia)) as (m & Er & Em). exists m. split; [exact Er|]. intros e.
        rewrite (dot_piece a m start A (L - A)); [|exact Em|lia|lia|].
        * cbn [bind]. rewrite (dot_piece a m (start + (L - A)) 0 (B + 1)); [|exact Em|lia|lia|].
          -- cbn [bind]. f_equal.
             replace (Z.to_nat len) with (Z.to_nat (L - A) + Z.to_nat (B + 1))%nat by lia.
             rewrite seq_app, map_app, qsum_app. cbn [Nat.add].
             replace (map (fun i => power (s a (start + Z.of_nat i))) (seq (Z.to_nat (L - A)) (Z.to_nat (B + 1))))
               with (map (fun j => power (s a (start + (L - A) + Z.of_nat j))) (seq 0 (Z.to_nat (B + 1)))).
             { ring. }
             assert (K : forall n b, map (fun j => power (s a (start + (L - A) + Z.of_nat j))) (seq b n) =
                                     map (fun i => power (s a (start + Z.of_nat i))) (seq (Z.to_nat (L - A) + b) n)).
             { induction n as [|n IH]; intros b; [reflexivity|]. cbn [seq map]. f_equal.
               - do 2 f_equal. clear - HA. lia.
               - rewrite IH. do 2 f_equal. clear. lia. }
             rewrite K, Nat.add_0_r. reflexivity.
          -- intros j Hj. replace (start + (L - A) + j) with (start + (L - A + j)) by ring.
             rewrite <- (At a m (L - A + j)) by (try exact Em; lia). rewrite Pos by lia.
             destruct (Z.ltb_spec (A + (L - A + j)) L); [lia|]. f_equal. lia.
        * intros j Hj. rewrite <- (At a m j) by (try exact Em; lia). rewrite Pos by lia.
          destruct (Z.ltb_spec (A + j) L); [reflexivity|lia].
  Qed.

  Lemma parts_ok len : 2 <= len <= L -> forall k start avg, 0 <= start -> holds start (start + Z.of_nat k * len) ->
    let v := fun i => root (qsum (map (fun a => qsum (map (fun j => power (s a (start + Z.of_nat i * len + Z.of_nat j))) (seq 0 (Z.to_nat len)))) (seq 0 nant))
                            / (qz len * qz (Z.of_nat nant)))%Qc in
    parts root streams L nant k start len avg = Ok (map v (seq 0 k), (avg + qsum (map v (seq 0 k)))%Qc).
  Proof.
    intros Hlen. induction k as [|k IH]; intros start avg Hs H; cbn [parts].
    - cbn [seq map qsum]. do 2 f_equal. ring.
    - rewrite partial_ok; [|exact Hs|exact Hlen|].
      2:{ intros a t Ha Ht. apply H; [exact Ha|nia]. }
      cbn [bind]. rewrite IH; [|nia|].
      2:{ intros a t Ha Ht. apply H; [exact Ha|nia]. }
      cbn [bind]. cbn [seq map]. rewrite <- seq_shift, map_map.
      assert (E : forall i, (start + len + Z.of_nat i * len) = start + Z.of_nat (S i) * len) by (intros i; nia).
      assert (E0 : start = start + Z.of_nat 0 * len) by lia.
      match goal with |- Ok (_ :: map ?f _, _) = Ok (_ :: map ?g _, _) => assert (F : map f (seq 0 k) = map g (seq 0 k)) end.
      { apply map_ext. intros i. rewrite E. reflexivity. }
      rewrite F. rewrite <- E0. cbn [qsum]. do 2 f_equal. ring.
  Qed.
End Partial.

(** The whole measurement on streams that hold the numbered samples of the requested range. *)
Lemma scan_ok root (streams : list (list C)) c from (good : list (block C)) now now' r :
  let L := Z.of_nat (cL c) in
  0 < L < 4294967296 -> length streams = cant c -> (0 < cant c)%nat -> 0 <= from -> sensible L r ->
  q_end r <= now -> now' - L <= piece_start r 0 -> from <= piece_start r 0 ->
  (forall a t, (a < cant c)%nat -> piece_start r 0 <= t <= q_end r ->
     exists m s, nth_error streams a = Some m /\ nth_error m (Z.to_nat (t mod L)) = Some s /\ sample_at from good a t = Some s) ->
  let v := map (fun i => root (mean_power from good (Nat.min (q_ants r) (cant c)) (piece_start r i) (Z.to_nat (q_len r)))) (seq 0 (q_parts r)) in
  scan root streams L now now' r = Ok (v, qsum v).
Proof.
  intros L HL Hlen Hant Hf (Hp & Ha & Hl & Hfit) Hnow Hnow' Hfrom H v. unfold scan.
  assert (Pl : Z.of_nat (q_parts r) * q_len r >= q_len r) by nia.
  assert (E0 : piece_start r 0 = q_end r - (Z.of_nat (q_parts r) * q_len r - 1)) by (unfold piece_start; rewrite Nat.sub_0_r; lia).
  destruct (Z.leb_spec (q_end r) now); [|lia]. destruct (Nat.ltb_spec 0 (q_parts r)); [|lia]. destruct (Nat.ltb_spec 0 (q_ants r)); [|lia].
  cbn [guard]. destruct (Z.ltb_spec 0 (q_len r)); [|lia]. cbn [guard]. rewrite <- E0.
  destruct (Z.leb_spec (piece_start r 0) (q_end r)); [|lia]. cbn [guard].
  destruct (Z.ltb_spec (q_end r - piece_start r 0) L); [|lia]. cbn [guard].
  destruct (Z.leb_spec (now' - L) (piece_start r 0)); [|lia]. cbn [guard]. rewrite Hlen.
  set (nant := Nat.min (q_ants r) (cant c)).
  set (s := fun a t => match sample_at from good a t with Some x => x | None => (0%Qc, 0%Qc) end).
  assert (Hold : holds streams L s nant (piece_start r 0) (piece_start r 0 + Z.of_nat (q_parts r) * q_len r)).
  { intros a t Hat Ht. destruct (H a t ltac:(unfold nant in Hat; lia) ltac:(lia)) as (m & x & Em & Ex & Es).
    exists m. split; [exact Em|]. unfold s. rewrite Es. exact Ex. }
  rewrite (parts_ok root streams L s nant HL ltac:(unfold nant; lia) (q_len r) ltac:(nia) (q_parts r) (piece_start r 0) 0%Qc ltac:(lia) Hold).
  match goal with |- Ok (?x, (0 + qsum ?x)%Qc) = _ => assert (X : x = v) end.
  2:{ rewrite X. do 2 f_equal. ring. }
  unfold v. apply map_ext_in. intros i Hi. apply in_seq in Hi. f_equal. unfold mean_power, energy. f_equal.
  - f_equal. apply map_ext_in. intros a Ha'. apply in_seq in Ha'. f_equal. apply map_ext_in. intros j Hj. apply in_seq in Hj.
    assert (Et : piece_start r i + Z.of_nat j = piece_start r 0 + Z.of_nat i * q_len r + Z.of_nat j).
    { unfold piece_start. rewrite Nat.sub_0_r. nia. }
    rewrite Et. unfold power_at, s.
    destruct (H a (piece_start r 0 + Z.of_nat i * q_len r + Z.of_nat j)) as (m & x & _ & _ & Es); [unfold nant in Ha'; lia| |].
    + rewrite E0. nia.
    + rewrite Es. reflexivity.
  - rewrite Z2Nat.id by lia. reflexivity.
Qed.
