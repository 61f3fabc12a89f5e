From Verif Require Import Base Beamforming BeamformingSpec.
From Coq Require Import ZArith Lia.
Open Scope nat_scope.

Section Mapper.
  Variables (C : Type) (z : C) (add : C -> C -> C) (mulw : weight -> C -> C).
  Variables (n_ts n_tx occ off dft : nat) (wmat : list weight).
  Hypotheses (Hw : length wmat = n_ts * n_tx) (Ho : occ / 2 + 1 <= off) (Ho' : off + occ / 2 <= dft) (He : occ mod 2 = 0).

  Lemma rd_nth {B} (l : list B) i d : i < length l -> rd l i = Ok (nth i l d).
  Proof using. intros H. unfold rd. rewrite (nth_error_nth' l d H). reflexivity. Qed.

  Lemma add_vec_ok : forall n dst d src s, d + n <= length dst -> s + n <= length src ->
    exists r, add_vec C add dst d src s n = Ok r /\ length r = length dst /\
      forall p, nth p r z = if (d <=? p) && (p <? d + n) then add (nth p dst z) (nth (s + (p - d)) src z) else nth p dst z.
  Proof using.
    clear Hw Ho Ho' He wmat mulw n_ts n_tx occ off dft. induction n as [|n IH]; intros dst d src s L1 L2; cbn [add_vec].
    - exists dst. split; [reflexivity|]. split; [reflexivity|]. intros p. replace ((d <=? p) && (p <? d + 0)) with false by (symmetry; apply andb_false_iff; rewrite Nat.leb_gt, Nat.ltb_ge; lia). reflexivity.
    - rewrite (rd_nth dst d z), (rd_nth src s z) by lia. cbn [bind].
      destruct (IH (upd dst d (add (nth d dst z) (nth s src z))) (S d) src (S s)) as (r & R & L & N); [rewrite upd_length; lia|lia|].
      exists r. split; [exact R|]. split; [rewrite L; apply upd_length|]. intros p. rewrite N. destruct (Nat.eq_dec p d) as [->|NE].
      + replace (S d <=? d) with false by (symmetry; apply Nat.leb_gt; lia). cbn [andb]. rewrite nth_upd_same by lia.
        rewrite Nat.leb_refl. replace (d <? d + S n) with true by (symmetry; apply Nat.ltb_lt; lia). cbn [andb]. rewrite Nat.sub_diag, Nat.add_0_r. reflexivity.
      + rewrite nth_upd_other by congruence. destruct (Nat.leb_spec (S d) p) as [A|A]; cbn [andb].
        * replace (d <=? p) with true by (symmetry; apply Nat.leb_le; lia). cbn [andb]. replace (d + S n) with (S d + n) by lia.
          destruct (p <? S d + n); [|reflexivity]. do 2 f_equal. lia.
        * replace (d <=? p) with false by (symmetry; apply Nat.leb_gt; lia). reflexivity.
  Qed.

  (** The position in a stream that bin [p] takes. *)
  Definition src_pos (p : nat) : option nat :=
    if p <=? occ / 2 then Some (occ / 2 + p) else if (off <=? p) && (p <? off + occ / 2) then Some (p - off) else None.
  Definition plus_at (src : list C) (p : nat) (x : C) : C := match src_pos p with Some s => add x (nth s src z) | None => x end.
  Lemma half : occ / 2 + occ / 2 = occ.
  Proof using He. clear - He. lia. Qed.

  Lemma add_ant_ok ants a src : a < length ants -> length (nth a ants []) = dft -> length src = occ + 1 ->
    exists x, add_ant C add occ off ants a src = Ok (upd ants a x) /\ length x = dft /\ forall p, nth p x z = plus_at src p (nth p (nth a ants []) z).
  Proof using Ho Ho' He.
    clear Hw wmat n_tx n_ts mulw. intros La Ld Ls. pose proof half as Hh. unfold add_ant. rewrite (rd_nth ants a []) by exact La. cbn [bind].
    destruct (add_vec_ok (occ / 2 + 1) (nth a ants []) 0 src (occ / 2)) as (x1 & R1 & L1 & N1); [lia|lia|]. rewrite R1. cbn [bind].
    destruct (add_vec_ok (occ / 2) x1 off src 0) as (x2 & R2 & L2 & N2); [lia|lia|]. rewrite R2. cbn [bind]. exists x2. split; [reflexivity|].
    split; [lia|]. intros p. rewrite N2, N1. unfold plus_at, src_pos. cbn [Nat.leb andb Nat.add]. rewrite Nat.sub_0_r.
    generalize dependent (occ / 2). intros h. intros.
    destruct (Nat.leb_spec p h) as [A|A].
    - replace (off <=? p) with false by (symmetry; apply Nat.leb_gt; lia). cbn [andb]. replace (p <? h + 1) with true by (symmetry; apply Nat.ltb_lt; lia). reflexivity.
    - replace (p <? h + 1) with false by (symmetry; apply Nat.ltb_ge; lia). destruct ((off <=? p) && (p <? off + h)); reflexivity.
  Qed.

  Lemma inner_skip : forall n jj jc widx w src ants mask, N.testbit mask (N.of_nat jj) = true ->
    inner C add n_ts occ off wmat n jj jc widx w src ants mask = Ok (ants, mask).
  Proof using. induction n as [|n IH]; intros; cbn [inner]; [reflexivity|]. rewrite H. apply IH. exact H. Qed.

  Lemma weqb_refl w : weqb w w = true.
  Proof using. unfold weqb. rewrite !Z.eqb_refl. reflexivity. Qed.
  Lemma ones_next n : N.setbit (N.ones (N.of_nat n)) (N.of_nat n) = N.ones (N.of_nat (S n)).
  Proof using.
    clear. apply N.bits_inj. intros m. rewrite N.setbit_eqb. destruct (N.eqb_spec (N.of_nat n) m) as [<-|E]; cbn [orb].
    - symmetry. apply N.ones_spec_low. lia.
    - destruct (N.lt_ge_cases m (N.of_nat n)); [rewrite !N.ones_spec_low by lia; reflexivity|rewrite !N.ones_spec_high by lia; reflexivity].
  Qed.

  Notation ent := (entry wmat n_ts).
  Definition src_of (w : weight) (ts : list C) : list C := if weqb w (1, 0)%Z then ts else map (mulw w) ts.
  Definition step_at (w : weight) (ts : list C) (p : nat) (x : C) : C := if weqb w (0, 0)%Z then x else plus_at (src_of w ts) p x.
  (** The products of stream [i] from antenna [a] on. *)
  Definition products (i : nat) (l : list nat) : list (weight * nat) :=
    map (fun a => (ent a i, i)) (filter (fun a => negb (weqb (ent a i) (0, 0)%Z) && negb (weqb (ent a i) (1, 0)%Z)) l).

  Lemma outer_ok : forall n i jj ts ants ps, jj + n = n_tx -> i < n_ts -> length ts = occ + 1 -> length ants = n_tx -> (forall a, a < n_tx -> length (nth a ants []) = dft) ->
    exists ants', outer C add mulw n_ts occ off wmat n i jj (jj * n_ts + i) ts ants (N.ones (N.of_nat jj)) ps = Ok (ants', N.ones (N.of_nat n_tx), ps ++ products i (seq jj n)) /\
      length ants' = n_tx /\ (forall a, a < n_tx -> length (nth a ants' []) = dft) /\
      forall a p, a < n_tx -> nth p (nth a ants' []) z = if a <? jj then nth p (nth a ants []) z else step_at (ent a i) ts p (nth p (nth a ants []) z).
  Proof using Hw Ho Ho' He.
    induction n as [|n IH]; intros i jj ts ants ps J I Lt La Ld; cbn [outer].
    - rewrite Nat.add_0_r in J. subst jj. exists ants. cbn [seq products map filter]. unfold products. cbn [filter map]. rewrite app_nil_r. split; [reflexivity|]. split; [exact La|]. split; [exact Ld|].
      intros a p A. replace (a <? n_tx) with true by (symmetry; apply Nat.ltb_lt; lia). reflexivity.
    - rewrite N.ones_spec_high by lia.
      assert (W : jj * n_ts + i < length wmat).
      { rewrite Hw. assert (jj <= n_tx - 1) by lia. assert (jj * n_ts <= (n_tx - 1) * n_ts) by (apply Nat.mul_le_mono_r; lia).
        replace (n_ts * n_tx) with ((n_tx - 1) * n_ts + n_ts) by (replace n_tx with (S (n_tx - 1)) at 2 by lia; ring). lia. }
      rewrite (rd_nth wmat _ (0, 0)%Z W). cbn [bind]. change (nth (jj * n_ts + i) wmat (0, 0)%Z) with (ent jj i).
      replace (jj * n_ts + i + n_ts) with (S jj * n_ts + i) by (cbn; lia).
      cbn [seq]. unfold products. cbn [filter]. fold (products i). unfold step_at.
      destruct (weqb (ent jj i) (0, 0)%Z) eqn:E0; cbn [negb andb].
      + rewrite ones_next. destruct (IH i (S jj) ts ants ps) as (ants' & R & L1 & L2 & V); [lia|exact I|exact Lt|exact La|exact Ld|].
        exists ants'. split; [exact R|]. split; [exact L1|]. split; [exact L2|]. intros a p A. rewrite (V a p A). unfold step_at.
        destruct (Nat.ltb_spec a (S jj)), (Nat.ltb_spec a jj); try lia; try reflexivity. assert (a = jj) as -> by lia. rewrite E0. reflexivity.
      + cbn [inner]. rewrite N.ones_spec_high by lia. rewrite (rd_nth wmat _ (0, 0)%Z W). cbn [bind]. change (nth (jj * n_ts + i) wmat (0, 0)%Z) with (ent jj i). rewrite weqb_refl.
        change (if weqb (ent jj i) (1, 0)%Z then ts else map (mulw (ent jj i)) ts) with (src_of (ent jj i) ts).
        assert (Ls : length (src_of (ent jj i) ts) = occ + 1) by (unfold src_of; destruct (weqb (ent jj i) (1, 0)%Z); rewrite ?map_length; exact Lt).
        destruct (add_ant_ok ants jj (src_of (ent jj i) ts)) as (x & R & Lx & Vx); [lia|apply Ld; lia|exact Ls|]. rewrite R. cbn [bind].
        rewrite inner_skip by (rewrite N.setbit_eq; reflexivity). cbn [bind fst snd]. rewrite ones_next.
        destruct (IH i (S jj) ts (upd ants jj x) (if weqb (ent jj i) (1, 0)%Z then ps else ps ++ [(ent jj i, i)])) as (ants' & R' & L1 & L2 & V);
          [lia|exact I|exact Lt|rewrite upd_length; exact La| |].
        { intros a A. destruct (Nat.eq_dec a jj) as [->|NE]; [rewrite nth_upd_same by lia; exact Lx|rewrite nth_upd_other by congruence; apply Ld; exact A]. }
        exists ants'. split. { rewrite R'. do 2 f_equal. destruct (weqb (ent jj i) (1, 0)%Z); cbn [negb map]; [reflexivity|]. rewrite <- app_assoc. reflexivity. }
        split; [exact L1|]. split; [exact L2|]. intros a p A. rewrite (V a p A). destruct (Nat.eq_dec a jj) as [->|NE].
        * replace (jj <? S jj) with true by (symmetry; apply Nat.ltb_lt; lia). rewrite Nat.ltb_irrefl, E0. rewrite nth_upd_same by lia. apply Vx.
        * rewrite nth_upd_other by congruence. destruct (Nat.ltb_spec a (S jj)), (Nat.ltb_spec a jj); try lia; reflexivity.
  Qed.

  Lemma ones_shift n : N.ones n = (N.shiftl 1 n - 1)%N.
  Proof using. rewrite N.ones_equiv, N.shiftl_1_l, N.sub_1_r. reflexivity. Qed.

  Lemma streams_ok tss : forall n i ants ps, i + n <= n_ts -> i + n <= length tss -> (forall k, k < i + n -> length (nth k tss []) = occ + 1) -> length ants = n_tx -> (forall a, a < n_tx -> length (nth a ants []) = dft) ->
    exists ants', streams C add mulw n_ts n_tx occ off wmat n i tss ants ps = Ok (ants', ps ++ flat_map (fun i => products i (seq 0 n_tx)) (seq i n)) /\
      length ants' = n_tx /\ (forall a, a < n_tx -> length (nth a ants' []) = dft) /\
      forall a p, a < n_tx -> nth p (nth a ants' []) z = fold_left (fun x i => step_at (ent a i) (nth i tss []) p x) (seq i n) (nth p (nth a ants []) z).
  Proof using Hw Ho Ho' He.
    induction n as [|n IH]; intros i ants ps I1 I2 Lt La Ld; cbn [streams].
    - exists ants. cbn [seq flat_map fold_left]. rewrite app_nil_r. split; [reflexivity|]. split; [exact La|]. split; [exact Ld|]. reflexivity.
    - rewrite (rd_nth tss i []) by lia. cbn [bind].
      destruct (outer_ok n_tx i 0 (nth i tss []) ants ps) as (a1 & R1 & L1 & D1 & V1); [lia|lia|apply Lt; lia|exact La|exact Ld|].
      cbn [Nat.mul Nat.add] in R1. change (N.ones (N.of_nat 0)) with 0%N in R1. rewrite R1. cbn [bind fst snd]. rewrite ones_shift, N.eqb_refl. cbn [guard].
      destruct (IH (S i) a1 (ps ++ products i (seq 0 n_tx))) as (a2 & R2 & L2 & D2 & V2); [lia|lia|intros; apply Lt; lia|exact L1|exact D1|].
      exists a2. split. { rewrite R2. cbn [seq flat_map]. rewrite <- app_assoc. reflexivity. }
      split; [exact L2|]. split; [exact D2|]. intros a p A. rewrite (V2 a p A), (V1 a p A). cbn [seq fold_left Nat.ltb Nat.leb]. reflexivity.
  Qed.
End Mapper.

(** * Power *)
Section Power.
  Definition power (l : list nat) (u : nat -> weight) : Z := sumZ (map (fun a => norm2 (u a)) l).
  Definition ip (l : list nat) (u v : nat -> weight) : weight := sumC (map (fun a => cmul (conj_ (u a)) (v a)) l).
  Lemma pair_eq (a b : weight) : fst a = fst b -> snd a = snd b -> a = b.
  Proof. destruct a, b. cbn. intros -> ->. reflexivity. Qed.
  Ltac cring := unfold cadd, cmul, conj_, norm2; cbn [fst snd]; ring.
  Lemma power_add l u v : power l (fun a => cadd (u a) (v a)) = (power l u + power l v + 2 * fst (ip l u v))%Z.
  Proof.
    unfold power, ip. induction l as [|a l IH]; [reflexivity|]. cbn [map]. cbn [sumZ sumC fold_right]. fold sumZ sumC. unfold sumZ, sumC in *. cbn [fold_right] in *. rewrite IH. cring.
  Qed.
  Lemma power_scale l u x : power l (fun a => cmul (u a) x) = (norm2 x * power l u)%Z.
  Proof. unfold power. induction l as [|a l IH]; [cbn; ring|]. cbn [map]. unfold sumZ in *. cbn [fold_right] in *. rewrite IH. cring. Qed.
  Lemma ip_add l u v w : ip l u (fun a => cadd (v a) (w a)) = cadd (ip l u v) (ip l u w).
  Proof. unfold ip. induction l as [|a l IH]; [reflexivity|]. cbn [map]. unfold sumC in *. cbn [fold_right] in *. rewrite IH. apply pair_eq; cring. Qed.
  Lemma ip_scale l u v x y : ip l (fun a => cmul (u a) x) (fun a => cmul (v a) y) = cmul (cmul (conj_ x) y) (ip l u v).
  Proof. unfold ip. induction l as [|a l IH]; [apply pair_eq; cbn; ring|]. cbn [map]. unfold sumC in *. cbn [fold_right] in *. rewrite IH. apply pair_eq; cring. Qed.
  Lemma ip_zero l u : ip l u (fun _ => (0, 0)%Z) = (0, 0)%Z.
  Proof. unfold ip. induction l as [|a l IH]; [reflexivity|]. cbn [map]. unfold sumC in *. cbn [fold_right] in *. rewrite IH. apply pair_eq; cring. Qed.
  Lemma power_zero l : power l (fun _ => (0, 0)%Z) = 0%Z.
  Proof. unfold power. induction l as [|a l IH]; [reflexivity|]. cbn [map]. unfold sumZ in *. cbn [fold_right] in *. rewrite IH. reflexivity. Qed.

  Variables (l : list nat) (col : nat -> nat -> weight) (x : nat -> weight) (c : Z).
  Definition out (is : list nat) (a : nat) : weight := sumC (map (fun i => cmul (col i a) (x i)) is).
  Lemma out_orth i : forall is, (forall i', In i' is -> ip l (col i) (col i') = (0, 0)%Z) -> ip l (fun a => cmul (col i a) (x i)) (out is) = (0, 0)%Z.
  Proof using.
    induction is as [|i' is IH]; intros O; [apply ip_zero|]. change (out (i' :: is)) with (fun a => cadd (cmul (col i' a) (x i')) (out is a)).
    rewrite ip_add, ip_scale, O by (left; reflexivity). rewrite IH by (intros; apply O; right; assumption). apply pair_eq; cring.
  Qed.
  Lemma out_power : forall is, NoDup is -> (forall i i', In i is -> In i' is -> i <> i' -> ip l (col i) (col i') = (0, 0)%Z) -> (forall i, In i is -> power l (col i) = c) ->
    power l (out is) = (c * sumZ (map (fun i => norm2 (x i)) is))%Z.
  Proof using.
    induction is as [|i is IH]; intros N O P; [cbn [map]; change (out []) with (fun _ : nat => (0, 0)%Z); rewrite power_zero; cbn; ring|].
    inversion N as [|? ? N1 N2]; subst. change (out (i :: is)) with (fun a => cadd (cmul (col i a) (x i)) (out is a)).
    rewrite power_add, power_scale, out_orth by (intros i' I'; apply O; [left; reflexivity|right; assumption|congruence]).
    rewrite IH; [|exact N2|intros i1 i2 I1 I2 NE; apply O; [right; exact I1|right; exact I2|exact NE]|intros i1 I1; apply P; right; exact I1]. rewrite P by (left; reflexivity).
    cbn [map fst]. unfold sumZ. cbn [fold_right]. ring.
  Qed.
End Power.
