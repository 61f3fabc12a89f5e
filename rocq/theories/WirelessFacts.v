(** Facts about Wireless. *)
From Verif Require Import Base Wireless WirelessSpec.
From Coq Require Import QArith Qcanon Sorted.
Open Scope Qc_scope.

Ltac cring := unfold cadd, cmul, cscale, c0; repeat match goal with x : C |- _ => destruct x end; cbn [fst snd]; f_equal; ring.
Lemma cadd_comm a b : cadd a b = cadd b a. Proof. cring. Qed.
Lemma cadd_assoc a b c : cadd a (cadd b c) = cadd (cadd a b) c. Proof. cring. Qed.
Lemma cadd_0_l a : cadd c0 a = a. Proof. cring. Qed.
Lemma cadd_0_r a : cadd a c0 = a. Proof. cring. Qed.
Lemma cmul_add a b c : cmul a (cadd b c) = cadd (cmul a b) (cmul a c). Proof. cring. Qed.
Lemma cmul_0_l a : cmul c0 a = c0. Proof. cring. Qed.
Lemma cmul_0_r a : cmul a c0 = c0. Proof. cring. Qed.
Lemma cscale_0 s : cscale s c0 = c0. Proof. cring. Qed.
Lemma csum_app l l' : csum (l ++ l') = cadd (csum l) (csum l').
Proof. induction l as [|x l IH]; cbn [csum fold_right app]; [now rewrite cadd_0_l|]. fold (csum (l ++ l')) (csum l). rewrite IH, cadd_assoc. reflexivity. Qed.

Lemma vadd_length a b : length (vadd a b) = Nat.min (length a) (length b).
Proof. unfold vadd. rewrite map_length, combine_length. reflexivity. Qed.
Lemma vadd_nth a : forall b k, length a = length b -> nth k (vadd a b) c0 = cadd (nth k a c0) (nth k b c0).
Proof.
  induction a as [|x a IH]; intros [|y b] k E; try discriminate; destruct k; cbn; try (symmetry; apply cadd_0_l); [reflexivity|].
  apply IH. injection E. auto.
Qed.
Lemma map_nth0 (f : C -> C) l k : f c0 = c0 -> nth k (map f l) c0 = f (nth k l c0).
Proof. intros E. rewrite <- E at 1. apply map_nth. Qed.
Lemma list_ext (a b : list C) : length a = length b -> (forall k, (k < length a)%nat -> nth k a c0 = nth k b c0) -> a = b.
Proof. intros L H. apply (nth_ext a b c0 c0 L H). Qed.

Lemma qz_add a b : qz (a + b) = qz a + qz b.
Proof. apply Qc_is_canon. change (Qred (inject_Z (a + b)) == Qred (Qred (inject_Z a) + Qred (inject_Z b)))%Q. rewrite !Qred_correct, inject_Z_plus. reflexivity. Qed.
Lemma qz_mul a b : qz (a * b) = qz a * qz b.
Proof. apply Qc_is_canon. change (Qred (inject_Z (a * b)) == Qred (Qred (inject_Z a) * Qred (inject_Z b)))%Q. rewrite !Qred_correct, inject_Z_mult. reflexivity. Qed.
Lemma qz_0 : qz 0 = 0. Proof. apply Qc_is_canon. reflexivity. Qed.
Lemma qz_1 : qz 1 = 1. Proof. apply Qc_is_canon. reflexivity. Qed.
Lemma qz_nz p : p <> 0%Z -> qz p <> 0.
Proof.
  intros H E. apply H. assert (X : (inject_Z p == 0)%Q).
  { assert (Y := f_equal this E). unfold qz in Y. cbn [this Q2Qc] in Y. rewrite <- (Qred_correct (inject_Z p)), Y. reflexivity. }
  unfold Qeq in X. cbn in X. lia.
Qed.

Section Facts.
  Variable cis : Qc -> C.
  Hypothesis Per : periodic cis.

  Lemma rotate_length s2s : forall inp ph, length (rotate cis s2s ph inp) = length inp.
  Proof. induction inp as [|x inp IH]; intros ph; cbn [rotate length]; [reflexivity|]. now rewrite IH. Qed.
  Lemma rotate_nth s2s : forall inp ph k, nth k (rotate cis s2s ph inp) c0 = cmul (nth k inp c0) (cis (ph + qz (Z.of_nat k) * s2s)).
  Proof.
    induction inp as [|x inp IH]; intros ph k; destruct k; cbn [rotate nth]; try (symmetry; apply cmul_0_l).
    - f_equal. f_equal. cbn [Z.of_nat]. rewrite qz_0. ring.
    - rewrite IH. do 2 f_equal. rewrite Nat2Z.inj_succ, <- Z.add_1_r, qz_add, qz_1. ring.
  Qed.

  Lemma phase_ok period initial time k : period <> 0%Z ->
    cis (1 / qz period * qz (Z.rem time (Z.abs period)) + initial + qz k * (1 / qz period)) = cis (qz (time + k) / qz period + initial).
  Proof.
    intros Np. pose proof (qz_nz period Np) as Nq.
    assert (E : time = (Z.sgn period * Z.quot time (Z.abs period) * period + Z.rem time (Z.abs period))%Z).
    { rewrite (Z.quot_rem' time (Z.abs period)) at 1. f_equal.
      rewrite <- (Z.sgn_abs period) at 1. destruct (Z.sgn_spec period) as [(S & ->)|[(S & ->)|(S & ->)]]; lia. }
    set (q := (Z.sgn period * Z.quot time (Z.abs period))%Z) in *. set (r := Z.rem time (Z.abs period)) in *.
    rewrite <- (Per _ q). f_equal. rewrite E at 1. rewrite !qz_add, qz_mul. field. exact Nq.
  Qed.

  Lemma sinusoids_length ss time inp : forall stage, length stage = length inp -> length (sinusoids cis ss time inp stage) = length inp.
  Proof.
    induction ss as [|[p i] ss IH]; intros stage L; cbn [sinusoids]; [exact L|]. apply IH. rewrite vadd_length, rotate_length. lia.
  Qed.
  Lemma sinusoids_nth ss time inp k : Forall (fun s => fst s <> 0%Z) ss -> forall stage, length stage = length inp ->
    nth k (sinusoids cis ss time inp stage) c0 =
    cadd (nth k stage c0) (cmul (nth k inp c0) (csum (map (fun s => cis (qz (time + Z.of_nat k) / qz (fst s) + snd s)) ss))).
  Proof.
    induction ss as [|[p i] ss IH]; intros F stage L; cbn [sinusoids map csum fold_right].
    - now rewrite cmul_0_r, cadd_0_r.
    - apply Forall_cons_iff in F. destruct F as [Hp F]. cbn [fst] in Hp. rewrite IH; [|exact F|rewrite vadd_length, rotate_length; lia].
      rewrite vadd_nth by (rewrite rotate_length; lia). rewrite rotate_nth, phase_ok by exact Hp. cbn [fst snd].
      fold (csum (map (fun s => cis (qz (time + Z.of_nat k) / qz (fst s) + snd s)) ss)).
      rewrite cmul_add. rewrite (cadd_comm _ (nth k stage c0)), cadd_assoc. reflexivity.
  Qed.

  Lemma run_taps_ok spp time h : length h = (spp + spp)%nat -> forall ts out, taps_ok spp ts -> length out = spp ->
    exists o, run_taps cis spp ts time h out = Ok o /\ length o = spp /\
      forall k, (k < spp)%nat -> nth k o c0 =
        cadd (nth k out c0) (csum (map (fun t => cscale (amp t) (cmul (nth (spp - delay t + k) h c0) (fading cis t (time + Z.of_nat k)))) ts)).
  Proof.
    intros Lh. induction ts as [|t ts IH]; intros out T Lo; cbn [run_taps].
    - exists out. split; [reflexivity|]. split; [exact Lo|]. intros k _. cbn. now rewrite cadd_0_r.
    - apply Forall_cons_iff in T. destruct T as [[D S] T]. destruct (Nat.ltb_spec spp (delay t)); [lia|].
      set (sl := firstn spp (skipn (spp - delay t) h)).
      assert (Ls : length sl = spp) by (unfold sl; rewrite firstn_length, skipn_length; lia).
      destruct (IH (vadd (map (cscale (amp t)) (sinusoids cis (sines t) time sl (repeat c0 spp))) out)) as (o & E & L & N); [exact T| |].
      { rewrite vadd_length, map_length, sinusoids_length; rewrite ?repeat_length; lia. }
      exists o. split; [exact E|]. split; [exact L|]. intros k Hk. rewrite N by exact Hk.
      rewrite vadd_nth by (rewrite map_length, sinusoids_length; rewrite ?repeat_length; lia).
      rewrite map_nth0 by apply cscale_0. rewrite sinusoids_nth; [|exact S|rewrite repeat_length; lia]. rewrite nth_repeat, cadd_0_l.
      cbn [map csum fold_right].
      assert (En : nth k sl c0 = nth (spp - delay t + k) h c0).
      { unfold sl. rewrite <- (firstn_skipn (spp - delay t) h) at 2. rewrite app_nth2; rewrite firstn_length; [|lia].
        replace (spp - delay t + k - Nat.min (spp - delay t) (length h))%nat with k by lia.
        rewrite <- (firstn_skipn spp (skipn (spp - delay t) h)) at 2. rewrite app_nth1; [reflexivity|]. rewrite firstn_length, skipn_length. lia. }
      rewrite En. fold (fading cis t (time + Z.of_nat k)). rewrite (cadd_comm _ (nth k out c0)), cadd_assoc. reflexivity.
  Qed.

  Lemma past_app x y n : (n < Z.of_nat (length x))%Z -> past (x ++ y) n = past x n.
  Proof. intros H. unfold past. destruct (Z.ltb_spec n 0); [reflexivity|]. apply app_nth1. lia. Qed.
  Lemma echo_app ts x y t0 n : (n < length x)%nat -> echo cis ts (x ++ y) t0 n = echo cis ts x t0 n.
  Proof.
    intros H. unfold echo. f_equal. apply map_ext. intros t. rewrite past_app by lia. reflexivity.
  Qed.

  Definition remembers (spp : nat) (h x : list C) : Prop :=
    length h = spp /\ forall k, (k < spp)%nat -> nth k h c0 = past x (Z.of_nat (length x) - Z.of_nat spp + Z.of_nat k).
  Definition hist (l : link) (d : bool) : list C := if d then hist0 l else hist1 l.

  Lemma pass_ok spp l inp d x t0 : taps_ok spp (taps l) -> remembers spp (hist l d) x -> length inp = spp ->
    exists l', pass_through_link cis spp l inp d (t0 + Z.of_nat (length x)) =
        Ok (l', map (echo cis (taps l) (x ++ inp) t0) (seq (length x) spp)) /\
      taps l' = taps l /\ remembers spp (hist l' d) (x ++ inp) /\ hist l' (negb d) = hist l (negb d).
  Proof.
    intros T [Lh R] Li. unfold pass_through_link. fold (hist l d).
    destruct (run_taps_ok spp (t0 + Z.of_nat (length x)) (hist l d ++ inp) ltac:(rewrite app_length; lia) (taps l) (repeat c0 spp) T (repeat_length _ _))
      as (o & E & L & N).
    rewrite E. cbn [bind]. eexists. split; [do 2 f_equal|].
    - apply list_ext; [rewrite map_length, seq_length; exact L|]. rewrite L. intros k Hk. rewrite N by exact Hk. rewrite nth_repeat, cadd_0_l.
      rewrite (nth_indep _ c0 (echo cis (taps l) (x ++ inp) t0 0%nat)) by (rewrite map_length, seq_length; exact Hk).
      rewrite map_nth, seq_nth by exact Hk. unfold echo. f_equal. apply map_ext_in. intros t Ht.
      assert (D : (delay t <= spp)%nat) by (unfold taps_ok in T; rewrite Forall_forall in T; exact (proj1 (T t Ht))).
      f_equal. f_equal; [|f_equal; lia].
      destruct (Nat.ltb_spec (spp - delay t + k) spp) as [B|B].
      + rewrite app_nth1 by lia. rewrite R by exact B. rewrite past_app by lia. f_equal. lia.
      + rewrite app_nth2 by lia. unfold past. destruct (Z.ltb_spec (Z.of_nat (length x + k) - Z.of_nat (delay t)) 0); [lia|].
        rewrite app_nth2 by lia. f_equal. lia.
    - split; [destruct d; reflexivity|]. split.
      + unfold hist. destruct d; cbn [hist0 hist1]; (split; [exact Li|]; intros k Hk; unfold past; rewrite app_length;
          destruct (Z.ltb_spec (Z.of_nat (length x + length inp) - Z.of_nat spp + Z.of_nat k) 0); [lia|]; rewrite app_nth2 by lia; f_equal; lia).
      + unfold hist. destruct d; reflexivity.
  Qed.

  Lemma link_run_ok spp ts : taps_ok spp ts -> forall cs l (x : bool -> list C) t0, taps l = ts ->
    (forall d, remembers spp (hist l d) (x d)) -> seamless spp (fun d => (t0 d + Z.of_nat (length (x d)))%Z) cs ->
    exists os, link_run cis spp l cs = Ok os /\
      forall d, heard d os = map (echo cis ts (x d ++ sent d cs) (t0 d)) (seq (length (x d)) (length (sent d cs))).
  Proof.
    intros T. induction cs as [|c cs IH]; intros l x t0 El R Sm; cbn [link_run].
    - exists []. split; [reflexivity|]. intros d. reflexivity.
    - cbn [seamless] in Sm. destruct Sm as (Et & Li & Sm). rewrite Et. subst ts.
      destruct (pass_ok spp l (c_inp c) (c_dir c) (x (c_dir c)) (t0 (c_dir c)) T (R _) Li) as (l' & E & El' & R1 & R2). rewrite E. cbn [bind].
      set (x' := fun d => if Bool.eqb (c_dir c) d then x d ++ c_inp c else x d).
      destruct (IH l' x' t0) as (os & Eo & Ho).
      + exact El'.
      + intros d. unfold x'. destruct (Bool.eqb_spec (c_dir c) d) as [<-|Nd]; [exact R1|].
        replace d with (negb (c_dir c)) by (destruct (c_dir c), d; try reflexivity; exfalso; apply Nd; reflexivity). rewrite R2. apply R.
      + match type of Sm with seamless _ ?f _ => replace (seamless spp (fun d => (t0 d + Z.of_nat (length (x' d)))%Z) cs) with (seamless spp f cs) end; [exact Sm|].
        assert (Ext : forall cs f g, (forall d, f d = g d) -> seamless spp f cs = seamless spp g cs).
        { clear. induction cs as [|c cs IH]; intros f g H; [reflexivity|]. cbn [seamless]. rewrite H. f_equal. f_equal. apply IH.
          intros d. rewrite H. reflexivity. }
        apply Ext. intros d. unfold x'. destruct (Bool.eqb (c_dir c) d); [rewrite app_length, Li; lia|reflexivity].
      + rewrite Eo. cbn [bind]. eexists. split; [reflexivity|]. intros d. cbn [heard flat_map fst snd]. fold (heard d os). rewrite Ho.
        cbn [sent flat_map]. fold (sent d cs). unfold x'. destruct (Bool.eqb_spec (c_dir c) d) as [<-|Nd]; [|reflexivity].
        rewrite <- app_assoc, !app_length, Li, seq_app, map_app. f_equal.
        apply map_ext_in. intros n Hn. apply in_seq in Hn. rewrite app_assoc. symmetry. apply echo_app. rewrite app_length. lia.
  Qed.
End Facts.

(** The profile of delays. *)
Lemma add_tap_in a b : forall found d, In d (map fst (add_tap a b found)) <-> d = a \/ In d (map fst found).
Proof.
  induction found as [|[e p] found IH]; intros d; cbn [add_tap map fst].
  - cbn. intuition congruence.
  - destruct (Nat.eqb_spec e a) as [->|N]; cbn [map fst].
    + cbn. intuition.
    + cbn [In]. rewrite IH. tauto.
Qed.
Lemma add_tap_power a b d : forall found, power_of d (add_tap a b found) = (if (a =? d)%nat then b else 0) + power_of d found.
Proof.
  induction found as [|[e p] found IH]; cbn [add_tap power_of fold_right fst snd]; [reflexivity|].
  destruct (Nat.eqb_spec e a) as [->|N]; cbn [power_of fold_right fst snd].
  - fold (power_of d found). destruct (a =? d)%nat; ring.
  - fold (power_of d found) (power_of d (add_tap a b found)). rewrite IH. ring.
Qed.
Lemma add_tap_total a b : forall found, total (add_tap a b found) = b + total found.
Proof.
  induction found as [|[e p] found IH]; cbn [add_tap total fold_right fst snd]; [reflexivity|].
  destruct (Nat.eqb_spec e a) as [->|N]; cbn [total fold_right fst snd].
  - ring.
  - fold (total (add_tap a b found)) (total found). rewrite IH. ring.
Qed.
Definition rising (l : list (nat * Qc)) : Prop := StronglySorted lt (map fst l).
Lemma add_tap_rising a b : forall found, rising found -> Forall (fun d => (d <= a)%nat) (map fst found) -> rising (add_tap a b found).
Proof.
  induction found as [|[e p] found IH]; intros S F; cbn [add_tap].
  - constructor; constructor.
  - cbn [map fst] in F. apply Forall_cons_iff in F. destruct F as [He F]. inversion S as [|? ? S' F']; subst.
    destruct (Nat.eqb_spec e a) as [->|N].
    + exact S.
    + unfold rising. cbn [map fst]. constructor; [exact (IH S' F)|]. rewrite Forall_forall. intros d Hd. apply add_tap_in in Hd.
      destruct Hd as [->|Hd]; [lia|]. rewrite Forall_forall in F'. exact (F' d Hd).
Qed.
Lemma collect_ok : forall l found, StronglySorted le (map fst l) -> rising found ->
  Forall (fun d => Forall (fun e => (d <= e)%nat) (map fst l)) (map fst found) ->
  rising (collect l found) /\ (forall d, In d (map fst (collect l found)) <-> In d (map fst l) \/ In d (map fst found)) /\
  (forall d, power_of d (collect l found) = power_of d l + power_of d found) /\ total (collect l found) = total l + total found.
Proof.
  induction l as [|[a b] l IH]; intros found S R F; cbn [collect map fst].
  - split; [exact R|]. split; [intros d; cbn; tauto|]. split; [intros d; cbn; ring|]. cbn. ring.
  - cbn [map fst] in S. inversion S as [|? ? S' Fa]; subst.
    destruct (IH (add_tap a b found)) as (R' & I & P & T).
    + exact S'.
    + apply add_tap_rising; [exact R|]. apply Forall_forall. intros d Hd. rewrite Forall_forall in F. specialize (F d Hd). cbn [map fst] in F.
      apply Forall_cons_iff in F. tauto.
    + apply Forall_forall. intros d Hd. apply add_tap_in in Hd. destruct Hd as [->|Hd]; [exact Fa|].
      rewrite Forall_forall in F. specialize (F d Hd). cbn [map fst] in F. apply Forall_cons_iff in F. tauto.
    + split; [exact R'|]. split; [|split].
      * intros d. rewrite I, add_tap_in. cbn [map fst In]. assert (Sy : a = d <-> d = a) by (split; congruence). tauto.
      * intros d. rewrite P, add_tap_power. cbn [power_of fold_right fst snd]. fold (power_of d l). ring.
      * rewrite T, add_tap_total. cbn [total fold_right snd]. fold (total l). ring.
Qed.
Lemma normalize_fst l : map fst (normalize l) = map fst l.
Proof. unfold normalize. rewrite map_map. reflexivity. Qed.
Lemma power_normalize d l : power_of d (normalize l) = power_of d l / total l.
Proof.
  unfold normalize. generalize (total l) as q. intros q. induction l as [|[a b] l IH]; cbn [map power_of fold_right fst snd].
  - unfold Qcdiv. ring.
  - fold (power_of d l) (power_of d (map (fun p => (fst p, snd p / q)) l)). rewrite IH. unfold Qcdiv. destruct (a =? d)%nat; ring.
Qed.
Lemma total_normalize l : total l <> 0 -> total (normalize l) = 1.
Proof.
  intros N. unfold normalize. revert N. assert (G : forall q l, total (map (fun p : nat * Qc => (fst p, snd p / q)) l) = total l / q).
  { intros q l0. induction l0 as [|[a b] l0 IH]; cbn [map total fold_right snd]; [unfold Qcdiv; ring|].
    fold (total l0) (total (map (fun p : nat * Qc => (fst p, snd p / q)) l0)). rewrite IH. unfold Qcdiv. ring. }
  intros N. rewrite G. field. exact N.
Qed.
Lemma rising_last l (x : nat * Qc) : rising l -> forall d, In d (map fst l) -> (d <= fst (last l x))%nat.
Proof.
  induction l as [|[a b] l IH]; intros R d Hd; [contradiction|]. inversion R as [|? ? R' F]; subst. destruct l as [|y l].
  - destruct Hd as [<-|[]]. cbn. lia.
  - change (last ((a, b) :: y :: l) x) with (last (y :: l) x). destruct Hd as [<-|Hd].
    + cbn [fst]. rewrite Forall_forall in F. assert (H : In (fst y) (map fst (y :: l))) by (left; reflexivity).
      pose proof (F _ H). pose proof (IH R' _ H). lia.
    + apply IH; assumption.
Qed.
