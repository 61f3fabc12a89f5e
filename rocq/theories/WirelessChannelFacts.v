(** Facts about whole channels of Wireless. *)
From Verif Require Import Base Wireless WirelessSpec WirelessFacts.
From Coq Require Import QArith Qcanon.
Open Scope Qc_scope.

Definition no_link : link := mkLink [] [] [].
Definition la (ls : list link) (i : nat) : link := nth i ls no_link.
Lemma la_upd_same ls i l : (i < length ls)%nat -> la (upd ls i l) i = l.
Proof. intros H. unfold la. apply nth_upd_same. exact H. Qed.
Lemma la_upd_other ls i j l : i <> j -> la (upd ls i l) j = la ls j.
Proof. intros H. unfold la. apply nth_upd_other. congruence. Qed.

Section Doubly.
  Variable cis : Qc -> C.
  Hypothesis Per : periodic cis.
  Variables (spp nrx : nat) (d : bool) (t0 : Z) (len : nat) (g : nat -> nat -> Qc) (X : nat -> nat -> list C).
  Hypothesis HX : forall a b, length (X a b) = len.
  Let time := (t0 + Z.of_nat len)%Z.

  (** What changed in the links: only those of the range [lo, hi), only their history of this direction. *)
  Definition changed (lo hi : nat) (ls ls' : list link) : Prop :=
    length ls' = length ls /\
    (forall i, taps (la ls' i) = taps (la ls i) /\ hist (la ls' i) (negb d) = hist (la ls i) (negb d)) /\
    (forall i, (i < lo \/ hi <= i)%nat -> la ls' i = la ls i).

  Lemma rx_loop_ok a x : length x = spp -> forall rxs ls b, (b + length rxs <= nrx)%nat -> (a * nrx + nrx <= length ls)%nat ->
    (forall i, taps_ok spp (taps (la ls i))) -> Forall (fun r => length r = spp) rxs ->
    (forall b', (b <= b' < nrx)%nat -> remembers spp (hist (la ls (a * nrx + b')) d) (X a b')) ->
    exists ls' rs, rx_loop cis spp (Doubly ls) nrx d time a b g x rxs = Ok (Doubly ls', rs) /\ length rs = length rxs /\
      changed (a * nrx + b) (a * nrx + b + length rxs) ls ls' /\
      forall j, (j < length rxs)%nat -> remembers spp (hist (la ls' (a * nrx + b + j)) d) (X a (b + j) ++ map (cscale (g a (b + j))) x) /\
        nth j rs [] = vadd (map (echo cis (taps (la ls (a * nrx + b + j))) (X a (b + j) ++ map (cscale (g a (b + j))) x) t0) (seq len spp)) (nth j rxs []).
  Proof using Per HX.
    intros Lx. induction rxs as [|r rxs IH]; intros ls b Hb Hl T F R; cbn [rx_loop].
    - exists ls, []. split; [reflexivity|]. split; [reflexivity|]. split; [split; [reflexivity|split; [intros; split; reflexivity|intros; reflexivity]]|].
      intros j Hj. cbn in Hj. lia.
    - cbn [length] in Hb. apply Forall_cons_iff in F. destruct F as [Lr F]. unfold one_pair.
      assert (Hi : (a * nrx + b < length ls)%nat) by lia.
      rewrite (rd_ok ls (a * nrx + b) no_link Hi). cbn [bind]. fold (la ls (a * nrx + b)).
      destruct (pass_ok cis Per spp (la ls (a * nrx + b)) (map (cscale (g a b)) x) d (X a b) t0 (T _) (R b ltac:(lia)) ltac:(rewrite map_length; exact Lx))
        as (l' & E & El & R1 & R2).
      unfold time. rewrite <- (HX a b), E. cbn [bind]. rewrite HX. fold time.
      destruct (IH (upd ls (a * nrx + b) l') (S b)) as (ls' & rs & E' & Lrs & (C1 & C2 & C3) & P).
      + lia.
      + rewrite upd_length. exact Hl.
      + intros i. destruct (Nat.eq_dec (a * nrx + b) i) as [<-|N]; [rewrite la_upd_same by exact Hi; rewrite El; apply T|rewrite la_upd_other by exact N; apply T].
      + exact F.
      + intros b' Hb'. rewrite la_upd_other by lia. apply R. lia.
      + rewrite E'. cbn [bind]. exists ls', (vadd (map (echo cis (taps (la ls (a * nrx + b))) (X a b ++ map (cscale (g a b)) x) t0) (seq len spp)) r :: rs).
        split; [reflexivity|]. split; [cbn [length]; lia|]. split.
        * split; [rewrite C1; apply upd_length|]. split.
          -- intros i. destruct (C2 i) as [A1 A2]. rewrite A1, A2. destruct (Nat.eq_dec (a * nrx + b) i) as [<-|N].
             ++ rewrite la_upd_same by exact Hi. split; [exact El|exact R2].
             ++ rewrite la_upd_other by exact N. split; reflexivity.
          -- intros i Hi'. cbn [length] in Hi'. rewrite C3 by lia. apply la_upd_other. lia.
        * intros j Hj. destruct j as [|j].
          -- rewrite !Nat.add_0_r. split; [|reflexivity]. rewrite C3 by lia. rewrite la_upd_same by exact Hi. exact R1.
          -- cbn [length] in Hj. destruct (P j ltac:(lia)) as [P1 P2].
             replace (a * nrx + b + S j)%nat with (a * nrx + S b + j)%nat by lia. replace (b + S j)%nat with (S b + j)%nat by lia.
             split; [exact P1|]. cbn [nth]. rewrite P2. rewrite la_upd_other by lia. reflexivity.
  Qed.

  Lemma tx_loop_ok : forall txs ls a rxs, length rxs = nrx -> (a * nrx + length txs * nrx <= length ls)%nat ->
    (forall i, taps_ok spp (taps (la ls i))) -> Forall (fun r => length r = spp) rxs -> Forall (fun x => length x = spp) txs ->
    (forall a' b, (a <= a' < a + length txs)%nat -> (b < nrx)%nat -> remembers spp (hist (la ls (a' * nrx + b)) d) (X a' b)) ->
    exists ls' rs, tx_loop cis spp (Doubly ls) nrx d time a g txs rxs = Ok (Doubly ls', rs) /\ length rs = nrx /\ Forall (fun r => length r = spp) rs /\
      changed (a * nrx) (a * nrx + length txs * nrx) ls ls' /\
      (forall j b, (j < length txs)%nat -> (b < nrx)%nat ->
         remembers spp (hist (la ls' ((a + j) * nrx + b)) d) (X (a + j) b ++ map (cscale (g (a + j) b)) (nth j txs []))) /\
      (forall b k, (b < nrx)%nat -> (k < spp)%nat -> nth k (nth b rs []) c0 =
         cadd (nth k (nth b rxs []) c0)
           (csum (map (fun j => echo cis (taps (la ls ((a + j) * nrx + b))) (X (a + j) b ++ map (cscale (g (a + j) b)) (nth j txs [])) t0 (len + k)) (seq 0 (length txs))))).
  Proof using Per HX.
    induction txs as [|x txs IH]; intros ls a rxs Ln Hl T Fr Fx R; cbn [tx_loop].
    - exists ls, rxs. split; [reflexivity|]. split; [exact Ln|]. split; [exact Fr|].
      split; [split; [reflexivity|split; [intros; split; reflexivity|intros; reflexivity]]|]. split; [intros j b Hj; cbn in Hj; lia|].
      intros b k _ _. cbn. now rewrite cadd_0_r.
    - apply Forall_cons_iff in Fx. destruct Fx as [Lx Fx]. cbn [length] in Hl.
      destruct (rx_loop_ok a x Lx rxs ls 0) as (ls1 & rs1 & E1 & L1 & (C1 & C2 & C3) & P1).
      + lia.
      + nia.
      + exact T.
      + exact Fr.
      + intros b Hb. apply R; [cbn [length]; lia|lia].
      + rewrite E1. cbn [bind].
        assert (F1 : Forall (fun r => length r = spp) rs1).
        { apply Forall_forall. intros r Hr. apply (In_nth _ _ []) in Hr. destruct Hr as (j & Hj & <-). rewrite L1 in Hj. destruct (P1 j Hj) as [_ ->].
          rewrite vadd_length, map_length, seq_length. rewrite Forall_forall in Fr. rewrite (Fr (nth j rxs [])) by (apply nth_In; exact Hj). lia. }
        destruct (IH ls1 (S a) rs1) as (ls' & rs & E & L & F & (D1 & D2 & D3) & P2 & P3).
        * lia.
        * rewrite C1. nia.
        * intros i. rewrite (proj1 (C2 i)). apply T.
        * exact F1.
        * exact Fx.
        * intros a' b Ha' Hb. rewrite C3 by (right; nia). apply R; [cbn [length]; lia|exact Hb].
        * exists ls', rs. split; [exact E|]. split; [exact L|]. split; [exact F|]. split; [|split].
          -- split; [lia|]. split.
             ++ intros i. destruct (D2 i) as [-> ->]. apply C2.
             ++ intros i Hi. cbn [length] in Hi. rewrite D3 by lia. apply C3. lia.
          -- intros j b Hj Hb. destruct j as [|j].
             ++ rewrite Nat.add_0_r. rewrite D3 by (left; nia). destruct (P1 b ltac:(lia)) as [Q _]. rewrite !Nat.add_0_r in Q. exact Q.
             ++ cbn [length] in Hj. replace (a + S j)%nat with (S a + j)%nat by lia. cbn [nth]. apply P2; [lia|exact Hb].
          -- intros b k Hb Hk. rewrite P3 by assumption. destruct (P1 b ltac:(lia)) as [_ Q]. rewrite !Nat.add_0_r in Q. cbn [Nat.add] in Q. rewrite Q.
             rewrite vadd_nth by (rewrite map_length, seq_length; rewrite Forall_forall in Fr; symmetry; apply Fr; apply nth_In; lia).
             rewrite (nth_indep (map _ _) c0 (echo cis (taps (la ls (a * nrx + b))) (X a b ++ map (cscale (g a b)) x) t0 0%nat)) by (rewrite map_length, seq_length; exact Hk).
             rewrite map_nth, seq_nth by exact Hk.
             cbn [length seq map csum fold_right nth]. rewrite Nat.add_0_r, <- seq_shift, map_map.
             rewrite (cadd_comm (echo _ _ _ _ _) (nth k (nth b rxs []) c0)), <- cadd_assoc. f_equal. f_equal. unfold csum. f_equal.
             apply map_ext. intros j. cbn [nth]. replace (a + S j)%nat with (S a + j)%nat by lia. rewrite (proj1 (C2 _)). reflexivity.
  Qed.
End Doubly.

(** Streams of several packets. *)
Section Run.
  Variable cis : Qc -> C.
  Hypothesis Per : periodic cis.
  Variables (spp n0 n1 : nat) (T : nat -> list tap).

  Definition received (d : bool) (b : nat) (X : nat -> nat -> list C) (t0 : Z) (n : nat) : C :=
    csum (map (fun a => echo cis (T (a * receivers n0 n1 d + b)%nat) (X a b) t0 n) (seq 0 (senders n0 n1 d))).

  Lemma superimpose_ok ls (X : bool -> nat -> nat -> list C) t0 len p :
    length ls = (n0 * n1)%nat -> (forall i, taps_ok spp (taps (la ls i))) -> (forall i, (i < n0 * n1)%nat -> taps (la ls i) = T i) ->
    (forall d a b, length (X d a b) = len d) ->
    (forall d a b, (a < senders n0 n1 d)%nat -> (b < receivers n0 n1 d)%nat -> remembers spp (hist (la ls (a * receivers n0 n1 d + b)) d) (X d a b)) ->
    p_time p = (t0 (p_dir p) + Z.of_nat (len (p_dir p)))%Z -> length (p_tx p) = senders n0 n1 (p_dir p) -> Forall (fun x => length x = spp) (p_tx p) ->
    let d := p_dir p in
    let X' := fun d' a b => if Bool.eqb d d' then X d' a b ++ map (cscale (p_gain p a b)) (nth a (p_tx p) (repeat c0 spp)) else X d' a b in
    exists ls' rs, superimpose cis spp (Doubly ls) (if d then 0 else 1) (if d then 1 else 0) (p_time p) (p_gain p) (p_tx p)
                     (repeat (repeat c0 spp) (receivers n0 n1 d)) = Ok (Doubly ls', rs) /\
      length ls' = (n0 * n1)%nat /\ (forall i, taps_ok spp (taps (la ls' i))) /\ (forall i, (i < n0 * n1)%nat -> taps (la ls' i) = T i) /\
      (forall d a b, (a < senders n0 n1 d)%nat -> (b < receivers n0 n1 d)%nat -> remembers spp (hist (la ls' (a * receivers n0 n1 d + b)) d) (X' d a b)) /\
      length rs = receivers n0 n1 d /\
      (forall b, (b < receivers n0 n1 d)%nat -> nth b rs [] = map (received d b (X' d) (t0 d)) (seq (len d) spp)).
  Proof using Per.
    intros Ll Tk TT HX R Ht Lt Fx d X'. unfold superimpose. rewrite repeat_length.
    replace ((if d then 0 else 1) <? (if d then 1 else 0))%nat with d by (destruct d; reflexivity). rewrite Ht. fold d.
    destruct (tx_loop_ok cis Per spp (receivers n0 n1 d) d (t0 d) (len d) (p_gain p) (X d) (fun a b => HX d a b) (p_tx p) ls 0
                (repeat (repeat c0 spp) (receivers n0 n1 d))) as (ls' & rs & E & L & F & (C1 & C2 & C3) & P2 & P3).
    - apply repeat_length.
    - fold d in Lt. rewrite Lt, Ll. unfold senders, receivers. destruct d; lia.
    - exact Tk.
    - apply Forall_forall. intros r Hr. apply repeat_spec in Hr. subst r. apply repeat_length.
    - exact Fx.
    - intros a b Ha Hb. apply R; [fold d in Lt; lia|exact Hb].
    - exists ls', rs. split; [exact E|]. split; [lia|]. split; [intros i; rewrite (proj1 (C2 i)); apply Tk|].
      split; [intros i Hi; rewrite (proj1 (C2 i)); apply TT, Hi|]. fold d in Lt. split; [|split; [exact L|]].
      + intros d' a b Ha Hb. unfold X'. destruct (Bool.eqb_spec d d') as [<-|N].
        * specialize (P2 a b ltac:(lia) Hb). cbn [Nat.add] in P2. rewrite (nth_indep _ _ []) by lia. exact P2.
        * replace d' with (negb d) by (destruct d, d'; try reflexivity; exfalso; apply N; reflexivity).
          rewrite (proj2 (C2 _)). apply R; replace (negb d) with d' by (destruct d, d'; try reflexivity; exfalso; apply N; reflexivity); assumption.
      + intros b Hb. apply list_ext.
        * rewrite map_length, seq_length. rewrite Forall_forall in F. apply F. apply nth_In. lia.
        * assert (Lb : length (nth b rs []) = spp) by (rewrite Forall_forall in F; apply F; apply nth_In; lia). rewrite Lb.
          intros k Hk. rewrite P3 by assumption.
          rewrite (nth_indep (map _ _) c0 (received d b (X' d) (t0 d) 0%nat)) by (rewrite map_length, seq_length; exact Hk).
          rewrite map_nth, seq_nth by exact Hk. unfold received.
          replace (nth b (repeat (repeat c0 spp) (receivers n0 n1 d)) []) with (repeat c0 spp).
          2:{ symmetry. apply (repeat_spec (receivers n0 n1 d)). apply nth_In. rewrite repeat_length. exact Hb. }
          rewrite nth_repeat, cadd_0_l, Lt. f_equal. apply map_ext_in. intros a Ha. apply in_seq in Ha. cbn [Nat.add].
          unfold X'. rewrite Bool.eqb_reflx. rewrite (nth_indep (p_tx p) (repeat c0 spp) []) by lia.
          rewrite TT; [reflexivity|]. unfold senders, receivers in *. destruct d; nia.
  Qed.

  Lemma received_app d b X Y t0 n : (forall a, (n < length (X a b))%nat) ->
    received d b (fun a b => X a b ++ Y a b) t0 n = received d b X t0 n.
  Proof using.
    intros H. unfold received. f_equal. apply map_ext. intros a. apply echo_app. apply H.
  Qed.

  Lemma run_ok : forall ps ls (X : bool -> nat -> nat -> list C) t0 len,
    length ls = (n0 * n1)%nat -> (forall i, taps_ok spp (taps (la ls i))) -> (forall i, (i < n0 * n1)%nat -> taps (la ls i) = T i) ->
    (forall d a b, length (X d a b) = len d) ->
    (forall d a b, (a < senders n0 n1 d)%nat -> (b < receivers n0 n1 d)%nat -> remembers spp (hist (la ls (a * receivers n0 n1 d + b)) d) (X d a b)) ->
    packets_ok spp n0 n1 (fun d => (t0 d + Z.of_nat (len d))%Z) ps ->
    exists os, channel_run cis spp n0 n1 (Doubly ls) ps = Ok os /\
      forall d b, (b < receivers n0 n1 d)%nat ->
        heard_at d b os = map (received d b (fun a b => X d a b ++ sent_to d a b ps) (t0 d)) (seq (len d) (nof d ps * spp)).
  Proof using Per.
    induction ps as [|p ps IH]; intros ls X t0 len Ll Tk TT HX R Pk; cbn [channel_run].
    - exists []. split; [reflexivity|]. intros d b _. reflexivity.
    - cbn [packets_ok] in Pk. destruct Pk as (Ht & Lt & Fx & Pk).
      destruct (superimpose_ok ls X t0 len p Ll Tk TT HX R Ht Lt Fx) as (ls' & rs & E & Ll' & Tk' & TT' & R' & Lr & Hr).
      rewrite E. cbn [bind]. set (d0 := p_dir p) in *.
      set (X' := fun d' a b => if Bool.eqb d0 d' then X d' a b ++ map (cscale (p_gain p a b)) (nth a (p_tx p) (repeat c0 spp)) else X d' a b) in *.
      set (len' := fun d' => if Bool.eqb d0 d' then (len d' + spp)%nat else len d').
      assert (HX' : forall d a b, length (X' d a b) = len' d).
      { intros d a b. unfold X', len'. destruct (Bool.eqb d0 d); [|apply HX]. rewrite app_length, map_length, HX. f_equal.
        destruct (Nat.ltb_spec a (length (p_tx p))).
        - rewrite Forall_forall in Fx. apply Fx. apply nth_In. assumption.
        - rewrite nth_overflow by lia. apply repeat_length. }
      destruct (IH ls' X' t0 len' Ll' Tk' TT' HX' R') as (os & Eo & Ho).
      { match type of Pk with packets_ok _ _ _ ?f _ => replace (packets_ok spp n0 n1 (fun d => (t0 d + Z.of_nat (len' d))%Z) ps) with (packets_ok spp n0 n1 f ps) end; [exact Pk|].
        assert (Ext : forall ps f h, (forall d, f d = h d) -> packets_ok spp n0 n1 f ps = packets_ok spp n0 n1 h ps).
        { clear. induction ps as [|p ps IH]; intros f h H; [reflexivity|]. cbn [packets_ok]. rewrite H. f_equal. f_equal. f_equal. apply IH.
          intros d. rewrite H. reflexivity. }
        apply Ext. intros d. unfold len'. destruct (Bool.eqb d0 d); lia. }
      rewrite Eo. cbn [bind]. eexists. split; [reflexivity|]. intros d b Hb. cbn [heard_at flat_map fst snd]. fold (heard_at d b os).
      rewrite Ho by exact Hb. unfold nof. cbn [filter]. fold d0. unfold len'.
      destruct (Bool.eqb_spec d0 d) as [<-|N].
      + rewrite Hr by exact Hb. cbn [length]. fold (nof d0 ps). rewrite Nat.mul_succ_l, (Nat.add_comm (nof d0 ps * spp)), seq_app, map_app.
        assert (S' : forall a b n, echo cis (T (a * receivers n0 n1 d0 + b)%nat) (X d0 a b ++ sent_to d0 a b (p :: ps)) (t0 d0) n =
                                   echo cis (T (a * receivers n0 n1 d0 + b)%nat) ((X d0 a b ++ map (cscale (p_gain p a b)) (nth a (p_tx p) [])) ++ sent_to d0 a b ps) (t0 d0) n).
        { intros a b' n. cbn [sent_to flat_map]. fold (sent_to d0 a b' ps). fold d0. rewrite Bool.eqb_reflx, app_assoc. reflexivity. }
        assert (N' : forall a, (a < senders n0 n1 d0)%nat -> nth a (p_tx p) (repeat c0 spp) = nth a (p_tx p) []).
        { intros a Ha. apply nth_indep. lia. }
        f_equal.
        * apply map_ext_in. intros n Hn. apply in_seq in Hn. unfold received. f_equal. apply map_ext_in. intros a Ha. apply in_seq in Ha.
          rewrite S'. unfold X'. rewrite Bool.eqb_reflx, N' by lia. symmetry. apply echo_app.
          rewrite app_length, map_length, HX, <- N' by lia. destruct (Nat.ltb_spec a (length (p_tx p))) as [Q|Q]; [|lia].
          rewrite Forall_forall in Fx. rewrite Fx by (apply nth_In; exact Q). lia.
        * unfold len'. apply map_ext_in. intros n _. unfold received. f_equal. apply map_ext_in. intros a Ha. apply in_seq in Ha.
          rewrite S'. unfold X'. rewrite Bool.eqb_reflx, N' by lia. reflexivity.
      + fold (nof d ps). apply map_ext. intros n. unfold received. f_equal. apply map_ext. intros a. unfold X'.
        destruct (Bool.eqb_spec d0 d) as [Q|Q]; [contradiction|]. cbn [sent_to flat_map]. fold d0. fold (sent_to d a b ps).
        destruct (Bool.eqb_spec d0 d); [contradiction|]. reflexivity.
  Qed.
End Run.

(** Channels without memory. *)
Section Pure.
  Variable cis : Qc -> C.
  Variables (spp nrx : nat) (d : bool) (time : Z) (g : nat -> nat -> Qc) (ch : channel) (f : nat -> nat -> C -> C).

  Lemma rx_loop_pure a x : length x = spp -> (forall b, (b < nrx)%nat -> one_pair cis spp ch nrx d time a b (g a b) x = Ok (ch, map (f a b) x)) ->
    forall rxs b, (b + length rxs <= nrx)%nat ->
    exists rs, rx_loop cis spp ch nrx d time a b g x rxs = Ok (ch, rs) /\ length rs = length rxs /\
      forall j, (j < length rxs)%nat -> nth j rs [] = vadd (map (f a (b + j)) x) (nth j rxs []).
  Proof using.
    intros Lx H. induction rxs as [|r rxs IH]; intros b Hb; cbn [rx_loop].
    - exists []. split; [reflexivity|]. split; [reflexivity|]. intros j Hj. cbn in Hj. lia.
    - cbn [length] in Hb. rewrite H by lia. cbn [bind]. destruct (IH (S b) ltac:(lia)) as (rs & E & L & P). rewrite E. cbn [bind].
      exists (vadd (map (f a b) x) r :: rs). split; [reflexivity|]. split; [cbn [length]; lia|]. intros [|j] Hj.
      + rewrite Nat.add_0_r. reflexivity.
      + cbn [length] in Hj. cbn [nth]. rewrite P by lia. do 3 f_equal. lia.
  Qed.

  Lemma tx_loop_pure (F0 : forall a b, f a b c0 = c0) : forall txs a rxs, length rxs = nrx ->
    Forall (fun x => length x = spp) txs -> Forall (fun r => length r = spp) rxs ->
    (forall j b, (j < length txs)%nat -> (b < nrx)%nat -> one_pair cis spp ch nrx d time (a + j) b (g (a + j) b) (nth j txs []) = Ok (ch, map (f (a + j) b) (nth j txs []))) ->
    exists rs, tx_loop cis spp ch nrx d time a g txs rxs = Ok (ch, rs) /\ length rs = nrx /\ Forall (fun r => length r = spp) rs /\
      forall b k, (b < nrx)%nat -> (k < spp)%nat -> nth k (nth b rs []) c0 =
        cadd (nth k (nth b rxs []) c0) (csum (map (fun j => f (a + j) b (nth k (nth j txs []) c0)) (seq 0 (length txs)))).
  Proof using.
    induction txs as [|x txs IH]; intros a rxs Ln Fx Fr H; cbn [tx_loop].
    - exists rxs. split; [reflexivity|]. split; [exact Ln|]. split; [exact Fr|]. intros b k _ _. cbn. now rewrite cadd_0_r.
    - apply Forall_cons_iff in Fx. destruct Fx as [Lx Fx].
      destruct (rx_loop_pure a x Lx) with (rxs := rxs) (b := 0%nat) as (rs1 & E1 & L1 & P1).
      + intros b Hb. specialize (H 0%nat b ltac:(cbn; lia) Hb). rewrite Nat.add_0_r in H. exact H.
      + lia.
      + rewrite E1. cbn [bind].
        assert (F1 : Forall (fun r => length r = spp) rs1).
        { apply Forall_forall. intros r Hr. apply (In_nth _ _ []) in Hr. destruct Hr as (j & Hj & <-). rewrite L1 in Hj. rewrite (P1 j Hj).
          rewrite vadd_length, map_length, Lx. rewrite Forall_forall in Fr. rewrite (Fr (nth j rxs [])) by (apply nth_In; exact Hj). lia. }
        destruct (IH (S a) rs1) as (rs & E & L & F & P).
        * lia.
        * exact Fx.
        * exact F1.
        * intros j b Hj Hb. specialize (H (S j) b ltac:(cbn [length]; lia) Hb). cbn [nth] in H. replace (S a + j)%nat with (a + S j)%nat by lia. exact H.
        * exists rs. split; [exact E|]. split; [exact L|]. split; [exact F|]. intros b k Hb Hk. rewrite P by assumption.
          rewrite (P1 b ltac:(lia)). cbn [Nat.add].
          rewrite vadd_nth by (rewrite map_length, Lx; rewrite Forall_forall in Fr; symmetry; apply Fr; apply nth_In; lia).
          rewrite map_nth0 by apply F0. cbn [length seq map csum fold_right nth]. rewrite Nat.add_0_r, <- seq_shift, map_map.
          rewrite (cadd_comm (f a b _)), <- cadd_assoc. f_equal. f_equal. unfold csum. f_equal.
          apply map_ext. intros j. replace (a + S j)%nat with (S a + j)%nat by lia. reflexivity.
  Qed.
End Pure.
