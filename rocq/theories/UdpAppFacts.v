(** Facts about the UDP sockets of the applications. *)
From Coq Require Import Permutation.
From Verif Require Import Base UdpApp UdpAppSpec.
Open Scope nat_scope.

Definition tri (c : conn) : nat * Z * Z := (socked_fd c, s_addr c, sin_port c).
Definition short (x : nat * Z * Z * Z) : nat * Z * Z := fst x.

Lemma erase_split : forall A (l : list A) i x, nth_error l i = Some x ->
  exists a b, l = a ++ x :: b /\ length a = i /\ erase i l = a ++ b.
Proof.
  induction l as [|y l IH]; intros [|i] x H; cbn [nth_error] in H; try discriminate.
  - injection H as ->. exists [], l. repeat split.
  - destruct (IH _ _ H) as [a [b [-> [E1 E2]]]]. exists (y :: a), b.
    cbn [erase length app]. rewrite E2, E1. repeat split.
Qed.

Lemma without_split : forall A (a b : list A) x, without (length a) (a ++ x :: b) = a ++ b.
Proof.
  intros. unfold without. rewrite firstn_app, firstn_all, Nat.sub_diag.
  replace (S (length a)) with (length (a ++ [x])) by (rewrite app_length; cbn [length]; lia).
  replace (a ++ x :: b) with ((a ++ [x]) ++ b) by (rewrite <- app_assoc; reflexivity).
  rewrite skipn_app, skipn_all, Nat.sub_diag. cbn [firstn skipn app]. rewrite app_nil_r. reflexivity.
Qed.

Lemma without_map : forall A B (f : A -> B) i l, map f (without i l) = without i (map f l).
Proof. intros. unfold without. rewrite map_app, firstn_map, skipn_map. reflexivity. Qed.

Lemma rm_split : forall i l l' c, rm_connection i l = Ok (l', c) ->
  exists a x b, l = a ++ x :: b /\ length a = i /\ l' = a ++ b /\ c = [CClose (socked_fd x)].
Proof.
  intros i l l' c H. unfold rm_connection, guard in H. destruct (i <? length l); [|discriminate].
  destruct (nth_error l i) as [x|] eqn:E; [|discriminate]. injection H as <- <-.
  destruct (erase_split _ _ _ _ E) as [a [b [H1 [H2 H3]]]]. exists a, x, b. repeat split; assumption.
Qed.

Lemma run_snoc : forall l s o, run s (l ++ [o]) =
  do (s1, t) <- run s l ; do (s2, c, i) <- step s1 o ; Ok (s2, t ++ c).
Proof.
  induction l as [|e l IH]; intros s o; cbn [run app bind].
  - destruct (step s o) as [[[s2 c] i]| | |]; cbn [bind]; try reflexivity. rewrite app_nil_r. reflexivity.
  - destruct (step s e) as [[[s1 c] i]| | |]; cbn [bind]; try reflexivity. rewrite IH.
    destruct (run s1 l) as [[s2 t]| | |]; cbn [bind]; try reflexivity.
    destruct (step s2 o) as [[[s3 c'] j]| | |]; cbn [bind]; try reflexivity. rewrite app_assoc. reflexivity.
Qed.

Lemma opened_snoc : forall t c, opened (t ++ [c]) =
  match c with CSocket fd => fd :: opened t | CClose fd => remove Nat.eq_dec fd (opened t) | _ => opened t end.
Proof. intros. unfold opened. rewrite fold_left_app. reflexivity. Qed.
Lemma bound_snoc : forall t c, bound_to (t ++ [c]) =
  match c with
  | CBind fd ip port => fun x => if x =? fd then Some (ip, port) else bound_to t x
  | CSocket fd => fun x => if x =? fd then None else bound_to t x
  | _ => bound_to t
  end.
Proof. intros. unfold bound_to. rewrite fold_left_app. reflexivity. Qed.
Lemma patience_snoc : forall t c, patience (t ++ [c]) =
  match c with
  | CTimeout fd us => fun x => if x =? fd then Some us else patience t x
  | CSocket fd => fun x => if x =? fd then None else patience t x
  | _ => patience t
  end.
Proof. intros. unfold patience. rewrite fold_left_app. reflexivity. Qed.
Lemma tx_snoc : forall l o, tx_conns (l ++ [o]) =
  match o with
  | AddTx ip port (Some fd) => tx_conns l ++ [(fd, ip, (port mod 65536)%Z)]
  | RmTx i => without i (tx_conns l)
  | _ => tx_conns l
  end.
Proof. intros. unfold tx_conns. rewrite fold_left_app. reflexivity. Qed.
Lemma rx_snoc : forall l o, rx_conns (l ++ [o]) =
  match o with
  | AddRx ip port us (Some fd) _ => rx_conns l ++ [(fd, ip, (port mod 65536)%Z, us)]
  | RmRx i => without i (rx_conns l)
  | _ => rx_conns l
  end.
Proof. intros. unfold rx_conns. rewrite fold_left_app. reflexivity. Qed.

Lemma snoc_split : forall A (t t1 t2 : list A) c x, t ++ [c] = t1 ++ x :: t2 ->
  (t2 = [] /\ t1 = t /\ x = c) \/ (exists t3, t2 = t3 ++ [c] /\ t = t1 ++ x :: t3).
Proof.
  intros A t t1 t2 c x H. destruct t2 as [|y t2 _] using rev_ind.
  - left. apply app_inj_tail in H. destruct H as [-> ->]. repeat split.
  - right. exists t2. replace (t1 ++ x :: t2 ++ [y]) with ((t1 ++ x :: t2) ++ [y]) in H
      by (rewrite <- app_assoc; reflexivity). apply app_inj_tail in H. destruct H as [-> ->]. split; reflexivity.
Qed.

Lemma sound_snoc : forall t c, sound t -> (forall fd, works_on c = Some fd -> In fd (opened t)) -> sound (t ++ [c]).
Proof.
  intros t c H Hc t1 x t2 fd E Hw. apply snoc_split in E.
  destruct E as [[-> [-> ->]]|[t3 [-> E]]]; [exact (Hc _ Hw)|exact (H _ _ _ _ E Hw)].
Qed.

Lemma os_prefix : forall t c, os_ok (t ++ c) -> os_ok t.
Proof. intros t c H t1 fd t2 ->. apply (H t1 fd (t2 ++ c)). rewrite <- app_assoc. reflexivity. Qed.

Record inv (l : list op) (s : udp) (t : list call) : Prop := mkInv {
  i_tx : map tri (conn_tx s) = tx_conns l;
  i_rx : map tri (conn_rx s) = map short (rx_conns l);
  i_sound : sound t;
  i_nodup : NoDup (tx_fds l ++ rx_fds l);
  i_open : forall fd, In fd (opened t) <-> In fd (tx_fds l ++ rx_fds l);
  i_bound : forall fd ip port us, In (fd, ip, port, us) (rx_conns l) ->
    bound_to t fd = Some (ip, port) /\ patience t fd = (if (0 <? us)%Z then Some us else None)
}.

Lemma tx_fds_conn : forall l s, map tri (conn_tx s) = tx_conns l -> tx_fds l = map socked_fd (conn_tx s).
Proof. intros l s H. unfold tx_fds. rewrite <- H, map_map. apply map_ext. reflexivity. Qed.
Lemma rx_fds_conn : forall l s, map tri (conn_rx s) = map short (rx_conns l) -> rx_fds l = map socked_fd (conn_rx s).
Proof.
  intros l s H. transitivity (map (fun x => fst (fst x)) (map short (rx_conns l))).
  - unfold rx_fds. rewrite map_map. apply map_ext. intros [[[? ?] ?] ?]. reflexivity.
  - rewrite <- H, map_map. reflexivity.
Qed.

Lemma rx_in_fds : forall l fd ip port us, In (fd, ip, port, us) (rx_conns l) -> In fd (rx_fds l).
Proof. intros. unfold rx_fds. apply in_map_iff. exists (fd, ip, port, us). split; [reflexivity|assumption]. Qed.

Lemma nodup_other : forall A (fd : A) (t r : list A), NoDup (t ++ r) -> In fd r -> ~ In fd t.
Proof.
  intros A fd t r. induction t as [|x t IH]; intros H Hr Ht; [contradiction|].
  cbn [app] in H. apply NoDup_cons_iff in H. destruct H as [H1 H2]. destruct Ht as [->|Ht].
  - apply H1, in_or_app. right. exact Hr.
  - exact (IH H2 Hr Ht).
Qed.

Lemma step_inv : forall l s t o s' c i, inv l s t -> step s o = Ok (s', c, i) -> os_ok (t ++ c) ->
  inv (l ++ [o]) s' (t ++ c).
Proof.
  intros l s t o s' c i [Htx Hrx Hs Hn Ho Hb] H Hos.
  assert (Et := tx_fds_conn _ _ Htx). assert (Er := rx_fds_conn _ _ Hrx).
  destruct o as [ip port fd|ip port us fd b|j|j|j data|j]; cbn [step] in H.
  - (* AddTx *)
    destruct fd as [d|]; [|discriminate]. injection H as <- <- _. cbn [conn_tx conn_rx].
    assert (Hf : ~ In d (opened t)) by (apply (Hos t d []); reflexivity). rewrite Ho in Hf.
    assert (P : Permutation (tx_fds (l ++ [AddTx ip port (Some d)]) ++ rx_fds (l ++ [AddTx ip port (Some d)]))
                            (d :: tx_fds l ++ rx_fds l)).
    { unfold tx_fds, rx_fds. rewrite tx_snoc, rx_snoc, map_app, <- app_assoc. cbn [map app].
      symmetry. apply Permutation_middle. }
    constructor; cbn [conn_tx conn_rx].
    + rewrite tx_snoc, map_app, Htx. reflexivity.
    + rewrite rx_snoc. exact Hrx.
    + apply sound_snoc; [exact Hs|]. intros fd Hw. discriminate Hw.
    + apply (Permutation_NoDup (Permutation_sym P)). constructor; assumption.
    + intros fd. rewrite opened_snoc. cbn [In]. rewrite Ho. split; intros Q.
      * apply (Permutation_in _ (Permutation_sym P)). exact Q.
      * apply (Permutation_in _ P) in Q. exact Q.
    + intros fd ip' p' us' Q. rewrite rx_snoc in Q. rewrite bound_snoc, patience_snoc.
      assert (fd <> d). { intros ->. apply Hf, in_or_app. right. exact (rx_in_fds _ _ _ _ _ Q). }
      apply Nat.eqb_neq in H. rewrite H. exact (Hb _ _ _ _ Q).
  - (* AddRx *)
    unfold add_connection_rx, guard in H. destruct fd as [d|]; [|discriminate].
    destruct (if (0 <? us)%Z then timeval_ok us else true); [|discriminate]. destruct b; [|discriminate].
    injection H as <- <- _.
    assert (Hf : ~ In d (opened t)).
    { apply (Hos t d ((if (0 <? us)%Z then [CTimeout d us] else []) ++ [CBind d ip (port16 port)])). reflexivity. }
    rewrite Ho in Hf.
    assert (P : Permutation (tx_fds (l ++ [AddRx ip port us (Some d) true]) ++ rx_fds (l ++ [AddRx ip port us (Some d) true]))
                            (d :: tx_fds l ++ rx_fds l)).
    { unfold tx_fds, rx_fds. rewrite tx_snoc, rx_snoc, map_app, app_assoc. cbn [map app].
      symmetry. apply Permutation_cons_append. }
    set (mid := if (0 <? us)%Z then [CTimeout d us] else []).
    assert (Eo : opened (t ++ CSocket d :: mid ++ [CBind d ip (port16 port)]) = d :: opened t /\
                 sound (t ++ CSocket d :: mid ++ [CBind d ip (port16 port)]) /\
                 (forall x, bound_to (t ++ CSocket d :: mid ++ [CBind d ip (port16 port)]) x =
                    if x =? d then Some (ip, port16 port) else bound_to t x) /\
                 (forall x, patience (t ++ CSocket d :: mid ++ [CBind d ip (port16 port)]) x =
                    if x =? d then (if (0 <? us)%Z then Some us else None) else patience t x)).
    { assert (S1 : sound (t ++ [CSocket d])). { apply sound_snoc; [exact Hs|]. intros fd Hw. discriminate Hw. }
      unfold mid. destruct (0 <? us)%Z.
      - replace (t ++ CSocket d :: [CTimeout d us] ++ [CBind d ip (port16 port)])
          with (((t ++ [CSocket d]) ++ [CTimeout d us]) ++ [CBind d ip (port16 port)])
          by (rewrite <- !app_assoc; reflexivity).
        split; [rewrite !opened_snoc; reflexivity|]. split; [|split].
        + apply sound_snoc; [apply sound_snoc; [exact S1|]|].
          * intros fd Hw. cbn [works_on] in Hw. injection Hw as <-. rewrite opened_snoc. left. reflexivity.
          * intros fd Hw. cbn [works_on] in Hw. injection Hw as <-. rewrite !opened_snoc. left. reflexivity.
        + intros x. rewrite !bound_snoc. destruct (x =? d); reflexivity.
        + intros x. rewrite !patience_snoc. destruct (x =? d); reflexivity.
      - cbn [app]. replace (t ++ [CSocket d; CBind d ip (port16 port)])
          with ((t ++ [CSocket d]) ++ [CBind d ip (port16 port)]) by (rewrite <- !app_assoc; reflexivity).
        split; [rewrite !opened_snoc; reflexivity|]. split; [|split].
        + apply sound_snoc; [exact S1|].
          intros fd Hw. cbn [works_on] in Hw. injection Hw as <-. rewrite !opened_snoc. left. reflexivity.
        + intros x. rewrite !bound_snoc. destruct (x =? d); reflexivity.
        + intros x. rewrite !patience_snoc. destruct (x =? d); reflexivity. }
    destruct Eo as [E1 [E2 [E3 E4]]].
    constructor; cbn [conn_tx conn_rx].
    + rewrite tx_snoc. exact Htx.
    + rewrite rx_snoc, !map_app, Hrx. reflexivity.
    + exact E2.
    + apply (Permutation_NoDup (Permutation_sym P)). constructor; assumption.
    + intros fd. rewrite E1. cbn [In]. rewrite Ho. split; intros Q.
      * apply (Permutation_in _ (Permutation_sym P)). exact Q.
      * apply (Permutation_in _ P) in Q. exact Q.
    + intros fd ip' p' us' Q. rewrite rx_snoc in Q. rewrite E3, E4. apply in_app_or in Q. destruct Q as [Q|[Q|[]]].
      * assert (fd <> d). { intros ->. apply Hf, in_or_app. right. exact (rx_in_fds _ _ _ _ _ Q). }
        apply Nat.eqb_neq in H. rewrite H. exact (Hb _ _ _ _ Q).
      * injection Q as <- <- <- <-. rewrite Nat.eqb_refl. split; reflexivity.
  - (* RmTx *)
    destruct (rm_connection j (conn_tx s)) as [[l' c']| | |] eqn:E; cbn [bind] in H; try discriminate.
    injection H as <- <- _. destruct (rm_split _ _ _ _ E) as [a [x [b [E1 [E2 [E3 E4]]]]]]. subst l' c'.
    assert (Ea : tx_conns (l ++ [RmTx j]) = map tri (a ++ b)).
    { rewrite tx_snoc, <- Htx, <- without_map, E1, <- E2, without_split. reflexivity. }
    assert (Ef : tx_fds (l ++ [RmTx j]) = map socked_fd a ++ map socked_fd b).
    { unfold tx_fds. rewrite Ea, map_map, <- map_app. apply map_ext. reflexivity. }
    assert (Eg : rx_fds (l ++ [RmTx j]) = rx_fds l) by (unfold rx_fds; rewrite rx_snoc; reflexivity).
    rewrite Et, E1, map_app in Hn. cbn [map] in Hn. rewrite <- app_assoc in Hn. cbn [app] in Hn.
    destruct (NoDup_remove _ _ _ Hn) as [N1 N2].
    constructor; cbn [conn_tx conn_rx].
    + symmetry. exact Ea.
    + rewrite rx_snoc. exact Hrx.
    + apply sound_snoc; [exact Hs|]. intros fd Hw. cbn [works_on] in Hw. injection Hw as <-. apply Ho.
      rewrite Et, E1, map_app. apply in_or_app. left. apply in_or_app. right. left. reflexivity.
    + rewrite Ef, Eg, <- app_assoc. exact N1.
    + intros fd. rewrite opened_snoc, Ef, Eg, <- app_assoc. split; intros Q.
      * apply in_remove in Q. destruct Q as [Q1 Q2]. apply Ho in Q1. rewrite Et, E1, map_app, <- app_assoc in Q1.
        cbn [map app] in Q1. apply in_app_or in Q1. apply in_or_app. destruct Q1 as [Q1|[Q1|Q1]]; [left; exact Q1| |right; exact Q1].
        congruence.
      * apply in_in_remove; [intros ->; contradiction|]. apply Ho. rewrite Et, E1, map_app, <- app_assoc. cbn [map app].
        apply in_app_or in Q. apply in_or_app. destruct Q as [Q|Q]; [left; exact Q|right; right; exact Q].
    + intros fd ip' p' us' Q. rewrite rx_snoc in Q. rewrite bound_snoc, patience_snoc. exact (Hb _ _ _ _ Q).
  - (* RmRx *)
    destruct (rm_connection j (conn_rx s)) as [[l' c']| | |] eqn:E; cbn [bind] in H; try discriminate.
    injection H as <- <- _. destruct (rm_split _ _ _ _ E) as [a [x [b [E1 [E2 [E3 E4]]]]]]. subst l' c'.
    assert (Ea : map short (rx_conns (l ++ [RmRx j])) = map tri (a ++ b)).
    { rewrite rx_snoc, without_map, <- Hrx, <- without_map, E1, <- E2, without_split. reflexivity. }
    assert (Ef : rx_fds (l ++ [RmRx j]) = map socked_fd a ++ map socked_fd b).
    { rewrite <- map_app. apply (rx_fds_conn _ (mkUdp [] (a ++ b))). symmetry. exact Ea. }
    assert (Eg : tx_fds (l ++ [RmRx j]) = tx_fds l) by (unfold tx_fds; rewrite tx_snoc; reflexivity).
    rewrite Er, E1, map_app in Hn. cbn [map] in Hn. rewrite app_assoc in Hn.
    destruct (NoDup_remove _ _ _ Hn) as [N1 N2].
    constructor; cbn [conn_tx conn_rx].
    + rewrite tx_snoc. exact Htx.
    + symmetry. exact Ea.
    + apply sound_snoc; [exact Hs|]. intros fd Hw. cbn [works_on] in Hw. injection Hw as <-. apply Ho.
      rewrite Er, E1, map_app. apply in_or_app. right. apply in_or_app. right. left. reflexivity.
    + rewrite Ef, Eg, app_assoc. exact N1.
    + intros fd. rewrite opened_snoc, Ef, Eg, app_assoc. split; intros Q.
      * apply in_remove in Q. destruct Q as [Q1 Q2]. apply Ho in Q1. rewrite Er, E1, map_app, app_assoc in Q1.
        cbn [map] in Q1. apply in_app_or in Q1. apply in_or_app. destruct Q1 as [Q1|[Q1|Q1]]; [left; exact Q1| |right; exact Q1].
        congruence.
      * apply in_in_remove; [intros ->; contradiction|]. apply Ho. rewrite Er, E1, map_app, app_assoc. cbn [map].
        apply in_app_or in Q. apply in_or_app. destruct Q as [Q|Q]; [left; exact Q|right; right; exact Q].
    + intros fd ip' p' us' Q. rewrite rx_snoc in Q. rewrite bound_snoc, patience_snoc. apply (Hb _ _ _ _).
      unfold without in Q. apply in_app_or in Q. rewrite <- (firstn_skipn j (rx_conns l)). apply in_or_app.
      destruct Q as [Q|Q]; [left; exact Q|right]. clear -Q. revert j Q.
      induction (rx_conns l) as [|y r IH]; intros [|j] Q; cbn [skipn] in *; try contradiction.
      * right. exact Q.
      * exact (IH _ Q).
  - (* Tx *)
    destruct (nth_error (conn_tx s) j) as [x|] eqn:E; [|discriminate]. injection H as <- <- _.
    constructor.
    + rewrite tx_snoc. exact Htx.
    + rewrite rx_snoc. exact Hrx.
    + apply sound_snoc; [exact Hs|]. intros fd Hw. cbn [works_on] in Hw. injection Hw as <-. apply Ho.
      rewrite Et. apply in_or_app. left. apply in_map, (nth_error_In _ _ E).
    + unfold tx_fds, rx_fds. rewrite tx_snoc, rx_snoc. exact Hn.
    + intros fd. rewrite opened_snoc. unfold tx_fds, rx_fds. rewrite tx_snoc, rx_snoc. apply Ho.
    + intros fd ip' p' us' Q. rewrite rx_snoc in Q. rewrite bound_snoc, patience_snoc. exact (Hb _ _ _ _ Q).
  - (* Rx *)
    destruct (nth_error (conn_rx s) j) as [x|] eqn:E; [|discriminate]. injection H as <- <- _.
    constructor.
    + rewrite tx_snoc. exact Htx.
    + rewrite rx_snoc. exact Hrx.
    + apply sound_snoc; [exact Hs|]. intros fd Hw. cbn [works_on] in Hw. injection Hw as <-. apply Ho.
      rewrite Er. apply in_or_app. right. apply in_map, (nth_error_In _ _ E).
    + unfold tx_fds, rx_fds. rewrite tx_snoc, rx_snoc. exact Hn.
    + intros fd. rewrite opened_snoc. unfold tx_fds, rx_fds. rewrite tx_snoc, rx_snoc. apply Ho.
    + intros fd ip' p' us' Q. rewrite rx_snoc in Q. rewrite bound_snoc, patience_snoc. exact (Hb _ _ _ _ Q).
Qed.

Lemma run_inv : forall l s t, run created l = Ok (s, t) -> os_ok t -> inv l s t.
Proof.
  induction l as [|o l IH] using rev_ind; intros s t H Hos.
  - cbn in H. injection H as <- <-. constructor; cbn.
    + reflexivity.
    + reflexivity.
    + intros t1 c t2 fd E. destruct t1; discriminate.
    + constructor.
    + intros fd. reflexivity.
    + intros fd ip port us [].
  - rewrite run_snoc in H. destruct (run created l) as [[s1 t1]| | |]; cbn [bind] in H; try discriminate.
    destruct (step s1 o) as [[[s2 c] i]| | |] eqn:E; cbn [bind] in H; try discriminate. injection H as <- <-.
    exact (step_inv _ _ _ _ _ _ _ (IH _ _ eq_refl (os_prefix _ _ Hos)) E Hos).
Qed.

(** ** The destructor *)

Lemma drop_closed : forall fuel i l n, length l = i + n -> n <= 2 * fuel ->
  drop fuel i l = Ok (skipn ((n + 1) / 2) l, map (fun c => CClose (socked_fd c)) (firstn ((n + 1) / 2) l)).
Proof.
  induction fuel as [|f IH]; intros i l n Hl Hn.
  - replace n with 0 by lia. reflexivity.
  - cbn [drop]. destruct (Nat.ltb_spec i (length l)) as [Hi|Hi].
    + destruct l as [|x l]; [cbn in Hi; lia|]. cbn [length] in Hl, Hi.
      unfold rm_connection, guard. cbn [length Nat.ltb Nat.leb nth_error erase bind].
      destruct (Nat.eq_dec n 1) as [->|N1].
      * destruct f; cbn [drop]; [|destruct (Nat.ltb_spec (i + 1) (length l)); [lia|]]; reflexivity.
      * rewrite (IH (i + 1) l (n - 2)) by lia. cbn [bind].
        replace ((n + 1) / 2) with (S ((n - 2 + 1) / 2)).
        -- reflexivity.
        -- replace (n + 1) with (n - 2 + 1 + 1 * 2) by lia. rewrite Nat.div_add by lia. lia.
    + replace n with 0 by lia. reflexivity.
Qed.

Lemma opened_closes : forall ds t x, In x (opened (t ++ map CClose ds)) <-> In x (opened t) /\ ~ In x ds.
Proof.
  induction ds as [|d ds IH] using rev_ind; intros t x.
  - cbn [map]. rewrite app_nil_r. cbn [In]. tauto.
  - rewrite map_app, app_assoc. cbn [map]. rewrite opened_snoc. rewrite in_app_iff. cbn [In]. split.
    + intros H. apply in_remove in H. destruct H as [H1 H2]. apply IH in H1. intuition congruence.
    + intros [H1 H2]. apply in_in_remove; [intros ->; tauto|]. apply IH. tauto.
Qed.

Lemma sound_closes : forall ds t, sound t -> NoDup ds -> (forall d, In d ds -> In d (opened t)) ->
  sound (t ++ map CClose ds).
Proof.
  induction ds as [|d ds IH] using rev_ind; intros t Hs Hn Ho.
  - cbn [map]. rewrite app_nil_r. exact Hs.
  - rewrite map_app, app_assoc. cbn [map]. apply NoDup_remove in Hn. rewrite app_nil_r in Hn. destruct Hn as [N1 N2].
    apply sound_snoc.
    + apply IH; [exact Hs|exact N1|]. intros x Hx. apply Ho, in_or_app. left. exact Hx.
    + intros fd Hw. cbn [works_on] in Hw. injection Hw as <-. apply opened_closes. split; [|exact N2].
      apply Ho, in_or_app. right. left. reflexivity.
Qed.

Lemma destroy_closed : forall s, destroy s =
  Ok (map CClose (firstn ((length (conn_tx s) + 1) / 2) (map socked_fd (conn_tx s))
                  ++ firstn ((length (conn_rx s) + 1) / 2) (map socked_fd (conn_rx s)))).
Proof.
  intros s. unfold destroy.
  rewrite (drop_closed _ 0 _ (length (conn_tx s))) by lia. cbn [bind].
  rewrite (drop_closed _ 0 _ (length (conn_rx s))) by lia. cbn [bind].
  rewrite map_app, !firstn_map, !map_map. reflexivity.
Qed.

Lemma nodup_left : forall A (l r : list A), NoDup (l ++ r) -> NoDup l.
Proof.
  intros A l r. induction l as [|x l IH]; intros H; [constructor|]. cbn [app] in H. apply NoDup_cons_iff in H.
  destruct H as [H1 H2]. constructor; [|exact (IH H2)]. intros Q. apply H1, in_or_app. left. exact Q.
Qed.
Lemma nodup_right : forall A (l r : list A), NoDup (l ++ r) -> NoDup r.
Proof. intros A l r. induction l as [|x l IH]; intros H; [exact H|]. apply NoDup_cons_iff in H. apply IH, H. Qed.

Lemma nodup_halves : forall A n m (l r : list A), NoDup (l ++ r) -> NoDup (firstn n l ++ firstn m r).
Proof.
  intros A n m l r H. rewrite <- (firstn_skipn n l), <- (firstn_skipn m r) in H.
  rewrite app_assoc in H. apply nodup_left in H.
  induction (firstn n l) as [|x a IH]; cbn [app] in *.
  - apply nodup_right in H. exact H.
  - apply NoDup_cons_iff in H. destruct H as [H1 H2]. constructor; [|exact (IH H2)].
    intros Q. apply H1. rewrite !in_app_iff. apply in_app_or in Q. tauto.
Qed.

Lemma rest_in : forall A n m (l r : list A) x, NoDup (l ++ r) ->
  (In x (l ++ r) /\ ~ In x (firstn n l ++ firstn m r)) <-> (In x (skipn n l) \/ In x (skipn m r)).
Proof.
  intros A n m l r x H.
  assert (Permutation (l ++ r) ((firstn n l ++ firstn m r) ++ (skipn n l ++ skipn m r))).
  { rewrite <- (firstn_skipn n l) at 1. rewrite <- (firstn_skipn m r) at 1. rewrite <- !app_assoc.
    apply Permutation_app_head. rewrite !app_assoc. apply Permutation_app_tail, Permutation_app_comm. }
  assert (N := Permutation_NoDup H0 H). rewrite <- in_app_iff. split.
  - intros [H1 H2]. apply (Permutation_in _ H0) in H1. apply in_app_or in H1. tauto.
  - intros H1. split.
    + apply (Permutation_in _ (Permutation_sym H0)), in_or_app. right. exact H1.
    + exact (nodup_other _ _ _ _ N H1).
Qed.
