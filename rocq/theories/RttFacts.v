From Verif Require Import Base Rtt RttSpec.
Open Scope N_scope.

(** ** Buffers *)
Lemma len_app {A} (x y : list A) : len (x ++ y) = len x + len y.
Proof. unfold len. rewrite app_length. lia. Qed.
Lemma copy_to_ok buf off x : off + len x <= len buf ->
  copy_to buf off x = Ok (firstn (N.to_nat off) buf ++ x ++ skipn (N.to_nat (off + len x)) buf).
Proof. intros H. unfold copy_to. replace (off + len x <=? len buf) with true by lia. reflexivity. Qed.
Lemma copy_from_ok buf off n : off + n <= len buf -> copy_from buf off n = Ok (firstn (N.to_nat n) (skipn (N.to_nat off) buf)).
Proof. intros H. unfold copy_from. replace (off + n <=? len buf) with true by lia. reflexivity. Qed.
Lemma copy_len (buf x : list N) off : off + len x <= len buf -> len (firstn (N.to_nat off) buf ++ x ++ skipn (N.to_nat (off + len x)) buf) = len buf.
Proof. intros H. rewrite !len_app. unfold len in *. rewrite firstn_length, skipn_length. lia. Qed.
Lemma copy_to_0 buf x : len x <= len buf -> copy_to buf 0 x = Ok (x ++ skipn (N.to_nat (len x)) buf).
Proof. intros H. rewrite copy_to_ok by lia. reflexivity. Qed.
Lemma copy_from_0 buf n : n <= len buf -> copy_from buf 0 n = Ok (firstn (N.to_nat n) buf).
Proof. intros H. rewrite copy_from_ok by lia. reflexivity. Qed.
Lemma over_len (buf x : list N) : len x <= len buf -> len (x ++ skipn (N.to_nat (len x)) buf) = len buf.
Proof. intros H. rewrite len_app. unfold len in *. rewrite skipn_length. lia. Qed.
Lemma firstn_le {A} n (x y : list A) : (n <= length x)%nat -> firstn n (x ++ y) = firstn n x.
Proof. intros H. rewrite firstn_app. replace (n - length x)%nat with 0%nat by lia. cbn [firstn]. apply app_nil_r. Qed.
Lemma firstn_exact {A} n (x y : list A) : n = length x -> firstn n (x ++ y) = x.
Proof. intros ->. rewrite firstn_le by lia. apply firstn_all. Qed.
Lemma bytes_len n z : length (bytes_of n z) = n.
Proof. revert z. induction n as [|n IH]; intros z; cbn [bytes_of length]; [|rewrite IH]; reflexivity. Qed.
Lemma number_bytes n z : number_of (bytes_of n z) = (z mod 2 ^ (8 * Z.of_nat n))%Z.
Proof.
  revert z. induction n as [|n IH]; intros z; cbn [bytes_of number_of].
  - change (8 * Z.of_nat 0)%Z with 0%Z. change (2 ^ 0)%Z with 1%Z. rewrite Z.mod_1_r. reflexivity.
  - rewrite IH. rewrite Z2N.id by (apply Z.mod_pos_bound; lia).
    replace (8 * Z.of_nat (S n))%Z with (8 + 8 * Z.of_nat n)%Z by lia. rewrite Z.pow_add_r by lia. change (2 ^ 8)%Z with 256%Z.
    rewrite Z.rem_mul_r by (try apply Z.pow_pos_nonneg; lia). reflexivity.
Qed.
Lemma int64_bytes z : (- 2 ^ 63 <= z < 2 ^ 63)%Z -> int64_of (bytes_of 8 z) = z.
Proof.
  intros H. unfold int64_of. rewrite number_bytes. change (8 * Z.of_nat 8)%Z with 64%Z.
  change (2 ^ 63)%Z with 9223372036854775808%Z in *. change (2 ^ 64)%Z with 18446744073709551616%Z.
  destruct (Z.ltb_spec (z mod 18446744073709551616) 9223372036854775808); lia.
Qed.


(** ** A measurement *)
Section meas.
Variables (cf cp : cfg).
Hypothesis CF : configured cf cp.
Notation tb := (c_tb cf).

(** Where the one question is; the last argument is what happened to the watch since it was asked. *)
Inductive token (s : sys) : list out -> Prop :=
| Idle : y_question s = None -> quiet s -> token s []
| Asked q : y_question s = Some q -> len q <= tb -> min_byte <= len q -> f_data (y_ft s) = [q] ->
    filter (fun c => c =? 0) (y_jobs s) = [0] -> y_up s = [] -> y_down s = [] -> y_socket s = [] -> token s []
| Up q p t : y_question s = Some q -> min_byte <= len q -> f_data (y_ft s) = [] -> ~ In 0 (y_jobs s) ->
    y_up s = [p] -> y_down s = [] -> y_socket s = [] -> clock_ok t -> f_start (y_ft s) = t ->
    len (k_data p) = tb -> firstn 8 (k_data p) = firstn 8 q -> token s [Started t]
| Down q p t : y_question s = Some q -> min_byte <= len q -> f_data (y_ft s) = [] -> ~ In 0 (y_jobs s) ->
    y_up s = [] -> y_down s = [p] -> y_socket s = [] -> clock_ok t -> f_start (y_ft s) = t ->
    len (k_data p) = tb -> firstn 8 (k_data p) = firstn 8 q -> token s [Started t]
| Back q a t t' : y_question s = Some q -> min_byte <= len q -> f_data (y_ft s) = [] -> ~ In 0 (y_jobs s) ->
    y_up s = [] -> y_down s = [] -> y_socket s = [a] -> clock_ok t -> clock_ok t' ->
    len a = tb -> firstn 8 a = firstn 8 q -> firstn 8 (skipn 8 a) = bytes_of 8 (t' - t) -> token s [Started t; Stopped t']
| Lost q w : y_question s = Some q -> quiet s -> token s w.
Definition inv (s : sys) (w : list out) : Prop :=
  token s w /\ Forall (fun c => c = 0 \/ c = 1) (y_jobs s) /\ len (f_stage (y_ft s)) = max_byte /\ len (f_stage (y_pt s)) = max_byte.

(** What a finished measurement reports. *)
Definition good_result (w : list out) (o : out) : Prop :=
  match o with
  | Result q None r => r = mkResult 0 (-1)
  | Result q (Some a) r => len a = tb /\ firstn 8 a = firstn 8 q /\
      exists t t', w = [Started t; Stopped t'] /\ r = if len q =? tb then mkResult tb (t' - t) else mkResult tb (-1)
  | _ => True
  end.

Lemma generate_pt a now s : c_tb cp <= len a -> len (f_stage s) = max_byte ->
  exists s' t, generate_packet_asap cp (Some a) now s = Ok (s', Some (mkPacket (f_order s) t (firstn (N.to_nat tb) (f_stage s)))) /\
    f_stage s' = f_stage s.
Proof using CF.
  intros A ST. destruct CF as (_ & FP & TB & R). unfold generate_packet_asap. replace (c_tb cp <=? len a) with true by lia.
  cbn [guard bind]. rewrite FP. rewrite copy_from_0 by (rewrite ST; lia). cbn [bind].
  assert (LX : len (firstn (N.to_nat (c_tb cp)) (f_stage s)) = c_tb cp) by (unfold len in *; rewrite firstn_length; lia).
  rewrite copy_to_0 by (rewrite LX; lia). cbn [bind]. rewrite copy_from_0 by (rewrite over_len; rewrite ?LX; lia). cbn [bind].
  rewrite firstn_exact by (unfold len in LX; lia). eexists _, _. rewrite TB. split; reflexivity.
Qed.
Lemma generate_ft a now s d : tb <= len a -> f_data s = [d] -> len d <= tb -> min_byte <= len d ->
  exists s' t x, generate_packet_asap cf (Some a) now s = Ok (s', Some (mkPacket (f_order s) t x)) /\
    len x = tb /\ firstn 8 x = firstn 8 d /\ f_stage s' = f_stage s /\ f_data s' = [] /\ f_start s' = f_start s.
Proof using CF.
  intros A D L M. destruct CF as (FF & _ & _ & R). unfold generate_packet_asap. replace (tb <=? len a) with true by lia.
  cbn [guard bind]. rewrite FF, D. replace (len d <=? tb) with true by lia. cbn [guard]. rewrite copy_to_0 by lia. cbn [bind set_data].
  rewrite copy_from_0 by (rewrite over_len; lia). cbn [bind]. eexists _, _, _. split; [reflexivity|].
  split; [unfold len in *; rewrite firstn_length, app_length, skipn_length; lia|]. split; [|repeat split].
  change (min_byte) with 16 in *. rewrite firstn_firstn. replace (Nat.min 8 (N.to_nat tb)) with 8%nat by lia.
  apply firstn_le. unfold len in *. lia.
Qed.
Lemma pdc_pt a rest clock now s p : len (k_data p) = tb -> tb <= len a -> len (f_stage s) = max_byte ->
  exists s' t, work_pdc_internal cp (k_data p ++ rest) (len (k_data p)) (Some a) clock now s = Ok (s', None, Some (mkPacket (f_order s) t (k_data p))) /\
    len (f_stage s') = max_byte.
Proof using CF.
  intros L A ST. pose proof CF as (_ & FP & TB & R). unfold work_pdc_internal. rewrite FP. rewrite copy_from_0 by (rewrite len_app; lia). cbn [bind].
  rewrite firstn_exact by (unfold len; lia). rewrite copy_to_0 by lia. cbn [bind].
  destruct (generate_pt a now (set_stage (k_data p ++ skipn (N.to_nat (len (k_data p))) (f_stage s)) s)) as (s' & t & E & F).
  { lia. }
  { cbn [set_stage f_stage]. rewrite over_len; lia. }
  rewrite E. cbn [bind]. eexists _, _. split.
  - cbn [set_stage f_stage f_order]. rewrite firstn_exact by (unfold len in L; lia). reflexivity.
  - rewrite F. cbn [set_stage f_stage]. rewrite over_len; lia.
Qed.
Lemma pdc_ft rest clock now s p : len (k_data p) = tb -> len (f_stage s) = max_byte ->
  exists s' a, work_pdc_internal cf (k_data p ++ rest) (len (k_data p)) None clock now s = Ok (s', Some a, None) /\
    len (f_stage s') = max_byte /\ f_data s' = f_data s /\ f_start s' = f_start s /\
    len a = tb /\ firstn 8 a = firstn 8 (k_data p) /\ firstn 8 (skipn 8 a) = bytes_of 8 (clock - f_start s).
Proof using CF.
  intros L ST. pose proof CF as (FF & _ & _ & R). unfold work_pdc_internal. rewrite FF. change verify_byte with 8. change min_byte with 16 in R. change max_byte with 2000 in *.
  rewrite copy_from_0 by (rewrite len_app; lia). cbn [bind]. change (N.to_nat 8) with 8%nat. rewrite firstn_le by (unfold len in L; lia).
  set (x := firstn 8 (k_data p)). assert (X : length x = 8%nat) by (unfold x; rewrite firstn_length; unfold len in L; lia).
  assert (X' : len x = 8) by (unfold len; lia).
  rewrite copy_to_0 by lia. cbn [bind].
  set (b := bytes_of 8 (clock - f_start s)). assert (BL : length b = 8%nat) by (unfold b; apply bytes_len). assert (BL' : len b = 8) by (unfold len; lia).
  assert (L1 : len (x ++ skipn (N.to_nat (len x)) (f_stage s)) = 2000) by (rewrite over_len; lia).
  rewrite copy_to_ok by lia. cbn [bind]. change (N.to_nat 8) with 8%nat. rewrite (firstn_exact 8 x) by lia.
  set (tl := skipn (N.to_nat (8 + len b)) (x ++ skipn (N.to_nat (len x)) (f_stage s))).
  assert (L2 : len (x ++ b ++ tl) = 2000).
  { rewrite <- L1. rewrite !len_app. unfold tl. unfold len in *. rewrite skipn_length, !app_length in *. lia. }
  rewrite copy_from_0 by lia. cbn [bind]. eexists _, _. split; [reflexivity|]. cbn [f_stage f_data f_start].
  split; [exact L2|]. split; [reflexivity|]. split; [reflexivity|]. split; [unfold len in *; rewrite firstn_length; lia|]. split.
  - rewrite firstn_firstn. replace (Nat.min 8 (N.to_nat (len (k_data p)))) with 8%nat by lia. apply firstn_exact. lia.
  - rewrite skipn_firstn_comm. rewrite firstn_firstn. replace (Nat.min 8 _) with 8%nat by lia.
    rewrite skipn_app. replace (skipn 8 x) with (@nil N) by (symmetry; apply skipn_all2; lia). replace (8 - length x)%nat with 0%nat by lia.
    cbn [app]. rewrite skipn_O. apply firstn_exact. lia.
Qed.

Lemma none0 js : ~ In 0 js -> filter (fun c => c =? 0) js = [].
Proof. intros H. induction js as [|c js IH]; [reflexivity|]. cbn [filter]. destruct (N.eqb_spec c 0) as [->|_]; [cbn in H; tauto|apply IH; cbn in H; tauto]. Qed.
Lemma filter0 js : filter (fun c => c =? 0) js = [] -> ~ In 0 js.
Proof. intros H I. assert (X : In 0 (filter (fun c => c =? 0) js)) by (apply filter_In; auto). rewrite H in X. contradiction. Qed.

Ltac cs := cbn [y_question y_socket y_jobs y_ft y_pt y_up y_down f_data f_start f_stage set_data] in *.
(** The step changes nothing. *)
Ltac same := eexists _, _; split; [reflexivity|]; split; [split; [eassumption|repeat split; assumption]|constructor].

Lemma step_ok s w e : inv s w -> fair cf s e ->
  exists s' o, step cf cp s e = Ok (s', o) /\ inv s' (watch_since o w) /\ Forall (good_result w) o.
Proof using CF.
  intros (T & J & SF & SP) F. destruct s as [question socket jobs ft pt up down]. cs.
  pose proof CF as (FF & FP & TB & R). destruct e; cbn [step fair] in *.
  - (* Ask *) destruct F as (-> & L). destruct question as [q|]; [same|].
    inversion T as [Q QT|q Q|q p t Q|q p t Q|q a t t' Q|q w' Q]; clear T; cs; try discriminate; subst.
    destruct QT as (QD & QJ & QU & QW & QS); cs. replace (min_byte <=? len d) with true by lia.
    replace (len d <=? max_byte) with true by lia. cbn [andb guard]. unfold arrives. rewrite QD. change (len (@nil (list N)) <? 3) with true. cbv iota.
    eexists _, _. split; [reflexivity|]. split; [|constructor]. split; [|cs; split; [apply Forall_app; auto|auto]].
    cbn [watch_since]. apply Asked with (q := d); cs; auto; try lia. rewrite filter_app, (none0 jobs) by exact QJ. reflexivity.
  - (* Print *) subst job. destruct question as [q|]; [same|].
    inversion T as [Q QT|q Q|q p t Q|q p t Q|q a t t' Q|q w' Q]; clear T; cs; try discriminate; subst.
    destruct QT as (QD & QJ & QU & QW & QS); cs. destruct (arrives [] (f_print ft)) as [pq|].
    + eexists _, _. split; [reflexivity|]. split; [|constructor]. split; [|cs; split; [apply Forall_app; auto|auto]].
      apply Idle; [reflexivity|]. repeat split; cs; auto. rewrite in_app_iff. intros [I|[I|[]]]; [auto|discriminate].
    + eexists _, _. split; [reflexivity|]. split; [|constructor]. split; [|auto]. apply Idle; [reflexivity|]. repeat split; auto.
  - (* Job *) destruct harq as [a|]; [|tauto]. destruct F as (A & C). destruct jobs as [|c jobs]; [same|].
    inversion J as [|? ? JC JJ]; subst. unfold work_application. rewrite FF. destruct JC as [-> | ->].
    + change (0 =? 1) with false. cbv iota.
      inversion T as [Q QT|q Q QL QM QD QF QU QW QS|q p t Q QM QD QJ|q p t Q QM QD QJ|q b t t' Q QM QD QJ|q w' Q QT]; clear T; cs; subst;
        try (exfalso; apply QJ; left; reflexivity); try (exfalso; destruct QT as (_ & QJ & _); cs; apply QJ; left; reflexivity).
      set (s0 := mkFw _ _ _ _ clock _ _ _ _ _).
      destruct (generate_ft a now s0 q A) as (s' & t & x & E & X1 & X2 & X3 & X4 & X5); [assumption..|].
      rewrite E. cbn [bind]. eexists _, _. split; [reflexivity|]. cbn [app sent watch_since to_list].
      cbn [filter] in QF. change (0 =? 0) with true in QF. cbv iota in QF. injection QF as QF.
      split; [|repeat constructor]. split; [|cs; rewrite X3; auto].
      eapply Up with (q := q); cs; eauto using filter0.
    + change (1 =? 1) with true. cbv iota. cbn [bind to_list sent app]. eexists _, _. split; [reflexivity|]. split; [|repeat constructor].
      split; [|cs; auto]. cbn [watch_since]. rewrite app_nil_r.
      inversion T as [Q QT|q Q QL QM QD QF QU QW QS|q p t Q QM QD QJ|q p t Q QM QD QJ|q b t t' Q QM QD QJ|q w' Q QT]; clear T; cs; subst.
      * apply Idle; [reflexivity|]. destruct QT as (? & QJ & ?); cs. split; [assumption|]. split; [cs; cbn [In] in QJ; tauto|assumption].
      * apply Asked with (q := q); cs; auto.
      * eapply Up with (q := q); cs; eauto. cbn [In] in QJ; tauto.
      * eapply Down with (q := q); cs; eauto. cbn [In] in QJ; tauto.
      * eapply Back with (q := q); cs; eauto. cbn [In] in QJ; tauto.
      * eapply Lost with (q := q); [reflexivity|]. destruct QT as (? & QJ & ?); cs. split; [assumption|]. split; [cs; cbn [In] in QJ; tauto|assumption].
  - (* Hear_pt *) destruct F as (-> & F). destruct harq as [a|]; [|tauto]. destruct up as [|p up]; [same|].
    inversion T as [Q QT|q Q QL QM QD QF QU QW QS|q p' t Q QM QD QJ QU QW QS QC QT QK Q8|q p' t Q QM QD QJ QU|q b t t' Q QM QD QJ QU|q w' Q QT]; clear T; cs; subst; try discriminate;
      try (destruct QT as (_ & _ & QU & _); cs; discriminate).
    injection QU as -> ->. destruct (pdc_pt a rest clock now pt p' QK F SP) as (s' & t' & E & L). rewrite E. cbn [bind app to_list sent].
    eexists _, _. split; [reflexivity|]. split; [|repeat constructor]. split; [|cs; auto]. cbn [watch_since].
    eapply Down with (q := q); cs; eauto.
  - (* Hear_ft *) destruct F as (-> & C). destruct down as [|p down]; [same|].
    inversion T as [Q QT|q Q QL QM QD QF QU QW QS|q p' t Q QM QD QJ QU QW|q p' t Q QM QD QJ QU QW QS QC QT QK Q8|q b t t' Q QM QD QJ QU QW|q w' Q QT]; clear T; cs; subst; try discriminate;
      try (destruct QT as (_ & _ & _ & QW & _); cs; discriminate).
    injection QW as -> ->. destruct (pdc_ft rest clock now ft p' QK SF) as (s' & b & E & L & X1 & X2 & X3 & X4 & X5). rewrite E. cbn [bind app to_list].
    eexists _, _. split; [reflexivity|]. split; [|repeat constructor]. split; [|cs; auto]. cbn [watch_since app].
    eapply Back with (q := q); cs; eauto; congruence.
  - (* Lose_up *) eexists _, _. split; [reflexivity|]. split; [|constructor]. split; [|cs; auto]. cbn [watch_since].
    inversion T as [Q QT|q Q QL QM QD QF QU QW QS|q p t Q QM QD QJ QU QW QS|q p t Q QM QD QJ QU|q b t t' Q QM QD QJ QU|q w' Q QT]; clear T; cs; subst; cbn [tl].
    + apply Idle; [reflexivity|]. destruct QT as (? & ? & QU & ? & ?); cs; subst. repeat split; auto.
    + apply Asked with (q := q); cs; auto.
    + apply Lost with (q := q); [reflexivity|]. repeat split; auto.
    + eapply Down with (q := q); cs; eauto.
    + eapply Back with (q := q); cs; eauto.
    + apply Lost with (q := q); [reflexivity|]. destruct QT as (? & ? & QU & ? & ?); cs; subst. repeat split; auto.
  - (* Lose_down *) eexists _, _. split; [reflexivity|]. split; [|constructor]. split; [|cs; auto]. cbn [watch_since].
    inversion T as [Q QT|q Q QL QM QD QF QU QW QS|q p t Q QM QD QJ QU QW QS|q p t Q QM QD QJ QU QW QS|q b t t' Q QM QD QJ QU QW|q w' Q QT]; clear T; cs; subst; cbn [tl].
    + apply Idle; [reflexivity|]. destruct QT as (? & ? & ? & QU & ?); cs; subst. repeat split; auto.
    + apply Asked with (q := q); cs; auto.
    + eapply Up with (q := q); cs; eauto.
    + apply Lost with (q := q); [reflexivity|]. repeat split; auto.
    + eapply Back with (q := q); cs; eauto.
    + apply Lost with (q := q); [reflexivity|]. destruct QT as (? & ? & ? & QU & ?); cs; subst. repeat split; auto.
  - (* Answer *) destruct question as [q|]; [|same]. destruct socket as [|a socket]; [same|].
    inversion T as [Q QT|q' Q QL QM QD QF QU QW QS|q' p t Q QM QD QJ QU QW QS|q' p t Q QM QD QJ QU QW QS|q' b t t' Q QM QD QJ QU QW QS QC QC' QK Q8 QB|q' w' Q QT]; clear T; cs; subst; try discriminate;
      try (destruct QT as (_ & _ & _ & _ & QS); cs; discriminate).
    injection QS as -> ->. injection Q as <-. unfold evaluate. change max_byte with 2000 in *. change min_byte with 16 in *.
    rewrite firstn_all2 by (unfold len in QK; lia). cbv zeta. replace (len b =? 0) with false by lia.
    assert (I : inv (mkSys None [] jobs ft pt [] []) []).
    { split; [|cs; auto]. apply Idle; [reflexivity|]. repeat split; auto. }
    rewrite QK. destruct (N.eqb_spec tb (len q)) as [EQ|NE].
    + change verify_byte with 8. rewrite copy_from_ok by lia. cbn [bind]. change (N.to_nat 8) with 8%nat. rewrite QB.
      rewrite int64_bytes by (unfold clock_ok in *; change (2 ^ 62)%Z with 4611686018427387904%Z in *; change (2 ^ 63)%Z with 9223372036854775808%Z; lia).
      eexists _, _. split; [reflexivity|]. split; [exact I|]. constructor; [|constructor]. split; [exact QK|]. split; [exact Q8|].
      exists t, t'. split; [reflexivity|]. rewrite EQ, N.eqb_refl. reflexivity.
    + cbn [bind]. eexists _, _. split; [reflexivity|]. split; [exact I|]. constructor; [|constructor]. split; [exact QK|]. split; [exact Q8|].
      exists t, t'. split; [reflexivity|]. replace (len q =? tb) with false by lia. reflexivity.
  - (* Timeout *) destruct question as [q|]; [|same]. destruct socket as [|a socket]; [|same].
    cbn [evaluate bind]. eexists _, _. split; [reflexivity|]. split; [|repeat constructor]. split; [|cs; auto]. cbn [watch_since].
    apply Idle; [reflexivity|]. destruct F as (? & ? & ? & ? & ?); cs. repeat split; auto.
Qed.

Lemma watch_app os os' w : watch_since (os ++ os') w = watch_since os' (watch_since os w).
Proof. revert w. induction os as [|o os IH]; intros w; [reflexivity|]. destruct o; cbn [app watch_since]; apply IH. Qed.

(** One step ends at most one measurement, and then does nothing else. *)
Lemma step_alone s e s' o : step cf cp s e = Ok (s', o) -> (exists x, o = [x]) \/ forall q a r, ~ In (Result q a r) o.
Proof.
  intros H. destruct s as [question socket jobs ft pt up down]. destruct e; cbn [step] in H.
  - destruct question; [injection H as <- <-; right; cbn; tauto|]. destruct (_ && _); [cbn [guard] in H|discriminate].
    destruct (arrives _ _); injection H as <- <-; right; cbn; tauto.
  - destruct question; [injection H as <- <-; right; cbn; tauto|]. destruct (arrives _ _); injection H as <- <-; right; cbn; tauto.
  - destruct jobs as [|c jobs]; [injection H as <- <-; right; cbn; tauto|]. destruct (work_application _ _ _ _ _ _) as [[f p]| | |]; try discriminate.
    cbn [bind] in H. injection H as <- <-. right. intros q a r I. destruct (c =? 1), p; cbn in I; intuition discriminate.
  - destruct up as [|p up]; [injection H as <- <-; right; cbn; tauto|]. destruct (work_pdc_internal _ _ _ _ _ _ _) as [[[f d] p']| | |]; try discriminate.
    cbn [bind] in H. injection H as <- <-. right. intros q a r I. destruct p'; cbn in I; intuition discriminate.
  - destruct down as [|p down]; [injection H as <- <-; right; cbn; tauto|]. destruct (work_pdc_internal _ _ _ _ _ _ _) as [[[f d] p']| | |]; try discriminate.
    cbn [bind] in H. injection H as <- <-. right. intros q a r I. cbn in I; intuition discriminate.
  - injection H as <- <-. right; cbn; tauto.
  - injection H as <- <-. right; cbn; tauto.
  - destruct question as [q|], socket as [|a socket]; try (injection H as <- <-; right; cbn; tauto).
    destruct (evaluate _ _); try discriminate. injection H as <- <-. left. eauto.
  - destruct question as [q|], socket as [|a socket]; try (injection H as <- <-; right; cbn; tauto).
    destruct (evaluate _ _); try discriminate. injection H as <- <-. left. eauto.
Qed.

Lemma run_ok es : forall s w, inv s w -> fair_run cf cp s es ->
  exists s' os, run cf cp s es = Ok (s', os) /\
    forall pre q a r post, os = pre ++ Result q a r :: post -> good_result (watch_since pre w) (Result q a r).
Proof using CF.
  induction es as [|e es IH]; intros s w I F; cbn [run fair_run] in *.
  - eexists _, _. split; [reflexivity|]. intros [|? ?]; discriminate.
  - destruct F as [F FR]. destruct (step_ok s w e I F) as (s1 & o & E & I1 & G). rewrite E. cbn [bind].
    destruct (IH s1 (watch_since o w) I1 (FR s1 o E)) as (s2 & os & E2 & G2). rewrite E2. cbn [bind].
    eexists _, _. split; [reflexivity|]. intros pre q a r post S.
    destruct (step_alone _ _ _ _ E) as [[x ->]|NR].
    + destruct pre as [|y pre]; cbn [app] in S.
      * injection S as -> _. inversion G; subst. assumption.
      * injection S as -> S. change (y :: pre) with ([y] ++ pre). rewrite watch_app. apply G2 with (1 := S).
    + assert (exists pre', pre = o ++ pre') as [pre' ->].
      { clear - S NR. revert pre S. induction o as [|y o IH]; intros pre S; [exists pre; reflexivity|].
        destruct pre as [|z pre]; cbn [app] in S.
        - injection S as -> _. exfalso. apply (NR q a r). left. reflexivity.
        - injection S as -> S. destruct (IH (fun q a r I => NR q a r (or_intror I)) pre S) as [pre' ->]. exists pre'. reflexivity. }
      rewrite <- app_assoc in S. apply app_inv_head in S. rewrite watch_app. apply G2 with (1 := S).
Qed.
Lemma inv_new : inv sys_new [].
Proof.
  split; [|split; [constructor|split; reflexivity]]. apply Idle; [reflexivity|]. repeat split; cbn; auto.
Qed.
End meas.

(** ** Statistics *)
Definition stats_ok (s : fw) (t : tally) : Prop :=
  f_tx_cnt s = w32 (t_started t) /\ f_rx_cnt s = w32 (len (t_times t)) /\ f_start s = t_start t /\
  f_min s = fold_left Z.min (t_times t) (- UNDEFINED_EARLY_64)%Z /\ f_max s = fold_left Z.max (t_times t) UNDEFINED_EARLY_64.
Definition good_print (t : tally) (o : out) : Prop :=
  match o with
  | Printed tx rx mn mx => tx = w32 (t_started t) /\ rx = w32 (len (t_times t)) /\
      mn = fold_left Z.min (t_times t) (- UNDEFINED_EARLY_64)%Z /\ mx = fold_left Z.max (t_times t) UNDEFINED_EARLY_64
  | _ => True
  end.
Lemma w32_succ n : w32 (w32 n + 1) = w32 (n + 1).
Proof. unfold w32. change (2 ^ 32) with 4294967296. lia. Qed.
Lemma stats_gen c h now s s' p : generate_packet_asap c h now s = Ok (s', p) ->
  f_tx_cnt s' = f_tx_cnt s /\ f_rx_cnt s' = f_rx_cnt s /\ f_start s' = f_start s /\ f_min s' = f_min s /\ f_max s' = f_max s.
Proof.
  unfold generate_packet_asap. intros H. destruct h as [a|]; [|injection H as <- <-; auto].
  destruct (_ <=? _) in H; [cbn [guard] in H|discriminate]. destruct (c_ft c).
  - destruct (f_data s) as [|d q]; [discriminate|]. destruct (_ <=? _) in H; [cbn [guard] in H|discriminate].
    destruct (copy_to _ _ _) in H; try discriminate. cbn [bind] in H. destruct (copy_from _ _ _) in H; try discriminate.
    injection H as <- <-. repeat split.
  - destruct (copy_from _ _ _) in H; try discriminate. cbn [bind] in H. destruct (copy_to _ _ _) in H; try discriminate. cbn [bind] in H.
    destruct (copy_from _ _ _) in H; try discriminate. injection H as <- <-. repeat split.
Qed.
Lemma stats_step cf cp s e s' o t : c_ft cf = true -> step cf cp s e = Ok (s', o) -> stats_ok (y_ft s) t ->
  stats_ok (y_ft s') (fold_left count o t) /\
  forall pre x post, o = pre ++ x :: post -> good_print (fold_left count pre t) x.
Proof.
  intros FF H I. destruct s as [question socket jobs ft pt up down]. cbn [y_ft] in I.
  assert (TRIV : forall s0 : sys, y_ft s0 = ft -> Ok (s0, []) = Ok (s', o) -> stats_ok (y_ft s') (fold_left count o t) /\
    forall pre x post, o = pre ++ x :: post -> good_print (fold_left count pre t) x).
  { intros s0 E0 E. injection E as <- <-. rewrite E0. split; [exact I|]. intros [|? ?]; discriminate. }
  destruct e; cbn [step] in H.
  - destruct question; [eapply TRIV; [|exact H]; reflexivity|]. destruct (_ && _); [cbn [guard] in H|discriminate].
    destruct (arrives _ _); [|eapply TRIV; [|exact H]; reflexivity].
    injection H as <- <-. split; [exact I|]. intros [|? ?]; discriminate.
  - destruct question; [eapply TRIV; [|exact H]; reflexivity|]. destruct (arrives _ _); [|eapply TRIV; [|exact H]; reflexivity].
    injection H as <- <-. split; [exact I|]. intros [|? ?]; discriminate.
  - destruct jobs as [|c jobs]; [eapply TRIV; [|exact H]; reflexivity|]. unfold work_application in H. rewrite FF in H.
    destruct (c =? 1).
    + cbn [bind sent] in H. injection H as <- <-. cbn [y_ft fold_left count]. split.
      * destruct I as (_ & _ & I & _). repeat split. exact I.
      * intros [|? pre] x post S; cbn [app] in S; [injection S as <- _|injection S as _ S; destruct pre; discriminate].
        destruct I as (I1 & I2 & _ & I3 & I4). cbn [fold_left good_print]. auto.
    + set (s0 := mkFw _ _ _ _ clock _ _ _ _ _) in H. destruct (generate_packet_asap _ _ _ _) as [[s1 p]| | |] eqn:G; try discriminate.
      cbn [bind] in H. injection H as <- <-. apply stats_gen in G. unfold s0 in G. cbn [f_tx_cnt f_rx_cnt f_start f_min f_max] in G.
      destruct G as (G1 & G2 & G3 & G4 & G5). destruct I as (I1 & I2 & _ & I3 & I4). split.
      * replace (fold_left count (Started clock :: sent true p) t) with (count t (Started clock)) by (destruct p; reflexivity).
        unfold stats_ok. cbn [y_ft f_tx_cnt f_rx_cnt f_start f_min f_max count t_started t_start t_times].
        rewrite G1, G2, G3, G4, G5, I1, w32_succ. auto.
      * intros pre x post S. assert (IN : In x (Started clock :: sent true p)) by (rewrite S; apply in_or_app; right; left; reflexivity).
        destruct p; cbn in IN; destruct IN as [<-|IN]; try exact Logic.I; [destruct IN as [<-|[]]; exact Logic.I|contradiction].
  - destruct up as [|p up]; [eapply TRIV; [|exact H]; reflexivity|]. destruct (work_pdc_internal _ _ _ _ _ _ _) as [[[f d] p']| | |]; try discriminate.
    cbn [bind] in H. injection H as <- <-. cbn [y_ft]. split; [destruct p'; exact I|]. intros pre x post S.
    assert (IN : In x (sent false p')) by (rewrite S; apply in_or_app; right; left; reflexivity).
    destruct p'; cbn in IN; [destruct IN as [<-|[]]; exact Logic.I|contradiction].
  - destruct down as [|p down]; [eapply TRIV; [|exact H]; reflexivity|]. unfold work_pdc_internal in H. rewrite FF in H.
    destruct (copy_from _ 0 verify_byte) in H; try discriminate. cbn [bind] in H. destruct (copy_to _ 0 _) in H; try discriminate. cbn [bind] in H.
    destruct (copy_to _ _ _) in H; try discriminate. cbn [bind] in H. destruct (copy_from _ _ _) in H; try discriminate. cbn [bind] in H.
    injection H as <- <-. cbn [y_ft fold_left count]. destruct I as (I1 & I2 & I5 & I3 & I4). split.
    + unfold stats_ok. cbn [f_tx_cnt f_rx_cnt f_start f_min f_max count t_started t_start t_times].
      rewrite !fold_left_app, len_app, <- I3, <- I4, I2, I5. change (len [(clock - t_start t)%Z]) with 1. rewrite w32_succ. cbn [fold_left]. auto.
    + intros [|? pre] x post S; cbn [app] in S; [injection S as <- _; exact Logic.I|injection S as _ S; destruct pre; discriminate].
  - eapply TRIV; [|exact H]; reflexivity.
  - eapply TRIV; [|exact H]; reflexivity.
  - destruct question as [q|], socket as [|a socket]; try (eapply TRIV; [|exact H]; reflexivity).
    destruct (evaluate _ _); try discriminate. injection H as <- <-. split; [exact I|].
    intros [|? pre] x post S; cbn [app] in S; [injection S as <- _; exact Logic.I|injection S as _ S; destruct pre; discriminate].
  - destruct question as [q|], socket as [|a socket]; try (eapply TRIV; [|exact H]; reflexivity).
    destruct (evaluate _ _); try discriminate. injection H as <- <-. split; [exact I|].
    intros [|? pre] x post S; cbn [app] in S; [injection S as <- _; exact Logic.I|injection S as _ S; destruct pre; discriminate].
Qed.
Lemma app_split {A} (o os pre post : list A) x : o ++ os = pre ++ x :: post ->
  (exists post', o = pre ++ x :: post') \/ exists pre', pre = o ++ pre' /\ os = pre' ++ x :: post.
Proof.
  revert pre. induction o as [|y o IH]; intros pre S; [right; exists pre; split; [reflexivity|exact S]|].
  destruct pre as [|z pre]; cbn [app] in S.
  - injection S as -> _. left. exists o. reflexivity.
  - injection S as -> S. destruct (IH pre S) as [[post' ->]|(pre' & -> & E)]; [left; exists post'; reflexivity|right; exists pre'; auto].
Qed.
Lemma stats_run cf cp es : c_ft cf = true -> forall s t s' os, run cf cp s es = Ok (s', os) -> stats_ok (y_ft s) t ->
  forall pre x post, os = pre ++ x :: post -> good_print (fold_left count pre t) x.
Proof.
  intros FF. induction es as [|e es IH]; intros s t s' os R I pre x post S; cbn [run] in R.
  - injection R as <- <-. destruct pre; discriminate.
  - destruct (step cf cp s e) as [[s1 o]| | |] eqn:E; try discriminate. cbn [bind] in R.
    destruct (run cf cp s1 es) as [[s2 os2]| | |] eqn:E2; try discriminate. cbn [bind] in R. injection R as <- <-.
    destruct (stats_step _ _ _ _ _ _ t FF E I) as [I1 G]. destruct (app_split _ _ _ _ _ S) as [[post' S']|(pre' & -> & S')].
    + eapply G, S'.
    + rewrite fold_left_app. eapply IH; eauto.
Qed.
Lemma fold_min l : forall m, (fold_left Z.min l m <= m)%Z /\ Forall (fun x => (fold_left Z.min l m <= x)%Z) l /\ (fold_left Z.min l m = m \/ In (fold_left Z.min l m) l).
Proof.
  induction l as [|x l IH]; intros m; cbn [fold_left]; [split; [lia|split; [constructor|left; reflexivity]]|].
  destruct (IH (Z.min m x)) as (A & B & C). split; [lia|]. split; [constructor; [lia|exact B]|].
  destruct C as [C|C]; [|right; right; exact C]. rewrite C. destruct (Z.min_spec m x) as [[_ ->]|[_ ->]]; [left; reflexivity|right; left; reflexivity].
Qed.
Lemma fold_max l : forall m, (m <= fold_left Z.max l m)%Z /\ Forall (fun x => (x <= fold_left Z.max l m)%Z) l /\ (fold_left Z.max l m = m \/ In (fold_left Z.max l m) l).
Proof.
  induction l as [|x l IH]; intros m; cbn [fold_left]; [split; [lia|split; [constructor|left; reflexivity]]|].
  destruct (IH (Z.max m x)) as (A & B & C). split; [lia|]. split; [constructor; [lia|exact B]|].
  destruct C as [C|C]; [|right; right; exact C]. rewrite C. destruct (Z.max_spec m x) as [[_ ->]|[_ ->]]; [right; left; reflexivity|left; reflexivity].
Qed.
Lemma fold_least l m : l <> [] -> Forall (fun x => (x <= m)%Z) l -> least (fold_left Z.min l m) l.
Proof.
  intros N F. destruct (fold_min l m) as (_ & B & C). split; [|exact B]. destruct C as [C|C]; [|exact C].
  destruct l as [|x l]; [congruence|]. assert (x = m) as ->; [|rewrite C; left; reflexivity].
  inversion F; subst. inversion B as [|? ? B1 _]; subst. rewrite C in B1. lia.
Qed.
Lemma fold_greatest l m : l <> [] -> Forall (fun x => (m <= x)%Z) l -> greatest (fold_left Z.max l m) l.
Proof.
  intros N F. destruct (fold_max l m) as (_ & B & C). split; [|exact B]. destruct C as [C|C]; [|exact C].
  destruct l as [|x l]; [congruence|]. assert (x = m) as ->; [|rewrite C; left; reflexivity].
  inversion F; subst. inversion B as [|? ? B1 _]; subst. rewrite C in B1. lia.
Qed.

(** ** Transmissions *)
Lemma gen_turn c h now s s' p : generate_packet_asap c h now s = Ok (s', p) ->
  match p with
  | None => f_order s' = f_order s /\ f_earliest s' = f_earliest s
  | Some k => k_order k = f_order s /\ (f_earliest s <= k_time k)%Z /\ (now + c_turnaround c <= k_time k)%Z /\ len (k_data k) = c_tb c /\
      f_order s' = (f_order s + 1)%Z /\ f_earliest s' = (k_time k + c_length c)%Z
  end.
Proof.
  unfold generate_packet_asap. intros H. destruct h as [a|]; [|injection H as <- <-; auto].
  destruct (_ <=? _) in H; [cbn [guard] in H|discriminate].
  assert (CL : forall b o n x, copy_from b o n = Ok x -> len x = n).
  { unfold copy_from. intros b o n x. destruct (N.leb_spec (o + n) (len b)); [|discriminate]. intros E. injection E as <-.
    unfold len in *. rewrite firstn_length, skipn_length. lia. }
  destruct (c_ft c).
  - destruct (f_data s) as [|d q]; [discriminate|]. destruct (_ <=? _) in H; [cbn [guard] in H|discriminate].
    destruct (copy_to _ _ _) in H; try discriminate. cbn [bind set_data f_order f_earliest] in H. destruct (copy_from _ _ _) eqn:Y in H; try discriminate.
    injection H as <- <-. cbn [f_order f_earliest k_order k_time k_data]. apply CL in Y. repeat split; auto; lia.
  - destruct (copy_from _ _ _) in H; try discriminate. cbn [bind] in H. destruct (copy_to _ _ _) in H; try discriminate. cbn [bind] in H.
    destruct (copy_from _ _ _) eqn:Y in H; try discriminate. injection H as <- <-. cbn [f_order f_earliest k_order k_time k_data]. apply CL in Y. repeat split; auto; lia.
Qed.
(** One step of a side: at most one packet, in turn. *)
Definition turn (c : cfg) (s s' : fw) (ps : list packet) : Prop :=
  (ps = [] /\ f_order s' = f_order s /\ f_earliest s' = f_earliest s) \/
  exists k, ps = [k] /\ k_order k = f_order s /\ (f_earliest s <= k_time k)%Z /\ f_order s' = (f_order s + 1)%Z /\ f_earliest s' = (k_time k + c_length c)%Z.
Definition early (cf cp : cfg) (e : ev) (o : list out) : Prop := forall b p, In (Sent b p) o ->
  match e with
  | Job _ _ now => b = true /\ (now + c_turnaround cf <= k_time p)%Z /\ len (k_data p) = c_tb cf
  | Hear_pt _ _ _ _ now => b = false /\ (now + c_turnaround cp <= k_time p)%Z /\ len (k_data p) = c_tb cp
  | _ => False
  end.
Lemma turn_step cf cp s e s' o : c_ft cf = true -> c_ft cp = false -> step cf cp s e = Ok (s', o) ->
  turn cf (y_ft s) (y_ft s') (packets_of true o) /\ turn cp (y_pt s) (y_pt s') (packets_of false o) /\ early cf cp e o.
Proof.
  intros FF FP H. destruct s as [question socket jobs ft pt up down].
  assert (Q : forall s0, y_ft s0 = ft -> y_pt s0 = pt -> Ok (s0, []) = Ok (s', o) ->
    turn cf ft (y_ft s') (packets_of true o) /\ turn cp pt (y_pt s') (packets_of false o) /\ early cf cp e o).
  { intros s0 E1 E2 E. injection E as <- <-. rewrite E1, E2. split; [left; auto|]. split; [left; auto|]. intros ? ? []. }
  cbn [y_ft y_pt]. destruct e; cbn [step] in H.
  - destruct question; [eapply Q; [| |exact H]; reflexivity|]. destruct (_ && _); [cbn [guard] in H|discriminate].
    destruct (arrives _ _); [|eapply Q; [| |exact H]; reflexivity].
    injection H as <- <-. split; [left; auto|]. split; [left; auto|]. intros ? ? [].
  - destruct question; [eapply Q; [| |exact H]; reflexivity|]. destruct (arrives _ _); [|eapply Q; [| |exact H]; reflexivity].
    injection H as <- <-. split; [left; auto|]. split; [left; auto|]. intros ? ? [].
  - destruct jobs as [|c jobs]; [eapply Q; [| |exact H]; reflexivity|]. unfold work_application in H. rewrite FF in H.
    destruct (c =? 1).
    + cbn [bind sent] in H. injection H as <- <-. split; [left; auto|]. split; [left; auto|]. intros ? ? [I|[]]. discriminate.
    + set (s0 := mkFw _ _ _ _ clock _ _ _ _ _) in H. destruct (generate_packet_asap _ _ _ _) as [[s1 p]| | |] eqn:G; try discriminate.
      cbn [bind] in H. injection H as <- <-. apply gen_turn in G. unfold s0 in G. cbn [f_order f_earliest] in G.
      cbn [y_ft y_pt]. destruct p as [k|]; cbn [sent packets_of flat_map Bool.eqb app].
      * destruct G as (G1 & G2 & G3 & G4 & G5 & G6). split; [right; exists k; auto|]. split; [left; auto|].
        intros b p [I|[I|[]]]; [discriminate|]. injection I as <- <-. auto.
      * destruct G as (G1 & G2). split; [left; auto|]. split; [left; auto|]. intros ? ? [I|[]]. discriminate.
  - destruct up as [|p up]; [eapply Q; [| |exact H]; reflexivity|]. unfold work_pdc_internal in H. rewrite FP in H.
    destruct (copy_from _ _ _) in H; try discriminate. cbn [bind] in H. destruct (copy_to _ _ _) in H; try discriminate. cbn [bind] in H.
    destruct (generate_packet_asap _ _ _ _) as [[s1 p']| | |] eqn:G; try discriminate. cbn [bind] in H. injection H as <- <-.
    apply gen_turn in G. cbn [set_stage f_order f_earliest] in G. cbn [y_ft y_pt]. destruct p' as [k|]; cbn [sent packets_of flat_map Bool.eqb app].
    * destruct G as (G1 & G2 & G3 & G4 & G5 & G6). split; [left; auto|]. split; [right; exists k; auto|].
      intros b p' [I|[]]. injection I as <- <-. auto.
    * destruct G as (G1 & G2). split; [left; auto|]. split; [left; auto|]. intros ? ? [].
  - destruct down as [|p down]; [eapply Q; [| |exact H]; reflexivity|]. unfold work_pdc_internal in H. rewrite FF in H.
    destruct (copy_from _ 0 verify_byte) in H; try discriminate. cbn [bind] in H. destruct (copy_to _ 0 _) in H; try discriminate. cbn [bind] in H.
    destruct (copy_to _ _ _) in H; try discriminate. cbn [bind] in H. destruct (copy_from _ _ _) in H; try discriminate. cbn [bind] in H.
    injection H as <- <-. split; [left; auto|]. split; [left; auto|]. intros ? ? [I|[]]. discriminate.
  - eapply Q; [| |exact H]; reflexivity.
  - eapply Q; [| |exact H]; reflexivity.
  - destruct question as [q|], socket as [|a socket]; try (eapply Q; [| |exact H]; reflexivity).
    destruct (evaluate _ _); try discriminate. injection H as <- <-. split; [left; auto|]. split; [left; auto|]. intros ? ? [I|[]]. discriminate.
  - destruct question as [q|], socket as [|a socket]; try (eapply Q; [| |exact H]; reflexivity).
    destruct (evaluate _ _); try discriminate. injection H as <- <-. split; [left; auto|]. split; [left; auto|]. intros ? ? [I|[]]. discriminate.
Qed.
Lemma turn_run cf cp es : c_ft cf = true -> c_ft cp = false -> forall s s' os, run cf cp s es = Ok (s', os) ->
  in_turn (c_length cf) (f_order (y_ft s)) (f_earliest (y_ft s)) (packets_of true os) /\
  in_turn (c_length cp) (f_order (y_pt s)) (f_earliest (y_pt s)) (packets_of false os).
Proof.
  intros FF FP. induction es as [|e es IH]; intros s s' os R; cbn [run] in R.
  - injection R as <- <-. split; exact I.
  - destruct (step cf cp s e) as [[s1 o]| | |] eqn:E; try discriminate. cbn [bind] in R.
    destruct (run cf cp s1 es) as [[s2 os2]| | |] eqn:E2; try discriminate. cbn [bind] in R. injection R as <- <-.
    destruct (turn_step _ _ _ _ _ _ FF FP E) as (T1 & T2 & _). destruct (IH _ _ _ E2) as [I1 I2]. unfold packets_of in *. rewrite !flat_map_app.
    split.
    + destruct T1 as [(-> & T & T')|(k & -> & K1 & K2 & K3 & K4)]; cbn [app].
      * rewrite <- T, <- T'. exact I1.
      * cbn [in_turn]. rewrite K3, K4 in I1. auto.
    + destruct T2 as [(-> & T & T')|(k & -> & K1 & K2 & K3 & K4)]; cbn [app].
      * rewrite <- T, <- T'. exact I2.
      * cbn [in_turn]. rewrite K3, K4 in I2. auto.
Qed.
