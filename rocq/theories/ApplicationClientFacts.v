From Verif Require Import Base DatagramQueue DatagramQueueSpec DatagramQueueFacts.
From Verif Require Import ApplicationClient ApplicationClientSpec.
Import ApplicationClient ApplicationClientSpec.

Definition content (qs : list queue) (i : nat) : list (list N) :=
  match nth_error qs i with Some q => abs q | None => [] end.
Definition total (qs : list queue) : nat := list_sum (map (fun q => length (abs q)) qs).

Definition QI (sz : queue_size) (n : nat) (qs : list queue) : Prop :=
  length qs = n /\
  forall i q, nth_error qs i = Some q ->
    Inv q /\ q_size q = sz /\ Forall (fun d => 0 < length d) (abs q).

Lemma total_upd qs i q q' : nth_error qs i = Some q ->
  total (upd qs i q') + length (abs q) = total qs + length (abs q').
Proof.
  unfold total. revert i; induction qs as [|h qs IH]; intros [|i] E; cbn in E; try discriminate; cbn [upd map list_sum fold_right].
  - injection E as <-. unfold list_sum. cbn [fold_right]. lia.
  - specialize (IH _ E). unfold list_sum in *. cbn [fold_right]. lia.
Qed.

Lemma content_upd qs i q q' j : nth_error qs i = Some q ->
  content (upd qs i q') j = if j =? i then abs q' else content qs j.
Proof.
  intros E. unfold content. destruct (Nat.eqb_spec j i) as [->|Hn].
  - rewrite nth_error_upd_same; [reflexivity|]. apply nth_error_Some; congruence.
  - rewrite nth_error_upd_other by lia. reflexivity.
Qed.

Lemma total_content qs i : length (content qs i) <= total qs.
Proof.
  unfold total, content. revert i; induction qs as [|h qs IH]; intros [|i]; cbn; try lia.
  specialize (IH i). unfold list_sum in IH. lia.
Qed.

Lemma total_zero qs : (forall i, content qs i = []) -> total qs = 0.
Proof.
  induction qs as [|h qs IH]; intros H; [reflexivity|].
  unfold total. cbn [map list_sum fold_right]. unfold list_sum. cbn [fold_right].
  pose proof (H 0) as H0. cbn in H0. rewrite H0. cbn [length plus].
  apply IH. intros i. apply (H (S i)).
Qed.

Lemma QI_upd sz n qs i q' : QI sz n qs ->
  Inv q' -> q_size q' = sz -> Forall (fun d => 0 < length d) (abs q') -> QI sz n (upd qs i q').
Proof.
  intros [L H] A B C. split; [rewrite upd_length; exact L|].
  intros j q E. destruct (Nat.eq_dec i j) as [->|Hn].
  - assert (j < length qs).
    { rewrite <- (upd_length qs j q'). apply nth_error_Some. congruence. }
    rewrite nth_error_upd_same in E by assumption. injection E as <-. auto.
  - rewrite nth_error_upd_other in E by assumption. eauto.
Qed.

Lemma QI_total sz n qs : QI sz n qs -> total qs <= n * (N_datagram sz - 1).
Proof.
  intros [<- H]. unfold total. revert H. induction qs as [|h qs IH]; intros H; [cbn; lia|].
  unfold list_sum in *. cbn [map fold_right length].
  pose proof (H 0 h eq_refl) as (I & Sz & _).
  assert (length (abs h) <= N_datagram sz - 1).
  { rewrite abs_length by exact I. destruct I as (P & _ & _ & [W R] & _).
    rewrite <- Sz. unfold get_used. destruct (Nat.leb_spec (r_idx h) (w_idx h)); lia. }
  assert (fold_right Nat.add 0 (map (fun q => length (abs q)) qs) <= length qs * (N_datagram sz - 1)).
  { apply IH. intros i q E. apply (H (S i) q E). }
  cbn [Nat.mul]. lia.
Qed.

(** Writing one datagram. *)
Lemma write_nto_ok sz n c conn data : QI sz n (queue_vec c) -> conn < n ->
  0 < length data <= N_datagram_max_byte sz ->
  exists qs' k, write_nto c conn data = Ok (qs', k) /\ QI sz n qs' /\
    ((k = 0 /\ (forall j, content qs' j = content (queue_vec c) j) /\ total qs' = total (queue_vec c))
     \/ (k = length data /\ total qs' = S (total (queue_vec c)) /\
         forall j, content qs' j =
           if j =? conn then content (queue_vec c) conn ++ [data] else content (queue_vec c) j)).
Proof.
  intros HQ Hc Hd. pose proof HQ as [L H]. unfold write_nto, vec_at.
  destruct (nth_error (queue_vec c) conn) as [q|] eqn:E; [|apply nth_error_None in E; lia].
  cbn [bind]. pose proof (H _ _ E) as (I & Sz & F).
  pose proof (write_refines q data (length data) I (le_n _)) as R. cbn [spec_step] in R. rewrite Sz in R.
  destruct (Nat.leb_spec (N_datagram sz - 1) (length (abs q))) as [Hf|Hf].
  - destruct R as (q' & -> & I' & A & S'). cbn [bind fst snd].
    exists (upd (queue_vec c) conn q'), 0. split; [reflexivity|]. split.
    + apply QI_upd; [exact HQ|exact I'|congruence|rewrite A; exact F].
    + left. split; [reflexivity|]. split.
      * intros j. rewrite (content_upd _ _ _ _ _ E). destruct (Nat.eqb_spec j conn) as [->|]; [|reflexivity].
        unfold content. rewrite E, A. reflexivity.
      * pose proof (total_upd (queue_vec c) conn q q' E). rewrite A in *. lia.
  - destruct (Nat.ltb_spec (N_datagram_max_byte sz) (length data)) as [Hl|Hl]; [lia|].
    destruct R as (q' & -> & I' & A & S'). cbn [bind fst snd]. rewrite firstn_all in A.
    exists (upd (queue_vec c) conn q'), (length data). split; [reflexivity|]. split.
    + apply QI_upd; [exact HQ|exact I'|congruence|]. rewrite A. apply Forall_app. split; [exact F|]. constructor; [lia|constructor].
    + right. split; [reflexivity|]. split.
      * pose proof (total_upd (queue_vec c) conn q q' E). rewrite A in *. rewrite app_length in *. cbn [length] in *. lia.
      * intros j. rewrite (content_upd _ _ _ _ _ E). destruct (Nat.eqb_spec j conn) as [->|]; [|reflexivity].
        unfold content. rewrite E, A. reflexivity.
Qed.

(** Reading from one queue. *)
Lemma read_ok sz n qs i : QI sz n qs -> i < n ->
  exists q q' k b, vec_at qs i = Ok q /\ read_under_lock q true = Ok (q', k, b) /\ QI sz n (upd qs i q') /\
    ((k = 0 /\ content qs i = [] /\ (forall j, content (upd qs i q') j = content qs j) /\
      total (upd qs i q') = total qs)
     \/ (0 < k /\ S (total (upd qs i q')) = total qs /\ content qs i = b :: content (upd qs i q') i /\
         forall j, j <> i -> content (upd qs i q') j = content qs j)).
Proof.
  intros HQ Hi. pose proof HQ as [L H]. unfold vec_at.
  destruct (nth_error qs i) as [q|] eqn:E; [|apply nth_error_None in E; lia].
  pose proof (H _ _ E) as (I & Sz & F).
  pose proof (read_refines q true I) as R. cbn [spec_step] in R.
  destruct (abs q) as [|x s] eqn:A.
  - destruct R as (q' & R & I' & A' & S'). exists q, q', 0, []. split; [reflexivity|]. split; [exact R|]. split.
    + apply QI_upd; [exact HQ|exact I'|congruence|]. rewrite A'. constructor.
    + left. split; [reflexivity|]. split; [unfold content; rewrite E; exact A|]. split.
      * intros j. rewrite (content_upd _ _ _ _ _ E). destruct (Nat.eqb_spec j i) as [->|]; [|reflexivity].
        unfold content. rewrite E, A, A'. reflexivity.
      * pose proof (total_upd qs i q q' E). rewrite A, A' in *. cbn [length] in *. lia.
  - destruct R as (q' & R & I' & A' & S'). exists q, q', (length x), x. split; [reflexivity|]. split; [exact R|].
    inversion F as [|? ? F1 F2]. split.
    + apply QI_upd; [exact HQ|exact I'|congruence|]. rewrite A'. exact F2.
    + right. split; [exact F1|]. split.
      * pose proof (total_upd qs i q q' E). rewrite A, A' in *. cbn [length] in *. lia.
      * split.
        -- rewrite (content_upd _ _ _ _ _ E), Nat.eqb_refl, A'. unfold content. rewrite E, A. reflexivity.
        -- intros j Hj. rewrite (content_upd _ _ _ _ _ E). destruct (Nat.eqb_spec j i); [contradiction|reflexivity].
Qed.

(** Reading the logs. *)
Lemma accepted_app a b : accepted (a ++ b) = accepted a ++ accepted b.
Proof. induction a as [|[? ? [|]| |] a IH]; cbn [accepted app]; rewrite ?IH; reflexivity. Qed.
Lemma forwarded_app a b : forwarded (a ++ b) = forwarded a ++ forwarded b.
Proof. induction a as [|[] a IH]; cbn [forwarded app]; rewrite ?IH; reflexivity. Qed.
Lemma triggered_app a b : (triggered (a ++ b) = triggered a + triggered b)%Z.
Proof. induction a as [|[] a IH]; cbn [triggered app]; rewrite ?IH; lia. Qed.
Lemma on_conn_app c a b : on_conn c (a ++ b) = on_conn c a ++ on_conn c b.
Proof. unfold on_conn. apply filter_app. Qed.

Definition open_cnt (c : client) : Z :=
  match fw_now c with Some (_, k) => Z.of_N k | None => 0%Z end.
Definition items_left (c : client) : list item :=
  (match fw_now c with Some (l, _) => l | None => [] end) ++ concat (fw_next c).

(** What holds after every step, whatever the interleaving. *)
Definition SI (n : nat) (sz : queue_size) (c : client) (tr : list event) : Prop :=
  QI sz n (queue_vec c) /\
  Forall (item_ok n (N_datagram_max_byte sz)) (items_left c) /\
  (forall i, on_conn i (accepted tr) = on_conn i (forwarded tr) ++ map (pair i) (content (queue_vec c) i)) /\
  length (accepted tr) = length (forwarded tr) + total (queue_vec c) /\
  (Z.of_nat (length (accepted tr)) = triggered tr + open_cnt c)%Z /\
  Forall (fun x => fst x < n) (accepted tr) /\ Forall (fun x => fst x < n) (forwarded tr).

Definition stuck (n : nat) (c : client) : Prop :=
  exists i, forwarder c = Scanning i true /\ n <= i.

Lemma SI_init n sz fill pdus c : client_new n sz fill pdus = Ok c ->
  Forall (Forall (item_ok n (N_datagram_max_byte sz))) pdus -> SI n sz c [].
Proof.
  unfold client_new, guard. destruct (0 <? n); [|discriminate]. destruct (n <=? 32); [|discriminate].
  destruct (queue_size_is_valid sz) eqn:V; [|discriminate]. intros [= <-] F.
  pose proof (inv_new sz fill V) as [I A].
  unfold SI, items_left, open_cnt; cbn [queue_vec fw_now fw_next accepted forwarded triggered app].
  assert (C : forall i, content (repeat (queue_new sz fill) n) i = []).
  { intros i. unfold content. destruct (nth_error _ i) as [q|] eqn:E; [|reflexivity].
    apply nth_error_In, repeat_spec in E. subst q. exact A. }
  split; [|split; [|split; [|split; [|split]]]].
  - split; [apply repeat_length|]. intros i q E. apply nth_error_In, repeat_spec in E. subst q.
    split; [exact I|]. split; [reflexivity|]. rewrite A. constructor.
  - clear -F. induction F as [|p ps H _ IH]; cbn [concat]; [constructor|]. apply Forall_app. auto.
  - intros i. rewrite C. reflexivity.
  - rewrite total_zero by exact C. reflexivity.
  - reflexivity.
  - auto.
Qed.

(** One step: it succeeds, or the forwarding thread has found all queues empty. *)
Lemma step_SI n sz c tr t : SI n sz c tr ->
  (exists c' e, step c t = Ok (c', e) /\ SI n sz c' (tr ++ e)) \/
  (t = Forwarder /\ stuck n c /\ step c t = Abort).
Proof.
  intros (HQ & HI & HC & HT & HA & HFa & HFf).
  destruct t; cbn [step].
  - left. unfold firmware_step. destruct (fw_now c) as [[[|[conn data] r] k]|] eqn:W.
    + (* trigger *)
      assert (Stay : exists c' e, Ok (c, @nil event) = Ok (c', e) /\ SI n sz c' (tr ++ e)).
      { exists c, []. split; [reflexivity|]. rewrite app_nil_r. unfold SI. auto 10. }
      destruct (forwarder c); [|exact Stay|exact Stay].
      eexists _, _. split; [reflexivity|].
      unfold SI. cbn [queue_vec fw_now fw_next]. rewrite accepted_app, forwarded_app, triggered_app.
      cbn [accepted forwarded triggered]. rewrite !app_nil_r.
      unfold open_cnt, items_left in *. rewrite W in *. cbn [fw_now fw_next app] in *.
      split; [exact HQ|]. split; [exact HI|]. split; [exact HC|]. split; [exact HT|]. split; [lia|auto].
    + (* write *)
      unfold items_left in HI. rewrite W in HI. cbn [app] in HI. inversion HI as [|? ? [Hc Hd] HI']. cbn [fst snd] in *.
      destruct (write_nto_ok sz n c conn data HQ Hc Hd) as (qs' & kk & -> & HQ' & Cases).
      cbn [bind fst snd]. eexists _, _. split; [reflexivity|].
      unfold SI. cbn [queue_vec fw_now fw_next]. rewrite accepted_app, forwarded_app, triggered_app.
      cbn [forwarded triggered]. rewrite app_nil_r.
      destruct Cases as [(-> & C1 & T1)|(-> & T1 & C1)].
      * cbn [accepted]. rewrite app_nil_r. unfold open_cnt, items_left in *. rewrite W in HA.
        cbn [fw_now fw_next Nat.ltb Nat.leb].
        split; [exact HQ'|]. split; [exact HI'|]. split; [intros i; rewrite C1; apply HC|].
        split; [lia|]. split; [lia|]. split; assumption.
      * destruct (length data) as [|m] eqn:El; [lia|]. cbn [accepted].
        unfold open_cnt, items_left in *. rewrite W in HA. cbn [fw_now fw_next].
        destruct (Nat.ltb_spec 0 (S m)) as [_|]; [|lia].
        split; [exact HQ'|]. split; [exact HI'|]. split; [|split; [|split; [|split]]].
        -- intros i. rewrite on_conn_app, HC, C1. unfold on_conn at 2. cbn [filter fst].
           rewrite (Nat.eqb_sym conn i). destruct (Nat.eqb_spec i conn) as [->|Hn].
           ++ rewrite map_app, <- app_assoc. reflexivity.
           ++ rewrite app_nil_r. reflexivity.
        -- rewrite app_length. cbn [length]. lia.
        -- rewrite app_length. cbn [length]. lia.
        -- apply Forall_app. split; [exact HFa|]. constructor; [exact Hc|constructor].
        -- exact HFf.
    + destruct (fw_next c) as [|p ps] eqn:Wn.
      * exists c, []. split; [reflexivity|]. rewrite app_nil_r. unfold SI. auto 10.
      * eexists _, _. split; [reflexivity|]. rewrite app_nil_r. unfold SI. cbn [queue_vec].
        unfold open_cnt, items_left in *. rewrite W, Wn in *. cbn [fw_now fw_next app concat] in *.
        auto 10.
  - unfold forwarder_step. destruct (forwarder c) as [| |i e] eqn:P.
    + left. destruct (0 <? indicator_cnt c)%Z; eexists _, _; (split; [reflexivity|]); rewrite app_nil_r; unfold SI; auto 10.
    + left. eexists _, _; (split; [reflexivity|]); rewrite app_nil_r; unfold SI; auto 10.
    + destruct (Nat.ltb_spec i (length (queue_vec c))) as [Hi|Hi].
      * left. assert (Hin : i < n) by (destruct HQ; lia).
        destruct (read_ok sz n (queue_vec c) i HQ Hin) as (q & q' & k & b & -> & R & HQ' & Cases).
        cbn [bind]. rewrite R. cbn [bind fst snd].
        destruct Cases as [(-> & C0 & C1 & T1)|(Hk & T1 & C0 & C1)].
        -- cbn [Nat.ltb Nat.leb]. eexists _, _. split; [reflexivity|]. rewrite app_nil_r.
           unfold SI. cbn [queue_vec]. split; [exact HQ'|]. split; [exact HI|].
           split; [intros j; rewrite C1; apply HC|]. split; [lia|]. auto.
        -- destruct (Nat.ltb_spec 0 k); [|lia]. eexists _, _. split; [reflexivity|].
           unfold SI. cbn [queue_vec]. rewrite accepted_app, forwarded_app, triggered_app.
           cbn [accepted forwarded triggered]. rewrite app_nil_r.
           split; [exact HQ'|]. split; [exact HI|]. split; [|split; [|split; [|split]]].
           ++ intros j. rewrite on_conn_app, HC. unfold on_conn at 3. cbn [filter fst].
              destruct (Nat.eqb_spec i j) as [<-|Hn].
              ** rewrite C0. cbn [map]. rewrite <- app_assoc. reflexivity.
              ** rewrite app_nil_r, C1 by lia. reflexivity.
           ++ rewrite app_length. cbn [length]. lia.
           ++ unfold open_cnt in *. cbn [fw_now]. lia.
           ++ exact HFa.
           ++ apply Forall_app. split; [exact HFf|]. constructor; [exact Hin|constructor].
      * destruct e; cbn [negb guard].
        -- right. split; [reflexivity|]. split; [|reflexivity]. exists i. split; [exact P|]. destruct HQ; lia.
        -- left. eexists _, _; (split; [reflexivity|]); rewrite app_nil_r; unfold SI; auto 10.
Qed.

Lemma run_SI n sz : forall sched c tr c' tr', SI n sz c tr -> run c sched = Ok (c', tr') -> SI n sz c' (tr ++ tr').
Proof.
  induction sched as [|t ts IH]; intros c tr c' tr' HS E; cbn [run] in E.
  - injection E as <- <-. rewrite app_nil_r. exact HS.
  - destruct (step_SI n sz c tr t HS) as [(c1 & e & E1 & H1)|(_ & _ & E1)]; rewrite E1 in E; cbn [bind] in E; [|discriminate].
    destruct (run c1 ts) as [[c2 e2]| | |] eqn:E2; cbn [bind] in E; try discriminate.
    injection E as <- <-. rewrite app_assoc. eapply IH; eauto.
Qed.
