(** C43: forwarding of received datagrams to the operating system. *)
From Verif Require Import Base DatagramQueue.
From Verif Require Import ApplicationClient ApplicationClientSpec ApplicationClientFacts ApplicationClientCount.
Import ApplicationClient ApplicationClientSpec.

Lemma on_conn_one l : Forall (fun x : item => fst x < 1) l -> on_conn 0 l = l.
Proof.
  induction 1 as [|x l H _ IH]; [reflexivity|]. unfold on_conn in *. cbn [filter].
  destruct (Nat.eqb_spec (fst x) 0); [|lia]. rewrite IH. reflexivity.
Qed.

(** With one connection, whatever packets arrive and however the two threads interleave: nothing aborts,
    the datagrams forwarded are the first ones accepted, in order, and never more than announced. *)
Theorem C43_one_connection : forall sz fill pdus c0 sched,
  client_new 1 sz fill pdus = Ok c0 ->
  Forall (Forall (item_ok 1 (N_datagram_max_byte sz))) pdus ->
  exists c tr, run c0 sched = Ok (c, tr) /\
    prefix_of (forwarded tr) (accepted tr) /\
    (Z.of_nat (length (forwarded tr)) <= triggered tr <= Z.of_nat (length (accepted tr)))%Z.
Proof.
  intros sz fill pdus c0 sched E F. destruct (AI_init _ _ _ _ _ E F) as (S0 & A0 & Hn & Hz & _).
  destruct (run_AI 1 sz Hn Hz sched c0 [] S0 A0 (or_introl eq_refl)) as (c & tr & R & HS & HA).
  exists c, tr. split; [exact R|]. cbn [app] in HS. destruct HS as (_ & _ & HC & HT & HL & Fa & Ff).
  split.
  - specialize (HC 0). rewrite !on_conn_one in HC by assumption. eexists. exact HC.
  - destruct HA as (B0 & B1 & _). pose proof (open_cnt_nonneg c). lia.
Qed.
Print Assumptions C43_one_connection.

(** ... and once the forwarding thread has been given the processor for long enough, exactly the
    announced number has been forwarded: the first ones accepted. *)
Theorem C43_exactly_the_triggered : forall sz fill pdus c0 sched c1 tr1 m,
  client_new 1 sz fill pdus = Ok c0 ->
  Forall (Forall (item_ok 1 (N_datagram_max_byte sz))) pdus ->
  run c0 sched = Ok (c1, tr1) ->
  (3 * (triggered tr1 - Z.of_nat (length (forwarded tr1))) + 5 <= Z.of_nat m)%Z ->
  exists c2 tr2, run c1 (repeat Forwarder m) = Ok (c2, tr2) /\
    triggered tr2 = 0%Z /\
    forwarded (tr1 ++ tr2) = firstn (Z.to_nat (triggered tr1)) (accepted tr1).
Proof.
  intros sz fill pdus c0 sched c1 tr1 m E F R Hm. destruct (AI_init _ _ _ _ _ E F) as (S0 & A0 & Hn & Hz & _).
  destruct (run_AI 1 sz Hn Hz sched c0 [] S0 A0 (or_introl eq_refl)) as (c & tr & R' & HS & HA).
  rewrite R in R'. injection R' as <- <-. cbn [app] in HS.
  pose proof HS as (HQ & _ & _ & HT & HL & _). pose proof HA as (B0 & B1 & B2).
  destruct (drain 1 sz Hn Hz m c1 tr1 HS HA (or_introl eq_refl)) as (c2 & tr2 & R2 & S2 & A2 & T2 & L2).
  { unfold left. destruct (forwarder c1) as [| |i [|]] eqn:P; try lia.
    destruct (0 <? indicator_cnt c1)%Z; lia. }
  exists c2, tr2. split; [exact R2|]. split; [exact T2|].
  pose proof (run_SI 1 sz (repeat Forwarder m) c1 tr1 c2 tr2 HS R2) as _.
  destruct S2 as (_ & _ & HC & HT2 & HL2 & Fa & Ff). destruct (left_zero _ _ L2 A2) as [Pw Cz].
  destruct A2 as (_ & D1 & _). rewrite Cz in D1.
  specialize (HC 0). rewrite !on_conn_one in HC by assumption.
  assert (Hacc : accepted tr2 = []).
  { clear -R2. revert c1 c2 tr2 R2. induction m as [|m IH]; intros c1 c2 tr2 R; cbn [repeat run] in R.
    - injection R as _ <-. reflexivity.
    - destruct (step c1 Forwarder) as [[c' e]| | |] eqn:Es; cbn [bind] in R; try discriminate.
      destruct (run c' (repeat Forwarder m)) as [[c'' e']| | |] eqn:Er; cbn [bind] in R; try discriminate.
      injection R as _ <-. rewrite accepted_app, (IH _ _ _ Er), app_nil_r.
      cbn [step] in Es. unfold forwarder_step in Es. destruct (forwarder c1).
      + destruct (_ <? _)%Z; injection Es as _ <-; reflexivity.
      + injection Es as _ <-. reflexivity.
      + destruct (i <? _).
        * destruct (vec_at _ _) as [q| | |]; cbn [bind] in Es; try discriminate.
          destruct (read_under_lock q true) as [[qn b]| | |]; cbn [bind] in Es; try discriminate.
          destruct (0 <? snd qn); injection Es as _ <-; reflexivity.
        * destruct all_queues_empty; cbn [negb guard] in Es; [discriminate|]. injection Es as _ <-. reflexivity. }
  rewrite triggered_app, T2 in HL2. rewrite accepted_app, Hacc, app_nil_r in *.
  rewrite HC, firstn_app.
  assert (Hlen : length (forwarded (tr1 ++ tr2)) = Z.to_nat (triggered tr1)) by lia.
  rewrite Hlen, Nat.sub_diag, firstn_O, app_nil_r, firstn_all2 by lia. reflexivity.
Qed.
Print Assumptions C43_exactly_the_triggered.

(** With any number of connections and any interleaving: as long as nothing aborts, every connection gets
    exactly the first datagrams accepted for it, in order, unchanged, none twice and none of another one. *)
Theorem C43_each_connection_in_order : forall n sz fill pdus c0 sched,
  client_new n sz fill pdus = Ok c0 ->
  Forall (Forall (item_ok n (N_datagram_max_byte sz))) pdus ->
  match run c0 sched with
  | Ok (c, tr) => (forall i, prefix_of (on_conn i (forwarded tr)) (on_conn i (accepted tr))) /\
                  length (forwarded tr) <= length (accepted tr)
  | Abort => True
  | _ => False
  end.
Proof.
  intros n sz fill pdus c0 sched E F. pose proof (SI_init _ _ _ _ _ E F) as S0. clear E F.
  assert (H : forall sched c tr, SI n sz c tr ->
     match run c sched with Ok (c', tr') => SI n sz c' (tr ++ tr') | Abort => True | _ => False end).
  { clear. induction sched as [|t ts IH]; intros c tr HS; cbn [run].
    - rewrite app_nil_r. exact HS.
    - destruct (step_SI n sz c tr t HS) as [(c1 & e & E1 & H1)|(_ & _ & E1)]; rewrite E1; cbn [bind]; [|exact I].
      specialize (IH c1 (tr ++ e) H1). destruct (run c1 ts) as [[c2 e2]| | |]; cbn [bind]; auto.
      rewrite app_assoc. exact IH. }
  specialize (H sched c0 [] S0). destruct (run c0 sched) as [[c tr]| | |]; auto. cbn [app] in H.
  destruct H as (_ & _ & HC & HT & _). split; [|lia]. intros i. eexists. apply HC.
Qed.
Print Assumptions C43_each_connection_in_order.

(** With any number of connections the count is exact as long as forwarding does not run between the
    writes of a packet and their announcement; then the forwarding thread empties all queues. *)
Theorem C43_several_undisturbed : forall n sz fill pdus c0 sched,
  client_new n sz fill pdus = Ok c0 ->
  Forall (Forall (item_ok n (N_datagram_max_byte sz))) pdus ->
  undisturbed c0 sched ->
  exists c tr, run c0 sched = Ok (c, tr) /\
    (Z.of_nat (length (forwarded tr)) <= triggered tr)%Z /\
    (fw_now c = None -> exists m0, forall m, m0 <= m ->
       exists c2 tr2, run c (repeat Forwarder m) = Ok (c2, tr2) /\
         Z.of_nat (length (forwarded (tr ++ tr2))) = triggered tr /\
         forall i, on_conn i (forwarded (tr ++ tr2)) = on_conn i (accepted (tr ++ tr2))).
Proof.
  intros n sz fill pdus c0 sched E F U. destruct (AI_init _ _ _ _ _ E F) as (S0 & A0 & Hn & Hz & _).
  destruct (run_AI n sz Hn Hz sched c0 [] S0 A0 (or_intror U)) as (c & tr & R & HS & HA). cbn [app] in HS.
  exists c, tr. split; [exact R|]. split.
  - destruct HS as (_ & _ & HC & HT & HL & _). destruct HA as (B0 & B1 & _). lia.
  - intros Hf. exists (left n c). intros m Hm.
    destruct (drain n sz Hn Hz m c tr HS HA (or_intror Hf) Hm) as (c2 & tr2 & R2 & S2 & A2 & T2 & L2).
    exists c2, tr2. split; [exact R2|]. destruct S2 as (HQ & _ & HC & HT2 & HL2 & _).
    destruct (left_zero _ _ L2 A2) as [Pw Cz]. destruct A2 as (_ & D1 & _). rewrite Cz in D1.
    assert (Hfw : fw_now c2 = None).
    { clear -R2 Hf. revert c tr2 R2 Hf. induction m as [|m IH]; intros c tr2 R Hf; cbn [repeat run] in R.
      - injection R as <- _. exact Hf.
      - destruct (step c Forwarder) as [[c' e]| | |] eqn:Es; cbn [bind] in R; try discriminate.
        destruct (run c' (repeat Forwarder m)) as [[c'' e']| | |] eqn:Er; cbn [bind] in R; try discriminate.
        injection R as <- _. apply (IH _ _ Er).
        cbn [step] in Es. unfold forwarder_step in Es. destruct (forwarder c).
        + destruct (_ <? _)%Z; injection Es as <- _; exact Hf.
        + injection Es as <- _. exact Hf.
        + destruct (i <? _).
          * destruct (vec_at _ _) as [q| | |]; cbn [bind] in Es; try discriminate.
            destruct (read_under_lock q true) as [[qn b]| | |]; cbn [bind] in Es; try discriminate.
            destruct (0 <? snd qn); injection Es as <- _; exact Hf.
          * destruct all_queues_empty; cbn [negb guard] in Es; [discriminate|]. injection Es as <- _. exact Hf. }
    unfold open_cnt in *. rewrite Hfw in *. rewrite triggered_app, T2 in HL2.
    assert (Tz : total (queue_vec c2) = 0) by lia.
    split; [lia|]. intros i. rewrite HC.
    pose proof (total_content (queue_vec c2) i) as Hc. rewrite Tz in Hc.
    destruct (content (queue_vec c2) i); [|cbn [length] in Hc; lia]. cbn [map]. rewrite app_nil_r. reflexivity.
Qed.
Print Assumptions C43_several_undisturbed.

(** Without that restriction it fails: with two connections a datagram that was written but not yet
    announced is forwarded early ... *)
Definition two_queues : queue_size := {| N_datagram := 4; N_datagram_max_byte := 10 |}.
Definition packets : list (list item) := [[(0, [1%N])]; [(1, [2%N])]].
Definition early : list thread :=
  [Firmware; Firmware; Firmware; Firmware; Firmware; Forwarder; Forwarder; Forwarder; Forwarder].

Theorem C43_several_early_refuted :
  exists sz pdus c0 sched c tr, client_new 2 sz 0%N pdus = Ok c0 /\
    Forall (Forall (item_ok 2 (N_datagram_max_byte sz))) pdus /\
    run c0 sched = Ok (c, tr) /\ (triggered tr < Z.of_nat (length (forwarded tr)))%Z /\
    indicator_cnt c = (-1)%Z.
Proof.
  exists two_queues, packets. eexists. exists early. eexists. eexists. split; [reflexivity|]. split.
  - unfold packets, item_ok, two_queues. repeat constructor; cbn; lia.
  - split; [vm_compute; reflexivity|]. vm_compute. auto.
Qed.
Print Assumptions C43_several_early_refuted.

(** ... and the forwarding thread then takes the negative indicator for a large number, finds all
    queues empty and aborts. *)
Theorem C43_several_abort_refuted :
  exists sz pdus c0 sched, client_new 2 sz 0%N pdus = Ok c0 /\
    Forall (Forall (item_ok 2 (N_datagram_max_byte sz))) pdus /\
    run c0 sched = Abort.
Proof.
  exists two_queues, packets. eexists. exists (early ++ repeat Forwarder 5). split; [reflexivity|]. split.
  - unfold packets, item_ok, two_queues. repeat constructor; cbn; lia.
  - vm_compute. reflexivity.
Qed.
Print Assumptions C43_several_abort_refuted.

(** An empty datagram is accepted, not counted, but taken for an empty queue when read: a counted
    datagram behind it makes the forwarding thread abort, even with one connection. *)
Theorem C43_empty_datagram_refuted :
  exists sz pdus c0 sched, client_new 1 sz 0%N pdus = Ok c0 /\
    Forall (Forall (fun x : item => fst x < 1 /\ length (snd x) <= N_datagram_max_byte sz)) pdus /\
    run c0 sched = Abort.
Proof.
  exists two_queues, [[(0, []); (0, [1%N])]]. eexists. exists (repeat Firmware 4 ++ repeat Forwarder 4).
  split; [reflexivity|]. split.
  - unfold two_queues. repeat constructor; cbn; lia.
  - vm_compute. reflexivity.
Qed.
Print Assumptions C43_empty_datagram_refuted.

(** A datagram longer than the queue's entries aborts the firmware thread, unless the queue is full. *)
Theorem C43_too_long_aborts : forall n sz fill conn data rest pdus c0,
  client_new n sz fill (((conn, data) :: rest) :: pdus) = Ok c0 ->
  conn < n -> 2 <= N_datagram sz -> N_datagram_max_byte sz < length data ->
  run c0 [Firmware; Firmware] = Abort.
Proof.
  intros n sz fill conn data rest pdus c0 E Hc H2 Hl. unfold client_new, guard in E.
  destruct (0 <? n); [|discriminate]. destruct (n <=? 32); [|discriminate].
  destruct (queue_size_is_valid sz) eqn:V; [|discriminate]. injection E as <-.
  cbn [run step]. unfold firmware_step at 1. cbn [fw_now fw_next bind]. unfold firmware_step. cbn [fw_now].
  unfold write_nto, vec_at. cbn [queue_vec].
  destruct (nth_error (repeat (queue_new sz fill) n) conn) as [q|] eqn:En.
  2:{ apply nth_error_None in En. rewrite repeat_length in En. lia. }
  apply nth_error_In, repeat_spec in En. subst q. cbn [bind]. unfold write_under_lock.
  unfold get_free. cbn [w_idx r_idx queue_new q_size Nat.ltb Nat.leb].
  destruct (Nat.eqb_spec (0 + N_datagram sz - 0 - 1) 0); [lia|].
  unfold guard. destruct (Nat.leb_spec (length data) (N_datagram_max_byte sz)); [lia|]. reflexivity.
Qed.
Print Assumptions C43_too_long_aborts.

(** The hypotheses can be met: one packet with two datagrams and one with one, forwarding in between. *)
Example C43_nonvacuous :
  exists c0 c tr, client_new 1 two_queues 0%N [[(0, [1%N]); (0, [2%N; 3%N])]; [(0, [4%N])]] = Ok c0 /\
    Forall (Forall (item_ok 1 10)) [[(0, [1%N]); (0, [2%N; 3%N])]; [(0, [4%N])]] /\
    run c0 (repeat Firmware 4 ++ [Forwarder; Forwarder; Forwarder; Firmware; Firmware; Firmware; Forwarder]) = Ok (c, tr) /\
    forwarded tr = [(0, [1%N])] /\ triggered tr = 2%Z /\
    accepted tr = [(0, [1%N]); (0, [2%N; 3%N]); (0, [4%N])].
Proof.
  eexists. eexists. eexists. split; [reflexivity|]. split.
  - unfold item_ok. repeat constructor; cbn; lia.
  - split; [vm_compute; reflexivity|]. vm_compute. auto.
Qed.

Example C43_undisturbed_nonvacuous :
  exists c0, client_new 2 two_queues 0%N [[(0, [1%N]); (1, [2%N])]; [(1, [4%N])]] = Ok c0 /\
    undisturbed c0 (repeat Firmware 4 ++ repeat Forwarder 3 ++ []).
Proof. eexists. split; [reflexivity|]. vm_compute. repeat split; try discriminate; reflexivity. Qed.
