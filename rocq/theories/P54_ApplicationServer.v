(** C61: the application server hands the datagrams it receives to the firmware in order, without loss unless a queue is
    full, and announces them by jobs. *)
From Verif Require Import Base ApplicationServer ApplicationServerSpec ApplicationServerFacts.
From Verif Require DatagramQueue.
Import DatagramQueue (queue_size, N_datagram, N_datagram_max_byte).

Lemma only_zero (vnic : bool) n i : i < (if vnic then 1 else n) -> vnic && negb (i =? 0) = false.
Proof. destruct vnic; [|reflexivity]. intros H. destruct (Nat.eqb_spec i 0); [reflexivity|lia]. Qed.

Section Server.
  Variables (vnic : bool) (n_queue : nat) (sz : queue_size) (fill : N) (protect t0 : Z) (s0 : server).
  Hypothesis new : server_new vnic n_queue sz fill protect t0 = Ok s0.
  Let conns := if vnic then 1 else n_queue.
  Let cap := N_datagram sz - 1.
  Let maxb := N_datagram_max_byte sz.

  Lemma solid_start : Forall (solid cap) (repeat [] conns).
  Proof. apply Forall_forall. intros l Hl. apply repeat_spec in Hl. subst l. split; [cbn; lia|constructor]. Qed.
  Lemma plain_of n e : plain n e -> of_connection n e.
  Proof. destruct e; cbn; auto. Qed.
  Lemma abstract es s os : Forall (of_connection conns) es -> run s0 es = Ok (s, os) ->
    exists w m, abstract_run vnic cap maxb protect (repeat [] conns, t0) es = Ok (w, m, os)
      /\ Rel vnic sz protect conns s w m.
  Proof.
    intros He E. destruct (new_rel _ _ _ _ _ _ _ new) as (HR & _ & _).
    pose proof (run_corresponds _ _ _ _ _ _ _ _ HR He) as H. fold conns cap maxb in H.
    destruct (abstract_run _ _ _ _ _ _) as [[[w m] os']| | |]; cbn [corresponds] in H; try congruence; [|contradiction].
    destruct H as (s' & E' & HR'). rewrite E in E'. inversion E'; subst. eauto.
  Qed.

  (** Every history of arrivals and reads, however they interleave, goes as on plain lists. *)
  Theorem C61_refines es : Forall (of_connection conns) es ->
    match abstract_run vnic cap maxb protect (repeat [] conns, t0) es with
    | Ok (_, _, os) => exists s, run s0 es = Ok (s, os)
    | Abort => run s0 es = Abort
    | Throw => run s0 es = Throw
    | Oob => False
    end.
  Proof.
    intros He. destruct (new_rel _ _ _ _ _ _ _ new) as (HR & _ & _).
    pose proof (run_corresponds _ _ _ _ _ _ _ _ HR He) as H. fold conns cap maxb in H.
    destruct (abstract_run _ _ _ _ _ _) as [[[w m] os']| | |]; cbn [corresponds] in H; try exact H.
    destruct H as (s' & E' & _). eauto.
  Qed.

  (** Whatever was accepted on a connection is read there, once, in order and unchanged, except for what still waits. *)
  Theorem C61_in_order es s os : Forall (plain conns) es -> run s0 es = Ok (s, os) ->
    forall i, exists waiting, accepted i es os = delivered i es os ++ waiting /\ length waiting <= cap.
  Proof.
    intros Hp E i. assert (He : Forall (of_connection conns) es) by (eapply Forall_impl; [apply plain_of|exact Hp]).
    destruct (abstract _ _ _ He E) as (w & m & Ea & HR).
    assert (Hp' : Forall (plain (length (repeat (@nil (list N)) conns))) es) by (rewrite repeat_length; exact Hp).
    destruct (abs_order _ _ _ _ _ _ _ _ _ _ solid_start Hp' Ea) as (Hs & _ & Ho).
    exists (nth i w []). specialize (Ho i). rewrite nth_repeat in Ho. cbn [app] in Ho. split; [exact Ho|].
    exact (proj1 (solid_nth cap w i Hs)).
  Qed.

  (** A datagram is accepted if and only if it has a byte, a network interface is given IPv4, and there is room; what is
      accepted are its first 1600 bytes. It ends the program if there is room but not for its length. *)
  Theorem C61_accepts es s os i a t t' slot :
    Forall (plain conns) es -> i < conns -> run s0 es = Ok (s, os) ->
    let room := (length (accepted i es os) - length (delivered i es os) <? cap) in
    if passes vnic (taken a) && room
    then if maxb <? length (taken a) then run s0 (es ++ [Arrive i a t t' slot]) = Abort
         else exists s' job, run s0 (es ++ [Arrive i a t t' slot]) = Ok (s', os ++ [Kept (length (taken a)) job])
    else exists s', run s0 (es ++ [Arrive i a t t' slot]) = Ok (s', os ++ [Kept 0 false]).
  Proof.
    intros Hp Hi E. cbv zeta.
    assert (He : Forall (of_connection conns) es) by (eapply Forall_impl; [apply plain_of|exact Hp]).
    destruct (abstract _ _ _ He E) as (w & m & Ea & HR).
    assert (Hp' : Forall (plain (length (repeat (@nil (list N)) conns))) es) by (rewrite repeat_length; exact Hp).
    destruct (abs_order _ _ _ _ _ _ _ _ _ _ solid_start Hp' Ea) as (Hs & _ & Ho). specialize (Ho i).
    rewrite nth_repeat in Ho. cbn [app] in Ho. rewrite Ho, app_length.
    replace (length (delivered i es os) + length (nth i w []) - length (delivered i es os)) with (length (nth i w [])) by lia.
    rewrite (run_app _ _ _ _ _ E). cbn [run].
    pose proof (step_corresponds _ _ _ _ _ _ _ (Arrive i a t t' slot) HR Hi) as H. fold cap maxb in H. cbn [abstract_step] in H.
    destruct (passes vnic (taken a) && (length (nth i w []) <? cap)).
    - destruct (maxb <? length (taken a)); cbn [corresponds] in H.
      + rewrite H. reflexivity.
      + destruct H as (s' & E' & _). rewrite E'. cbn [bind]. eauto.
    - cbn [corresponds] in H. destruct H as (s' & E' & _). rewrite E'. cbn [bind]. eauto.
  Qed.

  (** With queues for datagrams of 1600 bytes nothing that arrives ends the program. *)
  Definition readable (e : ev) : Prop := match e with Arrive i _ _ _ _ => i < conns | Read i _ _ => i < conns end.
  Theorem C61_never_fails es : maxb = 1600 -> Forall readable es -> exists s os, run s0 es = Ok (s, os).
  Proof.
    intros Hm Hr.
    assert (He : Forall (of_connection conns) es) by (eapply Forall_impl; [|exact Hr]; intros [|] H; cbn in *; auto).
    pose proof (C61_refines es He) as H.
    assert (A : forall es w m, length w = conns -> Forall readable es ->
      exists r, abstract_run vnic cap maxb protect (w, m) es = Ok r).
    { intros es1. induction es1 as [|e es1 IH]; intros w m Hw Hr1; [eexists; reflexivity|].
      apply Forall_cons_iff in Hr1. destruct Hr1 as [He1 Hes1]. cbn [abstract_run].
      assert (S : exists w1 m1 o, abstract_step vnic cap maxb protect (w, m) e = Ok (w1, m1, o) /\ length w1 = conns).
      { destruct e as [i a t t' slot|i want locked]; cbn [readable] in He1; cbn [abstract_step].
        - destruct (passes _ _ && _); [|eauto].
          assert (length (taken a) <= 1600) by (destruct a; cbn [taken]; [cbn; lia|rewrite firstn_length; lia]).
          destruct (Nat.ltb_spec maxb (length (taken a))); [lia|]. do 3 eexists; split; [reflexivity|]. rewrite upd_length. exact Hw.
        - assert (vnic && negb (i =? 0) = false) as -> by exact (only_zero _ _ _ He1).
          destruct (Nat.leb_spec (length w) i); [lia|].
          destruct locked; [destruct (nth i w [])|]; do 3 eexists; (split; [reflexivity|]); rewrite ?upd_length; exact Hw. }
      destruct S as (w1 & m1 & o & E & Hw1). rewrite E. cbn [bind].
      destruct (IH w1 m1 Hw1 Hes1) as ([[w2 m2] os] & E2). rewrite E2. eexists; reflexivity. }
    destruct (A es (repeat [] conns) t0 (repeat_length _ _) Hr) as ([[w m] os] & E). rewrite E in H.
    destruct H as (s & Es). eauto.
  Qed.

  (** The jobs the firmware gets are those created for which the job queue had room, in order. Each names the connection
      and the number of bytes of a datagram that was just accepted. *)
  Theorem C61_jobs es s os : Forall (of_connection conns) es -> run s0 es = Ok (s, os) ->
    sv_jobs s = jobs es os
    /\ forall k n j, nth_error os k = Some (Kept n j) -> 0 < n \/ j = true ->
         exists i a t t' slot, nth_error es k = Some (Arrive i a t t' slot) /\ n = length (taken a) /\ 0 < n
           /\ passes vnic (taken a) = true.
  Proof.
    intros He E. destruct (abstract _ _ _ He E) as (w & m & Ea & HR). split.
    - rewrite (run_jobs _ _ _ _ E). destruct (new_rel _ _ _ _ _ _ _ new) as (_ & _ & Hj). rewrite Hj. reflexivity.
    - exact (abs_kept_about _ _ _ _ _ _ _ _ _ _ Ea).
  Qed.

  (** Jobs are never created closer together than the protection time, nor within that time of the start. *)
  Theorem C61_jobs_apart es s os : Forall (of_connection conns) es -> clock_from t0 es -> run s0 es = Ok (s, os) ->
    (forall k e o, nth_error es k = Some e -> nth_error os k = Some o -> has_job o = true -> (t0 + protect <= time_in e)%Z)
    /\ (forall j k e1 e2 o1 o2, j < k -> nth_error es j = Some e1 -> nth_error os j = Some o1 -> has_job o1 = true ->
          nth_error es k = Some e2 -> nth_error os k = Some o2 -> has_job o2 = true -> (time_out e1 + protect <= time_in e2)%Z).
  Proof.
    intros He Hc E. destruct (abstract _ _ _ He E) as (w & m & Ea & HR). split.
    - exact (abs_mark_lower _ _ _ _ _ _ _ t0 _ _ _ (Z.le_refl t0) Hc Ea).
    - exact (abs_spaced _ _ _ _ _ _ _ t0 _ _ _ (Z.le_refl t0) Hc Ea).
  Qed.

  (** An accepted datagram without a job came within the protection time of the start or of the creation of a job. *)
  Theorem C61_covered es s os : Forall (of_connection conns) es -> run s0 es = Ok (s, os) ->
    forall k e o, nth_error es k = Some e -> nth_error os k = Some o -> is_kept o = true -> has_job o = false ->
      (time_in e < t0 + protect)%Z
      \/ exists j e1 o1, j < k /\ nth_error es j = Some e1 /\ nth_error os j = Some o1 /\ has_job o1 = true
           /\ (time_in e < time_out e1 + protect)%Z.
  Proof.
    intros He E. destruct (abstract _ _ _ He E) as (w & m & Ea & HR).
    exact (abs_covered _ _ _ _ _ _ _ _ _ _ Ea).
  Qed.

  (** Without protection time, as in the firmwares of the repository, every accepted datagram has its own job. *)
  Lemma clock_between es : forall t j k e1 e2, clock_from t es -> j < k -> nth_error es j = Some e1 -> nth_error es k = Some e2 ->
    (exists i a b c d, e1 = Arrive i a b c d) -> (exists i a b c d, e2 = Arrive i a b c d) ->
    (t <= time_in e2)%Z /\ (time_out e1 <= time_in e2)%Z.
  Proof.
    assert (A : forall es t k e, clock_from t es -> nth_error es k = Some e -> (exists i a b c d, e = Arrive i a b c d) -> (t <= time_in e)%Z).
    { induction es0 as [|x es0 IH]; intros t k e Hc He Ha; [destruct k; discriminate|].
      destruct k as [|k]; cbn [nth_error] in He.
      - inversion He; subst. destruct Ha as (i & a & b & c & d & ->). cbn [clock_from] in Hc. cbn [time_in]. lia.
      - destruct x as [i a b c d|i a b]; cbn [clock_from] in Hc.
        + destruct Hc as [Hb Hc]. pose proof (IH _ _ _ Hc He Ha). lia.
        + exact (IH _ _ _ Hc He Ha). }
    induction es as [|x es IH]; intros t j k e1 e2 Hc Hjk H1 H2 Ha1 Ha2; [destruct j; discriminate|].
    destruct k as [|k]; [lia|]. cbn [nth_error] in H2. split; [exact (A (x :: es) t (S k) e2 Hc H2 Ha2)|].
    destruct j as [|j]; cbn [nth_error] in H1.
    - inversion H1; subst. destruct Ha1 as (i & a & b & c & d & ->). cbn [clock_from] in Hc. cbn [time_out].
      exact (A _ _ _ _ (proj2 Hc) H2 Ha2).
    - destruct x as [i a b c d|i a b]; cbn [clock_from] in Hc.
      + exact (proj2 (IH _ j k e1 e2 (proj2 Hc) ltac:(lia) H1 H2 Ha1 Ha2)).
      + exact (proj2 (IH _ j k e1 e2 Hc ltac:(lia) H1 H2 Ha1 Ha2)).
  Qed.
  Lemma clock_first es : forall t k e, clock_from t es -> nth_error es k = Some e -> (exists i a b c d, e = Arrive i a b c d) -> (t <= time_in e)%Z.
  Proof.
    induction es as [|x es IH]; intros t k e Hc He Ha; [destruct k; discriminate|].
    destruct k as [|k]; cbn [nth_error] in He.
    - inversion He; subst. destruct Ha as (i & a & b & c & d & ->). cbn [clock_from] in Hc. cbn [time_in]. lia.
    - destruct x as [i a b c d|i a b]; cbn [clock_from] in Hc.
      + destruct Hc as [Hb Hc]. pose proof (IH _ _ _ Hc He Ha). lia.
      + exact (IH _ _ _ Hc He Ha).
  Qed.
  Theorem C61_every_job es s os : protect = 0%Z -> Forall (of_connection conns) es -> clock_from t0 es -> run s0 es = Ok (s, os) ->
    forall o, In o os -> is_kept o = has_job o.
  Proof.
    intros Hp He Hc E o Ho. destruct (C61_jobs _ _ _ He E) as [_ Hab]. destruct (abstract _ _ _ He E) as (w & m & Ea & HR).
    apply In_nth_error in Ho. destruct Ho as (k & Ho).
    destruct o as [n j|n d]; [|reflexivity]. cbn [is_kept has_job].
    destruct (Nat.ltb_spec 0 n).
    - destruct j; [reflexivity|]. exfalso.
      destruct (Hab k n false Ho (or_introl H)) as (i & a & t & t' & slot & Hk & _ & _).
      assert (Hkept : is_kept (Kept n false) = true) by (cbn [is_kept]; apply Nat.ltb_lt; exact H).
      destruct (C61_covered _ _ _ He E k _ _ Hk Ho Hkept eq_refl) as [Hx|(j & e1 & o1 & Hlt & H1 & H2 & H3 & H4)].
      + pose proof (clock_first _ _ _ _ Hc Hk ltac:(do 5 eexists; reflexivity)). lia.
      + destruct o1 as [n1 j1|]; cbn [has_job] in H3; [subst j1|discriminate].
        destruct (Hab j n1 true H2 (or_intror eq_refl)) as (i1 & a1 & u & u' & slot1 & Hj & _ & _).
        rewrite H1 in Hj. inversion Hj; subst.
        pose proof (clock_between _ _ _ _ _ _ Hc Hlt H1 Hk ltac:(do 5 eexists; reflexivity) ltac:(do 5 eexists; reflexivity)). lia.
    - destruct j; [|reflexivity]. destruct (Hab k n true Ho (or_intror eq_refl)) as (i & a & t & t' & slot & _ & _ & Hn & _). lia.
  Qed.
End Server.

(** A positive protection time leaves datagrams unannounced: the first one after the start, although the code says that
    jobs may be created immediately, ... *)
Theorem C61_announced_refuted : exists s0 d s,
  server_new false 1 {| N_datagram := 4; N_datagram_max_byte := 1600 |} 0 1000 0 = Ok s0
  /\ run s0 [Arrive 0 (Data d) 1 1 true] = Ok (s, [Kept (length d) false]) /\ sv_jobs s = [].
Proof. do 3 eexists. split; [reflexivity|]. instantiate (2 := [7%N; 8%N]). split; vm_compute; reflexivity. Qed.
(** ... and those that follow a job which the job queue had no room for: the time is counted from a job that nobody got. *)
Theorem C61_dropped_job_refuted : exists s0 d1 d2 s,
  server_new false 1 {| N_datagram := 4; N_datagram_max_byte := 1600 |} 0 1000 0 = Ok s0
  /\ run s0 [Arrive 0 (Data d1) 2000 2001 false; Arrive 0 (Data d2) 3000 3000 true] = Ok (s, [Kept (length d1) true; Kept (length d2) false])
  /\ sv_jobs s = [].
Proof. do 4 eexists. split; [reflexivity|]. instantiate (3 := [7%N; 8%N]). instantiate (2 := [9%N]). split; vm_compute; reflexivity. Qed.
(** A queue for shorter datagrams, which the constructor accepts, lets whoever sends a longer one end the program. *)
Theorem C61_small_queue_refuted : exists s0 d,
  server_new false 1 {| N_datagram := 4; N_datagram_max_byte := 100 |} 0 0 0 = Ok s0
  /\ length d = 101 /\ run s0 [Arrive 0 (Data d) 1 1 true] = Abort.
Proof. exists ltac:(let x := eval vm_compute in (server_new false 1 {| N_datagram := 4; N_datagram_max_byte := 100 |} 0 0 0) in match x with Ok ?y => exact y end), (repeat 5%N 101). repeat split; vm_compute; reflexivity. Qed.

(** The hypotheses are met: a network interface with a queue of 3 places for 2 datagrams. *)
Definition ex_size : queue_size := {| N_datagram := 3; N_datagram_max_byte := 1600 |}.
Definition ex_server : server := mkServer true (repeat (DatagramQueue.queue_new ex_size 0) 1) (repeat 0%N 1600) 100 0 [].
Definition ex_events : list ev :=
  [Arrive 0 (Data [69; 1; 2]%N) 150 151 true; Arrive 0 (Data [96; 1]%N) 160 161 true; Arrive 0 Failed 161 161 true;
   Arrive 0 (Data [70]%N) 170 171 true; Arrive 0 (Data [71; 9]%N) 300 301 true; Read 0 true true; Read 0 true false;
   Arrive 0 (Data [79; 9]%N) 302 303 false; Read 0 true true; Read 0 true true; Read 0 true true].
Example ex_new : server_new true 7 ex_size 0 100 0 = Ok ex_server.
Proof. reflexivity. Qed.
Example ex_plain : Forall (plain 1) ex_events /\ clock_from 0 ex_events.
Proof. split; [repeat constructor|cbn; lia]. Qed.
Definition ex_view : res (list ob * list (nat * nat)) := do (s, os) <- run ex_server ex_events ; Ok (os, sv_jobs s).
Example ex_reached : ex_view =
  Ok ([Kept 3 true; Kept 0 false; Kept 0 false; Kept 1 false; Kept 0 false; Got 3 [69; 1; 2]%N; Got 0 [];
       Kept 2 true; Got 1 [70]%N; Got 2 [79; 9]%N; Got 0 []], [(0, 3)]).
Proof. vm_compute. reflexivity. Qed.

Print Assumptions C61_refines.
Print Assumptions C61_in_order.
Print Assumptions C61_accepts.
Print Assumptions C61_never_fails.
Print Assumptions C61_jobs.
Print Assumptions C61_jobs_apart.
Print Assumptions C61_covered.
Print Assumptions C61_every_job.
Print Assumptions C61_announced_refuted.
Print Assumptions C61_dropped_job_refuted.
Print Assumptions C61_small_queue_refuted.
