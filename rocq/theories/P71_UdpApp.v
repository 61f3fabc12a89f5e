(** C78: the UDP sockets of the applications. *)
From Verif Require Import Base UdpApp UdpAppSpec UdpAppFacts.
Open Scope nat_scope.

(** After every history of calls: every call to the operating system so far worked on a descriptor that was open (none
    is used after it is closed, none is closed twice), no two connections share a descriptor, and the open descriptors
    are exactly those of the connections. *)
Theorem C78_descriptors : forall l s t, run created l = Ok (s, t) -> os_ok t ->
  sound t /\ NoDup (tx_fds l ++ rx_fds l) /\
  (forall fd, In fd (opened t) <-> In fd (tx_fds l) \/ In fd (rx_fds l)).
Proof.
  intros l s t H Ho. destruct (run_inv _ _ _ H Ho) as [_ _ Hs Hn Hp _]. repeat split; try assumption.
  - intros Q. apply in_app_or, Hp, Q.
  - intros Q. apply Hp, in_or_app, Q.
Qed.

(** A datagram goes, unchanged, to the address and port of the connection with this index. *)
Theorem C78_send : forall l s t i data, run created l = Ok (s, t) -> os_ok t ->
  step s (Tx i data) =
  match nth_error (tx_conns l) i with
  | None => Throw
  | Some (fd, ip, port) => Ok (s, [CSend fd ip port data], 0)
  end.
Proof.
  intros l s t i data H Ho. destruct (run_inv _ _ _ H Ho) as [Ht _ _ _ _ _]. rewrite <- Ht, nth_error_map.
  cbn [step]. destruct (nth_error (conn_tx s) i) as [c|]; reflexivity.
Qed.

(** Data are read from the descriptor of the connection with this index, which is bound to its address and port and
    waits as long as asked for. *)
Theorem C78_receive : forall l s t i, run created l = Ok (s, t) -> os_ok t ->
  match nth_error (rx_conns l) i with
  | None => step s (Rx i) = Throw
  | Some (fd, ip, port, us) =>
      step s (Rx i) = Ok (s, [CRecv fd], 0) /\ bound_to t fd = Some (ip, port) /\
      patience t fd = (if (0 <? us)%Z then Some us else None)
  end.
Proof.
  intros l s t i H Ho. destruct (run_inv _ _ _ H Ho) as [_ Hr _ _ _ Hb].
  assert (E := f_equal (fun x => nth_error x i) Hr). cbn beta in E. rewrite !nth_error_map in E. cbn [step].
  destruct (nth_error (rx_conns l) i) as [[[[fd ip] port] us]|] eqn:E2; cbn [option_map] in E.
  - destruct (nth_error (conn_rx s) i) as [c|]; [|discriminate]. cbn [option_map] in E. injection E as -> _ _.
    split; [reflexivity|]. exact (Hb _ _ _ _ (nth_error_In _ _ E2)).
  - destruct (nth_error (conn_rx s) i) as [c|]; [discriminate|reflexivity].
Qed.

(** A new connection gets the next index, and no other index changes its meaning. *)
Theorem C78_add : forall l s t ip port fd, run created l = Ok (s, t) -> os_ok t ->
  match step s (AddTx ip port fd), fd with
  | Ok (s', c, i), Some d =>
      i = length (tx_conns l) /\ c = [CSocket d] /\
      nth_error (tx_conns (l ++ [AddTx ip port fd])) i = Some (d, ip, (port mod 65536)%Z) /\
      (forall j, j < i -> nth_error (tx_conns (l ++ [AddTx ip port fd])) j = nth_error (tx_conns l) j)
  | r, _ => r = Abort /\ fd = None
  end.
Proof.
  intros l s t ip port fd H Ho. destruct (run_inv _ _ _ H Ho) as [Ht _ _ _ _ _].
  destruct fd as [d|]; cbn [step add_connection_tx]; [|split; reflexivity].
  rewrite app_length. cbn [length]. replace (length (conn_tx s) + 1 - 1) with (length (conn_tx s)) by lia.
  rewrite tx_snoc, <- Ht, map_length. repeat split.
  - rewrite nth_error_app2 by (rewrite map_length; lia). rewrite map_length, Nat.sub_diag. reflexivity.
  - intros j Hj. apply nth_error_app1. rewrite map_length. exact Hj.
Qed.

(** A receiving connection can be made if and only if there is a socket, the address can be bound and the timeout is
    less than a second; it gets the next index. *)
Theorem C78_add_rx : forall l s t ip port us fd b, run created l = Ok (s, t) -> os_ok t -> (0 <= us)%Z ->
  match step s (AddRx ip port us fd b) with
  | Ok (s', c, i) =>
      i = length (rx_conns l) /\ (us < 1000000)%Z /\ b = true /\
      exists d, fd = Some d /\ nth_error (rx_conns (l ++ [AddRx ip port us fd b])) i = Some (d, ip, (port mod 65536)%Z, us)
  | r => r = Abort /\ (fd = None \/ (1000000 <= us)%Z \/ b = false)
  end.
Proof.
  intros l s t ip port us fd b H Ho Hu. destruct (run_inv _ _ _ H Ho) as [_ Hr _ _ _ _].
  assert (El : length (conn_rx s) = length (rx_conns l)) by (rewrite <- (map_length tri), Hr; apply map_length).
  cbn [step]. unfold add_connection_rx, guard. destruct fd as [d|]; [|split; [reflexivity|left; reflexivity]].
  assert (Ev : (if (0 <? us)%Z then timeval_ok us else true) = (us <? 1000000)%Z).
  { unfold timeval_ok. destruct (Z.ltb_spec 0 us); destruct (Z.leb_spec 0 us); destruct (Z.ltb_spec us 1000000); try lia; reflexivity. }
  rewrite Ev. destruct (Z.ltb_spec us 1000000) as [Hl|Hl]; [|split; [reflexivity|right; left; exact Hl]].
  destruct b; [|split; [reflexivity|right; right; reflexivity]].
  rewrite app_length. cbn [length]. replace (length (conn_rx s) + 1 - 1) with (length (conn_rx s)) by lia.
  split; [exact El|]. split; [exact Hl|]. split; [reflexivity|]. exists d. split; [reflexivity|].
  rewrite rx_snoc, nth_error_app2 by lia. rewrite El, Nat.sub_diag. reflexivity.
Qed.

(** Removing a connection closes its descriptor and no other; an unknown index is refused. *)
Theorem C78_remove : forall l s t i, run created l = Ok (s, t) -> os_ok t ->
  match step s (RmTx i) with
  | Ok (s', c, _) => exists fd, nth_error (tx_fds l) i = Some fd /\ c = [CClose fd]
  | r => r = Abort /\ length (tx_fds l) <= i
  end /\
  match step s (RmRx i) with
  | Ok (s', c, _) => exists fd, nth_error (rx_fds l) i = Some fd /\ c = [CClose fd]
  | r => r = Abort /\ length (rx_fds l) <= i
  end.
Proof.
  intros l s t i H Ho. destruct (run_inv _ _ _ H Ho) as [Ht Hr _ _ _ _].
  rewrite (tx_fds_conn _ _ Ht), (rx_fds_conn _ _ Hr), !map_length, !nth_error_map. cbn [step]. unfold rm_connection, guard.
  split.
  - destruct (Nat.ltb_spec i (length (conn_tx s))) as [Hi|Hi]; cbn [bind]; [|split; [reflexivity|exact Hi]].
    destruct (nth_error (conn_tx s) i) as [c|] eqn:E; cbn [bind option_map].
    + exists (socked_fd c). split; reflexivity.
    + apply nth_error_None in E. lia.
  - destruct (Nat.ltb_spec i (length (conn_rx s))) as [Hi|Hi]; cbn [bind]; [|split; [reflexivity|exact Hi]].
    destruct (nth_error (conn_rx s) i) as [c|] eqn:E; cbn [bind option_map].
    + exists (socked_fd c). split; reflexivity.
    + apply nth_error_None in E. lia.
Qed.

(** The destructor closes no descriptor that is not open, but it leaves the second half of the connections of each kind
    open: of n connections, n / 2 (rounded down). *)
Theorem C78_destructor : forall l s t, run created l = Ok (s, t) -> os_ok t ->
  exists c, destroy s = Ok c /\ sound (t ++ c) /\
  (forall fd, In fd (opened (t ++ c)) <->
     In fd (skipn ((length (tx_fds l) + 1) / 2) (tx_fds l)) \/ In fd (skipn ((length (rx_fds l) + 1) / 2) (rx_fds l))).
Proof.
  intros l s t H Ho. destruct (run_inv _ _ _ H Ho) as [Ht Hr Hs Hn Hp _].
  rewrite destroy_closed. eexists. split; [reflexivity|].
  rewrite (tx_fds_conn _ _ Ht), (rx_fds_conn _ _ Hr), !map_length in *.
  split.
  - apply sound_closes; [exact Hs|apply nodup_halves; exact Hn|].
    intros d Hd. apply Hp. apply in_or_app. apply in_app_or in Hd.
    destruct Hd as [Hd|Hd]; [left|right];
      match goal with |- In _ ?x => rewrite <- (firstn_skipn ((length x + 1) / 2) x) end;
      apply in_or_app; left; rewrite map_length; exact Hd.
  - intros fd. rewrite opened_closes, Hp. apply rest_in. exact Hn.
Qed.

(** With at most one connection of each kind nothing stays open. *)
Theorem C78_closed_small : forall l s t c, run created l = Ok (s, t) -> os_ok t -> destroy s = Ok c ->
  length (tx_fds l) <= 1 -> length (rx_fds l) <= 1 -> forall fd, ~ In fd (opened (t ++ c)).
Proof.
  intros l s t c H Ho Hd H1 H2 fd Q.
  destruct (C78_destructor _ _ _ H Ho) as [c' [E [_ Hf]]]. rewrite Hd in E. injection E as <-. apply Hf in Q.
  destruct (tx_fds l) as [|x [|y a]]; cbn [length] in H1; try lia;
    destruct (rx_fds l) as [|x' [|y' b]]; cbn [length] in H2; try lia; cbn in Q; tauto.
Qed.

Lemma os_ok_dec : forall t l,
  (fix go (t : list call) (l : list nat) : bool :=
     match t with
     | [] => true
     | CSocket fd :: t' => negb (existsb (Nat.eqb fd) l) && go t' (fd :: l)
     | CClose fd :: t' => go t' (remove Nat.eq_dec fd l)
     | _ :: t' => go t' l
     end) t l = true ->
  forall t0, opened t0 = l -> forall t1 fd t2, t = t1 ++ CSocket fd :: t2 -> ~ In fd (opened (t0 ++ t1)).
Proof.
  induction t as [|c t IH]; intros l H t0 E t1 fd t2 Et; [destruct t1; discriminate|].
  destruct t1 as [|c1 t1]; cbn [app] in Et; injection Et as Ec Et.
  - subst c. apply andb_prop in H. destruct H as [H _]. rewrite app_nil_r, E. intros Q.
    apply Bool.negb_true_iff in H. assert (existsb (Nat.eqb fd) l = true); [|congruence].
    apply existsb_exists. exists fd. split; [exact Q|apply Nat.eqb_refl].
  - subst c1. replace (t0 ++ c :: t1) with ((t0 ++ [c]) ++ t1) by (rewrite <- app_assoc; reflexivity).
    destruct c; try (apply andb_prop in H; destruct H as [_ H]);
      refine (IH _ H _ _ t1 fd t2 Et); rewrite opened_snoc, E; reflexivity.
Qed.

Definition demo : list op :=
  [AddTx 2130706433 8000 (Some 5); AddRx 0 8050 500000 (Some 6) true; AddTx 2130706433 73536 (Some 7); Tx 1 [1; 2]%Z;
   RmTx 0; AddRx 0 8051 0 (Some 5) true; Tx 0 [3%Z]; Rx 1; AddTx 16777343 9 (Some 8); AddTx 16777343 10 (Some 9)].

Definition demo_calls : list call := match run created demo with Ok (_, t) => t | _ => [] end.
Definition demo_udp : udp := match run created demo with Ok (s, _) => s | _ => created end.

Lemma demo_run : run created demo = Ok (demo_udp, demo_calls).
Proof. reflexivity. Qed.
Lemma demo_os : os_ok demo_calls.
Proof. intros t1 fd t2 E. apply (os_ok_dec demo_calls [] eq_refl [] eq_refl t1 fd t2 E). Qed.

(** A history with both kinds of connections, a removed one and a descriptor used again. *)
Example C78_nonvacuous : run created demo = Ok (demo_udp, demo_calls) /\ os_ok demo_calls /\
  tx_conns demo = [(7, 2130706433%Z, 8000%Z); (8, 16777343%Z, 9%Z); (9, 16777343%Z, 10%Z)] /\
  rx_conns demo = [(6, 0%Z, 8050%Z, 500000%Z); (5, 0%Z, 8051%Z, 0%Z)] /\
  In (CSend 7 2130706433 8000 [3%Z]) demo_calls.
Proof. split; [exact demo_run|]. split; [exact demo_os|]. repeat split. cbn. tauto. Qed.

(** It is false that the destructor closes all sockets. *)
Theorem C78_leak_refuted : ~ (forall l s t c, run created l = Ok (s, t) -> os_ok t -> destroy s = Ok c ->
  opened (t ++ c) = []).
Proof.
  intros H. assert (Q := H demo demo_udp demo_calls). specialize (Q [CClose 7; CClose 8; CClose 6] demo_run demo_os eq_refl).
  vm_compute in Q. discriminate Q.
Qed.

Print Assumptions C78_descriptors.
Print Assumptions C78_send.
Print Assumptions C78_receive.
Print Assumptions C78_add.
Print Assumptions C78_add_rx.
Print Assumptions C78_remove.
Print Assumptions C78_destructor.
Print Assumptions C78_closed_small.
Print Assumptions C78_nonvacuous.
Print Assumptions C78_leak_refuted.
