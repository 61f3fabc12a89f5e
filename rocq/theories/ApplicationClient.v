(** Model of the application client: the firmware writes received datagrams into one queue per
    connection and announces how many it wrote; a separate thread forwards them to the operating
    system. lib/src/application/application_client.cpp, lib/src/application/application.cpp,
    lib/src/application/{socket/socket_client,vnic/vnic_client}.cpp.

    Modelled is the variant with a condition variable (APPLICATION_APP_CLIENT_CONDITION_VARIABLE_OR_
    BUSY_WAITING and ENABLE_ASSERT defined, as in the repository's build). The two threads interleave
    at the granularity of the two locks: the mutex [lockv] of the client and the mutex of each queue.
    Simplified: both existing filters return true (socket_client.cpp 90-94, vnic_client.cpp 62-66), so
    the filter is left out; the operating system takes every datagram whole, so write_immediate()
    returns n. *)
From Verif Require Import Base.
From Verif Require DatagramQueue.
Import DatagramQueue (queue, queue_size, queue_new, write_under_lock, read_under_lock).

(** A datagram addressed to a connection. *)
Definition item := (nat * list N)%type.

(** Where the forwarding thread is. [Waiting]: in cv.wait_for() or between two rounds of work_sc(),
    application_client.cpp 50-75, the mutex is free. [Looping]: before the condition of the while loop of
    forward_under_lock(), line 118. [Scanning i e]: before iteration i of the for loop, line 124, with
    all_queues_empty = e. In the latter two the thread holds the mutex. *)
Inductive fpc := Waiting | Looping | Scanning (i : nat) (all_queues_empty : bool).

(** What the firmware thread still has to do for the packet it is working on: the datagrams not yet
    written and the number of successful writes so far (steady_ft.cpp 328-342). *)
Record client := {
  queue_vec : list queue;              (* application.hpp: queue_vec *)
  indicator_cnt : Z;                   (* application_client.hpp: int32_t indicator_cnt *)
  forwarder : fpc;
  fw_now : option (list item * N);     (* datagrams left, datagram_cnt *)
  fw_next : list (list item)           (* packets still to come *)
}.

(** Calls an observer can see: write_nto(conn, data) and its return value, trigger_forward_nto(n), and
    the datagrams given to the operating system by write_immediate(). *)
Inductive event :=
| EWrite (conn : nat) (data : list N) (ret : nat)
| ETrigger (n : N)
| EForward (conn : nat) (data : list N).

(** application.cpp 27-45 and application_client.cpp 27-33: constructor. *)
Definition client_new (n_queue : nat) (sz : queue_size) (fill : N) (pdus : list (list item)) : res client :=
  guard (0 <? n_queue) (
  guard (n_queue <=? 32) (
  guard (DatagramQueue.queue_size_is_valid sz) (
  Ok {| queue_vec := repeat (queue_new sz fill) n_queue; indicator_cnt := 0%Z; forwarder := Waiting;
        fw_now := None; fw_next := pdus |}))).

(** Conversion to int32_t and uint32_t. *)
Definition to_int32 (z : Z) : Z := ((z + 2147483648) mod 4294967296 - 2147483648)%Z.
Definition to_uint32 (z : Z) : Z := (z mod 4294967296)%Z.

(** std::vector::at *)
Definition vec_at {A} (l : list A) (i : nat) : res A :=
  match nth_error l i with Some x => Ok x | None => Throw end.

(** socket_client.cpp 82-84, vnic_client.cpp 50-53: write_nto(conn_idx, inp, n). *)
Definition write_nto (c : client) (conn : nat) (data : list N) : res (list queue * nat) :=
  do q <- vec_at (queue_vec c) conn ;
  do qk <- write_under_lock q data (length data) ;
  Ok (upd (queue_vec c) conn (fst qk), snd qk).

(** application_client.cpp 94-98: indicator_cnt += datagram_cnt, with the conversions of C++. *)
Definition inc_indicator (c : Z) (datagram_cnt : N) : Z := to_int32 (to_uint32 c + Z.of_N datagram_cnt).

(** One step of the firmware thread, steady_ft.cpp 328-345 (steady_pt.cpp 270-296 is the same loop): take
    up the next packet, write one datagram and count it if write_nto() > 0, or trigger. The trigger
    waits for the mutex (application_client.cpp 35-48). *)
Definition firmware_step (c : client) : res (client * list event) :=
  match fw_now c with
  | None =>
      match fw_next c with
      | [] => Ok (c, [])
      | p :: ps => Ok ({| queue_vec := queue_vec c; indicator_cnt := indicator_cnt c;
                          forwarder := forwarder c; fw_now := Some (p, 0%N); fw_next := ps |}, [])
      end
  | Some ((conn, data) :: r, k) =>
      do qn <- write_nto c conn data ;
      Ok ({| queue_vec := fst qn; indicator_cnt := indicator_cnt c; forwarder := forwarder c;
             fw_now := Some (r, if 0 <? snd qn then (k + 1)%N else k); fw_next := fw_next c |},
          [EWrite conn data (snd qn)])
  | Some ([], k) =>
      match forwarder c with
      | Waiting =>
          Ok ({| queue_vec := queue_vec c; indicator_cnt := inc_indicator (indicator_cnt c) k;
                 forwarder := Waiting; fw_now := None; fw_next := fw_next c |}, [ETrigger k])
      | _ => Ok (c, [])
      end
  end.

(** One step of the forwarding thread: application_client.cpp 50-75 and 112-148. *)
Definition forwarder_step (c : client) : res (client * list event) :=
  match forwarder c with
  | Waiting =>
      if (0 <? indicator_cnt c)%Z
      then Ok ({| queue_vec := queue_vec c; indicator_cnt := indicator_cnt c; forwarder := Looping;
                  fw_now := fw_now c; fw_next := fw_next c |}, [])
      else Ok (c, [])
  | Looping =>
      Ok ({| queue_vec := queue_vec c; indicator_cnt := indicator_cnt c;
             forwarder := if (0 <? to_uint32 (indicator_cnt c))%Z then Scanning 0 true else Waiting;
             fw_now := fw_now c; fw_next := fw_next c |}, [])
  | Scanning i e =>
      if i <? length (queue_vec c)
      then
        do q <- vec_at (queue_vec c) i ;
        do (qn, bytes) <- read_under_lock q true ;
        if 0 <? snd qn
        then Ok ({| queue_vec := upd (queue_vec c) i (fst qn);
                    indicator_cnt := to_int32 (indicator_cnt c - 1); forwarder := Scanning (i + 1) false;
                    fw_now := fw_now c; fw_next := fw_next c |}, [EForward i bytes])
        else Ok ({| queue_vec := upd (queue_vec c) i (fst qn); indicator_cnt := indicator_cnt c;
                    forwarder := Scanning (i + 1) e; fw_now := fw_now c; fw_next := fw_next c |}, [])
      else
        guard (negb e)
          (Ok ({| queue_vec := queue_vec c; indicator_cnt := indicator_cnt c; forwarder := Looping;
                  fw_now := fw_now c; fw_next := fw_next c |}, []))
  end.

(** A schedule names the thread that moves next; a thread that is blocked, or has nothing to do, stays
    where it is. *)
Inductive thread := Firmware | Forwarder.

Definition step (c : client) (t : thread) : res (client * list event) :=
  match t with Firmware => firmware_step c | Forwarder => forwarder_step c end.

Fixpoint run (c : client) (sched : list thread) : res (client * list event) :=
  match sched with
  | [] => Ok (c, [])
  | t :: ts =>
      do (c1, e1) <- step c t ;
      do (c2, e2) <- run c1 ts ;
      Ok (c2, e1 ++ e2)
  end.
