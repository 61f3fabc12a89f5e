(** Model of the application server: a thread takes datagrams from the operating system, puts them into one queue per
    connection and announces them to the firmware by jobs; the firmware reads the queues.
    lib/src/application/application_server.cpp, lib/src/application/application.cpp,
    lib/src/application/socket/socket_server.cpp, lib/src/application/vnic/{vnic,vnic_server}.cpp.
    Set up of sockets and devices is not modelled. *)
From Verif Require Import Base.
From Verif Require DatagramQueue.
Import DatagramQueue (queue, queue_size, queue_new, write_under_lock, read_under_lock).

(** application.hpp 90: size of buffer_local; limits.hpp 79 *)
Definition buffer_byte : nat := 1600.
(** limits.hpp 77: application_max_connections *)
Definition max_connections : nat := 32.

(** application.hpp, application_server.hpp: [sv_vnic] tells a network interface from sockets; [sv_mark] is the start
    of watch_job_queue_access_protection in ns; [sv_jobs] are the jobs the job queue took: connection and bytes. *)
Record server := mkServer {
  sv_vnic : bool;
  sv_queues : list queue;
  sv_local : list N;
  sv_protect : Z;
  sv_mark : Z;
  sv_jobs : list (nat * nat) }.

(** application.cpp 28-45, application_server.cpp 25-32, vnic_server.cpp 37-59 (N_queue = 1), socket_server.cpp 31-63;
    application_server.cpp 38-39: the thread starts at time [t0] and resets the watch *)
Definition server_new (vnic : bool) (n_queue : nat) (sz : queue_size) (fill : N) (protect t0 : Z) : res server :=
  let n := if vnic then 1 else n_queue in
  guard (0 <? n) (guard (n <=? max_connections) (guard (DatagramQueue.queue_size_is_valid sz)
  (Ok (mkServer vnic (repeat (queue_new sz fill) n) (repeat fill buffer_byte) protect t0 [])))).

(** What the operating system returns for a readable connection: an error, or a datagram. *)
Inductive arrival := Failed | Data (d : list N).
(** vnic_server.cpp 104-106, socket_server.cpp 89-96: at most sizeof(buffer_local) bytes are taken, the rest of the
    datagram is lost; -1 on failure. The buffer keeps its other bytes. *)
Definition read_datagram (local : list N) (a : arrival) : list N * Z :=
  match a with
  | Failed => (local, (-1)%Z)
  | Data d => let n := Nat.min (length d) buffer_byte in (firstn n d ++ skipn n local, Z.of_nat n)
  end.
(** vnic.cpp 89-92: struct iphdr has the version in the upper half of its first byte *)
Definition get_ip_version (b : list N) : res N := do x <- rd b 0 ; Ok (x / 16)%N.
(** vnic_server.cpp 108-116 (APPLICATION_VNIC_VNIC_SERVER_ONLY_FORWARD_IPV4 is defined), socket_server.cpp 98-102 *)
Definition filter_ingress_datagram (vnic : bool) (b : list N) : res bool :=
  if vnic then do v <- get_ip_version b ; Ok (v =? 4)%N else Ok true.

(** application_server.cpp 76-83: [t] and [t'] are the readings of the clock in get_elapsed() and reset(), [slot] tells
    whether the job queue takes the job. The result says whether a job was created. *)
Definition enqueue_job_nto (s : server) (i n : nat) (t t' : Z) (slot : bool) : server * bool :=
  if (sv_protect s <=? t - sv_mark s)%Z then
    (mkServer (sv_vnic s) (sv_queues s) (sv_local s) (sv_protect s) t' (sv_jobs s ++ if slot then [(i, n)] else []), true)
  else (s, false).
Definition with_local (s : server) (b : list N) : server := mkServer (sv_vnic s) (sv_queues s) b (sv_protect s) (sv_mark s) (sv_jobs s).
Definition with_queue (s : server) (i : nat) (q : queue) : server :=
  mkServer (sv_vnic s) (upd (sv_queues s) i q) (sv_local s) (sv_protect s) (sv_mark s) (sv_jobs s).
(** application_server.cpp 49-70: the body of the loop for connection [i] with POLLIN. The result is the number of bytes
    written to the queue and whether a job was created. *)
Definition ingress (s : server) (i : nat) (a : arrival) (t t' : Z) (slot : bool) : res (server * nat * bool) :=
  let (b, n) := read_datagram (sv_local s) a in
  let s := with_local s b in
  do keep <- filter_ingress_datagram (sv_vnic s) b ;
  if negb keep then Ok (s, 0, false)
  else if (0 <? n)%Z then
    do q <- rd (sv_queues s) i ;
    do (q, w) <- write_under_lock q b (Z.to_nat n) ;
    let s := with_queue s i q in
    if 0 <? w then let (s, j) := enqueue_job_nto s i w t t' slot in Ok (s, w, j)
    else Ok (s, w, false)
  else Ok (s, 0, false).
(** socket_server.cpp 81-87, vnic_server.cpp 94-102: read_nto and, with [locked] = false, a read_try that finds the
    queue locked *)
Definition read_nto (s : server) (i : nat) (want locked : bool) : res (server * nat * list N) :=
  guard (negb (sv_vnic s) || (i =? 0))
  match nth_error (sv_queues s) i with
  | None => Throw
  | Some q => if locked then do (q, n, d) <- read_under_lock q want ; Ok (with_queue s i q, n, d) else Ok (s, 0, [])
  end.

(** The server thread and the firmware interleave at the locks of the queues. A round of poll() (lines 42-72) is a
    sequence of [Arrive]. *)
Inductive ev := Arrive (i : nat) (a : arrival) (t t' : Z) (slot : bool) | Read (i : nat) (want locked : bool).
Inductive ob := Kept (n : nat) (job : bool) | Got (n : nat) (d : list N).
Definition step (s : server) (e : ev) : res (server * ob) :=
  match e with
  | Arrive i a t t' slot => do (s, n, j) <- ingress s i a t t' slot ; Ok (s, Kept n j)
  | Read i want locked => do (s, n, d) <- read_nto s i want locked ; Ok (s, Got n d)
  end.
Fixpoint run (s : server) (es : list ev) : res (server * list ob) :=
  match es with
  | [] => Ok (s, [])
  | e :: es => do (s, o) <- step s e ; do (s, os) <- run s es ; Ok (s, o :: os)
  end.
