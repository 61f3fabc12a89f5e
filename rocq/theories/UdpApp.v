(** The UDP sockets of the applications: apps/udp.cpp. The operating system is seen through the calls made to it; its
    answers are inputs. IPv4 addresses are numbers (inet_addr is not modelled); the byte order of ports and addresses,
    the results of sendto and recvfrom, and tx_timed (which sleeps and calls tx) are left out. *)
From Verif Require Import Base.
Open Scope nat_scope.

(** udp.hpp 64-67 connection_t *)
Record conn : Type := mkConn { socked_fd : nat; s_addr : Z; sin_port : Z }.

(** udp.hpp 69-70 *)
Record udp : Type := mkUdp { conn_tx : list conn; conn_rx : list conn }.

(** Calls to the operating system that are carried out. *)
Inductive call : Type :=
| CSocket (fd : nat)
| CTimeout (fd : nat) (us : Z)
| CBind (fd : nat) (ip port : Z)
| CSend (fd : nat) (ip port : Z) (data : list Z)
| CRecv (fd : nat)
| CClose (fd : nat).

(** The public functions with their arguments and the answers of socket (None: -1) and bind. *)
Inductive op : Type :=
| AddTx (ip port : Z) (fd : option nat)
| AddRx (ip port timeout_us : Z) (fd : option nat) (bound : bool)
| RmTx (idx : nat)
| RmRx (idx : nat)
| Tx (idx : nat) (data : list Z)
| Rx (idx : nat).

(** htons: the argument is cut to 16 bits (udp.cpp 50, 80) *)
Definition port16 (port : Z) : Z := (port mod 2 ^ 16)%Z.

(** udp.cpp 39-55 add_connection_tx: calls and index of the connection. *)
Definition add_connection_tx (s : udp) (ip port : Z) (fd : option nat) : res (udp * list call * nat) :=
  match fd with
  | None => Abort
  | Some d =>
      let l := conn_tx s ++ [mkConn d ip (port16 port)] in
      Ok (mkUdp l (conn_rx s), [CSocket d], length l - 1)
  end.

(** setsockopt with SO_RCVTIMEO and tv_sec = 0 (udp.cpp 68-74): Linux refuses microseconds of a second or more. *)
Definition timeval_ok (tv_usec : Z) : bool := ((0 <=? tv_usec) && (tv_usec <? 1000000))%Z.

(** udp.cpp 57-89 add_connection_rx. *)
Definition add_connection_rx (s : udp) (ip port timeout_us : Z) (fd : option nat) (bound : bool)
  : res (udp * list call * nat) :=
  match fd with
  | None => Abort
  | Some d =>
      guard (if (0 <? timeout_us)%Z then timeval_ok timeout_us else true)
        (guard bound
          (let l := conn_rx s ++ [mkConn d ip (port16 port)] in
           Ok (mkUdp (conn_tx s) l,
               CSocket d :: (if (0 <? timeout_us)%Z then [CTimeout d timeout_us] else [])
                         ++ [CBind d ip (port16 port)],
               length l - 1)))
  end.

(** std::vector::erase *)
Fixpoint erase {A} (idx : nat) (l : list A) : list A :=
  match l, idx with
  | [], _ => []
  | _ :: l', 0 => l'
  | x :: l', S i => x :: erase i l'
  end.

(** udp.cpp 91-96 and 98-103 rm_connection_tx and rm_connection_rx on one of the vectors. *)
Definition rm_connection (idx : nat) (l : list conn) : res (list conn * list call) :=
  guard (idx <? length l)
    (match nth_error l idx with
     | None => Throw
     | Some c => Ok (erase idx l, [CClose (socked_fd c)])
     end).

(** udp.cpp 39-116: one call of a public function; the number is the returned index (0 where none is returned). *)
Definition step (s : udp) (o : op) : res (udp * list call * nat) :=
  match o with
  | AddTx ip port fd => add_connection_tx s ip port fd
  | AddRx ip port us fd b => add_connection_rx s ip port us fd b
  | RmTx i => do (l, c) <- rm_connection i (conn_tx s) ; Ok (mkUdp l (conn_rx s), c, 0)
  | RmRx i => do (l, c) <- rm_connection i (conn_rx s) ; Ok (mkUdp (conn_tx s) l, c, 0)
  | Tx i data =>
      match nth_error (conn_tx s) i with
      | None => Throw
      | Some c => Ok (s, [CSend (socked_fd c) (s_addr c) (sin_port c) data], 0)
      end
  | Rx i =>
      match nth_error (conn_rx s) i with
      | None => Throw
      | Some c => Ok (s, [CRecv (socked_fd c)], 0)
      end
  end.

(** udp.hpp 37: a new object has no connections. *)
Definition created : udp := mkUdp [] [].

Fixpoint run (s : udp) (l : list op) : res (udp * list call) :=
  match l with
  | [] => Ok (s, [])
  | o :: l' =>
      do (s1, c, i) <- step s o ;
      do (s2, t) <- run s1 l' ;
      Ok (s2, c ++ t)
  end.

(** udp.cpp 30-32, 34-36: a loop of the destructor; [fuel] bounds the recursion and is never used up. *)
Fixpoint drop (fuel i : nat) (l : list conn) : res (list conn * list call) :=
  match fuel with
  | 0 => Ok (l, [])
  | S f =>
      if i <? length l
      then do (l1, c) <- rm_connection 0 l ;
           do (l2, t) <- drop f (i + 1) l1 ;
           Ok (l2, c ++ t)
      else Ok (l, [])
  end.

(** udp.cpp 29-37 ~udp_t: calls made; the vectors end with the object. *)
Definition destroy (s : udp) : res (list call) :=
  do (l1, c1) <- drop (length (conn_tx s)) 0 (conn_tx s) ;
  do (l2, c2) <- drop (length (conn_rx s)) 0 (conn_rx s) ;
  Ok (c1 ++ c2).
