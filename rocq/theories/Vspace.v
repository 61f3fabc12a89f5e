(** Model of the virtual space of the simulator and of the threads that use it.
    lib/src/simulation/vspace.cpp, lib/src/radio/hw_simulator.cpp 328-698.

    Every function of vspace_t takes its mutex, so an execution is a sequence of such calls; a thread whose
    condition does not hold waits, with or without timeout, and stays where it is. Simplified: a sample
    packet (spp) is an abstract value; a read returns the list of all packets the wireless channel is applied
    to, not their superposition; realign_realtime_with_simulation_time() only sleeps and is left out; times are
    unbounded integers. The threads run for ever (keep_running stays true). *)
From Verif Require Import Base.
Open Scope Z_scope.

Section vspace.
Variable data : Type.
Variable d0 : data.   (* what a newly allocated vspptx contains *)

(** What a radio registers with: samp_rate, spp_size and the time its RX thread set at the last PPS
    (hw_simulator.cpp 244-254). *)
Record radio := { samp_rate : Z; spp_size : Z; start : Z }.

(** vspace.hpp 96-126 *)
Record vspace := {
  tx_registered : list (option (Z * Z));  (* vspptx_vec: null, or samp_rate and spp_size *)
  rx_registered : list bool;              (* meta.vspprx_counterpart_registered *)
  slots : list data;                      (* samples held by vspptx_vec *)
  all_tx_registered : bool;
  all_rx_registered : bool;
  status_tx_written : list bool;
  status_rx_read : list bool;
  spp_size_common : Z;
  now_start : Z;
  now : Z
}.

(** vspace.cpp 35-53 *)
Definition vspace_new (n : nat) : vspace :=
  {| tx_registered := repeat None n; rx_registered := repeat false n; slots := repeat d0 n;
     all_tx_registered := false; all_rx_registered := false;
     status_tx_written := repeat false n; status_rx_read := repeat false n;
     spp_size_common := 0; now_start := 0; now := 0 |}.

Definition is_some {A} (o : option A) : bool := match o with Some _ => true | None => false end.

(** vspace.cpp 84-92: every other radio has the values of the first. *)
Definition same_as_first (l : list (option (Z * Z))) : bool :=
  match l with
  | Some (r, s) :: t => forallb (fun o => match o with Some (r', s') => (r =? r') && (s =? s') | None => false end) t
  | _ => false
  end.

(** vspace.cpp 72-105 *)
Definition hw_register_tx (v : vspace) (i : nat) (c : radio) : res vspace :=
  guard (i <? length (tx_registered v))%nat (
  guard (match nth_error (tx_registered v) i with Some None => true | _ => false end) (
  let reg := upd (tx_registered v) i (Some (samp_rate c, spp_size c)) in
  if forallb is_some reg then
    guard (same_as_first reg)
      (Ok {| tx_registered := reg; rx_registered := rx_registered v; slots := slots v;
             all_tx_registered := true; all_rx_registered := all_rx_registered v;
             status_tx_written := status_tx_written v; status_rx_read := status_rx_read v;
             spp_size_common := match reg with Some (_, s) :: _ => s | _ => 0 end;
             now_start := 0; now := 0 |})
  else
    Ok {| tx_registered := reg; rx_registered := rx_registered v; slots := slots v;
          all_tx_registered := all_tx_registered v; all_rx_registered := all_rx_registered v;
          status_tx_written := status_tx_written v; status_rx_read := status_rx_read v;
          spp_size_common := spp_size_common v; now_start := now_start v; now := now v |})).

(** vspace.cpp 107-139; the dereference of an unregistered vspptx is out of bounds. *)
Definition hw_register_rx (v : vspace) (i : nat) (c : radio) : res vspace :=
  match nth_error (tx_registered v) i with
  | Some (Some (r, s)) =>
      do reg <- rd (rx_registered v) i ;
      guard (negb reg) (
      guard (all_tx_registered v) (
      let first := forallb negb (rx_registered v) in
      guard (negb first || (now v =? 0)) (
      let now_start' := if first then start c else now_start v in
      let now' := if first then start c else now v in
      let reg' := upd (rx_registered v) i true in
      guard (samp_rate c =? r) (
      guard (spp_size c =? s) (
      guard (start c =? now') (
      let last := forallb (fun b => b) reg' in
      Ok {| tx_registered := tx_registered v; rx_registered := reg'; slots := slots v;
            all_tx_registered := all_tx_registered v;
            all_rx_registered := if last then true else all_rx_registered v;
            status_tx_written := if last then repeat false (length (status_tx_written v)) else status_tx_written v;
            status_rx_read := if last then repeat true (length (status_rx_read v)) else status_rx_read v;
            spp_size_common := spp_size_common v; now_start := now_start'; now := now' |}))))))
  | _ => Oob
  end.

(** vspace.cpp 195-224: write(vspptx) with vspptx.meta.now_64 = [t] and samples [d]. *)
Definition write (v : vspace) (i : nat) (t : Z) (d : data) : res vspace :=
  do w <- rd (status_tx_written v) i ;
  guard (negb w) (
  guard (t =? now v) (
  let written := upd (status_tx_written v) i true in
  Ok {| tx_registered := tx_registered v; rx_registered := rx_registered v; slots := upd (slots v) i d;
        all_tx_registered := all_tx_registered v; all_rx_registered := all_rx_registered v;
        status_tx_written := written;
        status_rx_read := if forallb (fun b => b) written then repeat false (length (status_rx_read v))
                          else status_rx_read v;
        spp_size_common := spp_size_common v; now_start := now_start v; now := now v |})).

(** vspace.cpp 226-253: read(vspprx) with vspprx.meta.now_64 = [t]. *)
Definition read (v : vspace) (i : nat) (t : Z) : res (vspace * list data) :=
  do r <- rd (status_rx_read v) i ;
  guard (negb r) (
  guard (t =? now v) (
  let rdd := upd (status_rx_read v) i true in
  let last := forallb (fun b => b) rdd in
  Ok ({| tx_registered := tx_registered v; rx_registered := rx_registered v; slots := slots v;
         all_tx_registered := all_tx_registered v; all_rx_registered := all_rx_registered v;
         status_tx_written := if last then repeat false (length (status_tx_written v)) else status_tx_written v;
         status_rx_read := rdd;
         spp_size_common := spp_size_common v; now_start := now_start v;
         now := if last then now v + spp_size_common v else now v |}, slots v))).

(** Where the TX thread of a radio is (hw_simulator.cpp 328-619): before registration; waiting for all RX
    registrations; before wait_writable with local time t; before write with local time t. *)
Inductive tx_pc := TxRegister | TxWaitAll | TxWait (t : Z) | TxWrite (t : Z).
(** The RX thread (hw_simulator.cpp 621-698). *)
Inductive rx_pc := RxWaitTx | RxWaitAll | RxWait (t : Z) | RxRead (t : Z).

Record sim := { space : vspace; radios : list radio; txs : list tx_pc; rxs : list rx_pc }.

Definition sim_new (cfg : list radio) : sim :=
  {| space := vspace_new (length cfg); radios := cfg;
     txs := repeat TxRegister (length cfg); rxs := repeat RxWaitTx (length cfg) |}.

(** What the radios exchange with the space: radio, local time and samples. *)
Inductive event := EWrite (i : nat) (t : Z) (d : data) | ERead (i : nat) (t : Z) (all : list data).

(** One step of the TX thread of radio [i]; [d] is the packet it writes if it writes. *)
Definition tx_step (s : sim) (i : nat) (d : data) : res (sim * list event) :=
  match nth_error (txs s) i, nth_error (radios s) i with
  | Some pc, Some c =>
      let go v pc' ev := Ok ({| space := v; radios := radios s; txs := upd (txs s) i pc'; rxs := rxs s |}, ev) in
      match pc with
      | TxRegister => do v <- hw_register_tx (space s) i c ; go v TxWaitAll []
      | TxWaitAll => if all_rx_registered (space s) then go (space s) (TxWait (start c)) [] else Ok (s, [])
      | TxWait t =>
          do w <- rd (status_tx_written (space s)) i ;
          if w then Ok (s, []) else go (space s) (TxWrite t) []
      | TxWrite t => do v <- write (space s) i t d ; go v (TxWait (t + spp_size c)) [EWrite i t d]
      end
  | _, _ => Ok (s, [])
  end.

(** One step of the RX thread of radio [i]. *)
Definition rx_step (s : sim) (i : nat) : res (sim * list event) :=
  match nth_error (rxs s) i, nth_error (radios s) i with
  | Some pc, Some c =>
      let go v pc' ev := Ok ({| space := v; radios := radios s; txs := txs s; rxs := upd (rxs s) i pc' |}, ev) in
      match pc with
      | RxWaitTx =>
          if all_tx_registered (space s) then do v <- hw_register_rx (space s) i c ; go v RxWaitAll []
          else Ok (s, [])
      | RxWaitAll => if all_rx_registered (space s) then go (space s) (RxWait (start c)) [] else Ok (s, [])
      | RxWait t =>
          do r <- rd (status_rx_read (space s)) i ;
          if r then Ok (s, []) else go (space s) (RxRead t) []
      | RxRead t => do (v, all) <- read (space s) i t ; go v (RxWait (t + spp_size c)) [ERead i t all]
      end
  | _, _ => Ok (s, [])
  end.

(** A schedule names the thread that moves next. *)
Inductive action := Tx (i : nat) (d : data) | Rx (i : nat).
Definition step (s : sim) (a : action) : res (sim * list event) :=
  match a with Tx i d => tx_step s i d | Rx i => rx_step s i end.
Fixpoint run (s : sim) (l : list action) : res (sim * list event) :=
  match l with
  | [] => Ok (s, [])
  | a :: l => do (s1, e1) <- step s a ; do (s2, e2) <- run s1 l ; Ok (s2, e1 ++ e2)
  end.
End vspace.
