(** Model of the p2p demo firmware as a termination point of the lower layers: its life cycle, its shutdown and the
    instants of its transmissions.
    lib/src/upper/p2p/{tfw_p2p_rd,tfw_p2p_ft,tfw_p2p_pt}.cpp,
    lib/src/upper/p2p/procedure/{nop,resource,association,steady_rd,steady_ft,steady_pt,dissociation_ft,dissociation_pt}.cpp.
    The contents of packets, feedback, gain control and the regular log and PPX callbacks are not part of this model.
    The build is that of the repository: neither TFW_P2P_EXPORT_PPX nor TFW_P2P_MIMO is defined. *)
From Verif Require Import Base IntHelpers Duration Allocation IrregularQueue.
Open Scope Z_scope.

Inductive role := FT | PT.
(** The objects tpoint_state may point to. [First] is resource_t of an FT and association_t of a PT. *)
Inductive stage := First | Steady | Dissociation | Nop.
(** association.cpp 27, dissociation_ft.cpp 27, dissociation_pt.cpp 27; the others use the default handle 0 *)
Definition handle_association : N := 123.
Definition handle_dissociation (r : role) : N := match r with FT => 1234 | PT => 12345 end%N.

(** A packet handed to the PHY: tx_descriptor_t's buffer_tx_meta (tx_order_id, tx_time_64). [Unicast] also names the
    contact and the transmit opportunity. *)
Inductive tx := Beacon_tx (id t : Z) | Unicast_tx (id : Z) (contact : nat) (o : tx_opportunity).

(** rd.hpp, ft.hpp, pt.hpp and lower_ctrl.hpp 94-101. An FT has one allocation per PT in its contact list, a PT has
    exactly one. [f_order] is an int64_t; it is not wrapped here since 2^63 packets cannot be sent. *)
Record fw := mkFw {
  f_role : role;
  f_lut : duration_lut;
  f_stage : stage;
  f_shut : bool;
  f_released : bool;
  f_start : Z;
  f_ft : allocation_ft;
  f_contacts : list allocation_pt;
  f_order : Z;
  f_earliest : Z }.
Definition with_stage (f : fw) (s : stage) : fw :=
  mkFw (f_role f) (f_lut f) s (f_shut f) (f_released f) (f_start f) (f_ft f) (f_contacts f) (f_order f) (f_earliest f).
Definition with_shut (f : fw) (b : bool) : fw :=
  mkFw (f_role f) (f_lut f) (f_stage f) b (f_released f) (f_start f) (f_ft f) (f_contacts f) (f_order f) (f_earliest f).
(** tfw_p2p_rd.cpp 60-64 *)
Definition stop_request_unblock (f : fw) : fw :=
  mkFw (f_role f) (f_lut f) (f_stage f) (f_shut f) true (f_start f) (f_ft f) (f_contacts f) (f_order f) (f_earliest f).
Definition with_start (f : fw) (t : Z) : fw :=
  mkFw (f_role f) (f_lut f) (f_stage f) (f_shut f) (f_released f) t (f_ft f) (f_contacts f) (f_order f) (f_earliest f).
Definition with_ft (f : fw) (a : allocation_ft) : fw :=
  mkFw (f_role f) (f_lut f) (f_stage f) (f_shut f) (f_released f) (f_start f) a (f_contacts f) (f_order f) (f_earliest f).
Definition with_contacts (f : fw) (l : list allocation_pt) : fw :=
  mkFw (f_role f) (f_lut f) (f_stage f) (f_shut f) (f_released f) (f_start f) (f_ft f) l (f_order f) (f_earliest f).
Definition with_sent (f : fw) (o e : Z) : fw :=
  mkFw (f_role f) (f_lut f) (f_stage f) (f_shut f) (f_released f) (f_start f) (f_ft f) (f_contacts f) o e.

(** What a call of the firmware reads from elsewhere: the time of the receive buffer at its k-th reading, whether the
    k-th attempt to send a unicast packet finds application data, a HARQ process and a datagram that fits, whether a HARQ
    process is free for the beacon, the offset to the PPS, and before which of its readings (if any) of the mode the main
    thread stores SHUTTING_DOWN. *)
Record inp := mkInp { clock : nat -> Z; sends : nat -> bool; beacon_harq : bool; pps : Z; hit : option nat }.
(** rd.hpp 128-129: the k-th reading of the mode in a call *)
Definition shutting (f : fw) (i : inp) (k : nat) : bool :=
  f_shut f || match hit i with Some h => (h <=? k)%nat | None => false end.

Definition report_at (t : Z) (h : N) : report := {| call_after := t; handle := h |}.

(** resource.cpp 64-68, association.cpp 73-78 *)
Definition first_entry (f : fw) : res report :=
  match f_role f with
  | FT => do d <- get_N_samples_from_duration (f_lut f) ms001 500 ; do t <- sgn 64 (f_start f + d) ; Ok (report_at t 0)
  | PT => do d <- get_N_samples_from_duration (f_lut f) ms001 100 ; do t <- sgn 64 (f_start f + d) ; Ok (report_at t handle_association)
  end.
(** steady_ft.cpp 158-203, steady_pt.cpp 103-117; the registration of log callbacks is left out *)
Definition steady_entry (f : fw) (now pps : Z) : res (fw * report) :=
  match f_role f with
  | FT =>
      do A <- get_N_samples_at_next_full_second (f_lut f) now ;
      do s <- get_N_samples_from_duration (f_lut f) s001 1 ;
      do B <- sgn 64 (A + s) ;
      do B <- sgn 64 (B + pps) ;
      let a := set_beacon_time_scheduled (f_ft f) B in
      do t <- get_beacon_time_scheduled_minus_prepare_duration a ;
      Ok (with_ft f a, report_at t 0)
  | PT => do t <- sgn 64 (now + Z.of_N (du_N (fa_period (f_ft f)))) ; Ok (f, report_at t 0)
  end.
(** dissociation_ft.cpp 75-82, dissociation_pt.cpp 75-82; [seen]: is_shutting_down *)
Definition dissociation_entry (f : fw) (seen : bool) (now : Z) : res report :=
  guard seen
  (do d <- get_N_samples_from_duration (f_lut f) ms001 100 ; do t <- sgn 64 (now + d) ; Ok (report_at t (handle_dissociation (f_role f)))).
(** tfw_p2p_ft.cpp 194-220, tfw_p2p_pt.cpp 189-215. [k] readings of the mode came before in this call. *)
Definition state_transitions (f : fw) (i : inp) (k : nat) : res (fw * report) :=
  match f_stage f with
  | First =>
      do (f, r) <- steady_entry f (clock i 0) (pps i) ;
      let f := with_stage f Steady in
      if shutting f i k then
        do r <- dissociation_entry f (shutting f i (k + 1)) (clock i 1) ;
        Ok (with_stage f Dissociation, r)
      else Ok (f, r)
  | Steady =>
      do r <- dissociation_entry f (shutting f i k) (clock i 0) ;
      Ok (with_stage f Dissociation, r)
  | Dissociation => Ok (stop_request_unblock (with_stage f Nop), report_default)
  | Nop => Ok (f, report_default)
  end.

(** steady_rd.cpp 357-428, as far as the instant of the packet is concerned *)
Definition tx_unicast (f : fw) (ok : bool) (contact : nat) (o : tx_opportunity) : res (fw * list tx) :=
  if ok then do e <- get_end o ; Ok (with_sent f (f_order f + 1) e, [Unicast_tx (f_order f) contact o])
  else Ok (f, []).
(** steady_ft.cpp 456-479: the contacts from number [c] on; [k] attempts came before. The flag tells whether the
    function goes on with the next round. *)
Fixpoint ft_round (f : fw) (i : inp) (c k : nat) (l : list allocation_pt) : res (fw * list tx * bool) :=
  match l with
  | [] => Ok (f, [], true)
  | a :: l =>
      do o <- get_tx_opportunity (set_beacon_time_last_known a (fa_transmitted (f_ft f))) dl (clock i k) (f_earliest f) ;
      if op_time o <? 0 then Ok (f, [], false)
      else
        do (f, t) <- tx_unicast f (sends i k) c o ;
        do (f, t', go) <- ft_round f i (S c) (S k) l ;
        Ok (f, t ++ t', go)
  end.
(** steady_ft.cpp 452-481. Each contact's copy of the beacon time is overwritten before it is read, so it is not stored. *)
Fixpoint ft_consecutive (n : nat) (f : fw) (i : inp) (k : nat) : res (fw * list tx) :=
  match n with
  | O => Ok (f, [])
  | S n =>
      do (f, t, go) <- ft_round f i 0 k (f_contacts f) ;
      if go then do (f, t') <- ft_consecutive n f i (k + length (f_contacts f)) ; Ok (f, t ++ t')
      else Ok (f, t)
  end.
(** steady_pt.cpp 305-324 *)
Fixpoint pt_consecutive (n : nat) (f : fw) (i : inp) (k : nat) : res (fw * list tx) :=
  match n with
  | O => Ok (f, [])
  | S n =>
      match f_contacts f with
      | [] => Oob
      | a :: _ =>
          do o <- get_tx_opportunity a ul (clock i k) (f_earliest f) ;
          if op_time o <? 0 then Ok (f, [])
          else
            do (f, t) <- tx_unicast f (sends i k) 0 o ;
            if sends i k then do (f, t') <- pt_consecutive n f i (S k) ; Ok (f, t ++ t')
            else Ok (f, t)
      end
  end.
(** rd.hpp 107: max_simultaneous_tx_unicast *)
Definition max_tx : nat := 8.
Definition consecutive (f : fw) (i : inp) : res (fw * list tx) :=
  match f_role f with FT => ft_consecutive max_tx f i 0 | PT => pt_consecutive max_tx f i 0 end.
(** steady_ft.cpp 354-396 *)
Definition tx_beacon (f : fw) (i : inp) : res (fw * list tx) :=
  guard (beacon_harq i)
  (do a <- set_beacon_time_next (f_ft f) ;
   Ok (with_ft (with_sent f (f_order f + 1) (fa_scheduled (f_ft f))) a, [Beacon_tx (f_order f) (fa_scheduled (f_ft f))])).

(** work_irregular of the state in force: resource.cpp 35-40, association.cpp 39-49, steady_ft.cpp 109-143,
    steady_pt.cpp 73-88, dissociation_ft.cpp 39-48, dissociation_pt.cpp 39-48, nop.cpp 33-36. [rec] is the report's
    time_of_recognition. *)
Definition work_irregular (f : fw) (r : report) (rec : Z) (i : inp) : res (fw * report * list tx) :=
  match f_stage f, f_role f with
  | First, FT => do (f, q) <- state_transitions f i 0 ; Ok (f, q, [])
  | First, PT => guard (handle r =? handle_association)%N (do (f, q) <- state_transitions f i 0 ; Ok (f, q, []))
  | Steady, FT =>
      if shutting f i 0 then do (f, q) <- state_transitions f i 1 ; Ok (f, q, [])
      else
        guard (call_after r <? fa_scheduled (f_ft f))
        (do d <- sgn 64 (rec - call_after r) ;
         guard (0 <? d)
         (do (f, t) <- tx_beacon f i ;
          do (f, t') <- consecutive f i ;
          do n <- get_beacon_time_scheduled_minus_prepare_duration (f_ft f) ;
          Ok (f, report_at n 0, t ++ t')))
  | Steady, PT =>
      if shutting f i 0 then do (f, q) <- state_transitions f i 1 ; Ok (f, q, [])
      else do q <- same_with_time_increment r (Z.of_N (du_N (fa_period (f_ft f)))) ; Ok (f, q, [])
  | Dissociation, _ =>
      if (handle r =? handle_dissociation (f_role f))%N then do (f, q) <- state_transitions f i 0 ; Ok (f, q, [])
      else Ok (f, report_default, [])
  | Nop, _ => Ok (f, report_default, [])
  end.
(** work_application: steady_ft.cpp 145-152, steady_pt.cpp 90-97; in the other states it does nothing *)
Definition work_application (f : fw) (i : inp) : res (fw * list tx) :=
  match f_stage f with Steady => consecutive f i | _ => Ok (f, []) end.
(** steady_pt.cpp 119-184 for a beacon of the FT received at time [t]: its header (gain control and PLL are left out).
    An FT ignores type 1 headers (steady_ft.cpp 263-266). *)
Definition work_pcc_beacon (f : fw) (t : Z) : fw :=
  match f_stage f, f_role f with
  | Steady, PT => with_contacts f (map (fun a => set_beacon_time_last_known a t) (f_contacts f))
  | _, _ => f
  end.
(** steady_pt.cpp 217-268: the data field of a beacon, after the checks of its contents; steady_ft.cpp 306-309 *)
Definition work_pdc_beacon (f : fw) (i : inp) : res (fw * list tx) :=
  match f_stage f, f_role f with
  | Steady, PT => consecutive f i
  | _, _ => Ok (f, [])
  end.
(** tfw_p2p_rd.cpp 27-33 *)
Definition work_start (f : fw) (t : Z) : res (fw * report) :=
  let f := with_start f t in
  do r <- first_entry f ; Ok (f, r).

(** The firmware and what the lower layers hold for it: reports waiting to become due (worker_sync.cpp 98-103,
    worker_tx_rx.cpp 335-337: only reports with a finite time are queued), packets in the order they were handed over, and
    the number of irregular calls so far. *)
Record sys := mkSys { s_fw : fw; s_started : bool; s_pending : list report; s_txs : list tx; s_calls : nat }.
Definition queued (r : report) : list report := if has_finite_time r then [r] else [].

(** Everything that can happen to the firmware. [Shut]: the main thread calls work_stop (tfw_p2p_rd.cpp 35-40) between
    two calls. [Irregular n rec i]: the n-th waiting report is recognised as due at time [rec] and delivered. [Dropped n]:
    it is popped while the job queue has no free slot (worker_sync.cpp 309-316 ignores the result of enqueue_nto, which is
    false without PHY_POOL_JOB_QUEUE_JOB_SLOT_UNAVAILABILITY_FATAL_OR_DISCARD, job_queue_naive.cpp 44-62). *)
Inductive ev :=
| Start (t : Z)
| Shut
| Irregular (n : nat) (rec : Z) (i : inp)
| Dropped (n : nat) (rec : Z)
| Application (i : inp)
| Beacon_header (t : Z)
| Beacon_data (i : inp).
Definition stored (f : fw) (i : inp) : fw := with_shut f (f_shut f || match hit i with Some _ => true | None => false end).
Definition calls_back (s : sys) (n : nat) (rec : Z) : option report :=
  if s_started s then
    match nth_error (s_pending s) n with
    | Some r => if (call_after r <=? rec) then Some r else None
    | None => None
    end
  else None.
Fixpoint without {A} (l : list A) (n : nat) : list A :=
  match l, n with
  | [], _ => []
  | _ :: l, O => l
  | x :: l, S n => x :: without l n
  end.
(** One event. Events that cannot occur (a second start, calls before the start, a report that is not waiting or not
    due) change nothing. The calls are serialised by the token (C05). *)
Definition step (s : sys) (e : ev) : res sys :=
  match e with
  | Start t =>
      if s_started s then Ok s
      else do (f, r) <- work_start (s_fw s) t ; Ok (mkSys f true (queued r) (s_txs s) (s_calls s))
  | Shut => Ok (mkSys (with_shut (s_fw s) true) (s_started s) (s_pending s) (s_txs s) (s_calls s))
  | Irregular n rec i =>
      match calls_back s n rec with
      | None => Ok s
      | Some r =>
          do (f, q, t) <- work_irregular (s_fw s) r rec i ;
          Ok (mkSys (stored f i) true (without (s_pending s) n ++ queued q) (s_txs s ++ t) (S (s_calls s)))
      end
  | Dropped n rec =>
      match calls_back s n rec with
      | None => Ok s
      | Some _ => Ok (mkSys (s_fw s) true (without (s_pending s) n) (s_txs s) (s_calls s))
      end
  | Application i =>
      if s_started s then do (f, t) <- work_application (s_fw s) i ; Ok (mkSys (stored f i) true (s_pending s) (s_txs s ++ t) (s_calls s))
      else Ok s
  | Beacon_header t =>
      if s_started s then Ok (mkSys (work_pcc_beacon (s_fw s) t) true (s_pending s) (s_txs s) (s_calls s)) else Ok s
  | Beacon_data i =>
      if s_started s then do (f, t) <- work_pdc_beacon (s_fw s) i ; Ok (mkSys (stored f i) true (s_pending s) (s_txs s ++ t) (s_calls s))
      else Ok s
  end.
Fixpoint run (s : sys) (es : list ev) : res sys :=
  match es with
  | [] => Ok s
  | e :: es => do s <- step s e ; run s es
  end.

(** steady_rd.cpp 30-74, steady_ft.cpp 51-83, steady_pt.cpp 31-56: beacon period 10 ms, preparation 2 ms. [N_pt] and
    [N_res]: rd.hpp 80-86, steady_rd.cpp 238-242. A PT's own allocation is that of its firmware id. *)
Fixpoint init_contacts (lut : duration_lut) (per : duration) (tt : Z) (N_pt N_res id : N) (n : nat) : res (list allocation_pt) :=
  match n with
  | O => Ok []
  | S n =>
      do a <- init_allocation_pt lut per tt N_pt N_res id ;
      do l <- init_contacts lut per tt N_pt N_res (id + 1) n ;
      Ok (a :: l)
  end.
Definition fw_new (r : role) (lut : duration_lut) (tt : Z) (N_pt N_res id : N) : res fw :=
  do per <- duration_new (lut_rate lut) ms001 10 ;
  do prep <- duration_new (lut_rate lut) ms001 2 ;
  do a <- allocation_ft_new lut per prep ;
  do l <- match r with
          | FT => init_contacts lut per tt N_pt N_res 0 (N.to_nat N_pt)
          | PT => init_contacts lut per tt N_pt N_res id 1
          end ;
  Ok (mkFw r lut First false false UNDEFINED_EARLY_64 a l 0 UNDEFINED_EARLY_64).
Definition sys_new (f : fw) : sys := mkSys f false [] [] 0.
