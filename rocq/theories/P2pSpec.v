(** What users of the p2p firmware rely on: packets in order, a life cycle that always goes on, a stop request that is
    answered. *)
From Verif Require Import Base Duration Allocation IrregularQueue P2p.
Open Scope Z_scope.

(** *** Packets *)
Definition tx_id (t : tx) : Z := match t with Beacon_tx n _ => n | Unicast_tx n _ _ => n end.
Definition tx_begin (t : tx) : Z := match t with Beacon_tx _ b => b | Unicast_tx _ _ o => op_time o end.
(** A beacon lasts [L] samples, a unicast packet at most as long as the resource it is sent in. *)
Definition tx_end (L : Z) (t : tx) : Z := match t with Beacon_tx _ b => b + L | Unicast_tx _ _ o => op_time o + op_N o end.
Definition is_beacon (t : tx) : bool := match t with Beacon_tx _ _ => true | _ => false end.
Definition beacons (l : list tx) : list tx := filter is_beacon l.
(** Numbered without gaps, in the order handed over; each ends before any later one begins. *)
Definition in_order (L : Z) (l : list tx) : Prop :=
  (forall i t, nth_error l i = Some t -> tx_id t = Z.of_nat i) /\
  (forall i j t u, (i < j)%nat -> nth_error l i = Some t -> nth_error l j = Some u -> tx_end L t <= tx_begin u).
(** Beacon after beacon, [P] samples apart. *)
Definition periodic (P : Z) (l : list tx) : Prop :=
  exists B, forall i t, nth_error (beacons l) i = Some t -> tx_begin t = B + Z.of_nat i * P.
(** A packet within the period that follows the beacon at [b], clear of this beacon and of the next. *)
Definition between_beacons (L P b : Z) (t : tx) : Prop := b + L <= tx_begin t /\ tx_end L t <= b + P.

(** *** Histories *)
(** All times are within ±2^58 samples (at 30.72 MHz: 297 years). *)
Definition near (t : Z) : Prop := - 2 ^ 58 <= t <= 2 ^ 58.
Definition near_inp (i : inp) : Prop := (forall k, near (clock i k)) /\ near (pps i).
Definition near_ev (e : ev) : Prop :=
  match e with
  | Start t | Beacon_header t => near t
  | Irregular _ rec i => near rec /\ near_inp i
  | Application i | Beacon_data i => near_inp i
  | Shut | Dropped _ _ => True
  end.
Definition delivered (e : ev) : Prop := match e with Dropped _ _ => False | _ => True end.

(** The firmware as configured in this repository: one PT with four resources per direction (network interface) or two
    PTs with two (sockets). *)
Definition plan (N_pt N_res : N) : Prop := (N_pt = 1 /\ N_res = 4 \/ N_pt = 2 /\ N_res = 2)%N.
Definition deployed (r : role) (sr : N) (f : fw) : Prop :=
  exists lut tt N_pt N_res id, lut_new sr = Ok lut /\ 0 <= tt <= 2 ^ 32 /\ plan N_pt N_res /\ fw_new r lut tt N_pt N_res id = Ok f.
(** Reached by a history in which no callback is dropped. *)
Definition reached (r : role) (sr : N) (s : sys) : Prop :=
  exists f es, deployed r sr f /\ Forall near_ev es /\ Forall delivered es /\ run (sys_new f) es = Ok s.

(** How many irregular calls a stop request still takes. *)
Definition left_over (g : stage) : nat := match g with First | Steady => 2 | Dissociation => 1 | Nop => 0 end.
Definition rank (g : stage) : nat := match g with First => 0 | Steady => 1 | Dissociation => 2 | Nop => 3 end.

(** *** What makes a call fail *)
(** A beacon is due, but its time is recognised at this very sample or no HARQ process is free. *)
Definition beacon_fails (s : sys) (e : ev) : Prop :=
  exists n rec i r, e = Irregular n rec i /\ calls_back s n rec = Some r /\ f_role (s_fw s) = FT /\ f_stage (s_fw s) = Steady /\
    shutting (s_fw s) i 0 = false /\ (rec = call_after r \/ beacon_harq i = false).
(** A PT is asked to send although the last beacon lies in the future. *)
Definition beacon_in_future (s : sys) (e : ev) : Prop :=
  exists i k a, (e = Application i \/ e = Beacon_data i) /\ f_role (s_fw s) = PT /\ f_stage (s_fw s) = Steady /\
    In a (f_contacts (s_fw s)) /\ clock i k < pa_beacon a.
(** Data reach an FT before its first beacon. *)
Definition before_first_beacon (s : sys) (e : ev) : Prop :=
  exists i, e = Application i /\ f_role (s_fw s) = FT /\ f_stage (s_fw s) = Steady /\ s_txs s = [].

(** A beacon lasts two slots, beacons are 10 ms apart, their preparation begins 2 ms before. In samples: *)
Definition beacon_length (sr : N) : Z := Z.of_N (sr / 1200).
Definition beacon_period (sr : N) : Z := Z.of_N (sr / 100).
Definition beacon_prepare (sr : N) : Z := Z.of_N (sr / 500).
