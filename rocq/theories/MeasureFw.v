(** The measuring firmwares: upper/chscanner/tfw_chscanner.cpp, upper/txrxdelay/tfw_txrxdelay.cpp and
    upper/txrxagc/tfw_txrxagc.cpp. Times are sample counts without overflow; the clock, the answers of the HARQ pool
    and the measured values are inputs. Constant hardware settings, contents of packets and logging of texts are left
    out. *)
From Coq Require Import QArith.
From Verif Require Import Base.
Open Scope nat_scope.

(** ** Channel scanner *)

(** tfw_chscanner.cpp 37-60, tfw_chscanner.hpp 61-79: frequencies, measurements per frequency, and the three times (50
    ms to the first measurement at line 62, period, spacing after a change of the frequency) in samples. *)
Record scan_cfg : Type := mkScan {
  freqs : list Z;
  n_measurement : nat;
  scan_first : Z;
  scan_period : Z;
  scan_spacing : Z
}.

(** tfw_chscanner.hpp 59, 68, 81-86, and the frequency the hardware is tuned to. *)
Record scanner : Type := mkScanner {
  freqs_idx : nat;
  n_measurement_cnt : nat;
  rms_min : Q;
  rms_max : Q;
  next_scan : Z;
  tuned : Z
}.

(** std::min and std::max *)
Definition qmin (a b : Q) : Q := if Qle_bool a b then a else b.
Definition qmax (a b : Q) : Q := if Qle_bool b a then a else b.

(** tfw_chscanner.cpp 37-67: constructor and work_start. *)
Definition scan_start (c : scan_cfg) (start : Z) : scanner :=
  mkScanner 0 0 (1000000000 # 1) (- 1000000000 # 1) (start + scan_first c) (nth 0 (freqs c) 0%Z).

(** tfw_chscanner.cpp 74-93 work_irregular: end time of the measurement that is asked for. *)
Definition scan_irregular (s : scanner) (now : Z) : res Z :=
  guard (next_scan s <? now)%Z (Ok now).

(** tfw_chscanner.cpp 114-157 work_channel: the reported line, if any, and the time of the next call. *)
Definition scan_channel (c : scan_cfg) (s : scanner) (rms : Q) : scanner * option (Z * Q * Q) * Z :=
  let lo := qmin (rms_min s) rms in
  let hi := qmax (rms_max s) rms in
  let cnt := n_measurement_cnt s + 1 in
  if cnt =? n_measurement c
  then let i := freqs_idx s + 1 in
       let i := if i =? length (freqs c) then 0 else i in
       let t := (next_scan s + scan_spacing c)%Z in
       (mkScanner i 0 (1000000000 # 1) (- 1000000000 # 1) t (nth i (freqs c) 0%Z),
        Some (nth (freqs_idx s) (freqs c) 0%Z, lo, hi), t)
  else let t := (next_scan s + scan_period c)%Z in
       (mkScanner (freqs_idx s) cnt lo hi t (tuned s), None, t).

(** The scanner after a list of results. *)
Definition scan_after (c : scan_cfg) (start : Z) (l : list Q) : scanner :=
  fold_left (fun s r => fst (fst (scan_channel c s r))) l (scan_start c start).

(** ** Delay between transmission and reception *)

(** adt/miscellaneous.hpp 71 *)
Definition UNDEFINED_EARLY : Z := (- 2 ^ 60)%Z.

(** A transmission: order number, time, length. *)
Record packet : Type := mkPacket { order_id : nat; tx_time : Z; tx_length : Z }.

(** tfw_txrxdelay.hpp 61-62, tpoint.hpp 232-233 *)
Record delay_fw : Type := mkDelay {
  next_measurement : Z;
  tx_time_last : Z;
  d_order : nat;
  d_earliest : Z
}.

(** tfw_txrxdelay.cpp 66-72 work_start; tpoint.cpp 43-48 *)
Definition delay_start (spacing start : Z) : delay_fw :=
  mkDelay (start + spacing) UNDEFINED_EARLY 0 UNDEFINED_EARLY.

(** What happens to the firmware: it is called at a time, with the length of the packet if there is a HARQ process; or
    it hears one of its own packets. *)
Inductive delay_ev : Type :=
| DCall (now : Z) (hp : option Z)
| DHeard (rx : Z).

(** What it does: an optional packet and the time of the next call; or the line of the log. *)
Inductive delay_out : Type :=
| DSent (p : option packet) (next : Z)
| DLog (tx rx diff : Z).

(** tfw_txrxdelay.cpp 79-93 work_irregular, 95-132 work_pcc for headers with the own identities (others change
    nothing), 155-195 generate_packet_asap. *)
Definition delay_step (spacing turnaround : Z) (s : delay_fw) (e : delay_ev) : res (delay_fw * delay_out) :=
  match e with
  | DCall now hp =>
      guard (next_measurement s <? now)%Z
        (let n := (next_measurement s + spacing)%Z in
         match hp with
         | None => Ok (mkDelay n UNDEFINED_EARLY (d_order s) (d_earliest s), DSent None n)
         | Some len =>
             let t := Z.max (d_earliest s) (now + turnaround) in
             Ok (mkDelay n t (d_order s + 1) (t + len), DSent (Some (mkPacket (d_order s) t len)) n)
         end)
  | DHeard rx => Ok (s, DLog (tx_time_last s) rx (rx - tx_time_last s))
  end.

Fixpoint delay_run (spacing turnaround : Z) (s : delay_fw) (l : list delay_ev) : res (delay_fw * list delay_out) :=
  match l with
  | [] => Ok (s, [])
  | e :: l' =>
      do (s1, o) <- delay_step spacing turnaround s e ;
      do (s2, os) <- delay_run spacing turnaround s1 l' ;
      Ok (s2, o :: os)
  end.

(** ** Changes of the gain *)

(** tfw_txrxagc.hpp 82-91 *)
Inductive agc_type : Type := ANone | ATx | ARx | ABoth.
Inductive agc_timing : Type := AFront | AFree.

(** tfw_txrxagc.hpp 57-91: spacing of the measurements, P0 and P0 + P1 in samples, the change in dB, the number of
    antennas changed at once and the number of antennas. *)
Record agc_cfg : Type := mkAgc {
  a_spacing : Z;
  a_p0 : Z;
  a_p01 : Z;
  a_turn : Z;
  a_change : Z;
  a_simul : nat;
  a_ants : nat;
  a_type : agc_type;
  a_timing : agc_timing
}.

(** tfw_txrxagc.hpp 58-75, tpoint.hpp 232-233, the requested call (time and handle), and how far the gains of the
    antennas have been moved from their first values. *)
Record agc_fw : Type := mkAgcFw {
  meas_time : Z;
  meas_cnt : nat;
  S0 : Z;
  L0 : Z;
  a_order : nat;
  asked : Z * nat;
  tx_moved : nat -> Z;
  rx_moved : nat -> Z
}.

(** tfw_txrxagc.cpp 99-104 work_start *)
Definition agc_start (c : agc_cfg) (start : Z) : agc_fw :=
  mkAgcFw (start + a_spacing c) 0 UNDEFINED_EARLY UNDEFINED_EARLY 0 ((start + a_spacing c)%Z, 0) (fun _ => 0%Z) (fun _ => 0%Z).

(** tfw_txrxagc.cpp 268-307 get_agc_adj: the change for every antenna. The hardware and its buffer have the same number
    of antennas. *)
Definition adjustment (c : agc_cfg) (cnt : nat) : nat -> Z :=
  let now := if cnt mod 2 =? 0 then a_change c else (- a_change c)%Z in
  let A := cnt / 2 in
  fold_left (fun f i => fun a => if a =? (A + i) mod a_ants c then now else f a)
            (seq 0 (Nat.min (a_ants c) (a_simul c))) (fun _ => 0%Z).
Definition adj_tx (c : agc_cfg) (cnt : nat) : option (nat -> Z) :=
  match a_type c with ATx | ABoth => Some (adjustment c cnt) | _ => None end.
Definition adj_rx (c : agc_cfg) (cnt : nat) : option (nat -> Z) :=
  match a_type c with ARx | ABoth => Some (adjustment c cnt) | _ => None end.

(** hw.cpp 60-83 adjust_tx_power_ant_0dBFS_tc and adjust_rx_power_ant_0dBFS_tc, without the limits of the gain. *)
Definition moved (f : nat -> Z) (adj : option (nat -> Z)) : nat -> Z :=
  match adj with None => f | Some g => fun a => (f a + g a)%Z end.

(** A call: the time and, for the front and the back packet, its length if there is a HARQ process. *)
Record agc_call : Type := mkCall { c_now : Z; hp_front : option Z; hp_back : option Z }.

(** tfw_txrxagc.cpp 339-383 generate_packet_asap: the packets, the next order number and the returned length. *)
Definition agc_packet (order : nat) (t : Z) (hp : option Z) : list packet * nat * Z :=
  match hp with
  | None => ([], order, 0%Z)
  | Some len => ([mkPacket order t len], order + 1, len)
  end.

(** tfw_txrxagc.cpp 309-337 generate_back *)
Definition agc_back (c : agc_cfg) (s : agc_fw) (hp : option Z) : agc_fw * list packet :=
  let s1 := (S0 s + L0 s + a_p01 c)%Z in
  let '(p, o, _) := agc_packet (a_order s) s1 hp in
  let t := (meas_time s + a_spacing c)%Z in
  (mkAgcFw t (meas_cnt s + 1) (S0 s) (L0 s) o (t, 0) (tx_moved s) (rx_moved s), p).

(** tfw_txrxagc.cpp 111-183 work_irregular of the firmware with id 0. In front timing the changes travel with the
    front packet, so they are made only if it is sent. *)
Definition agc_step (c : agc_cfg) (s : agc_fw) (e : agc_call) : res (agc_fw * list packet) :=
  guard (fst (asked s) <? c_now e)%Z
  (if snd (asked s) =? 0
   then guard (fst (asked s) =? meas_time s)%Z
     (let s0 := (c_now e + a_turn c)%Z in
      let '(p, o, len) := agc_packet (a_order s) s0 (hp_front e) in
      match a_timing c with
      | AFront =>
          let sent := match hp_front e with None => false | Some _ => true end in
          let tx := if sent then moved (tx_moved s) (adj_tx c (meas_cnt s)) else tx_moved s in
          let rx := if sent then moved (rx_moved s) (adj_rx c (meas_cnt s)) else rx_moved s in
          let '(s', q) := agc_back c (mkAgcFw (meas_time s) (meas_cnt s) s0 len o (asked s) tx rx) (hp_back e) in
          Ok (s', p ++ q)
      | AFree =>
          Ok (mkAgcFw (meas_time s) (meas_cnt s) s0 len o ((s0 + len + a_p0 c)%Z, 1) (tx_moved s) (rx_moved s), p)
      end)
   else guard (snd (asked s) =? 1)
     (let tx := moved (tx_moved s) (adj_tx c (meas_cnt s)) in
      let rx := moved (rx_moved s) (adj_rx c (meas_cnt s)) in
      Ok (agc_back c (mkAgcFw (meas_time s) (meas_cnt s) (S0 s) (L0 s) (a_order s) (asked s) tx rx) (hp_back e)))).

Fixpoint agc_run (c : agc_cfg) (s : agc_fw) (l : list agc_call) : res (agc_fw * list (list packet)) :=
  match l with
  | [] => Ok (s, [])
  | e :: l' =>
      do (s1, p) <- agc_step c s e ;
      do (s2, ps) <- agc_run c s1 l' ;
      Ok (s2, p :: ps)
  end.
