(** Model of the round-trip time measurement: the program of apps/rtt/rtt.cpp, the firmware of lib/src/upper/rtt/tfw_rtt.cpp
    on both sides (FT: measures, PT: returns what it receives), and what is between them.
    The queues of the application server are lists of datagrams (C61 justifies this). Not modelled: gain control, logging,
    the receiver and its HARQ processes (a packet arrives with its bytes, with others, or not at all), the header check of
    work_pcc(), the conversion of results to text. Times are unbounded, counters wrap. *)
From Verif Require Import Base.
Open Scope N_scope.

Definition len {A : Type} (l : list A) : N := N.of_nat (length l).
Definition w32 (x : N) : N := x mod 2 ^ 32.

(** tfw_rtt_param.hpp *)
Definition min_byte : N := 16.
Definition max_byte : N := 2000.
Definition verify_byte : N := 8.
(** miscellaneous.hpp 71 *)
Definition UNDEFINED_EARLY_64 : Z := (- 2 ^ 60)%Z.

(** memcpy into and out of a buffer *)
Definition copy_to (buf : list N) (off : N) (x : list N) : res (list N) :=
  if off + len x <=? len buf
  then Ok (firstn (N.to_nat off) buf ++ x ++ skipn (N.to_nat (off + len x)) buf) else Oob.
Definition copy_from (buf : list N) (off n : N) : res (list N) :=
  if off + n <=? len buf then Ok (firstn (N.to_nat n) (skipn (N.to_nat off) buf)) else Oob.
(** The bytes of an int64_t, lowest first, and back *)
Fixpoint bytes_of (n : nat) (z : Z) : list N :=
  match n with O => [] | S n => Z.to_N (z mod 256) :: bytes_of n (z / 256) end.
Fixpoint number_of (l : list N) : Z :=
  match l with [] => 0%Z | b :: l => (Z.of_N b + 256 * number_of l)%Z end.
Definition int64_of (l : list N) : Z := let z := number_of l in if (z <? 2 ^ 63)%Z then z else (z - 2 ^ 64)%Z.

(** ** Firmware *)
(** Fixed after the constructor, tfw_rtt.cpp 33-97: firmware_id == 0, N_TB_byte of psdef, the turnaround time of the hardware and
    the length of a packet in samples *)
Record cfg := mkCfg { c_ft : bool; c_tb : N; c_turnaround : Z; c_length : Z }.
(** tfw_rtt.hpp 58-92, tpoint.hpp 232-233. [f_data], [f_print]: the datagrams of the two connections of the server;
    [f_start]: when the watch was reset; it starts at 0. *)
Record fw := mkFw {
  f_tx_cnt : N; f_rx_cnt : N; f_min : Z; f_max : Z; f_start : Z; f_stage : list N;
  f_order : Z; f_earliest : Z; f_data : list (list N); f_print : list (list N) }.
Definition fw_new : fw :=
  mkFw 0 0 (- UNDEFINED_EARLY_64) UNDEFINED_EARLY_64 0 (repeat 0 (N.to_nat max_byte)) 0 UNDEFINED_EARLY_64 [] [].
Record packet := mkPacket { k_order : Z; k_time : Z; k_data : list N }.

Definition set_data (q : list (list N)) (s : fw) : fw :=
  mkFw (f_tx_cnt s) (f_rx_cnt s) (f_min s) (f_max s) (f_start s) (f_stage s) (f_order s) (f_earliest s) q (f_print s).
Definition set_stage (st : list N) (s : fw) : fw :=
  mkFw (f_tx_cnt s) (f_rx_cnt s) (f_min s) (f_max s) (f_start s) st (f_order s) (f_earliest s) (f_data s) (f_print s).

(** tfw_rtt.cpp 234-296. [harq]: the buffer of the process, which still has its former content, None: no process is free
    (process_pool.cpp 49-66). [now]: buffer_rx.get_rx_time_passed(). *)
Definition generate_packet_asap (c : cfg) (harq : option (list N)) (now : Z) (s : fw) : res (fw * option packet) :=
  match harq with
  | None => Ok (s, None)
  | Some a =>
      guard (c_tb c <=? len a)
      (do (s, a) <-
         (if c_ft c then
            match f_data s with
            | [] => Abort
            | d :: q => guard (len d <=? c_tb c) (do a <- copy_to a 0 d ; Ok (set_data q s, a))
            end
          else do x <- copy_from (f_stage s) 0 (c_tb c) ; do a <- copy_to a 0 x ; Ok (s, a)) ;
       do payload <- copy_from a 0 (c_tb c) ;
       let t := Z.max (f_earliest s) (now + c_turnaround c) in
       Ok (mkFw (f_tx_cnt s) (f_rx_cnt s) (f_min s) (f_max s) (f_start s) (f_stage s)
                (f_order s + 1) (t + c_length c) (f_data s) (f_print s),
           Some (mkPacket (f_order s) t payload)))
  end.

(** tfw_rtt.cpp 167-221. [clock]: the steady clock in nanoseconds. Reading from an empty queue gives nothing. *)
Definition work_application (c : cfg) (conn : N) (harq : option (list N)) (clock now : Z) (s : fw) : res (fw * option packet) :=
  if c_ft c then
    if conn =? 1 then
      Ok (mkFw 0 0 (- UNDEFINED_EARLY_64) UNDEFINED_EARLY_64 (f_start s) (f_stage s)
               (f_order s) (f_earliest s) (f_data s) (tl (f_print s)), None)
    else
      let s := mkFw (f_tx_cnt s) (f_rx_cnt s) (f_min s) (f_max s) clock (f_stage s)
                    (f_order s) (f_earliest s) (f_data s) (f_print s) in
      do (s, p) <- generate_packet_asap c harq now s ;
      Ok (mkFw (w32 (f_tx_cnt s + 1)) (f_rx_cnt s) (f_min s) (f_max s) (f_start s) (f_stage s)
               (f_order s) (f_earliest s) (f_data s) (f_print s), p)
  else Ok (s, None).

(** tfw_rtt.cpp 159-165, 298-345: a packet with [n] bytes was received in the buffer [a], with or without error. The result
    is a datagram for the program or a packet to transmit. *)
Definition work_pdc_internal (c : cfg) (a : list N) (n : N) (harq : option (list N)) (clock now : Z) (s : fw)
  : res (fw * option (list N) * option packet) :=
  if c_ft c then
    let rtt := (clock - f_start s)%Z in
    do x <- copy_from a 0 verify_byte ;
    do st <- copy_to (f_stage s) 0 x ;
    do st <- copy_to st verify_byte (bytes_of 8 rtt) ;
    do out <- copy_from st 0 n ;
    Ok (mkFw (f_tx_cnt s) (w32 (f_rx_cnt s + 1)) (Z.min (f_min s) rtt) (Z.max (f_max s) rtt) (f_start s) st
             (f_order s) (f_earliest s) (f_data s) (f_print s), Some out, None)
  else
    do x <- copy_from a 0 n ;
    do st <- copy_to (f_stage s) 0 x ;
    do (s, p) <- generate_packet_asap c harq now (set_stage st s) ;
    Ok (s, None, p).

(** ** Program *)
(** rtt.cpp 75-80. [r_value]: rtt_mac2mac_64. *)
Record result := mkResult { r_length : N; r_value : Z }.
(** rtt.cpp 82-132: the answer to a question of [n] bytes; None: timeout. At most 2000 bytes of an answer are received. The
    bytes are compared, but a difference is only printed. An answer of no bytes counts as a timeout. *)
Definition evaluate (n : N) (answer : option (list N)) : res result :=
  match answer with
  | None => Ok (mkResult 0 (-1))
  | Some a =>
      let a := firstn (N.to_nat max_byte) a in
      if len a =? 0 then Ok (mkResult 0 (-1))
      else if len a =? n then do x <- copy_from a verify_byte 8 ; Ok (mkResult n (int64_of x))
      else Ok (mkResult (len a) (-1))
  end.

(** ** The whole *)
(** [y_question]: the program waits for the answer to it; [y_socket]: datagrams for the program; [y_jobs]: connections of
    the jobs of the FT not yet processed; [y_up], [y_down]: packets on their way to the PT and to the FT. *)
Record sys := mkSys {
  y_question : option (list N); y_socket : list (list N); y_jobs : list N; y_ft : fw; y_pt : fw;
  y_up : list packet; y_down : list packet }.
Definition sys_new : sys := mkSys None [] [] fw_new fw_new [] [].

(** [Ask d job]: the program sends [d]; [job]: the job queue has room. [Print]: it asks for the statistics. [Job]: the FT processes
    a job. [Hear_pt], [Hear_ft]: the first packet on its way arrives, with the bytes [garbled] if any, the buffer has [rest]
    behind them. [Lose_up], [Lose_down]: it is not received. [Answer], [Timeout]: the end of a measurement. *)
Inductive ev :=
| Ask (d : list N) (job : bool)
| Print (job : bool)
| Job (harq : option (list N)) (clock now : Z)
| Hear_pt (garbled : option (list N)) (rest : list N) (harq : option (list N)) (clock now : Z)
| Hear_ft (garbled : option (list N)) (rest : list N) (clock now : Z)
| Lose_up
| Lose_down
| Answer
| Timeout.
(** What can be observed: the FT starts and stops its watch, a packet is transmitted by the FT or the PT, the FT logs its statistics,
    a measurement ends. *)
Inductive out :=
| Started (clock : Z)
| Stopped (clock : Z)
| Sent (ft : bool) (p : packet)
| Printed (tx rx : N) (rtt_min rtt_max : Z)
| Result (question : list N) (answer : option (list N)) (r : result).

Definition sent (ft : bool) (p : option packet) : list out := match p with Some p => [Sent ft p] | None => [] end.
Definition to_list {A} (o : option A) : list A := match o with Some x => [x] | None => [] end.
(** application_server.cpp: a queue of four datagrams holds three *)
Definition arrives (d : list N) (q : list (list N)) : option (list (list N)) := if len q <? 3 then Some (q ++ [d]) else None.

(** Steps that are not possible change nothing. *)
Definition step (cf cp : cfg) (s : sys) (e : ev) : res (sys * list out) :=
  let '(mkSys question socket jobs ft pt up down) := s in
  match e with
  | Ask d job =>
      match question with
      | Some _ => Ok (s, [])
      | None =>
          guard ((min_byte <=? len d) && (len d <=? max_byte))
          (match arrives d (f_data ft) with
           | Some q => Ok (mkSys (Some d) socket (jobs ++ if job then [0] else []) (set_data q ft) pt up down, [])
           | None => Ok (mkSys (Some d) socket jobs ft pt up down, [])
           end)
      end
  | Print job =>
      match question with
      | Some _ => Ok (s, [])
      | None =>
          match arrives [] (f_print ft) with
          | Some q =>
              Ok (mkSys None socket (jobs ++ if job then [1] else [])
                    (mkFw (f_tx_cnt ft) (f_rx_cnt ft) (f_min ft) (f_max ft) (f_start ft) (f_stage ft)
                          (f_order ft) (f_earliest ft) (f_data ft) q) pt up down, [])
          | None => Ok (s, [])
          end
      end
  | Job harq clock now =>
      match jobs with
      | [] => Ok (s, [])
      | conn :: jobs =>
          let log := if conn =? 1 then Printed (f_tx_cnt ft) (f_rx_cnt ft) (f_min ft) (f_max ft) else Started clock in
          do (ft, p) <- work_application cf conn harq clock now ft ;
          Ok (mkSys question socket jobs ft pt (up ++ to_list p) down, log :: sent true p)
      end
  | Hear_pt garbled rest harq clock now =>
      match up with
      | [] => Ok (s, [])
      | p :: up =>
          let data := match garbled with Some g => g | None => k_data p end in
          do (pt, _, p) <- work_pdc_internal cp (data ++ rest) (len data) harq clock now pt ;
          Ok (mkSys question socket jobs ft pt up (down ++ to_list p), sent false p)
      end
  | Hear_ft garbled rest clock now =>
      match down with
      | [] => Ok (s, [])
      | p :: down =>
          let data := match garbled with Some g => g | None => k_data p end in
          do (ft, d, _) <- work_pdc_internal cf (data ++ rest) (len data) None clock now ft ;
          Ok (mkSys question (socket ++ to_list d) jobs ft pt up down, [Stopped clock])
      end
  | Lose_up => Ok (mkSys question socket jobs ft pt (tl up) down, [])
  | Lose_down => Ok (mkSys question socket jobs ft pt up (tl down), [])
  | Answer =>
      match question, socket with
      | Some q, a :: socket =>
          do r <- evaluate (len q) (Some a) ; Ok (mkSys None socket jobs ft pt up down, [Result q (Some a) r])
      | _, _ => Ok (s, [])
      end
  | Timeout =>
      match question, socket with
      | Some q, [] => do r <- evaluate (len q) None ; Ok (mkSys None [] jobs ft pt up down, [Result q None r])
      | _, _ => Ok (s, [])
      end
  end.
Fixpoint run (cf cp : cfg) (s : sys) (es : list ev) : res (sys * list out) :=
  match es with
  | [] => Ok (s, [])
  | e :: es => do (s, o) <- step cf cp s e ; do (s, os) <- run cf cp s es ; Ok (s, o ++ os)
  end.
