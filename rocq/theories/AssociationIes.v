(** Models of lib/src/sections_part4/mac_messages_and_ie/{association_request,association_response,association_release,
    reconfiguration_request,reconfiguration_response}_message.cpp. *)
From Verif Require Import Base Bytes MacHeader Channels IeBase IeLists Beacons ResourceIes.
Open Scope N_scope.

(** association_request_message.hpp 95-110 *)
Record ft_config := mkFt { ft_nbp : N; ft_cbp : N; ft_next_channel : N; ft_time_to_next : N }.
Record harq_config := mkHq { hq_processes : N; hq_delay : N }.
(** association_request_message.hpp 114-119; the set of flows is the list of its elements in order *)
Record association_request := mkAq {
  aq_cause : N;
  aq_flows : list N;
  aq_constraints : bool;
  aq_ft : option ft_config;
  aq_current : option N;
  aq_tx : harq_config;
  aq_rx : harq_config }.

(** association_request_message.cpp 101-115, association_response_message.cpp 89-92, reconfiguration_request_message.cpp 62-63, 69-70 *)
Definition hq_valid (h : harq_config) : bool := (hq_processes h <=? 7) && enum_valid 31 (hq_delay h).
(** association_request_message.cpp 80-94 *)
Definition ft_valid (f : ft_config) : bool :=
  enum_valid 7 (ft_nbp f) && enum_valid 11 (ft_cbp f) && channel_in_range (ft_next_channel f).
Definition is_empty {A} (l : list A) : bool := match l with [] => true | _ => false end.
(** association_request_message.cpp 69-118 *)
Definition aq_valid (c : association_request) : bool :=
  enum_valid 7 (aq_cause c) &&
  negb (is_empty (aq_flows c) || negb (forallb (enum_valid_lower 0 7) (aq_flows c))) &&
  opt_all ft_valid (aq_ft c) && opt_all channel_in_range (aq_current c) && hq_valid (aq_tx c) && hq_valid (aq_rx c).
(** association_request_message.cpp 120-126 *)
Definition aq_size (c : association_request) : res nat :=
  guard (aq_valid c) (Ok (4 + length (aq_flows c) + opt_size (aq_ft c) 7 + opt_size (aq_current c) 2)%nat).
(** association_request_message.cpp 266-281; None: peek_errc::NONRESERVED_FIELD_SET_TO_RESERVED *)
Definition aq_peek (m : list N) : res (option nat) :=
  do b0 <- ld m 0 ;
  let flows := N.land (N.shiftr b0 2) 7 in
  if flows <? 7 then
    do b1 <- ld m 1 ;
    Ok (Some (4 + N.to_nat flows + N.to_nat (N.land b0 1) * 7 + N.to_nat (N.shiftr b1 7) * 2)%nat)
  else Ok None.
(** association_request_message.cpp 142-147, association_response_message.cpp 169-174, reconfiguration_request_message.cpp 109-123 *)
Definition wr_harq (h : harq_config) (m : list N) (off : nat) : res (list N) :=
  do m <- st m off (N.shiftl (hq_processes h) 5) ; orst m off (hq_delay h).
(** association_request_message.cpp 204-209: the lambda unpack_harq_config *)
Definition rd_harq (m : list N) (off : nat) : res harq_config :=
  do b <- ld m off ; Ok (mkHq (N.shiftr b 5) (from_coded 31 (N.land b 31))).
(** association_request_message.cpp 159-175 *)
Definition wr_ft (f : ft_config) (m : list N) (off : nat) : res (list N) :=
  do m <- st m off (N.shiftl (ft_nbp f) 4) ;
  do m <- orst m off (ft_cbp f) ;
  do m <- wr_channel (ft_next_channel f) m (off + 1) ;
  wr_num 4 (ft_time_to_next f) m (off + 3).
(** association_request_message.cpp 228-251; the network beacon period is masked, not shifted *)
Definition rd_ft (m : list N) (off : nat) : res ft_config :=
  do b <- ld m off ;
  do ch <- rd_channel m (off + 1) ;
  do t <- rd_num 4 m (off + 3) ;
  Ok (mkFt (from_coded 7 (N.land b 240)) (from_coded 11 (N.land b 15)) ch t).
(** association_request_message.cpp 221-222, association_response_message.cpp 247-250 *)
Definition rd_flow (m : list N) (off : nat) : res N := do b <- ld m off ; Ok (from_coded_lower 0 7 (N.land b 63)).
(** association_request_message.cpp 128-188 *)
Definition aq_pack (c : association_request) (m : list N) : res (list N) :=
  guard (aq_valid c)
  (do m <- st m 0 (N.shiftl (aq_cause c) 5) ;
   do m <- orst m 0 (N.shiftl (N.of_nat (length (aq_flows c))) 2) ;
   do m <- orst m 0 (N.shiftl (N.b2n (aq_constraints c)) 1) ;
   do m <- orst m 0 (N.b2n (is_some (aq_ft c))) ;
   do m <- st m 1 (N.shiftl (N.b2n (is_some (aq_current c))) 7) ;
   do m <- wr_harq (aq_tx c) m 2 ;
   do m <- wr_harq (aq_rx c) m 3 ;
   do s <- put_all (aq_flows c) wr_byte 1 (m, 4%nat) ;
   do s <- put (aq_ft c) wr_ft 7 s ;
   do s <- put (aq_current c) wr_channel 2 s ;
   do p <- aq_peek (fst s) ;
   guard (match p with Some n => (n =? snd s)%nat | None => false end) (Ok (fst s))).
(** association_request_message.cpp 190-264 *)
Definition aq_unpack (m : list N) : res (association_request * bool) :=
  do b0 <- ld m 0 ;
  do b1 <- ld m 1 ;
  do tx <- rd_harq m 2 ;
  do rx <- rd_harq m 3 ;
  do (fl, off) <- get_all (N.to_nat (N.land (N.shiftr b0 2) 7)) rd_flow 1 m 4 ;
  do (ft, off) <- get (flag b0 0) rd_ft 7 m off ;
  do (cur, off) <- get (negb (N.shiftr b1 7 =? 0)) rd_channel 2 m off ;
  let c := mkAq (from_coded 7 (N.shiftr b0 5)) (set_of (fun x => x) fl) (negb (N.land b0 2 =? 0)) ft cur tx rx in
  do n <- aq_size c ;
  guard (n =? off)%nat (Ok (c, aq_valid c)).

(** association_response_message.hpp 66-83. nof_flows_accepted: none 0, as_included 1, as_requested 7 *)
Record reject_info := mkRj { rj_cause : N; rj_time : N }.
Record group_info := mkGi { gi_group : N; gi_tag : N }.
Record association_response := mkAr {
  ar_reject : option reject_info;
  ar_harq : option (harq_config * harq_config);   (* tx, rx *)
  ar_accepted : N;
  ar_flows : list N;
  ar_group : option group_info;
  ar_power : bool }.
(** association_response_message.cpp 42-68: zero() *)
Definition ar_zero : association_response := mkAr None None UNDEF32 [] None false.
(** association_response_message.cpp 70-118 *)
Definition ar_valid (c : association_response) : bool :=
  match ar_reject c with
  | Some r => enum_valid 5 (rj_cause r) && enum_valid 9 (rj_time r)
  | None =>
      opt_all (fun h => hq_valid (snd h) && hq_valid (fst h)) (ar_harq c) &&
      negb (negb (enum_valid 8 (ar_accepted c)) || ((ar_accepted c =? 1) && is_empty (ar_flows c))) &&
      forallb (enum_valid_lower 0 7) (ar_flows c) &&
      opt_all (fun g => (gi_group g <=? 127) && (gi_tag g <=? 127)) (ar_group c)
  end.
(** association_response_message.cpp 120-134 *)
Definition ar_size (c : association_response) : res nat :=
  guard (ar_valid c)
  (Ok (if is_some (ar_reject c) then 2
       else 1 + opt_size (ar_harq c) 2 + length (ar_flows c) + opt_size (ar_group c) 2)%nat).
(** association_response_message.cpp 202, 273: (~mac_pdu_offset[0] >> 7), computed in int, not zero *)
Definition ar_rejected (b0 : N) : bool := negb (Z.shiftr (Z.lnot (Z.of_N b0)) 7 =? 0)%Z.
(** association_response_message.cpp 270-292 *)
Definition ar_peek (m : list N) : res (option nat) :=
  do b0 <- ld m 0 ;
  if ar_rejected b0 then Ok (Some 2%nat)
  else
    let flows := N.land (N.shiftr b0 2) 7 in
    Ok (Some (1 + N.to_nat (N.land (N.shiftr b0 5) 1) * 2 + (if (flows =? 7)%N then 0 else N.to_nat flows) + N.to_nat (N.land b0 2) * 2)%nat).
(** association_response_message.cpp 156-158 *)
Definition ar_code (c : association_response) : N :=
  if ar_accepted c =? 1 then N.of_nat (length (ar_flows c)) else ar_accepted c.
(** association_response_message.cpp 166-176, 213-233 *)
Definition wr_harqs (h : harq_config * harq_config) (m : list N) (off : nat) : res (list N) :=
  do m <- wr_harq (snd h) m off ; wr_harq (fst h) m (off + 1).
Definition rd_harqs (m : list N) (off : nat) : res (harq_config * harq_config) :=
  do rx <- rd_harq m off ; do tx <- rd_harq m (off + 1) ; Ok (tx, rx).
(** association_response_message.cpp 185-189, 256-260 *)
Definition wr_group (g : group_info) (m : list N) (off : nat) : res (list N) :=
  do m <- st m off (gi_group g) ; st m (off + 1) (gi_tag g).
Definition rd_group (m : list N) (off : nat) : res group_info :=
  do a <- ld m off ; do b <- ld m (off + 1) ; Ok (mkGi (N.land a 127) (N.land b 127)).
(** association_response_message.cpp 136-194 *)
Definition ar_pack (c : association_response) (m : list N) : res (list N) :=
  guard (ar_valid c)
  (match ar_reject c with
   | Some r =>
       do m <- st m 0 0 ;
       do m <- st m 1 (N.shiftl (rj_cause r) 4) ;
       do m <- orst m 1 (rj_time r) ;
       do p <- ar_peek m ;
       guard (match p with Some n => (n =? 2)%nat | None => false end) (Ok m)
   | None =>
       do m <- st m 0 (N.shiftl 1 7) ;
       do m <- orst m 0 (N.shiftl (N.b2n (is_some (ar_harq c))) 5) ;
       do m <- orst m 0 (N.shiftl (ar_code c) 2) ;
       do m <- orst m 0 (N.shiftl (N.b2n (is_some (ar_group c))) 1) ;
       do m <- orst m 0 (N.b2n (ar_power c)) ;
       do s <- put (ar_harq c) wr_harqs 2 (m, 1%nat) ;
       do s <- put_all (ar_flows c) wr_byte 1 s ;
       do s <- put (ar_group c) wr_group 2 s ;
       do p <- ar_peek (fst s) ;
       guard (match p with Some n => (n =? snd s)%nat | None => false end) (Ok (fst s))
   end).
(** association_response_message.cpp 196-268 *)
Definition ar_unpack (m : list N) : res (association_response * bool) :=
  do b0 <- ld m 0 ;
  if ar_rejected b0 then
    do b1 <- ld m 1 ;
    let c := mkAr (Some (mkRj (from_coded 5 (N.shiftr b1 4)) (from_coded 9 (N.land b1 15)))) None UNDEF32 [] None false in
    do n <- ar_size c ;
    guard (n =? 2)%nat (Ok (c, ar_valid c))
  else
    do (hq, off) <- get (flag b0 5) rd_harqs 2 m 1 ;
    let flows := N.land (N.shiftr b0 2) 7 in
    let listed := negb (flows =? 0) && negb (flows =? 7) in
    do (fl, off) <- get_all (if listed then N.to_nat flows else 0%nat) rd_flow 1 m off ;
    do (gr, off) <- get (flag b0 1) rd_group 2 m off ;
    let c := mkAr None hq (if listed then 1 else from_coded 8 flows) (set_of (fun x => x) fl) gr (flag b0 0) in
    do n <- ar_size c ;
    guard (n =? off)%nat (Ok (c, ar_valid c)).

(** association_release_message.cpp 43-59 *)
Definition al_release_valid (cause : N) : bool := enum_valid 10 cause.
Definition al_release_size : nat := 1.
Definition al_release_pack (cause : N) (m : list N) : res (list N) :=
  guard (al_release_valid cause) (st m 0 (N.shiftl cause 4)).
Definition al_release_unpack (m : list N) : res (N * bool) :=
  do b <- ld m 0 ;
  let cause := from_coded 10 (N.shiftr b 4) in
  Ok (cause, al_release_valid cause).

(** reconfiguration_request_message.hpp 41-56; a set ordered by the id *)
Record flow := mkFl { fl_id : N; fl_released : bool }.
Record reconf_request := mkRq {
  rq_tx : option harq_config;
  rq_rx : option harq_config;
  rq_capability : bool;
  rq_flows : list flow;
  rq_change : N }.
(** reconfiguration_request_message.cpp 60-72, reconfiguration_response_message.cpp 63-75: value() is called before
    has_value(). [k]: the rest of is_valid(). *)
Definition rc_harq_valid (tx rx : option harq_config) (k : bool) : res bool :=
  do t <- value tx ;
  if negb (hq_valid t) then Ok false else
  do r <- value rx ;
  if negb (hq_valid r) then Ok false else Ok k.
(** reconfiguration_request_message.cpp 59-85 *)
Definition rq_valid (c : reconf_request) : res bool :=
  rc_harq_valid (rq_tx c) (rq_rx c)
    (forallb (fun f => enum_valid_lower 0 7 (fl_id f)) (rq_flows c) && enum_valid 4 (rq_change c)).
(** reconfiguration_request_message.cpp 87-94 *)
Definition rq_size (c : reconf_request) : res nat :=
  do v <- rq_valid c ;
  guard v (Ok (1 + opt_size (rq_tx c) 1 + opt_size (rq_rx c) 1 + length (rq_flows c))%nat).
(** reconfiguration_request_message.cpp 188-203 *)
Definition rq_peek (m : list N) : res (option nat) :=
  do b0 <- ld m 0 ;
  let flows := N.land (N.shiftr b0 2) 7 in
  if flows <? 7 then Ok (Some (1 + N.to_nat (N.shiftr b0 7) + N.to_nat (N.land (N.shiftr b0 6) 1) + N.to_nat flows)%nat)
  else Ok None.
(** reconfiguration_request_message.cpp 126-130, reconfiguration_response_message.cpp 142-146 *)
Definition wr_flow (f : flow) (m : list N) (off : nat) : res (list N) :=
  do m <- st m off (N.shiftl (N.b2n (fl_released f)) 7) ; orst m off (fl_id f).
(** reconfiguration_request_message.cpp 176-179, reconfiguration_response_message.cpp 202-206 *)
Definition rd_flow_rc (m : list N) (off : nat) : res flow :=
  do b <- ld m off ; Ok (mkFl (from_coded_lower 0 7 (N.land b 63)) (negb (N.shiftr b 7 =? 0))).
(** reconfiguration_request_message.cpp 100-130, reconfiguration_response_message.cpp 112-146: the bytes, and the offset *)
Definition rc_write (tx rx : option harq_config) (capability : bool) (code : N) (flows : list flow) (change : N) (m : list N)
    : res (list N * nat) :=
  do m <- st m 0 (N.shiftl (N.b2n (is_some tx)) 7) ;
  do m <- orst m 0 (N.shiftl (N.b2n (is_some rx)) 6) ;
  do m <- orst m 0 (N.shiftl (N.b2n capability) 5) ;
  do m <- orst m 0 (N.shiftl code 2) ;
  do m <- orst m 0 change ;
  do s <- put tx wr_harq 1 (m, 1%nat) ;
  do s <- put rx wr_harq 1 s ;
  put_all flows wr_flow 1 s.
(** reconfiguration_request_message.cpp 96-135 *)
Definition rq_pack (c : reconf_request) (m : list N) : res (list N) :=
  do v <- rq_valid c ;
  guard v
  (do s <- rc_write (rq_tx c) (rq_rx c) (rq_capability c) (N.of_nat (length (rq_flows c))) (rq_flows c) (rq_change c) m ;
   do p <- rq_peek (fst s) ;
   guard (match p with Some n => (n =? snd s)%nat | None => false end) (Ok (fst s))).
(** reconfiguration_request_message.cpp 137-186 *)
Definition rq_unpack (m : list N) : res (reconf_request * bool) :=
  do b0 <- ld m 0 ;
  do (tx, off) <- get (negb (N.shiftr b0 7 =? 0)) rd_harq 1 m 1 ;
  do (rx, off) <- get (flag b0 6) rd_harq 1 m off ;
  do (fl, off) <- get_all (N.to_nat (N.land (N.shiftr b0 2) 7)) rd_flow_rc 1 m off ;
  let c := mkRq tx rx (flag b0 5) (set_of fl_id fl) (from_coded 4 (N.land b0 3)) in
  do n <- rq_size c ;
  guard (n =? off)%nat (do v <- rq_valid c ; Ok (c, v)).

(** reconfiguration_response_message.hpp 34-39 *)
Record reconf_response := mkRs {
  rs_tx : option harq_config;
  rs_rx : option harq_config;
  rs_capability : bool;
  rs_accepted : N;
  rs_flows : list flow;
  rs_change : N }.
(** reconfiguration_response_message.cpp 62-94 *)
Definition rs_valid (c : reconf_response) : res bool :=
  rc_harq_valid (rs_tx c) (rs_rx c)
    (negb (negb (enum_valid 8 (rs_accepted c)) || ((rs_accepted c =? 1) && is_empty (rs_flows c))) &&
     forallb (fun f => enum_valid_lower 0 7 (fl_id f)) (rs_flows c) && enum_valid 4 (rs_change c)).
(** reconfiguration_response_message.cpp 96-106 *)
Definition rs_size (c : reconf_response) : res nat :=
  do v <- rs_valid c ;
  guard v (Ok (1 + opt_size (rs_tx c) 1 + opt_size (rs_rx c) 1 + (if (rs_accepted c =? 1)%N then length (rs_flows c) else 0))%nat).
(** reconfiguration_response_message.cpp 216-229 *)
Definition rs_peek (m : list N) : res (option nat) :=
  do b0 <- ld m 0 ;
  let flows := N.land (N.shiftr b0 2) 7 in
  Ok (Some (1 + N.to_nat (N.shiftr b0 7) + N.to_nat (N.land (N.shiftr b0 6) 1) + (if (flows <? 7)%N then N.to_nat flows else 0))%nat).
(** reconfiguration_response_message.cpp 117-119 *)
Definition rs_code (c : reconf_response) : N :=
  if rs_accepted c =? 1 then N.of_nat (length (rs_flows c)) else rs_accepted c.
(** reconfiguration_response_message.cpp 108-151 *)
Definition rs_pack (c : reconf_response) (m : list N) : res (list N) :=
  do v <- rs_valid c ;
  guard v
  (do s <- rc_write (rs_tx c) (rs_rx c) (rs_capability c) (rs_code c) (rs_flows c) (rs_change c) m ;
   do p <- rs_peek (fst s) ;
   guard (match p with Some n => (n =? snd s)%nat | None => false end) (Ok (fst s))).
(** reconfiguration_response_message.cpp 153-214 *)
Definition rs_unpack (m : list N) : res (reconf_response * bool) :=
  do b0 <- ld m 0 ;
  do (tx, off) <- get (negb (N.shiftr b0 7 =? 0)) rd_harq 1 m 1 ;
  do (rx, off) <- get (flag b0 6) rd_harq 1 m off ;
  let flows := N.land (N.shiftr b0 2) 7 in
  let listed := negb (flows =? 0) && negb (flows =? 7) in
  do (fl, off) <- get_all (if listed then N.to_nat flows else 0%nat) rd_flow_rc 1 m off ;
  let c := mkRs tx rx (flag b0 5) (if listed then 1 else from_coded 8 flows) (set_of fl_id fl) (from_coded 4 (N.land b0 3)) in
  do n <- rs_size c ;
  guard (n =? off)%nat (do v <- rs_valid c ; Ok (c, v)).
