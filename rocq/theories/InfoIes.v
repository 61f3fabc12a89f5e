(** Models of lib/src/sections_part4/mac_messages_and_ie/{radio_device_status,mac_security_info,route_info,
    group_assignment,load_info,measurement_report,configuration_request}_ie.cpp and higher_layer_signalling.cpp. *)
From Verif Require Import Base Bytes MacHeader Mux IeBase IeLists.
Open Scope N_scope.

(** *** The multiplexing headers the constructors set; the rest of the header is not_defined *)
(** radio_device_status_ie.cpp 28-33 *)
Definition ds_header : mmh := mkMmh 3 1 1 None.
(** configuration_request_ie.cpp 27-32: the element is nothing but this header *)
Definition cr_header : mmh := mkMmh 3 1 0 None.
(** mac_security_info_ie.cpp 31-35 *)
Definition si_header : mmh := mkMmh 0 16 UNDEF32 None.
(** route_info_ie.cpp 28-32 *)
Definition ri_header : mmh := mkMmh 0 17 UNDEF32 None.
(** rd_capability_ie.cpp 31-35 *)
Definition cap_header : mmh := mkMmh 0 20 UNDEF32 None.
(** neighbouring_ie.cpp 32-36 *)
Definition ng_header : mmh := mkMmh 0 21 UNDEF32 None.
(** broadcast_indication_ie.cpp 29-33 *)
Definition bi_header : mmh := mkMmh 0 22 UNDEF32 None.
(** group_assignment_ie.cpp 29-32: neither the extension nor the length are set *)
Definition ga_header : mmh := mkMmh UNDEF32 23 UNDEF32 None.
(** load_info_ie.cpp 29-33 *)
Definition li_header : mmh := mkMmh 0 24 UNDEF32 None.
(** measurement_report_ie.cpp 28-32 *)
Definition mr_header : mmh := mkMmh 0 25 UNDEF32 None.
(** mmie.cpp 62-65: mmie_packing_t::pack_mmh_sdu for an element packed by [pack] *)
Definition pack_mmh_sdu (h : mmh) (pack : list N -> res (list N)) (m : list N) : res (list N) :=
  do m <- mmh_pack h m ;
  do s <- mmh_size h ;
  at_off s pack m.

(** *** radio_device_status_ie *)
(** radio_device_status_ie.hpp: status_flag_t 1 .. 2, duration_t 0 .. 11 *)
Record radio_status := mkDs { ds_flag : N; ds_duration : N }.
(** radio_device_status_ie.cpp 45-47 *)
Definition ds_valid (c : radio_status) : bool := enum_valid_lower 0 3 (ds_flag c) && enum_valid 12 (ds_duration c).
(** radio_device_status_ie.cpp 49 *)
Definition ds_size : nat := 1.
(** radio_device_status_ie.cpp 51-57 *)
Definition ds_pack (c : radio_status) (m : list N) : res (list N) :=
  guard (ds_valid c) (do m <- st m 0 (N.shiftl (ds_flag c) 4) ; orst m 0 (ds_duration c)).
(** radio_device_status_ie.cpp 59-66 *)
Definition ds_unpack (m : list N) : res (radio_status * bool) :=
  do b <- ld m 0 ;
  let c := mkDs (from_coded_lower 0 3 (N.land (N.shiftr b 4) 3)) (from_coded 12 (N.land b 15)) in
  Ok (c, ds_valid c).

(** *** mac_security_info_ie *)
Record security_info := mkSi { si_key : N; si_iv : N; si_hpc : N }.
(** mac_security_info_ie.cpp 42-46 *)
Definition si_zero : security_info := mkSi UNDEF32 UNDEF32 UNDEF32.
(** mac_security_info_ie.cpp 48-50 *)
Definition si_valid (c : security_info) : bool := (si_key c <=? 3) && enum_valid 3 (si_iv c).
(** mac_security_info_ie.cpp 52 *)
Definition si_size : nat := 5.
(** mac_security_info_ie.cpp 54-65; version is the constant mode_1 = 0 *)
Definition si_pack (c : security_info) (m : list N) : res (list N) :=
  guard (si_valid c)
  (do m <- st m 0 (N.shiftl 0 6) ;
   do m <- orst m 0 (N.shiftl (si_key c) 4) ;
   do m <- orst m 0 (si_iv c) ;
   wr_num 4 (si_hpc c) m 1).
(** mac_security_info_ie.cpp 67-84 *)
Definition si_unpack (m : list N) : res (security_info * bool) :=
  do b <- ld m 0 ;
  if negb (N.shiftr b 6 =? 0) then Ok (si_zero, false) else
  do h <- rd_num 4 m 1 ;
  let c := mkSi (N.land (N.shiftr b 4) 3) (from_coded 3 (N.land b 15)) h in
  Ok (c, si_valid c).

(** *** route_info_ie *)
Record route_info := mkRi { ri_sink : N; ri_cost : N; ri_seq : N }.
(** route_info_ie.cpp 45-47 *)
Definition ri_valid (c : route_info) : bool := (ri_cost c <=? 255) && (ri_seq c <=? 255).
(** route_info_ie.cpp 49 *)
Definition ri_size : nat := 6.
(** route_info_ie.cpp 51-63 *)
Definition ri_pack (c : route_info) (m : list N) : res (list N) :=
  guard (ri_valid c)
  (do m <- wr_num 4 (ri_sink c) m 0 ;
   do m <- st m 4 (ri_cost c) ;
   st m 5 (ri_seq c)).
(** route_info_ie.cpp 65-73 *)
Definition ri_unpack (m : list N) : res (route_info * bool) :=
  do s <- rd_num 4 m 0 ;
  do c <- ld m 4 ;
  do q <- ld m 5 ;
  Ok (mkRi s c q, true).

(** *** group_assignment_ie *)
(** An assignment is the direction and the resource tag. *)
Record group_assignment := mkGa { ga_single : N; ga_group : N; ga_assignments : list (N * N) }.
(** group_assignment_ie.cpp 45-69; single_assignment = 1, multiple_assignments = 0 *)
Definition ga_valid (c : group_assignment) : bool :=
  enum_valid 2 (ga_single c) &&
  negb ((ga_single c =? 1) && negb (length (ga_assignments c) =? 1)%nat) &&
  negb ((ga_single c =? 0) && (length (ga_assignments c) <? 2)%nat) &&
  (ga_group c <=? 127) &&
  forallb (fun a => enum_valid 2 (fst a) && (snd a <=? 127)) (ga_assignments c).
(** group_assignment_ie.cpp 71-75 *)
Definition ga_size (c : group_assignment) : res nat := guard (ga_valid c) (Ok (1 + length (ga_assignments c))%nat).
(** group_assignment_ie.cpp 87-89 *)
Definition wr_assignment (a : N * N) (m : list N) (off : nat) : res (list N) :=
  do m <- st m off (N.shiftl (fst a) 7) ; orst m off (snd a).
(** group_assignment_ie.cpp 102-106 *)
Definition rd_assignment (m : list N) (off : nat) : res (N * N) :=
  do b <- ld m off ; Ok (from_coded 2 (N.shiftr b 7), N.land b 127).
(** group_assignment_ie.cpp 77-91 *)
Definition ga_pack (c : group_assignment) (m : list N) : res (list N) :=
  guard (ga_valid c)
  (do m <- st m 0 (N.shiftl (ga_single c) 7) ;
   do m <- orst m 0 (ga_group c) ;
   do s <- put_all (ga_assignments c) wr_assignment 1 (m, 1%nat) ;
   Ok (fst s)).
(** group_assignment_ie.cpp 93-112; [len] is the length field of the multiplexing header *)
Definition ga_unpack (len : nat) (m : list N) : res (group_assignment * bool) :=
  do b <- ld m 0 ;
  do (l, off) <- get_all (len - 1) rd_assignment 1 m 1 ;
  let c := mkGa (from_coded 2 (N.shiftr b 7)) (N.land b 127) l in
  do n <- ga_size c ;
  guard (n =? len)%nat (Ok (c, ga_valid c)).

(** *** load_info_ie *)
(** load_info_ie.hpp; max_assoc: _8_bit 0, _16_bit 1; the channel load is the percentage of free and of busy subslots *)
Record load_info := mkLi {
  li_max_assoc : N;
  li_traffic : N;
  li_max_nof : N;
  li_ft : N;
  li_pt : option N;
  li_rach : option N;
  li_channel : option (N * N) }.
(** load_info_ie.cpp 50-77 *)
Definition li_valid (c : load_info) : bool :=
  enum_valid 2 (li_max_assoc c) &&
  opt_all (fun p => p <=? 255) (li_pt c) && opt_all (fun p => p <=? 255) (li_rach c) &&
  opt_all (fun p => (fst p <=? 255) && (snd p <=? 255)) (li_channel c) &&
  (li_traffic c <=? 255) &&
  (li_max_nof c <=? (if li_max_assoc c =? 0 then 255 else 65535)) &&
  (li_ft c <=? 255).
(** load_info_ie.cpp 79-87 *)
Definition li_size (c : load_info) : res nat :=
  guard (li_valid c)
  (Ok ((if (li_max_assoc c =? 0)%N then 4 else 5) + opt_size (li_pt c) 1 + opt_size (li_rach c) 1 + opt_size (li_channel c) 2)%nat).
(** load_info_ie.cpp 177-185 *)
Definition li_peek (m : list N) : res (option nat) :=
  do b0 <- ld m 0 ;
  Ok (Some ((if (N.land b0 8 =? 0)%N then 4 else 5) + N.to_nat (N.land b0 4) + N.to_nat (N.land b0 2) + N.to_nat (N.land b0 1) * 2)%nat).
(** load_info_ie.cpp 125-126 *)
Definition wr_pair (p : N * N) (m : list N) (off : nat) : res (list N) :=
  do m <- st m off (fst p) ; st m (off + 1) (snd p).
(** load_info_ie.cpp 167-168 *)
Definition rd_pair (m : list N) (off : nat) : res (N * N) :=
  do a <- ld m off ; do b <- ld m (off + 1) ; Ok (a, b).
(** load_info_ie.cpp 89-133 *)
Definition li_pack (c : load_info) (m : list N) : res (list N) :=
  guard (li_valid c)
  (do m <- st m 0 (N.shiftl (li_max_assoc c) 3) ;
   do m <- orst m 0 (N.shiftl (N.b2n (is_some (li_pt c))) 2) ;
   do m <- orst m 0 (N.shiftl (N.b2n (is_some (li_rach c))) 1) ;
   do m <- orst m 0 (N.b2n (is_some (li_channel c))) ;
   do m <- st m 1 (li_traffic c) ;
   let k := if li_max_assoc c =? 0 then 1%nat else 2%nat in
   do m <- wr_num k (li_max_nof c) m 2 ;
   do m <- st m (k + 2) (li_ft c) ;
   do s <- put (li_pt c) wr_byte 1 (m, (k + 3)%nat) ;
   do s <- put (li_rach c) wr_byte 1 s ;
   do s <- put (li_channel c) wr_pair 2 s ;
   do p <- li_peek (fst s) ;
   guard (match p with Some n => (n =? snd s)%nat | None => false end) (Ok (fst s))).
(** load_info_ie.cpp 135-175 *)
Definition li_unpack (m : list N) : res (load_info * bool) :=
  do b0 <- ld m 0 ;
  let ma := from_coded 2 (N.land (N.shiftr b0 3) 1) in
  do tr <- ld m 1 ;
  let k := if ma =? 0 then 1%nat else 2%nat in
  do mx <- rd_num k m 2 ;
  do ft <- ld m (k + 2) ;
  do (pt, off) <- get (negb (N.land b0 4 =? 0)) ld 1 m (k + 3) ;
  do (ra, off) <- get (negb (N.land b0 2 =? 0)) ld 1 m off ;
  do (ch, off) <- get (negb (N.land b0 1 =? 0)) rd_pair 2 m off ;
  let c := mkLi ma tr mx ft pt ra ch in
  do n <- li_size c ;
  guard (n =? off)%nat (Ok (c, li_valid c)).

(** *** measurement_report_ie *)
Record measurement_report := mkMr {
  mr_snr : option N;
  mr_rssi_2 : option N;
  mr_rssi_1 : option N;
  mr_tx_count : option N;
  mr_rach : N }.
(** measurement_report_ie.cpp 55-73 *)
Definition mr_valid (c : measurement_report) : bool :=
  opt_all (fun p => p <=? 255) (mr_snr c) && opt_all (fun p => p <=? 255) (mr_rssi_2 c) &&
  opt_all (fun p => p <=? 255) (mr_rssi_1 c) && opt_all (fun p => p <=? 255) (mr_tx_count c) && enum_valid 2 (mr_rach c).
(** measurement_report_ie.cpp 75-82 *)
Definition mr_size (c : measurement_report) : nat :=
  (1 + opt_size (mr_snr c) 1 + opt_size (mr_rssi_2 c) 1 + opt_size (mr_rssi_1 c) 1 + opt_size (mr_tx_count c) 1)%nat.
(** measurement_report_ie.cpp 163-171 *)
Definition mr_peek (m : list N) : res (option nat) :=
  do b0 <- ld m 0 ;
  Ok (Some (1 + N.to_nat (N.land (N.shiftr b0 4) 1) + N.to_nat (N.land (N.shiftr b0 3) 1) + N.to_nat (N.land (N.shiftr b0 2) 1) + N.to_nat (N.land b0 2))%nat).
(** measurement_report_ie.cpp 84-124 *)
Definition mr_pack (c : measurement_report) (m : list N) : res (list N) :=
  guard (mr_valid c)
  (do m <- st m 0 (N.shiftl (N.b2n (is_some (mr_snr c))) 4) ;
   do m <- orst m 0 (N.shiftl (N.b2n (is_some (mr_rssi_2 c))) 3) ;
   do m <- orst m 0 (N.shiftl (N.b2n (is_some (mr_rssi_1 c))) 2) ;
   do m <- orst m 0 (N.shiftl (N.b2n (is_some (mr_tx_count c))) 1) ;
   do m <- orst m 0 (mr_rach c) ;
   do s <- put (mr_snr c) wr_byte 1 (m, 1%nat) ;
   do s <- put (mr_rssi_2 c) wr_byte 1 s ;
   do s <- put (mr_rssi_1 c) wr_byte 1 s ;
   do s <- put (mr_tx_count c) wr_byte 1 s ;
   do p <- mr_peek (fst s) ;
   guard (match p with Some n => (n =? snd s)%nat | None => false end) (Ok (fst s))).
(** measurement_report_ie.cpp 126-161 *)
Definition mr_unpack (m : list N) : res (measurement_report * bool) :=
  do b0 <- ld m 0 ;
  do (snr, off) <- get (flag b0 4) ld 1 m 1 ;
  do (r2, off) <- get (flag b0 3) ld 1 m off ;
  do (r1, off) <- get (flag b0 2) ld 1 m off ;
  do (tx, off) <- get (negb (N.land b0 2 =? 0)) ld 1 m off ;
  let c := mkMr snr r2 r1 tx (from_coded 2 (N.land b0 1)) in
  guard (mr_size c =? off)%nat (Ok (c, mr_valid c)).

(** *** higher_layer_signalling, an element with a flow and a length field like user plane data (SmallIes.v) *)
(** higher_layer_signalling.cpp 34-49 *)
Definition hl_set_flow_id (h : mmh) (flow : N) : res mmh :=
  match flow with
  | 1 => Ok (mkMmh (mx_ext h) 1 (mx_len h) (mx_tinfo h))
  | 2 => Ok (mkMmh (mx_ext h) 2 (mx_len h) (mx_tinfo h))
  | _ => Abort
  end.
(** higher_layer_signalling.cpp 51-64 *)
Definition hl_get_flow_id (h : mmh) : N := match mx_ie h with 1 => 1 | 2 => 2 | _ => UNDEF32 end.
