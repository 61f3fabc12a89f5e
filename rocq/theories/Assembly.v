(** Assembly of a MAC PDU: pack_mmh_sdu of the elements (mmie.cpp 62-76) in the order of calls the firmware uses, and
    worksub_tx_unicast_mac_sdu of lib/src/upper/p2p/procedure/steady_rd.cpp with the application queue as a list. *)
From Verif Require Import Base Bytes MacHeader Mux IeBase Beacons SmallIes.
Open Scope N_scope.

(** An element as the firmware configures it: user plane data of a flow, cluster beacon, power target, time announce. *)
Inductive element_tx :=
| TxData (flow : N) (payload : list N)
| TxBeacon (c : cluster_beacon)
| TxPower (v : N)
| TxTime (t : time_announce).
(** cluster_beacon_message.cpp 39-43 *)
Definition cb_mmh : mmh := mkMmh 0 9 UNDEF32 None.

(** mmie_packing_t::pack_mmh_sdu, mmie.cpp 62-65 *)
Definition packing_pack (h : mmh) (pack : list N -> res (list N)) (m : list N) (off : nat) : res (list N) :=
  do m <- at_off off (mmh_pack h) m ;
  do s <- mmh_size h ;
  at_off (off + s) pack m.
(** get_packed_size_of_mmh_sdu, mmie.cpp 58-60 and 69-71 *)
Definition packing_size (h : mmh) (n : nat) : res nat := do s <- mmh_size h ; Ok (s + n)%nat.
(** the header of user plane data: set_flow_id, set_data_size *)
Definition data_mmh (flow : N) (n : nat) : res mmh :=
  do h <- set_flow_id mmh_zero flow ; set_data_size h (N.of_nat n).
(** One element at a_cnt_w: is_mmh_sdu_fitting (mmie.hpp 44-52) asserted, packed, and for user plane data the payload copied
    to get_data_ptr(); returns the memory and the advanced a_cnt_w. steady_ft.cpp 408-437 and steady_rd.cpp 472-500 are
    instances. [tb] is the size of the transport block. *)
Definition put_element (mu : N) (tb : nat) (e : element_tx) (s : list N * nat) : res (list N * nat) :=
  let '(m, off) := s in
  match e with
  | TxData flow l =>
    do h <- data_mmh flow (length l) ;
    do n <- flowing_size h ;
    guard (N.of_nat off + n <=? N.of_nat tb)
    (do (m, p) <- flowing_pack h m off ;
     do m <- cp m p l ;
     Ok (m, (off + N.to_nat n)%nat))
  | TxBeacon c =>
    do n <- packing_size cb_mmh (cb_size mu c) ;
    guard (off + n <=? tb)%nat (do m <- packing_pack cb_mmh (cb_pack mu c) m off ; Ok (m, (off + n)%nat))
  | TxPower v =>
    do n <- packing_size pt_mmh pt_size ;
    guard (off + n <=? tb)%nat (do m <- packing_pack pt_mmh (pt_pack v) m off ; Ok (m, (off + n)%nat))
  | TxTime t =>
    do n <- packing_size ta_mmh ta_size ;
    guard (off + n <=? tb)%nat (do m <- packing_pack ta_mmh (ta_pack t) m off ; Ok (m, (off + n)%nat))
  end.
Fixpoint put_elements (mu : N) (tb : nat) (es : list element_tx) (s : list N * nat) : res (list N * nat) :=
  match es with
  | [] => Ok s
  | e :: t => do s <- put_element mu tb e s ; put_elements mu tb t s
  end.
(** psdef_plcf_mac_pdu.cpp 26-42 pack_first_3_header, the part in the transport block (the PLCF is packed elsewhere): header type and common header *)
Definition pack_headers (h : mht) (c : mch) (m : list N) : res (list N * nat) :=
  do m <- mht_pack h m ;
  do m <- at_off 1 (mch_pack c) m ;
  Ok (m, (1 + mch_size c)%nat).
(** The whole transport block, whose bytes are [m] before. *)
Definition assemble (mu : N) (h : mht) (c : mch) (es : list element_tx) (m : list N) : res (list N) :=
  do s <- pack_headers h c m ;
  do (m', off) <- put_elements mu (length m) es s ;
  fill_with_padding_ies m' off (N.of_nat (length m) - N.of_nat off).

(** *** steady_rd.cpp 463-511 worksub_tx_unicast_mac_sdu *)
(** The application queue is the FIFO of C01, oldest datagram first; its user may enqueue further datagrams between any two
    reads, [arrivals] are those enqueued before each read. Loop of 470-501 over queue_level.levels. *)
Fixpoint unicast_loop (tb : nat) (levels : list nat) (arrivals : list (list (list N))) (q : list (list N)) (m : list N) (off : nat)
  : res (list N * nat * list (list N)) :=
  match levels with
  | [] => Ok (m, off, q)
  | n :: levels =>
    do h <- data_mmh 1 n ;
    do s <- flowing_size h ;
    if N.of_nat tb <=? N.of_nat off + s then Ok (m, off, q)
    else
      do (m, p) <- flowing_pack h m off ;
      guard (p + n <=? tb)%nat
      (match q ++ hd [] arrivals with
       | [] => Ok (m, off, [])
       | d :: q =>
         do m <- cp m p d ;
         if (length d =? 0)%nat then Ok (m, off, q)
         else unicast_loop tb levels (tl arrivals) q m (off + N.to_nat s)
       end)
  end.
(** returns whether there is something to send, the transport block and the queue *)
Definition unicast_mac_sdu (h : mht) (c : mch) (levels : list nat) (arrivals : list (list (list N))) (q : list (list N)) (m : list N)
  : res (bool * list N * list (list N)) :=
  do (m', off) <- pack_headers h c m ;
  do (r, q') <- unicast_loop (length m) levels arrivals q m' off ;
  let '(m', off') := r in
  if (1 + mch_size c =? off')%nat then Ok (false, m', q')
  else do m' <- fill_with_padding_ies m' off' (N.of_nat (length m) - N.of_nat off') ; Ok (true, m', q').
