(** Model of the TX thread of the USRP radio: which samples it hands to the driver, and with which metadata.
    lib/src/radio/hw_usrp.cpp 777-1091, lib/src/radio/buffer_tx.cpp 117-141.

    The driver (UHD) is a list of answers: one per step, saying whether the packet the thread looks for is found in
    the pool, and how many samples the call of send() accepts. Simplified: one antenna (all antennas send the same
    range of samples); the packets are given in the order in which the thread expects them (tx_order_id_expect_next,
    891-898, only changes the numbers); times and lengths are unbounded integers, the gap between two packets is the
    32-bit number of the code; start_of_burst and has_time_spec, always set and cleared together, are one field. Left
    out: statistics, logging and keep_running, which stays true. *)
From Verif Require Import Base.
Open Scope Z_scope.

(** hw_usrp.cpp 816-826: nof_prefix_zeros_64 and its assertions *)
Definition prefix_zeros (samp_rate leading_zero_us spp : Z) : res Z :=
  let n := samp_rate * leading_zero_us / 1000000 in
  guard (negb ((0 <? leading_zero_us) && (n =? 0))) (guard (n <=? spp) (Ok n)).

(** static_cast<int32_t> of an int64_t and static_cast<uint32_t> of an int32_t: hw_usrp.cpp 1001-1002, 1013 *)
Definition to_i32 (z : Z) : Z := (z + 2147483648) mod 4294967296 - 2147483648.
Definition to_u32 (z : Z) : Z := z mod 4294967296.

Section usrptx.
Variable smp : Type.
Variable zero : smp.
Variable garbage : smp.     (* what is in a buffer where the PHY has not written yet *)
Variable adj : Type.        (* common::ant_t: power adjustments *)
Variable spp : Z.           (* spp_max, 795 *)
Variable gap_max : Z.       (* usrp_tx_gap_samples, 783 *)
Variable advance : Z.       (* tx_time_advance_samples, 834 *)
Variable prefix : Z.        (* nof_prefix_zeros_64, 816 *)

(** A packet the PHY wants to transmit: buffer_tx_meta.tx_time_64, the tx_length_samples samples of its buffer, and
    the adjustments to be made when it has been transmitted (buffer_tx_meta.hpp 29-52). *)
Record packet := { tx_time : Z; samples : list smp; tx_adj : option adj; rx_adj : option adj }.
Definition lenp (p : packet) : Z := Z.of_nat (length (samples p)).
Definition has_adj (p : packet) : bool := match tx_adj p, rx_adj p with None, None => false | _, _ => true end.

Variable packets : list packet.

(** What the thread does to the device: send() with start_of_burst and time_spec [start], end_of_burst [eob], the
    [len] samples offered and the samples [data] of these the driver accepted; or set_command_time() with an
    adjustment of the TX or of the RX power. *)
Inductive action :=
| Send (start : option Z) (eob : bool) (len : Z) (data : list smp)
| Adjust_tx (time : Z) (a : adj)
| Adjust_rx (time : Z) (a : adj).

(** Where the thread is. [Outer]: line 841. [First b start]: line 888 with current_buffer_tx = b. [Middle b cnt]: line
    936 with tx_length_samples_cnt = cnt. [Gap b go n cnt]: line 1042, or 1049 in the loop, with
    consecutive_transmission_on = go, usrp_tx_gap_current_samples = n and its counter cnt. *)
Inductive place :=
| Outer
| First (b : nat) (start : option Z)
| Middle (b : nat) (cnt : Z)
| Gap (b : nat) (go : bool) (n cnt : Z).
Record thread := { expected : nat; at_place : place }.

(** send() returns how many of the n samples it took, at most all of them *)
Definition taken (n accepted : Z) : Z := Z.max 0 (Z.min n accepted).
(** buffer_tx.cpp 117-131, 133-141: wait for the first [target] samples, then offer n samples from position off. In
    the worst case the PHY has written no more than the samples waited for. *)
Definition offer (p : packet) (target off n : Z) : res (list smp) :=
  guard (target <=? lenp p)
    (Ok (firstn (Z.to_nat n) (skipn (Z.to_nat off) (firstn (Z.to_nat target) (samples p) ++ repeat garbage (length (samples p) - Z.to_nat target))))).
Definition send (start : option Z) (eob : bool) (n : Z) (d : list smp) (accepted : Z) : action :=
  Send start eob n (firstn (Z.to_nat (taken n accepted)) d).
Definition zeros (n : Z) : list smp := repeat zero (Z.to_nat n).

(** hw_usrp.cpp 841-885: a packet is there, a burst begins *)
Definition outer (t : thread) (found : bool) (accepted : Z) : res (thread * list action) :=
  match nth_error packets (expected t) with
  | Some p =>
      if found then
        let start := tx_time p - advance - prefix in
        if 0 <? prefix then
          Ok ({| expected := expected t; at_place := First (expected t) None |},
              [send (Some start) false prefix (zeros prefix) accepted])
        else Ok ({| expected := expected t; at_place := First (expected t) (Some start) |}, [])
      else Ok (t, [])
  | None => Ok (t, [])
  end.

(** hw_usrp.cpp 887-933: the first chunk of a packet *)
Definition first (t : thread) (b : nat) (start : option Z) (accepted : Z) : res (thread * list action) :=
  do p <- rd packets b ;
  guard (spp <? lenp p)
  (do d <- offer p spp 0 spp ;
   Ok ({| expected := S (expected t); at_place := Middle b (taken spp accepted) |}, [send start false spp d accepted])).

(** hw_usrp.cpp 963-1029: the gap to the next packet, if the burst goes on. [end_time] is tx_time_ta_end_64. *)
Definition next_gap (t : thread) (end_time : Z) (found : bool) : res (option Z) :=
  if 0 <=? gap_max then
    match nth_error packets (expected t) with
    | Some q =>
        if found then
          let candidate := tx_time q - advance in
          guard (end_time <=? candidate)
          (let gap := to_i32 (candidate - end_time) in
           Ok (if gap_max <? gap then None else Some (to_u32 gap)))
        else Ok None
    | None => Ok None
    end
  else Ok None.

(** hw_usrp.cpp 935-1040: the other chunks of a packet, and its final one *)
Definition middle (t : thread) (b : nat) (cnt : Z) (found : bool) (accepted : Z) : res (thread * list action) :=
  do p <- rd packets b ;
  if spp <? lenp p - cnt then
    do d <- offer p (cnt + spp) cnt spp ;
    Ok ({| expected := expected t; at_place := Middle b (cnt + taken spp accepted) |}, [send None false spp d accepted])
  else
    guard ((0 <? lenp p - cnt) && (lenp p - cnt <=? spp))
    (do g <- next_gap t (tx_time p - advance + lenp p) found ;
     let go := match g with Some _ => true | None => false end in
     let n := lenp p - cnt in
     do d <- offer p (lenp p) cnt n ;
     guard (lenp p =? cnt + taken n accepted)
       (Ok ({| expected := expected t; at_place := Gap b go (match g with Some x => x | None => 0 end) 0 |},
            [send None (negb go) n d accepted]))).

(** hw_usrp.cpp 1042-1085: zeros up to the next packet of the burst, then adjustments and release of the buffer *)
Definition gap (t : thread) (b : nat) (go : bool) (n cnt : Z) (accepted : Z) : res (thread * list action) :=
  if cnt <? n then
    guard go
    (let k := Z.min spp (n - cnt) in
     Ok ({| expected := expected t; at_place := Gap b go n (cnt + taken k accepted) |},
         [send None false k (zeros k) accepted]))
  else
    do p <- rd packets b ;
    guard (negb (go && has_adj p))
    (let end_time := tx_time p - advance + lenp p in
     Ok ({| expected := expected t; at_place := if go then First (expected t) None else Outer |},
         match tx_adj p with Some a => [Adjust_tx end_time a] | None => [] end ++
         match rx_adj p with Some a => [Adjust_rx end_time a] | None => [] end)).

Definition step (t : thread) (answer : bool * Z) : res (thread * list action) :=
  let (found, accepted) := answer in
  match at_place t with
  | Outer => outer t found accepted
  | First b start => first t b start accepted
  | Middle b cnt => middle t b cnt found accepted
  | Gap b go n cnt => gap t b go n cnt accepted
  end.

(** hw_usrp.cpp 838-841 *)
Definition thread_new : thread := {| expected := 0; at_place := Outer |}.

Fixpoint run (t : thread) (env : list (bool * Z)) : res (thread * list action) :=
  match env with
  | [] => Ok (t, [])
  | a :: env => do (t1, o) <- step t a ; do (t2, os) <- run t1 env ; Ok (t2, o ++ os)
  end.
End usrptx.
