(** Model of the TX thread of the simulated radio: which samples it writes into the virtual space, and when.
    lib/src/radio/hw_simulator.cpp 328-619, lib/src/simulation/vspp/{vspp,vspptx}.cpp.

    The thread writes one packet of spp_size samples (an spp) after the other; the model yields them one by one.
    Simplified: one antenna; the packets to be transmitted are given in the order in which the thread expects
    them (tx_order_id_expect_next only changes the numbers); times and lengths are unbounded integers; the
    thread waits as long as it takes until the PHY has written the samples of a packet
    (wait_for_samples_busy_nto). Left out: gains changed at the end of a packet (459-475), statistics, a timeout of
    wait_writable_to() (598), after which the thread only looks again, and keep_running, which stays true. *)
From Verif Require Import Base.
Open Scope Z_scope.

Section simtx.
Variable smp : Type.
Variable zero : smp.
Variable hw : smp -> smp.   (* clip_and_quantize for one sample, or nothing: hw_simulator.cpp 561-567 *)
Variable spp : Z.           (* spp_size *)

(** A packet the PHY wants to transmit: buffer_tx_meta.tx_time_64, the tx_length_samples samples of its buffer,
    and the time from which get_specific_tx_order_id_if_available() finds it. *)
Record packet := { tx_time : Z; samples : list smp; visible_from : Z }.
Definition lenp (p : packet) : Z := Z.of_nat (length (samples p)).

Variable packets : list packet.

(** hw_simulator.cpp 364-365 and 502-503, the result of get_specific_tx_order_id_if_available() *)
Definition available (now : Z) (id : nat) : option packet :=
  match nth_error packets id with
  | Some p => if visible_from p <=? now then Some p else None
  | None => None
  end.

(** Where the thread is before it writes the next spp. [Outer]: line 362. [Zeros n]: line 394 with
    nof_spp_zero = n, for the expected packet. [Sending b len cnt]: line 430 with buffer_tx_idx = b,
    tx_length_samples = len and tx_length_samples_cnt = cnt; spp_offset is zero by then (583). *)
Inductive place := Outer | Zeros (n : Z) | Sending (b : nat) (len cnt : Z).
Record thread := { now : Z; expected : nat; at_place : place }.

(** What is written: vspptx.meta.now_64, vspptx.spp, vspptx.tx_idx and vspptx.tx_length. *)
Record spp_out := { o_now : Z; o_spp : list smp; o_idx : Z; o_length : Z }.

(** vspp.cpp 63, spp_zero() *)
Definition zeros_spp : list smp := repeat zero (Z.to_nat spp).
(** vspptx.cpp 50-56, vspp.cpp 65-67: spp_write_v() *)
Definition spp_write (b : list smp) (offset : Z) (d : list smp) : res (list smp) :=
  guard ((0 <? Z.of_nat (length d)) && (offset + Z.of_nat (length d) <=? spp))
    (Ok (firstn (Z.to_nat offset) b ++ d ++ skipn (Z.to_nat offset + length d) b)).
(** buffer_tx.cpp 117-131 and 133-141: wait for the first cnt + n samples, then take n from position cnt *)
Definition take (p : packet) (cnt n : Z) : res (list smp) :=
  guard (cnt + n <=? lenp p) (Ok (firstn (Z.to_nat n) (skipn (Z.to_nat cnt) (samples p)))).

(** hw_simulator.cpp 391-409 and 590-608: one spp with zeros *)
Definition write_zeros (t : thread) (pl : place) : res (thread * spp_out) :=
  Ok ({| now := now t + spp; expected := expected t; at_place := pl |},
      {| o_now := now t; o_spp := zeros_spp; o_idx := -1; o_length := -1 |}).

(** hw_simulator.cpp 430-586: one round of the loop over the samples of a packet *)
Definition send (t : thread) (b : nat) (len cnt offset : Z) : res (thread * spp_out) :=
  do p <- rd packets b ;
  let this := Z.min (len - cnt) (spp - offset) in
  do d <- take p cnt this ;
  do buf <- spp_write zeros_spp offset d ;
  let cnt1 := cnt + this in
  let write id pl buf i l :=
    Ok ({| now := now t + spp; expected := id; at_place := pl |},
        {| o_now := now t; o_spp := map hw buf; o_idx := i; o_length := l |}) in
  guard (cnt1 <=? len)
    (if cnt1 =? len then
       let id := S (expected t) in
       if offset + this <? spp then
         match available (now t) id with
         | Some q =>
             let len2 := lenp q in
             guard (spp <? len2)
             (guard (now t + (offset + this) <=? tx_time q)
             (if tx_time q <? now t + spp then
                let offset2 := tx_time q - now t in
                guard (offset2 <? spp)
                (let this2 := spp - offset2 in
                 do d2 <- take q 0 this2 ;
                 do buf2 <- spp_write buf offset2 d2 ;
                 write id (Sending id len2 this2) buf2 0 spp)
              else write id (Sending id len2 cnt1) buf offset this))
         | None => write id (Sending b len cnt1) buf offset this
         end
       else write id (Sending b len cnt1) buf offset this
     else write (expected t) (Sending b len cnt1) buf offset this).

(** hw_simulator.cpp 394-417: zeros until the spp in which the expected packet starts *)
Definition zeros (t : thread) (n : Z) : res (thread * spp_out) :=
  if 0 <? n then write_zeros t (Zeros (n - 1))
  else
    do p <- rd packets (expected t) ;
    let offset := tx_time p - now t in
    guard (offset <? spp) (send t (expected t) (lenp p) 0 offset).

(** hw_simulator.cpp 363-392 and 588-609 *)
Definition outer (t : thread) : res (thread * spp_out) :=
  match available (now t) (expected t) with
  | Some p =>
      guard (spp <? lenp p)
      (guard (now t <=? tx_time p) (zeros t ((tx_time p - now t) / spp)))
  | None => write_zeros t Outer
  end.

(** From one write into the virtual space to the next. *)
Definition next_spp (t : thread) : res (thread * spp_out) :=
  match at_place t with
  | Outer => outer t
  | Zeros n => zeros t n
  | Sending b len cnt => if cnt <? len then send t b len cnt 0 else outer t
  end.

(** hw_simulator.cpp 344-352 *)
Definition thread_new (now_start : Z) : thread := {| now := now_start; expected := 0%nat; at_place := Outer |}.

Fixpoint run (t : thread) (k : nat) : res (thread * list spp_out) :=
  match k with
  | O => Ok (t, [])
  | S k => do (t1, o) <- next_spp t ; do (t2, os) <- run t1 k ; Ok (t2, o :: os)
  end.
End simtx.
