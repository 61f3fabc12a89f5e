(** Model of the RX ring buffer of the radio layer.
    lib/src/radio/buffer_rx.cpp, lib/include/dectnrp/radio/buffer_rx.hpp. *)
From Verif Require Import Base.
Open Scope Z_scope.

Section RxRing.
  Context {S : Type}.

  (** Constructor arguments. buffer_rx.cpp 33-63.
      [cL] = ant_streams_length_samples, [cM] = nof_new_samples_max,
      [cpre] = rx_prestream_64 at the start, [cper] = notification_period_samples. *)
  Record cfg := { cL : nat; cM : nat; cant : nat; cpre : Z; cper : Z }.

  (** The mutable members, buffer_rx.hpp 89-118, and the write pointer held by the hardware thread
      ([ant_streams] of hw_usrp.cpp 1128, hw_simulator.cpp 640: one pointer per antenna, all with
      the same offset).  [notes] counts the calls of notify_all, buffer_rx.cpp 205. *)
  Record ring := {
    mem : list (list S);   (* ant_streams *)
    ptr : nat;             (* offset of ant_streams_next *)
    cnt : Z;               (* time_as_sample_cnt_64 *)
    pre : Z;               (* rx_prestream_64 *)
    rxt : Z;               (* rx_time_passed_64 *)
    nxt : Z;               (* notification_next *)
    notes : nat
  }.

  (** Constructor, buffer_rx.cpp 33-79: buffers of length L + M, zeroed, everything at time 0,
      followed by the initialising call of the hardware thread get_ant_streams_next(_, 0, 0)
      (hw_usrp.cpp 1133, hw_simulator.cpp 645), which leaves the pointers at offset 0.
      Simplified: the notification of that very first call is not counted. *)
  Definition init (c : cfg) (zero : S) : res ring :=
    guard (Nat.leb (cM c * 8) (cL c))
      (Ok {| mem := repeat (repeat zero (cL c + cM c)) (cant c);
             ptr := 0; cnt := 0; pre := cpre c; rxt := 0; nxt := 0; notes := 0 |}).

  (** Samples stored to consecutive addresses starting at offset [i]; used for the hardware's
      write through ant_streams_next (uhd recv, hw_usrp.cpp 1156; spp_read_v,
      hw_simulator.cpp 683) and for cf32_copy (complex.hpp). *)
  Definition put (m : list S) (i : nat) (xs : list S) : list S :=
    firstn i m ++ xs ++ skipn (i + length xs) m.

  (** cf32_copy(&m[0], &m[L], k): buffer_rx.cpp 163-167. *)
  Definition wrap (L : nat) (k : nat) (m : list S) : list S :=
    put m 0 (firstn k (skipn L m)).

  (** A block of samples delivered by the hardware: the time stamp the hardware reports for its
      first sample, the number of samples and the samples for each antenna. *)
  Record block := { btime : Z; blen : nat; bdata : list (list S) }.

  Definition jitter : Z := 1.  (* acceptable_jitter_range_64, buffer_rx.cpp 51 *)

  (** The hardware writes the first [k] samples of every antenna of a block at the current
      pointers. The write is out of bounds when it passes the end of the allocation of L + M. *)
  Definition hw_write (c : cfg) (st : ring) (b : block) (k : nat) : res ring :=
    if Nat.ltb (cL c + cM c) (ptr st + k) then Oob
    else Ok {| mem := map (fun p => put (fst p) (ptr st) (firstn k (snd p)))
                          (combine (mem st) (bdata b));
               ptr := ptr st; cnt := cnt st; pre := pre st; rxt := rxt st; nxt := nxt st;
               notes := notes st |}.

  (** get_ant_streams_next, buffer_rx.cpp 134-227. int64_t counters are unbounded integers.
      A negative time makes the uint32_t index wrap, every access is then out of bounds: [Oob].
      TCP scope (compiled out) not modelled. *)
  Definition get_next (c : cfg) (st : ring) (time : Z) (n : nat) : res ring :=
    guard (Nat.leb n (cM c)) (                                           (* 137-138 *)
      let err := cnt st - time in                                        (* 142 *)
      let off := ((err <? - jitter) || (jitter <? err))%bool in          (* 145 *)
      guard (negb off || (0 <=? cnt st)) (                               (* 146 *)
        let t := if off then time else cnt st in                         (* 153 *)
        if t <? 0 then Oob else
        let idx := Z.to_nat (Z.rem t (Z.of_nat (cL c))) in               (* 157-158 *)
        let m := if Nat.ltb (cL c) (idx + n)                             (* 161 *)
                 then map (wrap (cL c) (idx + n - cL c)) (mem st)        (* 162-168 *)
                 else mem st in
        let t' := t + Z.of_nat n in                                      (* 180 *)
        let idx' := Z.to_nat (Z.rem t' (Z.of_nat (cL c))) in             (* 183-184 *)
        let pre' := pre st - Z.of_nat n in                               (* 201 *)
        if 0 <=? pre' then                                               (* 202-204 *)
          Ok {| mem := m; ptr := idx'; cnt := t'; pre := pre'; rxt := rxt st; nxt := nxt st;
                notes := notes st |}
        else if nxt st <=? t' then                                       (* 207-215 *)
          Ok {| mem := m; ptr := idx'; cnt := t'; pre := pre'; rxt := t';
                nxt := t' + cper c; notes := notes st + 1 |}
        else
          Ok {| mem := m; ptr := idx'; cnt := t'; pre := pre'; rxt := t'; nxt := nxt st;
                notes := notes st |})).

  (** One iteration of the hardware RX thread: write a block, then advance.
      hw_usrp.cpp 1156-1175 (ERROR_CODE_NONE), hw_simulator.cpp 683-698. *)
  Definition deliver (c : cfg) (st : ring) (b : block) : res ring :=
    do st1 <- hw_write c st b (blen b);
    get_next c st1 (btime b) (blen b).

  Fixpoint run (c : cfg) (st : ring) (bs : list block) : res ring :=
    match bs with
    | [] => Ok st
    | b :: r => do st' <- deliver c st b; run c st' r
    end.

  (** wait_until_nto, buffer_rx.cpp 97-118, as a function of the successive values the thread
      loads from rx_time_passed_64: the first load happens before waiting, each further one after
      a wake-up. [None]: still waiting after the given loads. *)
  Fixpoint wait_loop (target : Z) (loads : list Z) : option Z :=
    match loads with
    | [] => None
    | now :: r => if now <? target then wait_loop target r else Some now
    end.
  Definition wait_until (target : Z) (loads : list Z) : option Z :=
    match loads with
    | [] => None
    | now :: r => if target <? now then Some now else wait_loop target r
    end.
End RxRing.
Arguments cfg : clear implicits.
Arguments ring : clear implicits.
Arguments block : clear implicits.
