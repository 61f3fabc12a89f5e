(** Channel coding of the control header (PLCF) and the blind search for its type:
    lib/src/phy/fec/pcc_enc.cpp, lib/src/phy/fec/fec.cpp and
    lib/src/phy/rx/rx_synced/rx_synced.cpp 1011-1026.

    The functions of srsRAN are not part of the repository and are left open: [crc] (checksum of bytes, cut to 16
    bits), [tcode] (turbo coding and rate matching to the 196 bits of the channel), [comb] (rate dematching into a
    cleared soft buffer), [tdec] (the output of the turbo decoder after a number of iterations), [descr]
    (descrambling of one soft bit). The coders are selected by the index of the block length. The checksum is
    accessed as a uint16_t at byte 5 or 10 in the order of the host, here little endian, and unaligned for type 1.
    The 8 bit branch of the decoder differs only in the type of the soft bits. *)
From Verif Require Import Base PacketSizes Plcf TbCodec.
Open Scope N_scope.

(** constants.hpp 75-80 and pcc_enc.cpp 37-44 *)
Definition plcf_type_1_bit : N := 40.
Definition plcf_type_2_bit : N := 80.
Definition pcc_bits : nat := 196.
Definition crc_bits : N := 16.
Definition pcc_max_iterations : nat := 5.
Definition mask_none : N := 0x0000.
Definition mask_mimo_cl : N := 0x5555.
Definition mask_bf : N := 0xAAAA.
Definition mask_mimo_cl_bf : N := 0xFFFF.

(** *(uint16_t* )&c[n] *)
Definition ld16 (c : list N) (n : nat) : res N :=
  do lo <- rd c n ; do hi <- rd c (n + 1) ; Ok (lo + 256 * hi).
Definition st16 (c : list N) (n : nat) (v : N) : res (list N) :=
  blit c n [v mod 256; v / 256].

(** pcc_enc.hpp 37-41: the intermediary buffers, 12 bytes each (pcc_enc.cpp 54-55, 63, 83); the coded word c_parity
    and the soft bits e_rx are rewritten by every call and not kept. *)
Record pcc := mkPcc { c_systematic : list N; c_rx : list N }.

(** fec_cfg.hpp 33-35 *)
Record pcfg := mkPcfg { PLCF_type : N; closed_loop : bool; beamforming : bool }.

Section Codec.
  Context {S L : Type}.
  Variable crc : list N -> N.
  Variable tcode : nat -> list N -> list bool.
  Variable comb : nat -> list L -> S.
  Variable tdec : S -> N -> nat -> list N.
  Variable descr : bool -> L -> L.
  Variable seq : list bool.     (** q->seq: 200 bits, pcc_enc.cpp 102-107 *)

  (** srsran_crc_attach_byte: the checksum of the first bytes goes behind them, most significant byte first *)
  Definition attach (c : list N) (bits : N) : res (list N) :=
    do x <- slice c 0 (N.to_nat (bits / 8)) ;
    let v := crc x mod 65536 in
    blit c (N.to_nat (bits / 8)) [v / 256; v mod 256].

  (** srsran_cbsegm_cbindex_FIX, cbsegm.cpp 125-136; SRSRAN_ERROR becomes an index outside of all tables *)
  Definition block_index (bits : N) : res nat :=
    match cbindex (bits + crc_bits) with Some j => Ok j | None => Oob end.

  (** pcc_enc.cpp 170-181 *)
  Definition mask_of (cl bf : bool) : N :=
    if negb cl && negb bf then mask_none
    else if cl && negb bf then mask_mimo_cl
    else if negb cl && bf then mask_bf
    else mask_mimo_cl_bf.

  (** pcc_enc.cpp 145-213. [a] is the buffer with the header, [d] the buffer for the code bits. *)
  Definition pcc_encode (q : pcc) (a : list N) (d : list bool) (type : N) (cl bf : bool) : res (pcc * list bool) :=
    guard ((type =? 1) || (type =? 2))
    (let bits := if type =? 1 then plcf_type_1_bit else plcf_type_2_bit in
     let bytes := N.to_nat (bits / 8) in
     do x <- slice a 0 bytes ;
     do c <- blit (c_systematic q) 0 x ;
     do c <- attach c bits ;
     do t <- ld16 c bytes ;
     do c <- st16 c bytes (N.lxor t (mask_of cl bf)) ;
     do j <- block_index bits ;
     do k <- rd tc_cb_sizes j ;
     do w <- slice c 0 (N.to_nat (k / 8)) ;
     do d <- blit d 0 (tcode j w) ;
     do s <- slice seq 0 200 ;
     do d <- xor_at d 0 s ;
     Ok (mkPcc c (c_rx q), d)).

  (** pcc_enc.cpp 328-349: the flags whose mask explains the difference of the two checksums *)
  Definition flags (rx recalc : N) : option (bool * bool) :=
    if (Z.of_N (N.lxor rx mask_none) - Z.of_N recalc =? 0)%Z then Some (false, false)
    else if (Z.of_N (N.lxor rx mask_mimo_cl) - Z.of_N recalc =? 0)%Z then Some (true, false)
    else if (Z.of_N (N.lxor rx mask_bf) - Z.of_N recalc =? 0)%Z then Some (false, true)
    else if (Z.of_N (N.lxor rx mask_mimo_cl_bf) - Z.of_N recalc =? 0)%Z then Some (true, true)
    else None.

  (** pcc_enc.cpp 314-351: the loop body and the loop, [done] counts the iterations so far *)
  Definition pcc_iteration (c : list N) (soft : S) (bits : N) (i : nat) : res (list N * option (bool * bool)) :=
    do c <- blit c 0 (tdec soft (bits + 16) i) ;
    do rx <- ld16 c (N.to_nat (bits / 8)) ;
    do c <- attach c bits ;
    do re <- ld16 c (N.to_nat (bits / 8)) ;
    Ok (c, flags rx re).
  Fixpoint pcc_loop (more : nat) (done : nat) (c : list N) (soft : S) (bits : N)
    : res (list N * option (bool * bool)) :=
    do r <- pcc_iteration c soft bits (done + 1) ;
    match snd r, more with
    | None, Datatypes.S more => pcc_loop more (done + 1) (fst r) soft bits
    | _, _ => Ok r
    end.

  (** pcc_enc.cpp 215-364. [a] is the buffer for the header, [d] the received soft bits, the flags are those the
      references point to. The soft buffer is cleared first (pcc_enc.cpp 300) and so carries nothing over. *)
  Definition pcc_decode (q : pcc) (a : list N) (d : list L) (type : N) (cl bf : bool)
    : res (pcc * list N * bool * bool * bool) :=
    let bits := if type =? 1 then plcf_type_1_bit else plcf_type_2_bit in
    do j <- block_index bits ;
    do y <- slice d 0 pcc_bits ;
    do s <- slice seq 0 pcc_bits ;
    do r <- pcc_loop (pcc_max_iterations - 1) 0 (c_rx q) (comb j (descramble descr y s)) bits ;
    let q := mkPcc (c_systematic q) (fst r) in
    match snd r with
    | Some (cl, bf) =>
        do x <- slice (fst r) 0 (N.to_nat (bits / 8)) ;
        do a <- blit a 0 x ;
        Ok (q, a, cl, bf, true)
    | None => Ok (q, a, cl, bf, false)
    end.

  (** fec.cpp 57-80 *)
  Definition decode_plcf_test (q : pcc) (f : pcfg) (a : list N) (d : list L) (type : N)
    : res (pcc * pcfg * list N * bool) :=
    guard ((type =? 1) || (type =? 2))
    (do r <- pcc_decode q a d type (closed_loop f) (beamforming f) ;
     let '(q, a, cl, bf, ok) := r in Ok (q, mkPcfg type cl bf, a, ok)).

  (** The state of a receiver that the search uses: the coder, the header decoder with its two configurations
      (plcf_decoder.hpp 115-136) and the bytes of hb_rx_plcf *)
  Record receiver := mkRx { r_pcc : pcc; r_dec : decoder; r_fec1 : pcfg; r_fec2 : pcfg; r_a : list N }.

  (** rx_synced.cpp 1011-1026 *)
  Definition candidate_search (r : receiver) (d : list L) : res receiver :=
    let dec := set_configuration (r_dec r) in
    do p <- decode_plcf_test (r_pcc r) (r_fec1 r) (r_a r) d 1 ;
    let '(q, f1, a, ok) := p in
    do dec <- (if (ok : bool) then decode_and_rdc_check dec 1 a else Ok dec) ;
    do p <- decode_plcf_test q (r_fec2 r) a d 2 ;
    let '(q, f2, a, ok) := p in
    do dec <- (if (ok : bool) then decode_and_rdc_check dec 2 a else Ok dec) ;
    Ok (mkRx q dec f1 f2 a).

  (** one packet after the other; the receiver after each of them *)
  Fixpoint searches (r : receiver) (l : list (list L)) : res (list receiver) :=
    match l with
    | [] => Ok []
    | d :: t => do r <- candidate_search r d ; do rs <- searches r t ; Ok (r :: rs)
    end.
End Codec.
