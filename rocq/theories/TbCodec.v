(** Channel coding of a transport block, code block by code block:
    lib/src/phy/fec/pdc_enc.cpp, lib/src/phy/fec/fec.cpp and lib/src/sections_part3/fix/scrambling.cpp.

    The functions of srsRAN are not part of the repository and are left open: [turbo] (CRC attachment and turbo
    encoding of one block), [select] (rate matching), [combine] (rate dematching into the soft buffer), [tdec] (the
    output of the turbo decoder after a number of iterations), [crc_cb_ok] and [crc_tb_ok] (checksums) and [descr]
    (descrambling of one soft bit). Byte buffers are lists of bits, most significant bit first, as srsRAN packs
    them. Only the default width of 16 bit per soft bit (phy_config.hpp 39) is modelled. *)
From Verif Require Import Base PacketSizes.
Open Scope N_scope.

(** ** Buffers *)
(** [n] elements from [pos]; no element is touched if n = 0 *)
Definition slice {A} (l : list A) (pos n : nat) : res (list A) :=
  if ((n =? 0) || (pos + n <=? length l))%nat then Ok (firstn n (skipn pos l)) else Oob.
(** overwrite the elements from [pos] *)
Definition blit {A} (l : list A) (pos : nat) (x : list A) : res (list A) :=
  match x with
  | [] => Ok l
  | _ => if (pos + length x <=? length l)%nat
         then Ok (firstn pos l ++ x ++ skipn (pos + length x) l) else Oob
  end.
Definition xor_bits (x y : list bool) : list bool := map (fun p => xorb (fst p) (snd p)) (combine x y).
(** scrambling.cpp 31-33: srsran_vec_xor_bbb(c, data, data, len), here on the bits from [pos] *)
Definition xor_at (d : list bool) (pos : nat) (s : list bool) : res (list bool) :=
  do x <- slice d pos (length s) ; blit d pos (xor_bits x s).

(** scrambling.cpp 35-61. len and offset are ints, / and % truncate. [c] is the scrambling sequence; c_bytes of
    srsRAN is the same sequence packed. srsran_bit_pack_vector clears the bits of the last byte that it does not
    write. *)
Definition scramble (c d : list bool) (len offset : Z) : res (list bool) :=
  let full := (offset + len)%Z in
  let h := (8 - Z.rem offset 8)%Z in
  do p <- (if (0 <? Z.rem offset 8)%Z
           then do s <- slice c (Z.to_nat offset) (Z.to_nat h) ;
                do d1 <- xor_at d (Z.to_nat offset) s ;
                Ok (d1, len - h, (Z.quot offset 8 + 1) * 8)%Z
           else Ok (d, len, offset)) ;
  let '(d1, len1, off1) := p in
  let bulk := (8 * Z.to_nat (Z.quot len1 8))%nat in
  do s <- slice c (8 * Z.to_nat (Z.quot off1 8))%nat bulk ;
  do d2 <- xor_at d1 (8 * Z.to_nat (Z.quot off1 8))%nat s ;
  if (0 <? Z.rem len1 8)%Z
  then
    let t := Z.to_nat (Z.rem len1 8) in
    let base := (8 * Z.to_nat (Z.quot full 8))%nat in
    do x <- slice d2 base t ;
    do s <- slice c base t ;
    blit d2 base (xor_bits x s ++ repeat false (8 - t))
  else Ok d2.

(** (uint32_t)ceilf((float)a / b), pdc_enc.cpp 174, for a < 2^24 and 0 < b < 2^24, which single precision holds
    exactly: the quotient is rounded to 24 significant bits, to nearest and ties to even. [None]: not in this
    range. *)
Definition round_even (n d : N) : N :=
  let q := n / d in let r := n mod d in
  if 2 * r <? d then q else if d <? 2 * r then q + 1 else if N.even q then q else q + 1.
Definition ceilf_div (a b : N) : option N :=
  if (a <? 16777216) && (0 <? b) && (b <? 16777216) then
    let q := a / b in
    if q =? 0 then Some (if a =? 0 then 0 else 1)     (* rounding keeps 0 < a / b <= 1 *)
    else let s := 23 - N.log2 q in                    (* fraction bits of the result *)
         let m := round_even (a * 2 ^ s) b in
         Some ((m + (2 ^ s - 1)) / 2 ^ s)
  else None.

(** fec_cfg.hpp 32-42, the fields of a transport block other than the network ID *)
Record fec_cfg := mkFec { f_tb : N; f_bps : N; f_rv : N; f_G : N; f_Z : N }.

(** fec.cpp 82-101: the segmentation; the counters are reset by the constructors of the states below *)
Definition segmentate (f : fec_cfg) : res segm :=
  do r <- cbsegm (f_tb f) (f_Z f) ;
  match r with Some s => Ok s | None => Abort end.

(** length of block [i]: pdc_enc.cpp 159-165 and 317 *)
Definition cb_len (s : segm) (i : N) : N := if i <? sg_C2 s then sg_K2 s else sg_K1 s.

Section Encoder.
  Context {CS W : Type}.
  (** srsran_tcod_encode_lut: state of the checksum of the transport block, data bits of the block, whether it is
      the last one, its length, whether it has a checksum of its own *)
  Variable turbo : CS -> list bool -> bool -> N -> bool -> W * CS.
  (** srsran_rm_turbo_tx_lut: contents of the transmit soft buffer, number of bits, redundancy version *)
  Variable select : W -> N -> N -> list bool.
  Variable crc0 : CS.

  (** fec_t: cb_idx, rp, wp; the d bits and the soft buffer of the HARQ process; the checksum state *)
  Record enc := mkEnc { e_cb : N; e_rp : N; e_wp : N; e_d : list bool; e_soft : list W; e_crc : CS }.
  (** fec.cpp 91-100 *)
  Definition enc_start (d : list bool) (w : list W) : enc := mkEnc 0 0 0 d w crc0.

  (** pdc_enc.cpp 158-227: one code block. [data] are the bits of the transport block buffer, [c] the scrambling
      sequence. The capacity of c_systematic and c_parity is not modelled. *)
  Definition enc_block (f : fec_cfg) (s : segm) (data c : list bool) (st : enc) : res enc :=
    let gp := f_G f / f_bps f in
    let gamma := if 0 <? sg_C s then gp mod sg_C s else gp in
    let k := cb_len s (e_cb st) in
    let rlen := if 1 <? sg_C s then sub32 k 24 else k in
    if sg_C s =? 0 then Oob
    else
      do n_e <- (if e_cb st <=? sub32 (sub32 (sg_C s) gamma) 1
                 then Ok (mul32 (f_bps f) (gp / sg_C s))
                 else match ceilf_div gp (sg_C s) with
                      | Some x => Ok (mul32 (f_bps f) x)
                      | None => Oob
                      end) ;
      do old <- rd (e_soft st) (N.to_nat (e_cb st)) ;
      do p <- (if f_rv f =? 0
               then let last := negb (e_cb st <? sub32 (sg_C s) 1) in
                    do x <- slice data (8 * N.to_nat (e_rp st / 8))
                              (8 * N.to_nat ((if last then sub32 rlen 24 else rlen) / 8)) ;
                    Ok (turbo (e_crc st) x last k (1 <? sg_C s))
               else Ok (old, e_crc st)) ;
      let '(w, crc) := p in
      do d1 <- blit (e_d st) (8 * N.to_nat (e_wp st / 8) + N.to_nat (e_wp st mod 8)) (select w n_e (f_rv f)) ;
      do d2 <- scramble c d1 (Z.of_N n_e) (Z.of_N (e_wp st)) ;
      Ok (mkEnc (add32 (e_cb st) 1) (add32 (e_rp st) rlen) (add32 (e_wp st) n_e) d2
                (upd (e_soft st) (N.to_nat (e_cb st)) w) crc).

  (** pdc_enc.cpp 157: while (wp < nof_d_bits_minimum). The soft buffer has [length (e_soft st)] blocks, so the
      loop leaves it before the fuel of encode_codeblocks is used up. *)
  Fixpoint enc_loop (fuel : nat) (f : fec_cfg) (s : segm) (data c : list bool) (min : N) (st : enc) : res enc :=
    if e_wp st <? min
    then match fuel with
         | O => Oob
         | S n => do st1 <- enc_block f s data c st ; enc_loop n f s data c min st1
         end
    else Ok st.

  (** pdc_enc.cpp 127-229 *)
  Definition encode_codeblocks (f : fec_cfg) (s : segm) (data c : list bool) (min : N) (st : enc) : res enc :=
    guard (sg_F s =? 0)
    (guard (sg_C s <=? N.of_nat (length (e_soft st)))
    (guard (negb (f_bps f =? 0))
    (enc_loop (S (length (e_soft st))) f s data c min st))).

  (** fec.cpp 107-125 *)
  Definition encode_tb (f : fec_cfg) (s : segm) (data c : list bool) (bits : N) (st : enc) : res enc :=
    encode_codeblocks f s data c (N.min bits (f_G f)) st.
  (** fec.cpp 103-105 *)
  Definition encode_tb_all (f : fec_cfg) (s : segm) (data c : list bool) (st : enc) : res enc :=
    encode_tb f s data c 4294967295 st.

  (** tx.cpp 199 and 1034: segmentation once per packet, then requests for more bits *)
  Fixpoint requests (f : fec_cfg) (s : segm) (data c : list bool) (l : list N) (st : enc) : res enc :=
    match l with
    | [] => Ok st
    | m :: t => do st1 <- encode_tb f s data c m st ; requests f s data c t st1
    end.
  Definition transmit (f : fec_cfg) (data c d : list bool) (w : list W) (l : list N) : res enc :=
    do s <- segmentate f ; requests f s data c l (enc_start d w).
End Encoder.

Section Decoder.
  Context {S L : Type}.
  (** srsran_rm_turbo_rx_lut_ with the soft buffer of a block, soft bits, redundancy version and block length *)
  Variable comb : S -> list L -> N -> N -> S.
  (** output of the i-th call of srsran_tdec_iteration after srsran_tdec_new_cb for a block of a given length *)
  Variable tdec : S -> N -> nat -> list bool.
  (** srsran_crc_checksum_byte is 0 and srsran_crc_match_byte: the last 24 bits are the checksum of the others *)
  Variable crc_cb_ok crc_tb_ok : list bool -> bool.
  (** srsran_scrambling_s_offset: negation of a soft bit where the sequence is 1 *)
  Variable descr : bool -> L -> L.

  (** srsran_softbuffer_rx_t, one block: buffer_f, cb_crc, data *)
  Record blk := mkBlk { b_soft : S; b_ok : bool; b_data : list bool }.
  (** fec_t: cb_idx, wp; the d bits, the a bits and the soft buffer of the HARQ process *)
  Record dec := mkDec { d_cb : N; d_wp : N; d_bits : list L; d_a : list bool; d_soft : list blk }.
  (** fec.cpp 91-100 *)
  Definition dec_start (d : list L) (a : list bool) (w : list blk) : dec := mkDec 0 0 d a w.

  Definition descramble (x : list L) (s : list bool) : list L :=
    map (fun p => descr (snd p) (fst p)) (combine x s).

  (** pdc_enc.cpp 35-36 *)
  Definition min_iters : nat := 2.
  Definition max_iters : nat := 10.

  (** pdc_enc.cpp 367-401: iterations until the checksum holds. [i] is cb_noi before the iteration. *)
  Fixpoint iterate (fuel i : nat) (s : segm) (x : S) (k : N) (pos : nat) (a : list bool) : res (list bool * bool) :=
    match fuel with
    | O => Ok (a, false)
    | Datatypes.S n =>
        let i := Datatypes.S i in
        do a1 <- blit a pos (tdec x k i) ;
        do ok <- (if 1 <? sg_C s
                  then do y <- slice a1 pos (N.to_nat k) ; Ok (crc_cb_ok y)
                  else do y <- slice a1 pos (N.to_nat (add32 (sg_tbs s) 24)) ; Ok (crc_tb_ok y)) ;
        if ok && (min_iters <=? i)%nat then Ok (a1, true) else iterate n i s x k pos a1
    end.

  (** pdc_enc.cpp 317-332: first soft bit of block [i] and number of soft bits *)
  Definition dec_range (f : fec_cfg) (s : segm) (i : N) : N * N :=
    let gp := f_G f / f_bps f in
    let gamma := if 0 <? sg_C s then gp mod sg_C s else gp in
    let n_e := mul32 (f_bps f) (gp / sg_C s) in
    let n_e2 := add32 n_e (f_bps f) in
    if sub32 (sg_C s) gamma <? i
    then (add32 (mul32 (sub32 (sg_C s) gamma) n_e) (mul32 (sub32 i (sub32 (sg_C s) gamma)) n_e2), n_e2)
    else (mul32 i n_e, n_e).

  Definition rlen_of (s : segm) (i : N) : N := if sg_C s =? 1 then cb_len s i else sub32 (cb_len s i) 24.

  (** pdc_enc.cpp 339-410: one code block whose soft bits are all there *)
  Definition dec_block (f : fec_cfg) (s : segm) (c : list bool) (st : dec) : res dec :=
    let i := d_cb st in
    let k := cb_len s i in
    let rlen := rlen_of s i in
    let '(rp, n) := dec_range f s i in
    do x <- slice (d_bits st) (N.to_nat rp) (N.to_nat n) ;
    do q <- slice c (N.to_nat rp) (N.to_nat n) ;
    let y := descramble x q in
    do bits <- blit (d_bits st) (N.to_nat rp) y ;
    do b <- rd (d_soft st) (N.to_nat i) ;
    let pos := (8 * N.to_nat (d_wp st / 8))%nat in
    do p <- (if negb (b_ok b)
             then let x := comb (b_soft b) y (f_rv f) k in
                  do r <- iterate max_iters 0 s x k pos (d_a st) ;
                  Ok (fst r, mkBlk x (snd r) (b_data b))
             else do v <- slice (b_data b) 0 (8 * N.to_nat (rlen / 8)) ;
                  do a <- blit (d_a st) pos v ; Ok (a, b)) ;
    let '(a, b1) := p in
    Ok (mkDec (add32 i 1) (add32 (d_wp st) rlen) bits a (upd (d_soft st) (N.to_nat i) b1)).

  (** pdc_enc.cpp 316, 334-337: while (cb_idx < C), left when a block is not complete *)
  Fixpoint dec_loop (fuel : nat) (f : fec_cfg) (s : segm) (c : list bool) (max : N) (st : dec) : res dec :=
    match fuel with
    | O => Ok st
    | Datatypes.S n =>
        if d_cb st <? sg_C s
        then let '(rp, m) := dec_range f s (d_cb st) in
             if max <? add32 rp m then Ok st
             else do st1 <- dec_block f s c st ; dec_loop n f s c max st1
        else Ok st
    end.

  (** pdc_enc.cpp 453-466: keep the data of the good blocks *)
  Fixpoint save (s : segm) (a : list bool) (n : nat) (i : N) (off : N) (w : list blk) : res (list blk) :=
    match n with
    | O => Ok w
    | Datatypes.S n =>
        do b <- rd w (N.to_nat i) ;
        do w1 <- (if b_ok b
                  then do v <- slice a (8 * N.to_nat (off / 8)) (8 * N.to_nat (rlen_of s i / 8)) ;
                       do dd <- blit (b_data b) 0 v ;
                       Ok (upd w (N.to_nat i) (mkBlk (b_soft b) (b_ok b) dd))
                  else Ok w) ;
        save s a n (i + 1) (add32 off (rlen_of s i)) w1
    end.

  (** srsran_softbuffer_rx_reset_cb_crc *)
  Definition reset_ok (w : list blk) (n : nat) : list blk :=
    map (fun b => mkBlk (b_soft b) false (b_data b)) (firstn n w) ++ skipn n w.

  (** pdc_enc.cpp 413-491: the verdict *)
  Definition verdict (s : segm) (st : dec) : res (dec * bool) :=
    if d_cb st =? sg_C s
    then
      let n := N.to_nat (sg_C s) in
      if forallb b_ok (firstn n (d_soft st))
      then
        if sg_C s =? 1 then Ok (st, true)
        else
          do y <- slice (d_a st) 0 (N.to_nat (sg_tbs s + 24)) ;
          if crc_tb_ok y then Ok (st, true)
          else Ok (mkDec (d_cb st) (d_wp st) (d_bits st) (d_a st) (reset_ok (d_soft st) n), false)
      else
        do w <- save s (d_a st) n 0 0 (d_soft st) ;
        Ok (mkDec (d_cb st) (d_wp st) (d_bits st) (d_a st) w, false)
    else Ok (st, false).

  (** pdc_enc.cpp 291-492. SRSRAN_MAX_CODEBLOCKS is not modelled. *)
  Definition decode_codeblocks (f : fec_cfg) (s : segm) (c : list bool) (max : N) (st : dec) : res (dec * bool) :=
    guard (sg_F s =? 0)
    (guard (sg_C s <=? N.of_nat (length (d_soft st)))
    (guard (negb (f_bps f =? 0))
    (do st1 <- dec_loop (Datatypes.S (N.to_nat (sg_C s))) f s c max st ; verdict s st1))).

  (** fec.cpp 131-148 *)
  Definition decode_tb (f : fec_cfg) (s : segm) (c : list bool) (bits : N) (st : dec) : res (dec * bool) :=
    guard (bits <=? f_G f) (decode_codeblocks f s c bits st).
  (** fec.cpp 127-129 *)
  Definition decode_tb_all (f : fec_cfg) (s : segm) (c : list bool) (st : dec) : res (dec * bool) :=
    decode_tb f s c 4294967295 st.

  (** rx_synced.cpp 1169-1194: run_pdc writes the soft bits of one OFDM symbol behind the [idx] earlier ones and
      calls the decoder; the last status is what get_decode_tb_status_latest() returns. *)
  Fixpoint symbols (f : fec_cfg) (s : segm) (c : list bool) (l : list (list L)) (idx : nat) (st : dec) (v : bool)
    : res (dec * bool) :=
    match l with
    | [] => Ok (st, v)
    | x :: t =>
        do bits <- blit (d_bits st) idx x ;
        do p <- decode_tb f s c (N.of_nat (idx + length x))
                  (mkDec (d_cb st) (d_wp st) bits (d_a st) (d_soft st)) ;
        symbols f s c t (idx + length x) (fst p) (snd p)
    end.
  (** rx_synced.cpp 353: segmentation once per packet *)
  Definition receive (f : fec_cfg) (c : list bool) (d : list L) (a : list bool) (w : list blk) (l : list (list L))
    : res (dec * bool) :=
    do s <- segmentate f ; symbols f s c l 0 (dec_start d a w) false.
End Decoder.
