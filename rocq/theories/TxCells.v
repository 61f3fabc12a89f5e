(** Model of how the transmitter fills the OFDM symbols of a packet with cells: tx.cpp 244-308, 440-484, 944-1116
    and tx_rx.cpp 38-129 in lib/src/phy/. Values are represented by where they come from; IFFT, resampling and the
    channel coder are not modelled. *)
From Verif Require Import Base IntHelpers PacketSizes Cells.
Open Scope N_scope.

(** The value of a cell. [Control i]: pcc_qpsk_symbols[i]. [Data bit]: the complex symbol modulated from the coded bits
    bit, bit + 1, ... (N_bps of them). The Conj versions are what the multiplication with Y_i->get_pattern() leaves
    of the exchanged symbol (transmit_diversity_precoding.cpp 39-42, tx.cpp 656-675, 1071-1082): its conjugate,
    negated if [neg]. [Reference neg j]: entry j of y_b_1, negated if [neg]. *)
Inductive value :=
| Control (i : N)
| ControlConj (neg : bool) (i : N)
| Reference (neg : bool) (j : N)
| Data (bit : N)
| DataConj (neg : bool) (bit : N).
(** An assignment transmit_streams_stage[stream][subcarrier] = value. *)
Definition write : Type := N * N * value.

(** Counters of tx_rx_t (tx_rx.cpp 249-256) and the front of pdc_cmplx_symbols: the symbols not sent yet, each
    represented by the position of its first bit. *)
Record txst := mkTx {
  t_c : cstate; t_pcc : N; t_drs : N; t_bits : N; t_subc : N; t_res : N; t_buf : list N }.

(** Position of the other symbol of a pair, and sign of the pattern at that position. *)
Definition partner (i : N) : N := if i mod 2 =? 0 then i + 1 else i - 1.

(** tx.cpp 944-975; the exchange of the control symbols in 656-660 *)
Definition run_pcc_cell (n_ts idx k : N) : res (list write) :=
  if negb (idx <? 98) then Oob
  else if n_ts =? 1 then Ok [(0, k, Control idx)]
  else
    do mat <- index_N_TS n_ts ;
    do (A, B) <- at_idx mat ((idx / 2) mod get_modulo n_ts) ;
    Ok [(A, k, Control idx); (B, k, ControlConj (idx mod 2 =? 0) (partner idx))].
Fixpoint run_pcc (n_ts idx : N) (ks : list N) : res (list write * N) :=
  match ks with
  | [] => Ok ([], idx)
  | k :: ks =>
      do w <- run_pcc_cell n_ts idx k ;
      do (ws, idx) <- run_pcc n_ts (idx + 1) ks ;
      Ok (w ++ ws, idx)
  end.

(** tx.cpp 977-1002 *)
Definition run_drs_row (size : N) (row : N * list N * list (bool * N)) : res (list write) :=
  let '(t, k, y) := row in
  mapM (fun i => do c <- at_idx k i ; do v <- at_idx y i ; Ok (t, c, Reference (fst v) (snd v))) (upto size).
Definition run_drs (idx : N) (r : drs_report) : res (list write * N) :=
  do ws <- mapM (run_drs_row (dr_size r)) (dr_rows r) ;
  Ok (concat ws, add32 idx (mul32 (dr_size r) (len (dr_rows r)))).

(** sections_part3/fix/mod.cpp 137-174: the number of complex symbols *)
Definition modulate (bps nbits : N) : res N :=
  guard (nbits mod bps =? 0)
  (guard ((bps =? 1) || (bps =? 2) || (bps =? 4) || (bps =? 6) || (bps =? 8)) (Ok (nbits / bps))).

(** Constants of the packet and of the transmitter that run_pdc uses. [x_cap]: length of pdc_cmplx_symbols. *)
Record txcfg := mkCfg { x_ts : N; x_ss : N; x_div : bool; x_bps : N; x_G : N; x_cap : N }.

(** tx.cpp 1051-1067: one data cell without transmit diversity *)
Definition run_pdc_plain (x : txcfg) (buf : list N) (ik : N * N) : res (list write) :=
  let '(i, k) := ik in
  mapM (fun j => do v <- at_idx buf (i * x_ss x + j) ; Ok (j, k, Data v)) (upto (x_ss x)).
(** tx.cpp 1070-1104: one data cell with transmit diversity *)
Definition run_pdc_div (x : txcfg) (subc : N) (buf : list N) (ik : N * N) : res (list write) :=
  let '(i, k) := ik in
  do mat <- index_N_TS (x_ts x) ;
  do (A, B) <- at_idx mat (((subc + i) / 2) mod get_modulo (x_ts x)) ;
  do v <- at_idx buf i ;
  do w <- at_idx buf (partner i) ;
  Ok [(A, k, Data v); (B, k, DataConj (i mod 2 =? 0) w)].
(** tx.cpp 1004-1116 *)
Definition run_pdc (x : txcfg) (t_bits t_subc t_res : N) (t_buf : list N) (ks : list N) :
    res (list write * (N * N * N * list N)) :=
  let n := mul32 (x_ss x) (len ks) in
  let n_new := sub32 n t_res in
  let bits_new := mul32 n_new (x_bps x) in
  do c <- ceil_divide_integer 32 bits_new 24 ;
  let bits := N.min (mul32 c 24) (sub32 (x_G x) t_bits) in
  guard (bits mod x_bps x =? 0)
  (guard (((t_bits <? x_G x) && (t_bits mod 8 =? 0)) || (t_bits =? x_G x))
   (do got <- modulate (x_bps x) bits ;
    if x_cap x <? t_res + got then Oob
    else
      guard (bits / x_bps x =? got)
      (let buf := firstn (N.to_nat t_res) t_buf ++ map (fun i => 8 * (t_bits / 8) + i * x_bps x) (upto got) in
       do ws <- mapM (if x_div x then run_pdc_div x t_subc buf else run_pdc_plain x buf) (combine (upto (len ks)) ks) ;
       let left := sub32 (add32 t_res got) n in
       guard (left <=? 23)
       (Ok (concat ws,
            (add32 t_bits bits, add32 t_subc (if x_div x then len ks else mul32 (len ks) (x_ss x)), left,
             firstn (N.to_nat left) (skipn (N.to_nat n) buf))))))).

(** What is written in one OFDM symbol. *)
Record osym := mkOsym { o_l : N; o_control : list write; o_reference : list write; o_data : list write }.
(** tx.cpp 245-264 *)
Definition tx_symbol (x : txcfg) (s : txst) (l : N) : res (osym * txst) :=
  do (a, c) <- comps_step (t_c s) l ;
  do (wp, pcc) <- match a_pcc a with Some ks => run_pcc (x_ts x) (t_pcc s) ks | None => Ok ([], t_pcc s) end ;
  do (wr, drs) <- match a_drs a with Some r => run_drs (t_drs s) r | None => Ok ([], t_drs s) end ;
  do (wd, (bits, subc, rest, buf)) <-
    match a_pdc a with
    | Some ks => run_pdc x (t_bits s) (t_subc s) (t_res s) (t_buf s) ks
    | None => Ok ([], (t_bits s, t_subc s, t_res s, t_buf s))
    end ;
  Ok (mkOsym l wp wr wd, mkTx c pcc drs bits subc rest buf).
Fixpoint tx_symbols (x : txcfg) (s : txst) (ls : list N) : res (list osym * txst) :=
  match ls with
  | [] => Ok ([], s)
  | l :: ls =>
      do (o, s) <- tx_symbol x s l ;
      do (os, s) <- tx_symbols x s ls ;
      Ok (o :: os, s)
  end.

(** tx_rx.cpp 38-129: what the constructor prepares for the maximum packet sizes [m] *)
Definition tx_new (m : packet_sizes) : res comps :=
  guard (N_bps (q_mcs m) <=? 9) (comps_new (d_b (q_psdef m)) (N_TS (q_tm m))).
(** tx.cpp 443, 468-484 (run_packet_dimensions), 244-308. fec->get_wp() (302) is not modelled. *)
Definition transmit (m : packet_sizes) (c : comps) (q : packet_sizes) : res (list osym) :=
  guard (d_b (q_psdef q) <=? d_b (q_psdef m))
  (guard (N_TX (q_tm q) <=? N_TX (q_tm m))
  (do s <- set_configuration c (d_b (q_psdef q)) (N_TS (q_tm q)) ;
   let tm := d_tm (q_psdef q) in
   guard (d_mcs (q_psdef q) <=? d_mcs (q_psdef m))
   (guard (d_mcs (q_psdef q) <=? 9)
    (let x := mkCfg (N_TS (q_tm q)) (N_SS (q_tm q)) ((tm =? 1) || (tm =? 5) || (tm =? 10)) (N_bps (q_mcs q)) (q_G q)
                    (N_SS (q_tm m) * N_b_OCC (q_numerology m) + 23) in
     do (os, t) <- tx_symbols x (mkTx s 0 0 0 0 0 []) (nseq 1 (N.to_nat (q_N_DF_symb q))) ;
     guard (t_pcc t =? 98)
     (guard (t_drs t =? q_N_DRS_subc q)
      (guard (t_bits t =? q_G q)
       (guard (t_subc t =? mul32 (q_N_PDC_subc q) (N_SS (q_tm q)))
        (guard (t_res t =? 0) (Ok os))))))))).
