(** Model of the order in which a receiver goes through the OFDM symbols of a packet: demoddecod_rx_pcc() and
    demoddecod_rx_pdc() of lib/src/phy/rx/rx_synced/rx_synced.cpp, processing_stage.hpp and channel_antenna.hpp.
    Modelled: which OFDM symbol is in which row of the processing stage, from which row, subcarrier and channel
    estimates each soft bit is computed and where it is written, and every assert on the way.
    Not modelled: sample values and the arithmetic on them (resampling, mixing, FFT, demapping), the estimators for
    time, frequency, noise and spatial properties, the weights of the interpolation (only the indices that select them),
    and the decoder called after each symbol (TbCodec.v, PccCodec.v). All receive antennas go through the same steps, one
    is modelled. Counters are at most the number of soft bits of a packet and do not wrap. *)
From Verif Require Import Base PacketSizes Cells.
Open Scope N_scope.

(** A channel estimate of a stream. [e_both]: made from the interlaced reference cells of two symbols, otherwise from
    those of one; [e_stage], [e_place]: ps_idx and ofdm_symb_ps_idx that selected the weights; [e_from]: the OFDM symbols
    (0 is the synchronization field) the reference cells were received in, None: not in this packet. *)
Record est := mkEst { e_both : bool; e_stage : N; e_place : N; e_from : list (option N) }.
(** channel_antenna.hpp: what is stored for a stream. [h_zf]: the symbol chestim_drs_zf was received in; [h_even], [h_odd]:
    the same for the entries of chestim_drs_zf_interlaced with even and odd index; [h_est]: chestim. *)
Record stream := mkStream { h_zf : option N; h_even : option N; h_odd : option N; h_est : option est }.
(** A soft value: taken from cell [k_cell] of symbol [k_symbol], written from bit [k_bit] on, using the estimates of the
    streams in [k_with]. *)
Record take := mkTake { k_symbol : option N; k_cell : N; k_bit : N; k_with : list (N * option est) }.
(** tx_rx.hpp, rx_synced.hpp: the members used. [rx_heard]: OFDM symbols taken from the antenna so far; [rx_rows]: the symbol
    in each row of the processing stage; [rx_now]: the row ofdm_symbol_now points to. *)
Record rx := mkRx {
  rx_comps : cstate; rx_idx : N; rx_rel : N; rx_ps : N; rx_lr : bool;
  rx_heard : N; rx_rows : list (option N); rx_now : N;
  rx_first : N; rx_last : N; rx_streams : list stream;
  rx_pcc : N; rx_drs : N; rx_subc : N; rx_bits : N;
  rx_control : list take; rx_data : list take }.
Definition set_comps (c : cstate) (s : rx) : rx :=
  mkRx c (rx_idx s) (rx_rel s) (rx_ps s) (rx_lr s) (rx_heard s) (rx_rows s) (rx_now s) (rx_first s) (rx_last s)
       (rx_streams s) (rx_pcc s) (rx_drs s) (rx_subc s) (rx_bits s) (rx_control s) (rx_data s).
Definition set_place (idx rel ps : N) (lr : bool) (s : rx) : rx :=
  mkRx (rx_comps s) idx rel ps lr (rx_heard s) (rx_rows s) (rx_now s) (rx_first s) (rx_last s)
       (rx_streams s) (rx_pcc s) (rx_drs s) (rx_subc s) (rx_bits s) (rx_control s) (rx_data s).
Definition set_rows (heard : N) (rows : list (option N)) (now : N) (s : rx) : rx :=
  mkRx (rx_comps s) (rx_idx s) (rx_rel s) (rx_ps s) (rx_lr s) heard rows now (rx_first s) (rx_last s)
       (rx_streams s) (rx_pcc s) (rx_drs s) (rx_subc s) (rx_bits s) (rx_control s) (rx_data s).
Definition set_streams (first last : N) (ss : list stream) (drs : N) (s : rx) : rx :=
  mkRx (rx_comps s) (rx_idx s) (rx_rel s) (rx_ps s) (rx_lr s) (rx_heard s) (rx_rows s) (rx_now s) first last
       ss (rx_pcc s) drs (rx_subc s) (rx_bits s) (rx_control s) (rx_data s).
Definition set_control (pcc : N) (ks : list take) (s : rx) : rx :=
  mkRx (rx_comps s) (rx_idx s) (rx_rel s) (rx_ps s) (rx_lr s) (rx_heard s) (rx_rows s) (rx_now s) (rx_first s) (rx_last s)
       (rx_streams s) pcc (rx_drs s) (rx_subc s) (rx_bits s) ks (rx_data s).
Definition set_data (subc bits : N) (ks : list take) (s : rx) : rx :=
  mkRx (rx_comps s) (rx_idx s) (rx_rel s) (rx_ps s) (rx_lr s) (rx_heard s) (rx_rows s) (rx_now s) (rx_first s) (rx_last s)
       (rx_streams s) (rx_pcc s) (rx_drs s) subc bits (rx_control s) ks.
(** What is fixed for a packet: N_eff_TX of the sync report, N_b_OCC, N_bps and N_SS of the packet, and the configured
    chestim_mode_lr_t_stride. *)
Record rcfg := mkRcfg { c_e : N; c_occ : N; c_bps : N; c_ss : N; c_stride : N }.

(** processing_stage.hpp 71-76, 90-96: point to a row *)
Definition point (r : N) (s : rx) : res rx :=
  guard (r <? len (rx_rows s)) (Ok (set_rows (rx_heard s) (rx_rows s) r s)).
(** rx_synced.cpp 711-771: take the next OFDM symbol, transform it onto the row ofdm_symb_ps_idx *)
Definition collect (s : rx) : res rx :=
  do s <- point (rx_rel s) s ;
  Ok (set_rows (rx_heard s + 1) (upd (rx_rows s) (N.to_nat (rx_now s)) (Some (rx_heard s))) (rx_now s) s).
(** channel_antenna.hpp 45-68, 77-78 *)
Definition write_offsets (ps rel : N) : list N :=
  if Bool.eqb (ps mod 2 =? 0) (rel <=? 1) then [0; 0; 1; 1; 0; 0; 1; 1] else [1; 1; 0; 0; 1; 1; 0; 0].
Definition change (f : stream -> stream) (t : N) (ss : list stream) : res (list stream) :=
  do h <- at_idx ss t ; Ok (upd ss (N.to_nat t) (f h)).
(** rx_synced.cpp 811-827: an estimate per reference cell, in consecutive entries of one array and in every other entry
    of a second *)
Definition store (sym : option N) (off : N) (h : stream) : stream :=
  if off =? 0 then mkStream sym sym (h_odd h) (h_est h) else mkStream sym (h_even h) sym (h_est h).
(** rx_synced.cpp 773-861. The streams are those of the rows the component reports, in ascending order. *)
Definition chestim_zf (e : N) (r : drs_report) (s : rx) : res rx :=
  guard (negb (negb (rx_lr s) && (e <=? 4) && negb (rx_rel s =? 0)))
  (guard (negb (negb (rx_lr s) && (4 <? e) && (1 <? rx_rel s)))
   (let ts := map (fun x => fst (fst x)) (dr_rows r) in
    let first := hd 0 ts in
    let final := last ts 0 in
    do sym <- at_idx (rx_rows s) (rx_now s) ;
    do ss <- foldM (fun ss t => do o <- at_idx (write_offsets (rx_ps s) (rx_rel s)) t ; change (store sym o) t ss)
                   (rx_streams s) ts ;
    Ok (set_streams first final ss (rx_drs s + dr_size r * (final - first + 1)) s))).
(** rx_synced.cpp 893-949 *)
Definition renew (lr : bool) (ps rel : N) (h : stream) : stream :=
  mkStream (h_zf h) (h_even h) (h_odd h)
    (Some (mkEst lr ps rel (if lr then [h_even h; h_odd h] else [h_zf h]))).
Definition ch_interpolation (s : rx) : res rx :=
  let first := if rx_lr s then 0 else rx_first s in
  do ss <- foldM (fun ss t => change (renew (rx_lr s) (rx_ps s) (rx_rel s)) t ss)
                 (rx_streams s) (nseq first (N.to_nat (rx_last s + 1 - first))) ;
  Ok (set_streams (rx_first s) (rx_last s) ss (rx_drs s) s).
(** rx_synced.cpp 292-295, 1068-1070, 1144-1147 *)
Definition references (interpolate : bool) (e l : N) (s : rx) : res rx :=
  let c := rx_comps s in
  do (r, (sel, y, next, first)) <- drs_step c l ;
  match r with
  | Some r =>
      do s <- chestim_zf e r (set_comps (mkCstate (s_ts c) (s_l c) (s_k c) (s_cnt c) (s_tab c) sel y next first (s_pdc c) (s_limit c)) s) ;
      if interpolate then ch_interpolation s else Ok s
  | None => Ok s
  end.

(** rx_synced.cpp 967-1001, 1204-1329, 1335-1385: soft values of the cells [ks] of the row pointed to, the first of which has
    number [idx] in its field. With several streams, the values of two cells are computed from both. *)
Definition demap (e bps idx : N) (ks : list N) (s : rx) : res (list take) :=
  do sym <- at_idx (rx_rows s) (rx_now s) ;
  if e =? 1 then
    do h <- at_idx (rx_streams s) 0 ;
    Ok (map (fun ik => mkTake sym (snd ik) ((idx + fst ik) * bps) [(0, h_est h)]) (combine (upto (len ks)) ks))
  else
    do mat <- index_N_TS e ;
    guard (len ks mod 2 =? 0)
    (mapM (fun ik =>
       let cnt := fst ik / 2 * 2 in
       do (A, B) <- at_idx mat (((idx + cnt) / 2) mod get_modulo e) ;
       do a <- at_idx (rx_streams s) A ;
       do b <- at_idx (rx_streams s) B ;
       Ok (mkTake sym (snd ik) ((idx + fst ik) * bps) [(A, h_est a); (B, h_est b)])) (combine (upto (len ks)) ks)).
(** rx_synced.cpp 951-1009; the control field has two bits per cell *)
Definition pcc_collection (e : N) (ks : list N) (s : rx) : res rx :=
  do ts <- demap e 2 (rx_pcc s) ks s ; Ok (set_control (rx_pcc s + len ks) (rx_control s ++ ts) s).
(** rx_synced.cpp 1225-1234: the lower and the upper half of the spectrum *)
Definition halves (occ : N) : list N := upto (occ / 2) ++ map (fun i => occ / 2 + 1 + i) (upto (occ / 2)).
(** rx_synced.cpp 1171-1329; nothing is done with several spatial streams (1331-1333) *)
Definition run_pdc (c : rcfg) (ks : list N) (s : rx) : res rx :=
  if (c_e c =? 1) || (c_ss c =? 1) then
    let ks := if (c_e c =? 1) && (len ks =? c_occ c) then halves (c_occ c) else ks in
    do ts <- demap (c_e c) (c_bps c) (rx_subc s) ks s ;
    Ok (set_data (rx_subc s + len ks) (rx_bits s + len ks * c_bps c) (rx_data s ++ ts) s)
  else Ok s.
(** pdc.is_symbol_index(), run_pdc(): rx_synced.cpp 1099-1101, 1131-1133, 1149-1151 *)
Definition data_cells_of (c : rcfg) (l : N) (s : rx) : res rx :=
  do d <- pdc_step (rx_comps s) l ; match d with Some ks => run_pdc c ks s | None => Ok s end.

(** rx_synced.cpp 284-303 *)
Definition control_symbol (c : rcfg) (s : rx) (l : N) : res rx :=
  do s <- collect s ;
  do s <- references true (c_e c) l s ;
  let k := rx_comps s in
  do (p, cnt) <- pcc_step k l ;
  let s := set_comps (mkCstate (s_ts k) (s_l k) (s_k k) cnt (s_tab k) (s_drs k) (s_y k) (s_next k) (s_first k) (s_pdc k) (s_limit k)) s in
  do s <- match p with Some ks => pcc_collection (c_e c) ks s | None => Ok s end ;
  Ok (set_place (l + 1) (rx_rel s + 1) (rx_ps s) (rx_lr s) s).
(** rx_synced.hpp 151 *)
Definition stage_len (e : N) : res N := at_idx [0; 6; 6; 0; 11; 0; 0; 0; 12] e.
(** rx_synced.cpp 218-268, 503-561: a packet begins. [ts_max]: streams the receiver was made for. The synchronization field is
    symbol 0; its estimate is stored as the first of stream 0. *)
Definition rx_begin (k : comps) (ts_max b e : N) : res rx :=
  do c <- set_configuration k b e ;
  do n <- stage_len e ;
  do m <- stage_len ts_max ;
  guard (n <=? m)
  (let fresh := mkStream None None None None in
   do s <- collect (mkRx c 0 0 0 false 0 (repeat None (N.to_nat n)) 0 0 0 (repeat fresh (N.to_nat ts_max)) 0 0 0 0 [] []) ;
   do sym <- at_idx (rx_rows s) (rx_now s) ;
   do ss <- change (fun h => mkStream sym (h_even h) (h_odd h) (h_est h)) 0 (rx_streams s) ;
   Ok (set_streams 0 0 ss 0 s)).
(** rx_synced.cpp 279-305; pcc.hpp 43: back() of an empty vector is undefined *)
Definition rx_control_field (c : rcfg) (s : rx) : res rx :=
  do m <- match s_l (rx_comps s) with [] => Oob | ls => Ok (last ls 0) end ;
  do s <- foldM (control_symbol c) s (nseq 1 (N.to_nat m)) ;
  guard (rx_pcc s =? 98) (Ok s).

(** rx_synced.cpp 1063-1073 *)
Definition gather (c : rcfg) (s : rx) (l : N) : res rx :=
  do s <- collect s ;
  do s <- references false (c_e c) l s ;
  Ok (set_place (l + 1) (rx_rel s + 1) (rx_ps s) (rx_lr s) s).
(** rx_synced.cpp 1090-1102 *)
Definition revisit (c : rcfg) (first start : N) (s : rx) (r : N) : res rx :=
  do s <- point r (set_place (rx_idx s) r (rx_ps s) (rx_lr s) s) ;
  do s <- if (r - start) mod c_stride c =? 0 then ch_interpolation s else Ok s ;
  data_cells_of c (first + r) s.
(** rx_synced.cpp 1045-1108: one round of the loop over the stages *)
Definition full_stage (c : rcfg) (n step : N) (s : rx) : res rx :=
  let ps := rx_ps s in
  let first := 1 + ps * step in
  let final := n + ps * step in
  let s := if 0 <? ps then set_place (rx_idx s) 1 ps (rx_lr s) s else s in
  do s <- foldM (gather c) s (nseq (rx_idx s) (N.to_nat (final + 1 - rx_idx s))) ;
  let start := if ps =? 0 then 0 else 1 in
  do s <- foldM (revisit c first start) s (nseq start (N.to_nat (step + 1 - start))) ;
  Ok (set_place (rx_idx s) 0 (ps + 1) (rx_lr s) s).
Fixpoint full_stages (c : rcfg) (n step : N) (m : nat) (s : rx) : res rx :=
  match m with O => Ok s | S m => do s <- full_stage c n step s ; full_stages c n step m s end.
(** rx_synced.cpp 1028-1110. ps_idx is 0 before the loop, so there are nof_full_ps rounds. *)
Definition mode_lr_t (c : rcfg) (df : N) (s : rx) : res rx :=
  do n <- stage_len (c_e c) ;
  let step := drs_N_step (c_e c) in
  let full := sub32 df (n - step) / step in
  if full =? 0 then Ok s
  else full_stages c n step (N.to_nat (full - rx_ps s)) (set_place (rx_idx s) (rx_rel s) (rx_ps s) true s).
(** rx_synced.cpp 1127-1136 *)
Definition again (c : rcfg) (s : rx) (l : N) : res rx :=
  do s <- data_cells_of c l s ; Ok (set_place (rx_idx s) (rx_rel s + 1) (rx_ps s) (rx_lr s) s).
(** rx_synced.cpp 1139-1162 *)
Definition last_symbols (c : rcfg) (s : rx) (l : N) : res rx :=
  do s <- collect s ;
  do s <- references true (c_e c) l s ;
  do s <- data_cells_of c l s ;
  let rel := rx_rel s + 1 in
  Ok (if rel =? drs_N_step (c_e c) then set_place (l + 1) 0 (rx_ps s + 1) (rx_lr s) s
      else set_place (l + 1) rel (rx_ps s) (rx_lr s) s).
(** rx_synced.cpp 1112-1163 *)
Definition mode_lr_f (c : rcfg) (df : N) (s : rx) : res rx :=
  let s := set_place (rx_idx s) (rx_rel s) (rx_ps s) false s in
  do s <- if rx_ps s =? 0
          then foldM (again c) (set_place (rx_idx s) 0 (rx_ps s) (rx_lr s) s) (nseq 1 (N.to_nat (rx_idx s - 1)))
          else Ok s ;
  foldM (last_symbols c) s (nseq (rx_idx s) (N.to_nat (df + 1 - rx_idx s))).
(** rx_synced.cpp 382-407, 419-423. [lr]: chestim_mode_lr_default. The last assert is only reached if the transport block was
    received without error, here it is always checked. The assert on the decoder (402-403) is TbCodec.v. *)
Definition rx_data_field (c : rcfg) (lr : bool) (q : packet_sizes) (s : rx) : res rx :=
  guard (rx_idx s <=? q_N_DF_symb q)
  (do s <- if lr then mode_lr_t c (q_N_DF_symb q) s else Ok s ;
   do s <- mode_lr_f c (q_N_DF_symb q) s ;
   guard (rx_pcc s =? 98)
   (guard (rx_drs s =? q_N_DRS_subc q)
    (guard (rx_bits s =? q_G q)
     (guard (rx_subc s =? mul32 (q_N_PDC_subc q) (N_SS (q_tm q)))
      (guard (rx_last s =? sub32 (c_e c) 1) (Ok s)))))).
(** A packet of sizes [q] is received with a sync report that has its bandwidth and number of streams. *)
Definition receive (k : comps) (ts_max stride : N) (lr : bool) (q : packet_sizes) : res rx :=
  let e := N_TS (q_tm q) in
  do bi <- b2b_idx (d_b (q_psdef q)) ;
  do occ <- N_b_OCC_lut bi ;
  let c := mkRcfg e occ (N_bps (q_mcs q)) (N_SS (q_tm q)) stride in
  do s <- rx_begin k ts_max (d_b (q_psdef q)) e ;
  do s <- rx_control_field c s ;
  rx_data_field c lr q s.
