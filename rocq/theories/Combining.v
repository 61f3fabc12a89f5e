(** Model of how the receiver combines its antennas into the symbols that are demapped: lib/src/phy/rx/rx_synced/rx_synced.cpp 951-1009 (control field),
    1200-1306 (data field, one transmit stream), 1308-1329 and 1335-1392 (transmit diversity).

    Complex numbers have exact rational parts; floating point numbers are such rationals, but the rounding of the operations is left out. The received
    symbol and the channel estimates are functions of the subcarrier: that they are read within their bounds and belong to the right OFDM symbol is
    the subject of RxSymbols. *)
From Verif Require Import Base IntHelpers PacketSizes Cells.
From Coq Require Import QArith Qcanon.
Open Scope Qc_scope.

Definition C : Type := Qc * Qc.
Definition c0 : C := (0, 0).
Definition cadd (a b : C) : C := (fst a + fst b, snd a + snd b).
Definition copp (a : C) : C := (- fst a, - snd a).
Definition cmul (a b : C) : C := (fst a * fst b - snd a * snd b, fst a * snd b + snd a * fst b).
(** conjj *)
Definition conj (a : C) : C := (fst a, - snd a).
Definition half (a : C) : C := (fst a / (1 + 1), snd a / (1 + 1)).
(** volk_32fc_x2_divide_32fc *)
Definition cdiv (a b : C) : C := let n := fst b * fst b + snd b * snd b in let p := cmul a (conj b) in (fst p / n, snd p / n).

(** One antenna: ofdm_symbol_now[ant_idx] and channel_antennas[ant_idx]->chestim, by stream and subcarrier *)
Record antenna := mkAnt { y : N -> C; chestim : N -> N -> C }.

(** 1347-1385: one antenna with transmit diversity; [num]: mixer_stage[0], [den]: fft_stage *)
Fixpoint div_ant (mat : list (N * N)) (modulo pxx : N) (a : antenna) (cnt : nat) (ks : list N) (num den : list C) : res (list C * list C) :=
  match ks with
  | k :: k' :: ks =>
      let r0 := y a k in let r1 := y a k' in
      do (A, B) <- at_idx mat (((pxx + N.of_nat cnt) / 2) mod modulo)%N ;
      let h0 := half (cadd (chestim a A k) (chestim a A k')) in
      let h1 := half (cadd (chestim a B k) (chestim a B k')) in
      do n0 <- rd num cnt ; do n1 <- rd num (S cnt) ; do d0 <- rd den cnt ; do d1 <- rd den (S cnt) ;
      let num := upd num cnt (cadd n0 (cadd (cmul (conj h0) r0) (cmul h1 (conj r1)))) in
      let num := upd num (S cnt) (cadd n1 (cadd (cmul (copp h1) (conj r0)) (cmul (conj h0) r1))) in
      let abs_h_square := cadd (cmul h0 (conj h0)) (cmul h1 (conj h1)) in
      let den := upd (upd den cnt (cadd d0 abs_h_square)) (S cnt) (cadd d1 abs_h_square) in
      div_ant mat modulo pxx a (S (S cnt)) ks num den
  | [_] => Oob
  | [] => Ok (num, den)
  end.
Fixpoint div_ants (mat : list (N * N)) (modulo pxx : N) (ants : list antenna) (ks : list N) (num den : list C) : res (list C * list C) :=
  match ants with
  | [] => Ok (num, den)
  | a :: ants => do (num, den) <- div_ant mat modulo pxx a 0 ks num den ; div_ants mat modulo pxx ants ks num den
  end.
Definition divide (num den : list C) : list C := map (fun p => cdiv (fst p) (snd p)) (combine num den).
(** 1335-1392, with the zeroed stages of 960-961 and 1313-1314 *)
Definition run_diversity (n_eff pxx : N) (ants : list antenna) (ks : list N) : res (list C) :=
  do mat <- index_N_TS n_eff ;
  guard (Nat.even (length ks))
  (do (num, den) <- div_ants mat (get_modulo n_eff) pxx ants ks (repeat c0 (length ks)) (repeat c0 (length ks)) ;
   Ok (divide num den)).

(** 968-993: control field of one stream *)
Fixpoint mrc_ant (a : antenna) (cnt : nat) (ks : list N) (num den : list C) : res (list C * list C) :=
  match ks with
  | [] => Ok (num, den)
  | k :: ks =>
      let h := chestim a 0 k in
      do n <- rd num cnt ; do d <- rd den cnt ;
      mrc_ant a (S cnt) ks (upd num cnt (cadd n (cmul (y a k) (conj h)))) (upd den cnt (cadd d (cmul h (conj h))))
  end.
Fixpoint mrc_ants (ants : list antenna) (ks : list N) (num den : list C) : res (list C * list C) :=
  match ants with
  | [] => Ok (num, den)
  | a :: ants => do (num, den) <- mrc_ant a 0 ks num den ; mrc_ants ants ks num den
  end.
Definition mrc (ants : list antenna) (ks : list N) : res (list C) :=
  do (num, den) <- mrc_ants ants ks (repeat c0 (length ks)) (repeat c0 (length ks)) ; Ok (divide num den).
(** 951-996: the cells that are demapped for the control field *)
Definition collect_pcc (n_eff pcc_idx : N) (ants : list antenna) (ks : list N) : res (list C) :=
  if (n_eff =? 1)%N then mrc ants ks else run_diversity n_eff pcc_idx ants ks.

(** [n] subcarriers from [from] on *)
Definition run (from n : N) : list N := nseq from (N.to_nat n).
(** 1211-1305: data field of one stream: the two halves of the spectrum without the centre, or the whole spectrum of which the cells are taken *)
Definition single_antenna (occ : N) (ants : list antenna) (ks : list N) : res (list C) :=
  if (len ks =? occ)%N then
    do lower <- mrc ants (run 0 (occ / 2)) ; do upper <- mrc ants (run (occ / 2 + 1) (occ / 2)) ; Ok (lower ++ upper)
  else
    do all <- mrc ants (run 0 (occ + 1)) ; mapM (fun k => at_idx all k) ks.
(** 1165-1187: the cells that are demapped for the data field; nothing for spatial multiplexing, 1331-1333 *)
Definition collect_pdc (n_eff n_ss occ subc_idx : N) (ants : list antenna) (ks : list N) : res (list C) :=
  if (n_eff =? 1)%N then single_antenna occ ants ks
  else if (n_ss =? 1)%N then run_diversity n_eff subc_idx ants ks
  else Ok [].
