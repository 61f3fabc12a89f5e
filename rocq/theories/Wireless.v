(** Model of the simulated radio channel: lib/src/simulation/wireless/link.cpp 70-133 (power delay profile), 209-277 (pass_through_link),
    channel_awgn.cpp 40-66, channel_flat.cpp 47-75, channel_doubly.cpp 57-88 (superimpose) and lib/src/simulation/vspace.cpp 449-487 (steps 0 to 4 of
    wchannel_execute; the noise of step 5 is left out).

    Complex numbers have exact rational parts and phases are counted in turns: rounding is left out, and cos and sin together are the parameter [cis].
    The factors of path loss and powers are given for each call. *)
From Verif Require Import Base.
From Coq Require Import QArith Qcanon.
Open Scope Qc_scope.

Definition C : Type := Qc * Qc.
Definition c0 : C := (0, 0).
Definition cadd (a b : C) : C := (fst a + fst b, snd a + snd b).
Definition cmul (a b : C) : C := (fst a * fst b - snd a * snd b, fst a * snd b + snd a * fst b).
Definition cscale (s : Qc) (a : C) : C := (s * fst a, s * snd a).
Definition qz (z : Z) : Qc := Q2Qc (inject_Z z).
(** srsran_vec_sum_ccc *)
Definition vadd (a b : list C) : list C := map (fun p => cadd (fst p) (snd p)) (combine a b).

(** One tap: tap_delays_smpl[i], the factor of line 262-265, and period_smpl[i][j] with phase_inital_rad[i][j] for each sinusoid. *)
Record tap := mkTap { delay : nat; amp : Qc; sines : list (Z * Qc) }.

(** link.cpp 88-126: the delays are looked up among those found so far; a tap with a known delay adds to its power. [l] is in order of increasing i. *)
Fixpoint add_tap (a : nat) (b : Qc) (found : list (nat * Qc)) : list (nat * Qc) :=
  match found with
  | [] => [(a, b)]
  | (d, p) :: found => if (d =? a)%nat then (d, p + b) :: found else (d, p) :: add_tap a b found
  end.
Fixpoint collect (l : list (nat * Qc)) (found : list (nat * Qc)) : list (nat * Qc) :=
  match l with [] => found | (a, b) :: l => collect l (add_tap a b found) end.
Definition total (l : list (nat * Qc)) : Qc := fold_right (fun p s => snd p + s) 0 l.
Definition normalize (l : list (nat * Qc)) : list (nat * Qc) := map (fun p => (fst p, snd p / total l)) l.
(** link.cpp 70-133 after the conversion of each tap to samples and linear power; the assertions 117-132 on the sum and on finite values hold exactly. *)
Definition set_pdp (spp : nat) (generic : list (nat * Qc)) : res (list (nat * Qc)) :=
  let l := normalize (collect generic []) in
  let none := (0%nat, 0%Qc) in
  guard (negb (length l =? 0)%nat) (guard (fst (hd none l) =? 0)%nat (guard (fst (last l none) <? spp)%nat (Ok l))).

Section Link.
  Variable cis : Qc -> C.

  (** history_stage_arr: only the first half is kept between calls. *)
  Record link := mkLink { taps : list tap; hist0 : list C; hist1 : list C }.
  (** link.cpp 194-196 *)
  Definition link_new (spp : nat) (ts : list tap) : link := mkLink ts (repeat c0 spp) (repeat c0 spp).

  (** volk_32fc_s32fc_x2_rotator2_32fc *)
  Fixpoint rotate (s2s phase : Qc) (inp : list C) : list C :=
    match inp with [] => [] | x :: inp => cmul x (cis phase) :: rotate s2s (phase + s2s) inp end.

  (** link.cpp 231-256 *)
  Fixpoint sinusoids (ss : list (Z * Qc)) (time : Z) (inp stage : list C) : list C :=
    match ss with
    | [] => stage
    | (period, initial) :: ss =>
        let s2s := 1 / qz period in
        let phase := s2s * qz (Z.rem time (Z.abs period)) + initial in
        sinusoids ss time inp (vadd (rotate s2s phase inp) stage)
    end.

  (** link.cpp 224-273; [h] is the whole history stage *)
  Fixpoint run_taps (spp : nat) (ts : list tap) (time : Z) (h out : list C) : res (list C) :=
    match ts with
    | [] => Ok out
    | t :: ts =>
        if (spp <? delay t)%nat then Oob
        else
          let stage := sinusoids (sines t) time (firstn spp (skipn (spp - delay t) h)) (repeat c0 spp) in
          run_taps spp ts time h (vadd (map (cscale (amp t)) stage) out)
    end.

  (** link.cpp 209-277 *)
  Definition pass_through_link (spp : nat) (l : link) (inp : list C) (primary_direction : bool) (time : Z) : res (link * list C) :=
    let history := if primary_direction then hist0 l else hist1 l in
    do out <- run_taps spp (taps l) time (history ++ inp) (repeat c0 spp) ;
    Ok (if primary_direction then mkLink (taps l) inp (hist1 l) else mkLink (taps l) (hist0 l) inp, out).

  Inductive channel := Awgn | Flat (coeffs : list C) | Doubly (links : list link).

  (** The inner body of the three superimpose: one TX antenna onto one RX antenna. [g] is the factor of get_large_scale_via_pathloss. *)
  Definition one_pair (spp : nat) (ch : channel) (nrx : nat) (primary : bool) (time : Z) (tx_idx rx_idx : nat) (g : Qc) (x : list C)
    : res (channel * list C) :=
    let large := map (cscale g) x in
    match ch with
    | Awgn => Ok (ch, large)
    | Flat coeffs => do c <- rd coeffs (tx_idx * nrx + rx_idx) ; Ok (ch, map (fun s => cmul s c) large)
    | Doubly links =>
        do l <- rd links (tx_idx * nrx + rx_idx) ;
        do (l', out) <- pass_through_link spp l large primary time ;
        Ok (Doubly (upd links (tx_idx * nrx + rx_idx) l'), out)
    end.
  (** The loop over RX antennas; [rxs] are those still to come, starting with [rx_idx]. *)
  Fixpoint rx_loop (spp : nat) (ch : channel) (nrx : nat) (primary : bool) (time : Z) (tx_idx rx_idx : nat) (g : nat -> nat -> Qc) (x : list C)
      (rxs : list (list C)) : res (channel * list (list C)) :=
    match rxs with
    | [] => Ok (ch, [])
    | r :: rxs =>
        do (ch, s) <- one_pair spp ch nrx primary time tx_idx rx_idx (g tx_idx rx_idx) x ;
        do (ch, rs) <- rx_loop spp ch nrx primary time tx_idx (S rx_idx) g x rxs ;
        Ok (ch, vadd s r :: rs)
    end.
  (** The loop over TX antennas *)
  Fixpoint tx_loop (spp : nat) (ch : channel) (nrx : nat) (primary : bool) (time : Z) (tx_idx : nat) (g : nat -> nat -> Qc) (txs : list (list C))
      (rxs : list (list C)) : res (channel * list (list C)) :=
    match txs with
    | [] => Ok (ch, rxs)
    | x :: txs =>
        do (ch, rxs) <- rx_loop spp ch nrx primary time tx_idx 0 g x rxs ;
        tx_loop spp ch nrx primary time (S tx_idx) g txs rxs
    end.
  (** superimpose, after the assertion on the two ids *)
  Definition superimpose (spp : nat) (ch : channel) (id_tx id_rx : nat) (time : Z) (g : nat -> nat -> Qc) (txs rxs : list (list C))
    : res (channel * list (list C)) :=
    tx_loop spp ch (length rxs) (id_tx <? id_rx)%nat time 0 g txs rxs.
End Link.
