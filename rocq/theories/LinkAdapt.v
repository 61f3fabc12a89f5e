(** Model of the link adaptation of the p2p firmware: choice of the MCS and of the codebook index from feedback and measurements.
    lib/src/phy/indicators/cqi_lut.cpp, lib/include/dectnrp/phy/indicators/cqi_lut.hpp, lib/include/dectnrp/common/adt/expiring.hpp,
    lib/src/phy/rx/rx_synced/mimo/mimo_csi.cpp, lib/src/mac/feedback_plan.cpp,
    lib/src/upper/p2p/procedure/steady_rd.cpp, steady_ft.cpp and steady_pt.cpp.

    Signal-to-noise ratios are rationals (float in the code), times are integers (int64_t). *)
From Verif Require Import Base Bytes Feedback.
From Coq Require Import QArith.
Open Scope N_scope.

(** cqi_lut.hpp 49-60: snr_required *)
Definition snr_required : list Q := [(-1)#1; 1#1; 4#1; 7#1; 11#1; 14#1; 15#1; 35#2; 21#1; 24#1; 27#1; 30#1]%Q.
Definition required (mcs : N) : Q := nth (N.to_nat mcs) snr_required 0%Q.

(** cqi_lut.hpp: members *)
Record lut := mkLut { l_min : N; l_max : N; l_off : Q }.
(** cqi_lut.cpp 29-36 *)
Definition lut_new (mn mx : N) (off : Q) : res lut :=
  guard (mn <=? mx) (guard (mx <? 12) (guard (Qle_bool 0 off) (Ok (mkLut mn mx off)))).

(** cqi_lut.cpp 45-51: the loop from mcs_min + 1 to mcs_max, [n] rounds left. The index stays at or below mcs_max, so inside the array. *)
Fixpoint lut_scan (n : nat) (i ret : N) (snr : Q) : N :=
  match n with
  | O => ret
  | S n => if Qle_bool (required i) snr then lut_scan n (i + 1) i snr else ret
  end.
(** cqi_lut.cpp 38-54 *)
Definition highest_mcs (l : lut) (snr : Q) : N :=
  lut_scan (N.to_nat (l_max l - l_min l)) (l_min l + 1) (l_min l) (snr - l_off l)%Q.
(** cqi_lut.cpp 56-58: std::clamp *)
Definition clamp_mcs (l : lut) (m : N) : N := if m <? l_min l then l_min l else if l_max l <? m then l_max l else m.

(** expiring.hpp: val and time_64. The time of a default constructed value is UNDEFINED_EARLY_64, modelled as None. *)
Record expiring := mkExp { e_val : N; e_time : option Z }.
Definition e_new : expiring := mkExp 0 None.
(** expiring.hpp 37 and 48-50 *)
Definition e_valid (e : expiring) (latest : Z) : bool := match e_time e with Some t => (latest <=? t)%Z | None => false end.
Definition e_get (e : expiring) (latest : Z) (fallback : N) : N := if e_valid e latest then e_val e else fallback.

(** mimo_csi.hpp: the members that are used *)
Record csi := mkCsi { s_fb_mcs : expiring; s_fb_cb : expiring; s_phy_mcs : expiring; s_phy_cb : expiring; s_phy_cbr : expiring; s_cb : expiring }.
Definition csi_new : csi := mkCsi e_new e_new e_new e_new e_new e_new.
(** mimo_csi.cpp 27-67 *)
Definition csi_feedback (s : csi) (fmt : N) (p : pool) (t : Z) : res csi :=
  match fmt with
  | 0 | 1 | 2 | 3 | 6 => Ok s
  | 4 => Ok (mkCsi (mkExp (f4_mcs (pf4 p)) (Some t)) (s_fb_cb s) (s_phy_mcs s) (s_phy_cb s) (s_phy_cbr s) (s_cb s))
  | 5 => let e := mkExp (f5_cb (pf5 p)) (Some t) in
         Ok (mkCsi (s_fb_mcs s) e (s_phy_mcs s) (s_phy_cb s) (s_phy_cbr s) e)
  | _ => Abort
  end.
(** mimo_csi.cpp 69-82 *)
Definition csi_mimo (s : csi) (cb cbr : N) (t : Z) : csi :=
  let e := mkExp cbr (Some t) in mkCsi (s_fb_mcs s) (s_fb_cb s) (s_phy_mcs s) (mkExp cb (Some t)) e e.
(** mimo_csi.cpp 84-86 *)
Definition csi_mcs (s : csi) (m : N) (t : Z) : csi :=
  mkCsi (s_fb_mcs s) (s_fb_cb s) (mkExp m (Some t)) (s_phy_cb s) (s_phy_cbr s) (s_cb s).

(** contact_p2p.hpp: the members that matter here, with feedback_plan.hpp *)
Record contact := mkContact { c_csi : csi; c_plan : list N; c_idx : nat }.
(** feedback_plan.cpp 31-36. An empty plan: at() throws; the modulo is then undefined behaviour. *)
Definition plan_current (c : contact) : res N :=
  match nth_error (c_plan c) (c_idx c) with Some f => Ok f | None => Throw end.
Definition plan_next (c : contact) : res contact :=
  match c_plan c with [] => Oob | _ => Ok (mkContact (c_csi c) (c_plan c) (S (c_idx c) mod length (c_plan c))) end.

(** A device: rd.hpp cqi_lut, the one feedback_info_pool of ppmp_unicast shared by all contacts, the contacts, the lifetime of 50 ms in
    samples (steady_rd.cpp 371-373) and whether TFW_P2P_MIMO is defined. *)
Record dev := mkDev { d_lut : lut; d_pool : pool; d_cons : list contact; d_life : Z; d_mimo : bool }.

(** steady_rd.cpp 297-306: the values the pool is prepared with. The formats that are not prepared have the values of zero(), which are
    never sent. *)
Definition pool_prepared (m : N) : pool :=
  mkPool (mkF1 0 tfb_not_defined 0 MCS_out_of_range) (mkF2 0 mimo_not_defined 0 MCS_out_of_range)
         (mkF3 0 tfb_not_defined 0 tfb_not_defined MCS_out_of_range)
         (mkF4 0 m) (mkF5 0 ACK single_layer 0) (mkF6 0 0 0 MCS_out_of_range).
(** steady_ft.cpp 57-75 and steady_pt.cpp 40-47: a device with fresh contacts; the FT uses the plan [4], the PT [4; 5] *)
Definition dev_new (l : lut) (plans : list (list N)) (life : Z) (mimo : bool) : dev :=
  mkDev l (pool_prepared (highest_mcs l (-1000)%Q)) (map (fun p => mkContact csi_new p 0) plans) life mimo.

(** What happens between worksub_tx_unicast_psdef and the end of worksub_tx_unicast. *)
Inductive outcome := NoHarq | NoData | Sent.
Inductive op :=
| RxPcc (k : nat) (octets : list N) (t : Z)        (* a PLCF 2.1 from contact k; [octets]: plcf_front[8] and [9] *)
| RxPdc (k : nat) (snr : Q) (t : Z)                (* a unicast packet from contact k with valid CRC *)
| RxBeacon (k : nat) (cb cbr : N) (snr : Q) (t : Z) (* PT: a beacon *)
| Tx (k : nat) (t : Z) (o : outcome).              (* worksub_tx_unicast with data queued *)

Record packet := mkPacket { k_mcs : N; k_octets : list N; k_cb : N }.

Definition set_con (d : dev) (k : nat) (c : contact) : dev := mkDev (d_lut d) (d_pool d) (upd (d_cons d) k c) (d_life d) (d_mimo d).
Definition set_pool (d : dev) (p : pool) : dev := mkDev (d_lut d) p (d_cons d) (d_life d) (d_mimo d).
Definition with_csi (c : contact) (s : csi) : contact := mkContact s (c_plan c) (c_idx c).

(** plcf_21.cpp 112-116, then steady_ft.cpp 293-296 or steady_pt.cpp 205-206. An invalid PLCF never reaches the firmware. The pool the PLCF is
    unpacked into belongs to the decoder; [old] is what it held. *)
Definition rx_feedback (d : dev) (k : nat) (old : pool) (octets : list N) (t : Z) : res dev :=
  do c <- rd (d_cons d) k ;
  do b0 <- ld octets 0 ;
  let fmt := N.land (N.shiftr b0 4) 15 in
  do r <- pool_unpack old fmt octets ;
  if snd r then do s <- csi_feedback (c_csi c) fmt (fst r) t ; Ok (set_con d k (with_csi c s)) else Ok d.

(** steady_rd.cpp 440-461 *)
Definition tx_feedback (d : dev) (c : contact) (ex : Z) : res (N * pool) :=
  do fmt <- plan_current c ;
  match fmt with
  | 4 => Ok (fmt, set_f4 (d_pool d) (mkF4 (f4_bitmap (pf4 (d_pool d))) (e_get (s_phy_mcs (c_csi c)) ex (l_min (d_lut d)))))
  | 5 => let f := pf5 (d_pool d) in
         Ok (fmt, set_f5 (d_pool d) (mkF5 (f5_harq f) (f5_tf f) (f5_mimo f) (e_get (s_phy_cb (c_csi c)) ex 0)))
  | _ => Ok (fmt, d_pool d)
  end.

(** steady_rd.cpp 357-428, 430-438; plcf_21.cpp 95-97 writes the octets *)
Definition tx_unicast (d : dev) (k : nat) (t : Z) (o : outcome) : res (dev * option packet) :=
  do c <- rd (d_cons d) k ;
  let ex := (t - d_life d)%Z in
  let mcs := clamp_mcs (d_lut d) (e_get (s_fb_mcs (c_csi c)) ex (l_min (d_lut d))) in
  match o with
  | NoHarq => Ok (d, None)
  | _ =>
      do r <- tx_feedback d c ex ;
      do octets <- pool_pack (snd r) (fst r) [u8 (N.shiftl (fst r) 4); 0] ;
      match o with
      | Sent => do c' <- plan_next c ;
                let cb := if d_mimo d then e_get (s_cb (c_csi c)) ex 0 else 0 in
                Ok (set_con (set_pool d (snd r)) k c', Some (mkPacket mcs octets cb))
      | _ => Ok (set_pool d (snd r), None)
      end
  end.

(** steady_ft.cpp 347-349, steady_pt.cpp 298-300; steady_pt.cpp 255-260 *)
Definition dev_step (old : pool) (d : dev) (x : op) : res (dev * option packet) :=
  match x with
  | RxPcc k octets t => do d' <- rx_feedback d k old octets t ; Ok (d', None)
  | RxPdc k snr t => do c <- rd (d_cons d) k ; Ok (set_con d k (with_csi c (csi_mcs (c_csi c) (highest_mcs (d_lut d) snr) t)), None)
  | RxBeacon k cb cbr snr t =>
      do c <- rd (d_cons d) k ;
      Ok (set_con d k (with_csi c (csi_mcs (csi_mimo (c_csi c) cb cbr t) (highest_mcs (d_lut d) snr) t)), None)
  | Tx k t o => tx_unicast d k t o
  end.

(** A history; for each operation, what the pool of the decoder held. *)
Fixpoint dev_run (d : dev) (xs : list (pool * op)) : res (dev * list (option packet)) :=
  match xs with
  | [] => Ok (d, [])
  | (old, x) :: xs => do r <- dev_step old d x ; do r' <- dev_run (fst r) xs ; Ok (fst r', snd r :: snd r')
  end.

(** beamforming_and_antenna_port_mapping.hpp 99-108: N_TS_N_TX_codebook_index_max, the entries that are not zero *)
Definition codebook_index_max (n_ts n_tx : N) : N :=
  match n_ts, n_tx with 1, 2 => 5 | 1, 4 => 27 | 2, 2 => 2 | 2, 4 => 21 | 4, 4 => 4 | _, _ => 0 end.
(** tx.cpp 573-575 *)
Definition tx_codebook_check (n_ts n_tx cb : N) : res unit := guard (cb <=? codebook_index_max n_ts n_tx) (Ok tt).
