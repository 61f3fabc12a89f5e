(** Model of lib/{src,include/dectnrp}/sections_part4/mac_pdu/mac_pdu_decoder.{cpp,hpp} and of the parts of mmie_pool_t it
    uses, for the messages and IEs that are activated. Pointers into the transport block are positions. *)
From Verif Require Import Base Bytes MacHeader Mux IeBase Beacons SmallIes.
Open Scope N_scope.

(** mac_pdu_decoder.hpp, enum class STATES *)
Inductive dstate :=
| MAC_HEADER_TYPE | MAC_COMMON_HEADER | MUX_EXT_IE_TYPE | A_LENGTH_OR_FIXED_SIZE | B_PEEK
| IE_UNPACK | CHECK_IF_DONE | DONE | PREMATURE_ABORT.

(** One element of the pool: its multiplexing header and what it was unpacked to. [Never] is the content of an element
    nothing was unpacked to. *)
Inductive content :=
| Never
| Flowing (data : nat)
| Cluster (mu : N) (c : cluster_beacon)
| Target (v : N)
| Time (t : time_announce).
Record element := mkEl { el_mmh : mmh; el_content : content }.

(** The members of mac_pdu_decoder_t. [d_mch] is mch_effective, with the header it points to once that is unpacked (the
    header before is that of the default constructor). [d_mmie] points into the pool: type and index. *)
Record decoder := mkD {
  d_tb : N;
  d_mu : N;
  d_state : dstate;
  d_r : N;
  d_req : N;
  d_mht : option mht;
  d_mch : option (N * option mch);
  d_mmh : mmh;
  d_mmie : option (kind * nat);
  d_index : kind -> nat;
  d_pool : kind -> list element;
  d_decoded : list (kind * nat) }.

(** mac_pdu_decoder.cpp 32-40, mmie_pool_tx.cpp 52-88, mmie_pool.hpp set_nof_elements 72-82; the padding IE is not in the
    pool *)
Definition capacity (k : kind) : nat :=
  match k with
  | Padding => 0 | Higher_Layer_Signalling => 8 | User_Plane_Data => 8 | _ => 1
  end.
Definition pool_init (k : kind) : list element := repeat (mkEl mmh_zero Never) (capacity k).
(** a constructed decoder; the members set by set_configuration hold anything *)
Definition d_new : decoder :=
  mkD 0 0 DONE 0 0 None None mmh_zero None (fun _ => 0%nat) pool_init [].

(** mac_pdu_decoder.cpp 42-69 *)
Definition set_configuration (d : decoder) (tb mu : N) : res decoder :=
  guard (0 <? tb)
  (guard (1 <=? tb)
  (Ok (mkD tb mu MAC_HEADER_TYPE 0 1 None None mmh_zero None (fun _ => 0%nat) (d_pool d) []))).

(** state = s; N_bytes_required = n *)
Definition go (d : decoder) (s : dstate) (n : N) : decoder :=
  mkD (d_tb d) (d_mu d) s (d_r d) n (d_mht d) (d_mch d) (d_mmh d) (d_mmie d) (d_index d) (d_pool d) (d_decoded d).
Definition with_r (d : decoder) (r : N) : decoder :=
  mkD (d_tb d) (d_mu d) (d_state d) r (d_req d) (d_mht d) (d_mch d) (d_mmh d) (d_mmie d) (d_index d) (d_pool d) (d_decoded d).
Definition with_headers (d : decoder) (t : option mht) (c : option (N * option mch)) : decoder :=
  mkD (d_tb d) (d_mu d) (d_state d) (d_r d) (d_req d) t c (d_mmh d) (d_mmie d) (d_index d) (d_pool d) (d_decoded d).
Definition with_mmh (d : decoder) (h : mmh) : decoder :=
  mkD (d_tb d) (d_mu d) (d_state d) (d_r d) (d_req d) (d_mht d) (d_mch d) h (d_mmie d) (d_index d) (d_pool d) (d_decoded d).
Definition with_mmie (d : decoder) (p : option (kind * nat)) : decoder :=
  mkD (d_tb d) (d_mu d) (d_state d) (d_r d) (d_req d) (d_mht d) (d_mch d) (d_mmh d) p (d_index d) (d_pool d) (d_decoded d).
Definition with_pool (d : decoder) (p : kind -> list element) : decoder :=
  mkD (d_tb d) (d_mu d) (d_state d) (d_r d) (d_req d) (d_mht d) (d_mch d) (d_mmh d) (d_mmie d) (d_index d) p (d_decoded d).
Definition with_decoded (d : decoder) (i : kind -> nat) (v : list (kind * nat)) : decoder :=
  mkD (d_tb d) (d_mu d) (d_state d) (d_r d) (d_req d) (d_mht d) (d_mch d) (d_mmh d) (d_mmie d) i (d_pool d) v.
Definition at_kind {A} (f : kind -> A) (k : kind) (x : A) : kind -> A :=
  fun j => if kind_dec j k then x else f j.
(** *mmie = ... *)
Definition set_element (d : decoder) (p : kind * nat) (e : element) : decoder :=
  with_pool d (at_kind (d_pool d) (fst p) (upd (d_pool d (fst p)) (snd p) e)).
Definition abort_pdu (d : decoder) : decoder := go d PREMATURE_ABORT 0.
(** mac_pdu_decoder.cpp 343-347 *)
Definition get_mmie_from_pool (d : decoder) (k : kind) : option (kind * nat) :=
  if (d_index d k <? length (d_pool d k))%nat then Some (k, d_index d k) else None.

(** a + a_cnt_r *)
Definition behind_r (m : list N) (r : N) : list N := skipn (N.to_nat r) m.
(** uint32_t addition and subtraction *)
Definition add32 (a b : N) : N := (a + b) mod 2 ^ 32.
Definition sub32 (a b : N) : N := (a + 2 ^ 32 - b) mod 2 ^ 32.

(** mac_common_header.cpp unpack of the five classes *)
Definition mch_unpack (type : N) (m : list N) : res (mch * bool) :=
  match type with
  | 0 => do (h, v) <- dh_unpack m ; Ok (MchData h, v)
  | 1 => do (h, v) <- bh_unpack m ; Ok (MchBeacon h, v)
  | 2 => do (h, v) <- uh_unpack m ; Ok (MchUnicast h, v)
  | 3 => do (h, v) <- rh_unpack m ; Ok (MchRdb h, v)
  | _ => Ok (MchEmpty, true)
  end.
(** mac_common_header.hpp 42, 55, 69, 84, 98 for the class selected in mac_pdu_decoder.cpp 117-137 *)
Definition mch_type_size (type : N) : res N :=
  match type with 0 => Ok 2 | 1 => Ok 7 | 2 => Ok 10 | 3 => Ok 6 | 4 => Ok 0 | _ => Abort end.

(** The classes derived from mmie_packing_peeking_t and mmie_flowing_t; activated are only the cluster beacon message and
    user plane data. *)
Definition peeking (k : kind) : bool :=
  match k with
  | Network_Beacon | Cluster_Beacon | Association_Request | Association_Response | Reconfiguration_Request
  | Reconfiguration_Response | Route_Info | Resource_Allocation | Random_Access_Resource | RD_Capability | Neighbouring
  | Broadcast_Indication | Load_Info | Measurement_Report => true
  | _ => false
  end.
(** get_packed_size_min_to_peek, get_packed_size_by_peeking, get_packed_size_of_sdu and unpack of the class: the elements
    that are not activated are left out ([Throw]); C21 shows that they are never asked for. *)
Definition min_to_peek (k : kind) : res N := match k with Cluster_Beacon => Ok 2 | _ => Throw end.
Definition size_by_peeking (k : kind) (mu : N) (m : list N) : res N :=
  match k with
  | Cluster_Beacon => guard ((mu =? 1) || (mu =? 2) || (mu =? 4) || (mu =? 8)) (do n <- cb_peek mu m ; Ok (N.of_nat n))
  | _ => Throw
  end.
Definition fixed_size (k : kind) : res N :=
  match k with Power_Target => Ok (N.of_nat pt_size) | Time_Announce => Ok (N.of_nat ta_size) | _ => Throw end.
Definition unpack_content (k : kind) (mu : N) (m : list N) (r : N) : res (content * bool) :=
  match k with
  | User_Plane_Data => Ok (Flowing (N.to_nat r), true)
  | Cluster_Beacon => do (c, v) <- cb_unpack mu (behind_r m r) ; Ok (Cluster mu c, v)
  | Power_Target => do (c, v) <- pt_unpack (behind_r m r) ; Ok (Target c, v)
  | Time_Announce => do (c, v) <- ta_unpack (behind_r m r) ; Ok (Time c, v)
  | _ => Throw
  end.

(** The switch of mac_pdu_decoder.cpp 98-326. [m] is the transport block as far as it is written. The boolean tells whether
    the loop goes on. *)
Definition decode_state (m : list N) (d : decoder) : res (bool * decoder) :=
  let w := N.of_nat (length m) in
  match d_state d with
  | MAC_HEADER_TYPE =>
    guard (d_r d =? 0) (guard (0 <? w)
    (do (h, v) <- mht_unpack (behind_r m (d_r d)) ;
     if negb v then Ok (true, abort_pdu d) else
     let d := with_r d (add32 (d_r d) (d_req d)) in
     guard (d_r d =? 1)
     (do n <- mch_type_size (mht_type h) ;
      Ok (true, go (with_headers d (Some h) (Some (mht_type h, None))) MAC_COMMON_HEADER n))))
  | MAC_COMMON_HEADER =>
    match d_mch d with
    | None => Oob
    | Some (t, _) =>
      do (c, v) <- mch_unpack t (behind_r m (d_r d)) ;
      if negb v then Ok (true, abort_pdu (with_headers d (d_mht d) None)) else
      Ok (true, go (with_r (with_headers d (d_mht d) (Some (t, Some c))) (add32 (d_r d) (d_req d))) MUX_EXT_IE_TYPE 1)
    end
  | MUX_EXT_IE_TYPE =>
    do (h, v) <- mmh_unpack_ext_ie activated mmh_zero (behind_r m (d_r d)) ;
    let d := with_mmh d h in
    if negb v then Ok (true, abort_pdu d) else
    match mx_tinfo h with
    | None => Oob
    | Some k =>
      if kind_dec k Padding then Ok (true, abort_pdu d) else
      let p := get_mmie_from_pool d k in
      let d := with_mmie d p in
      match p with
      | None => Ok (true, abort_pdu d)
      | Some p =>
        if peeking k then
          do n <- min_to_peek k ;
          let d := set_element d p (mkEl h (el_content (nth (snd p) (d_pool d k) (mkEl h Never)))) in
          Ok (true, go (with_r d (add32 (d_r d) (d_req d))) B_PEEK n)
        else
          do s <- mmh_size h ;
          Ok (true, go d A_LENGTH_OR_FIXED_SIZE (N.of_nat s))
      end
    end
  | A_LENGTH_OR_FIXED_SIZE =>
    match d_mmie d with
    | None => Oob
    | Some p =>
      do h <- mmh_unpack_length (d_mmh d) (behind_r m (d_r d)) ;
      let d := set_element (with_mmh d h) p (mkEl h (el_content (nth (snd p) (d_pool d (fst p)) (mkEl h Never)))) in
      let d := with_r d (add32 (d_r d) (d_req d)) in
      if mx_len h <? UNDEF32 then Ok (true, go d IE_UNPACK (mx_len h))
      else do n <- fixed_size (fst p) ; Ok (true, go d IE_UNPACK n)
    end
  | B_PEEK =>
    match d_mmie d with
    | None => Oob
    | Some p =>
      do n <- size_by_peeking (fst p) (d_mu d) (behind_r m (d_r d)) ;
      Ok (true, go d IE_UNPACK n)
    end
  | IE_UNPACK =>
    match d_mmie d with
    | None => Oob
    | Some p =>
      do (c, v) <- unpack_content (fst p) (d_mu d) m (d_r d) ;
      let e := nth (snd p) (d_pool d (fst p)) (mkEl mmh_zero Never) in
      let d := set_element d p (mkEl (el_mmh e) c) in
      do d <- (if v then
                 match mx_tinfo (el_mmh e) with
                 | None => Oob
                 | Some k => Ok (with_decoded d (at_kind (d_index d) k (S (d_index d k))) (d_decoded d ++ [p]))
                 end
               else Ok d) ;
      Ok (true, go (with_r d (add32 (d_r d) (d_req d))) CHECK_IF_DONE 0)
    end
  | CHECK_IF_DONE =>
    if d_r d <? d_tb d then Ok (true, go d MUX_EXT_IE_TYPE 1) else Ok (false, go d DONE (d_req d))
  | DONE => Abort
  | PREMATURE_ABORT => Ok (false, with_r d w)
  end.
(** one round of the loop, mac_pdu_decoder.cpp 87-327 *)
Definition decode_round (m : list N) (d : decoder) : res (bool * decoder) :=
  if d_tb d <? add32 (d_r d) (d_req d) then decode_state m (abort_pdu d) else
  if sub32 (N.of_nat (length m)) (d_r d) <? d_req d then Ok (false, d) else
  decode_state m d.
Fixpoint decode_loop (fuel : nat) (m : list N) (d : decoder) : res decoder :=
  match fuel with
  | O => Oob
  | S f => do (more, d) <- decode_round m d ; if more then decode_loop f m d else Ok d
  end.
(** mac_pdu_decoder.cpp 71-328. [m] is the transport block as far as it is written, a_cnt_w_ its length: the decoder may
    read no further. The loop has no bound in the code; C21 shows that it ends after at most 6 * |TB| + 10 rounds. *)
Definition decode (m : list N) (d : decoder) : res decoder :=
  guard (N.of_nat (length m) <=? d_tb d) (guard (d_r d <=? N.of_nat (length m))
  (decode_loop (6 * N.to_nat (d_tb d) + 10) m d)).
(** mac_pdu_decoder.cpp 330-341 *)
Definition has_reached_valid_final_state (d : decoder) : res bool :=
  guard (d_r d =? d_tb d)
  (guard (match d_state d with DONE | PREMATURE_ABORT => true | _ => false end) (Ok true)).
