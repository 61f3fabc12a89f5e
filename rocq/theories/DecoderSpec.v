(** What a transport block says: header type, common header and the messages and elements behind them, read in one go.
    The reading of the two headers and of the cluster beacon is the one of C18 - C20 and C24. *)
From Verif Require Import Base WireSpec MacHeader Mux Beacons SmallIes Decoder.
Open Scope N_scope.

Inductive item :=
| Data (flow : N) (payload : list N)
| Beacon (c : cluster_beacon)
| Power_target (v : N)
| Time_announcement (t : time_announce).

(** The header in front of [l]: element, flow, bytes of the header, bytes of the content. A cluster beacon tells its size in
    its second byte. Nothing is announced if the bytes that tell the size are missing. *)
Definition count (b : bool) (n : nat) : nat := if b then n else 0.
Definition announced (mu : N) (l : list N) : option (kind * N * nat * nat) :=
  match l with
  | [] => None
  | b :: t =>
    if b =? 9 then
      match t with
      | _ :: f :: _ => Some (Cluster_Beacon, 0, 1%nat,
          (4 + count (N.testbit f 4) 1 + count (N.testbit f 2) (if (mu <=? 4)%N then 1 else 2)
             + count (N.testbit f 1) 2 + count (N.testbit f 0) 4)%nat)
      | _ => None
      end
    else if b =? 29 then Some (Power_Target, 0, 1%nat, 1%nat)
    else if b =? 30 then Some (Time_Announce, 0, 1%nat, 11%nat)
    else if (64 + 3 <=? b) && (b <=? 64 + 6) then
      match t with n :: _ => Some (User_Plane_Data, b - 66, 2%nat, N.to_nat n) | _ => None end
    else if (128 + 3 <=? b) && (b <=? 128 + 6) then
      match t with h :: n :: _ => Some (User_Plane_Data, b - 130, 3%nat, N.to_nat (256 * h + n)) | _ => None end
    else None
  end.
(** The content, if it is valid. *)
Definition meaning (k : kind) (mu flow : N) (l : list N) : option item :=
  match k with
  | User_Plane_Data => Some (Data flow l)
  | Cluster_Beacon => match cb_unpack mu l with Ok (c, true) => Some (Beacon c) | _ => None end
  | Power_Target => let v := be_number l in if (45 <=? v) && (v <=? 60) then Some (Power_target v) else None
  | Time_Announce =>
    let type := nth 0 l 0 in let sec := be_number (firstn 8 (skipn 2 l)) in
    if (type <=? 2) && (sec <? 2 ^ 63)
    then Some (Time_announcement (mkTa type (nth 1 l 0) (Z.of_N sec) (nth 10 l 0))) else None
  | _ => None
  end.
(** A receiver takes at most eight user plane data items and one of each other element. *)
Definition room (k : kind) : nat := match k with User_Plane_Data => 8 | _ => 1 end.
Definition less (caps : kind -> nat) (k : kind) : kind -> nat := at_kind caps k (pred (caps k)).
(** One element after the other. An element with invalid content is left out, everything from an element on that is not
    known (padding among them), does not fit into the block or finds no room is ignored. *)
Fixpoint items_in (fuel : nat) (mu : N) (caps : kind -> nat) (l : list N) : list item :=
  match fuel with
  | O => []
  | S f =>
    match announced mu l with
    | None => []
    | Some (k, flow, h, n) =>
      if ((0 <? caps k) && (h + n <=? length l))%nat then
        match meaning k mu flow (firstn n (skipn h l)) with
        | Some i => i :: items_in f mu (less caps k) (skipn (h + n) l)
        | None => items_in f mu caps (skipn (h + n) l)
        end
      else []
    end
  end.
Definition items (mu : N) (caps : kind -> nat) (l : list N) : list item := items_in (length l) mu caps l.

Record pdu := mkPdu { pdu_type : option mht; pdu_common : option mch; pdu_items : list item }.
Definition common_size (type : N) : nat :=
  match type with 0 => 2%nat | 1 => 7%nat | 2 => 10%nat | 3 => 6%nat | _ => 0%nat end.
Definition common_header (type : N) (l : list N) : option mch :=
  match type with
  | 0 => match dh_unpack l with Ok (h, true) => Some (MchData h) | _ => None end
  | 1 => match bh_unpack l with Ok (h, true) => Some (MchBeacon h) | _ => None end
  | 2 => match uh_unpack l with Ok (h, true) => Some (MchUnicast h) | _ => None end
  | 3 => match rh_unpack l with Ok (h, true) => Some (MchRdb h) | _ => None end
  | _ => Some MchEmpty
  end.
Definition read_pdu (mu : N) (m : list N) : pdu :=
  match mht_unpack m with
  | Ok (h, true) =>
    let n := common_size (mht_type h) in
    if (1 + n <=? length m)%nat then
      match common_header (mht_type h) (skipn 1 m) with
      | Some c => mkPdu (Some h) (Some c) (items mu room (skipn (1 + n) m))
      | None => mkPdu (Some h) None []
      end
    else mkPdu (Some h) None []
  | _ => mkPdu None None []
  end.

(** What the user of the decoder gets: the common header, and for every entry of the vector of decoded elements what it
    holds; for user plane data the flow, and the bytes found at the data pointer. *)
Definition common_of (d : decoder) : option mch := match d_mch d with Some (_, c) => c | None => None end.
Definition item_of (m : list N) (e : element) : option item :=
  match el_content e with
  | Flowing p => Some (Data (get_flow_id (el_mmh e)) (firstn (N.to_nat (mx_len (el_mmh e))) (skipn p m)))
  | Cluster _ c => Some (Beacon c)
  | Target v => Some (Power_target v)
  | Time t => Some (Time_announcement t)
  | Never => None
  end.
Definition delivered (m : list N) (d : decoder) : list (option item) :=
  map (fun p => item_of m (nth (snd p) (d_pool d (fst p)) (mkEl mmh_zero Never))) (d_decoded d).

(** The decoder is called whenever more of the block [m] is there: after [w] bytes for each [w] in the list. *)
Fixpoint feed (m : list N) (ws : list nat) (d : decoder) : res decoder :=
  match ws with
  | [] => Ok d
  | w :: t => do d <- decode (firstn w m) d ; feed m t d
  end.
(** The numbers of bytes never decrease from [from] on and stay below [n]. *)
Fixpoint increments (from n : nat) (ws : list nat) : Prop :=
  match ws with [] => True | w :: t => (from <= w < n)%nat /\ increments w n t end.
