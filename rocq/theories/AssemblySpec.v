(** Valid elements and headers of a MAC PDU. *)
From Verif Require Import Base WireSpec MacHeader MacHeaderSpec Mux Beacons BeaconsSpec SmallIes SmallIesSpec Decoder DecoderSpec Assembly.
Open Scope N_scope.

Definition element_ok (mu : N) (e : element_tx) : Prop :=
  match e with
  | TxData flow l => 1 <= flow <= 4 /\ 1 <= N.of_nat (length l) <= 65535 /\ bytes l
  | TxBeacon c => cb_ok mu c
  | TxPower v => 45 <= v <= 60
  | TxTime t => ta_ok t
  end.
(** bytes it takes *)
Definition element_size (mu : N) (e : element_tx) : nat :=
  match e with
  | TxData _ l => ((if length l <=? 255 then 2 else 3) + length l)%nat
  | TxBeacon c => S (cb_size mu c)
  | TxPower _ => 2
  | TxTime _ => 12
  end.
Definition element_kind (e : element_tx) : kind :=
  match e with
  | TxData _ _ => User_Plane_Data | TxBeacon _ => Cluster_Beacon | TxPower _ => Power_Target | TxTime _ => Time_Announce
  end.
Definition how_many (k : kind) (es : list element_tx) : nat :=
  length (filter (fun e => if kind_dec (element_kind e) k then true else false) es).
Definition as_item (e : element_tx) : item :=
  match e with
  | TxData flow l => Data flow l | TxBeacon c => Beacon c | TxPower v => Power_target v | TxTime t => Time_announcement t
  end.
Definition type_of (c : mch) : N :=
  match c with MchData _ => 0 | MchBeacon _ => 1 | MchUnicast _ => 2 | MchRdb _ => 3 | MchEmpty => 4 end.
(** The beacon header loses the lowest byte of the network ID on the way (C19). *)
Definition as_received (c : mch) : mch :=
  match c with MchBeacon h => MchBeacon (mkBh (256 * (bh_netid h / 256)) (bh_tx h)) | _ => c end.

(** The datagrams sent in a block with [n] bytes left: as many as leave at least one byte free. *)
Fixpoint taken (n : nat) (q : list (list N)) : list (list N) :=
  match q with
  | [] => []
  | d :: q => let s := element_size 1 (TxData 1 d) in if (s <? n)%nat then d :: taken (n - s) q else []
  end.
