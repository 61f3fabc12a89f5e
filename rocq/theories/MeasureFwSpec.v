(** What the measuring firmwares are for. *)
From Coq Require Import QArith.
From Verif Require Import Base MeasureFw.
Open Scope nat_scope.

(** A root mean square the scanner can tell from its initial extremes. *)
Definition plausible (x : Q) : Prop := (- 1000000000 # 1 < x)%Q /\ (x < 1000000000 # 1)%Q.

(** [lo] and [hi] are the extremes of [l]. *)
Definition extremes (l : list Q) (lo hi : Q) : Prop :=
  In lo l /\ In hi l /\ forall x, In x l -> (lo <= x)%Q /\ (x <= hi)%Q.

(** The packets sent by the delay firmware, in order. *)
Fixpoint sent (l : list delay_out) : list packet :=
  match l with
  | [] => []
  | DSent (Some p) _ :: l' => p :: sent l'
  | _ :: l' => sent l'
  end.
(** The requested times, in order. *)
Fixpoint requests (l : list delay_out) : list Z :=
  match l with
  | [] => []
  | DSent _ t :: l' => t :: requests l'
  | _ :: l' => requests l'
  end.
(** The time of the packet of the latest call. *)
Fixpoint latest (t : Z) (l : list delay_out) : Z :=
  match l with
  | [] => t
  | DSent (Some p) _ :: l' => latest (tx_time p) l'
  | DSent None _ :: l' => latest UNDEFINED_EARLY l'
  | DLog _ _ _ :: l' => latest t l'
  end.

(** Packets are numbered from [n] and each begins after the one before has ended. *)
Fixpoint in_line (n : nat) (t : Z) (l : list packet) : Prop :=
  match l with
  | [] => True
  | p :: l' => order_id p = n /\ (t <= tx_time p)%Z /\ in_line (n + 1) (tx_time p + tx_length p) l'
  end.
Fixpoint numbered_from (n : nat) (l : list packet) : Prop :=
  match l with
  | [] => True
  | p :: l' => order_id p = n /\ numbered_from (n + 1) l'
  end.

(** The antennas changed in measurement [m]: [k] neighbours, the first moves by one every two measurements. *)
Definition chosen (ants k m a : nat) : bool :=
  existsb (fun i => a =? (m / 2 + i) mod ants) (seq 0 (Nat.min ants k)).

(** How far a gain is from its first value after [m] measurements: not at all after an even number. *)
Definition offset (c : agc_cfg) (m a : nat) : Z :=
  if Nat.even m then 0%Z else if chosen (a_ants c) (a_simul c) m a then a_change c else 0%Z.
Definition changes_tx (c : agc_cfg) : bool := match a_type c with ATx | ABoth => true | _ => false end.
Definition changes_rx (c : agc_cfg) : bool := match a_type c with ARx | ABoth => true | _ => false end.
