(** What a user of the USRP radio expects of its transmissions. *)
From Verif Require Import Base UsrpTx.
Open Scope Z_scope.

Section spec.
Variable smp : Type.
Variable zero : smp.
Variable adj : Type.
Notation packet := (packet smp adj).
Notation action := (action smp adj).

(** *** The device: a burst starts at its time, and its samples follow each other without a gap *)
(** [Idle e]: no burst, the last one ended before time e (if there was one). [Burst e]: the next sample is sent at e. *)
Inductive device := Idle (e : option Z) | Burst (e : Z).
(** The samples on air with their times; None if the driver would complain: a burst within a burst, samples outside
    of a burst, or a burst that starts before the last one ended. *)
Definition on_device (d : device) (a : action) : option (device * list (Z * smp)) :=
  match a with
  | Send _ _ start eob _ data =>
      match match d, start with
            | Idle e, Some s => if match e with Some e => e <=? s | None => true end then Some s else None
            | Burst e, None => Some e
            | _, _ => None
            end with
      | Some s => let e := s + Z.of_nat (length data) in
                  Some (if eob then Idle (Some e) else Burst e, combine (map (fun i => s + Z.of_nat i) (seq 0 (length data))) data)
      | None => None
      end
  | _ => Some (d, [])
  end.
Fixpoint air (d : device) (l : list action) : option (device * list (Z * smp)) :=
  match l with
  | [] => Some (d, [])
  | a :: l => match on_device d a with
              | Some (d, x) => match air d l with Some (d, y) => Some (d, x ++ y) | None => None end
              | None => None
              end
  end.

(** *** What is to be heard at the antenna *)
Definition end_of (p : packet) : Z := tx_time _ _ p + Z.of_nat (length (samples _ _ p)).
Definition on_air (p : packet) (t : Z) : bool := (tx_time _ _ p <=? t) && (t <? end_of p).
(** The signal at time t: the sample of the packet on air, otherwise nothing. *)
Definition signal (l : list packet) (t : Z) : smp :=
  match find (fun p => on_air p t) l with
  | Some p => nth (Z.to_nat (t - tx_time _ _ p)) (samples _ _ p) zero
  | None => zero
  end.

(** The packets are longer than a call of send(), do not overlap, and the gap between two of them is less than 2^31
    samples. *)
Record well_timed (spp : Z) (l : list packet) : Prop := {
  long_enough : forall p, In p l -> spp < Z.of_nat (length (samples _ _ p));
  in_order : forall i p q, nth_error l i = Some p -> nth_error l (S i) = Some q ->
               end_of p <= tx_time _ _ q < end_of p + 2147483648
}.

(** The driver takes all samples of a call that starts a burst. *)
Definition starts_taken (l : list action) : Prop :=
  forall s e n d, In (Send _ _ (Some s) e n d) l -> n = Z.of_nat (length d).

(** The adjustments commanded *)
Definition adjustments (l : list action) : list action :=
  filter (fun a => match a with Send _ _ _ _ _ _ => false | _ => true end) l.
Definition wanted (advance : Z) (p : packet) : list action :=
  match tx_adj _ _ p with Some a => [Adjust_tx _ _ (end_of p - advance) a] | None => [] end ++
  match rx_adj _ _ p with Some a => [Adjust_rx _ _ (end_of p - advance) a] | None => [] end.
(** How many packets have been transmitted and their buffers released *)
Definition released (t : thread) : nat :=
  match at_place t with Outer | First _ _ => expected t | Middle b _ | Gap b _ _ _ => b end.
End spec.
