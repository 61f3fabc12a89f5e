(** What a user of the simulated radio expects of its transmissions. *)
From Verif Require Import Base SimTx.
Open Scope Z_scope.

Section spec.
Variable smp : Type.
Variable zero : smp.
Variable hw : smp -> smp.
Variable spp : Z.
Notation packet := (packet smp).

Definition on_air (p : packet) (t : Z) : bool := (tx_time _ p <=? t) && (t <? tx_time _ p + Z.of_nat (length (samples _ p))).

(** The signal at time t: the sample of the packet on air, otherwise nothing. *)
Definition signal (l : list packet) (t : Z) : smp :=
  match find (fun p => on_air p t) l with
  | Some p => hw (nth (Z.to_nat (t - tx_time _ p)) (samples _ p) zero)
  | None => zero
  end.

(** n consecutive times *)
Definition times (t : Z) (n : nat) : list Z := map (fun i => t + Z.of_nat i) (seq 0 n).

(** The packets are longer than an spp, do not overlap, and each is handed over at least one spp ahead. *)
Record well_timed (start : Z) (l : list packet) : Prop := {
  long_enough : forall p, In p l -> spp < Z.of_nat (length (samples _ p));
  in_future : forall p, In p l -> start <= tx_time _ p;
  in_order : forall i p q, nth_error l i = Some p -> nth_error l (S i) = Some q ->
               tx_time _ p + Z.of_nat (length (samples _ p)) <= tx_time _ q;
  ahead : forall p, In p l -> visible_from _ p + spp <= tx_time _ p
}.

(** Start of the spp containing time t. *)
Definition spp_start (start t : Z) : Z := start + (t - start) / spp * spp.

(** Packet q comes after packet p. When p ends, q is not longer than p, or is not looked at because p ends with
    its spp, or starts in the very spp in which p ends, or has not been handed over yet. *)
Definition harmless (start : Z) (p q : packet) : Prop :=
  let e := tx_time _ p + Z.of_nat (length (samples _ p)) in
  Z.of_nat (length (samples _ q)) <= Z.of_nat (length (samples _ p)) \/
  e = spp_start start e \/
  tx_time _ q < spp_start start e + spp \/
  spp_start start e < visible_from _ q.
End spec.
