(** ETSI TS 103 636-4, 6.4.2.2 and 6.4.2.3: the network and the cluster beacon message as bit fields. The arguments
    [r0], [r1], ... are the reserved bits, zero when sending. *)
From Verif Require Import Base WireSpec ChannelsSpec Beacons.
Open Scope N_scope.

(** A channel of some band. *)
Definition channel (n : N) : Prop := exists b, in_band b n.
Definition if_present {A} (P : A -> Prop) (o : option A) : Prop := match o with Some x => P x | None => True end.
Definition present {A} (o : option A) : N := match o with Some _ => 1 | None => 0 end.
Definition bit (b : bool) : N := if b then 1 else 0.
Definition field_opt {A} (o : option A) (f : A -> list (N * N)) : list (N * N) := match o with Some x => f x | None => [] end.

(** Codes of the transmit power 3 .. 15, of the periods 0 .. 6 and 0 .. 10, of the trigger count 0 .. 15, of the quality
    thresholds 0 .. 3. The frame offset has 8 bits for a subcarrier scaling factor up to 4 and 16 bits above. *)
Definition cb_ok (mu : N) (c : cluster_beacon) : Prop :=
  cb_sfn c < 256 /\
  if_present (fun p => 3 <= p <= 15) (cb_power c) /\
  if_present (fun o => o < (if mu <=? 4 then 256 else 65536)) (cb_offset c) /\
  if_present channel (cb_next_channel c) /\
  if_present (fun t => t < 2 ^ 32) (cb_time_to_next c) /\
  cb_nbp c <= 6 /\ cb_cbp c <= 10 /\ cb_count c <= 15 /\ cb_rel c <= 3 /\ cb_min c <= 3.
Definition cb_fields (mu : N) (c : cluster_beacon) (r0 r1 r2 : N) : list (N * N) :=
  [(8, cb_sfn c);
   (3, r0); (1, present (cb_power c)); (1, bit (cb_constraints c)); (1, present (cb_offset c));
   (1, present (cb_next_channel c)); (1, present (cb_time_to_next c));
   (4, cb_nbp c); (4, cb_cbp c);
   (4, cb_count c); (2, cb_rel c); (2, cb_min c)] ++
  field_opt (cb_power c) (fun p => [(4, r1); (4, p)]) ++
  field_opt (cb_offset c) (fun o => [((if mu <=? 4 then 8 else 16), o)]) ++
  field_opt (cb_next_channel c) (fun n => [(3, r2); (13, n)]) ++
  field_opt (cb_time_to_next c) (fun t => [(32, t)]).

(** The additional channels are used in order. *)
Definition nb_ok (c : network_beacon) : Prop :=
  if_present (fun p => 3 <= p <= 15) (nb_power c) /\
  if_present channel (nb_current c) /\
  if_present channel (nb_channel_0 c) /\ if_present channel (nb_channel_1 c) /\ if_present channel (nb_channel_2 c) /\
  nb_nbp c <= 6 /\ nb_cbp c <= 10 /\ channel (nb_next_channel c) /\ nb_time_to_next c < 2 ^ 32.
Definition nb_in_order (c : network_beacon) : Prop :=
  (nb_channel_0 c = None -> nb_channel_1 c = None) /\ (nb_channel_1 c = None -> nb_channel_2 c = None).
Definition nb_fields (c : network_beacon) (r0 r1 r2 r3 r4 r5 r6 : N) : list (N * N) :=
  [(3, r0); (1, present (nb_power c)); (1, bit (nb_constraints c)); (1, present (nb_current c));
   (2, present (nb_channel_0 c) + present (nb_channel_1 c) + present (nb_channel_2 c));
   (4, nb_nbp c); (4, nb_cbp c);
   (3, r1); (13, nb_next_channel c);
   (32, nb_time_to_next c)] ++
  field_opt (nb_power c) (fun p => [(4, r2); (4, p)]) ++
  field_opt (nb_current c) (fun n => [(3, r3); (13, n)]) ++
  field_opt (nb_channel_0 c) (fun n => [(3, r4); (13, n)]) ++
  field_opt (nb_channel_1 c) (fun n => [(3, r5); (13, n)]) ++
  field_opt (nb_channel_2 c) (fun n => [(3, r6); (13, n)]).
(** The same message with the additional channels moved up to the first free places. *)
Definition nb_moved_up (c : network_beacon) : network_beacon :=
  let '(a, b, d) :=
    match nb_channel_0 c, nb_channel_1 c, nb_channel_2 c with
    | None, None, x => (x, None, None)
    | None, Some x, y => (Some x, y, None)
    | Some x, None, y => (Some x, y, None)
    | x, y, z => (x, y, z)
    end in
  mkNb (nb_power c) (nb_constraints c) (nb_current c) a b d (nb_nbp c) (nb_cbp c) (nb_next_channel c) (nb_time_to_next c).
