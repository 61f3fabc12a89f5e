(** ETSI TS 103 636-4, 6.4.2.4 to 6.4.2.8: the association and reconfiguration messages as bit fields. The arguments
    [r1], [r2], ... are the reserved bits, zero when sending. *)
From Coq Require Import Sorted.
From Verif Require Import Base WireSpec MacHeader ChannelsSpec BeaconsSpec AssociationIes.
Open Scope N_scope.

Definition hq_ok (h : harq_config) : Prop := hq_processes h < 8 /\ hq_delay h <= 30.
Definition flow_ok (i : N) : Prop := 1 <= i <= 6.
Definition ft_ok (f : ft_config) : Prop := ft_nbp f <= 6 /\ ft_cbp f <= 10 /\ channel (ft_next_channel f) /\ ft_time_to_next f < 2 ^ 32.
(** A value of an enumeration with [upper], or one of its markers. *)
Definition enumerator (upper v : N) : Prop := v <= upper \/ v = UNDEF32.
(** A set, as the list of its elements in order. *)
Definition ascending (l : list N) : Prop := StronglySorted N.lt l.
Definition same_elements (l l' : list N) : Prop := forall x, In x l <-> In x l'.

Definition aq_ok (c : association_request) : Prop :=
  aq_cause c <= 6 /\ aq_flows c <> [] /\ Forall flow_ok (aq_flows c) /\ if_present ft_ok (aq_ft c) /\
  if_present channel (aq_current c) /\ hq_ok (aq_tx c) /\ hq_ok (aq_rx c).
Definition hq_fields (h : harq_config) : list (N * N) := [(3, hq_processes h); (5, hq_delay h)].
(** [fl]: the flow octets, reserved bits and identity *)
Definition aq_fields (c : association_request) (fl : list (N * N)) (r1 r2 r3 : N) : list (N * N) :=
  [(3, aq_cause c); (3, N.of_nat (length fl)); (1, bit (aq_constraints c)); (1, present (aq_ft c));
   (1, present (aq_current c)); (7, r1)] ++ hq_fields (aq_tx c) ++ hq_fields (aq_rx c) ++
  flat_map (fun x => [(2, fst x); (6, snd x)]) fl ++
  field_opt (aq_ft c) (fun f => [(4, ft_nbp f); (4, ft_cbp f); (3, r2); (13, ft_next_channel f); (32, ft_time_to_next f)]) ++
  field_opt (aq_current c) (fun n => [(3, r3); (13, n)]).
(** The flow octets as sent. *)
Definition sent (flows : list N) : list (N * N) := map (fun i => (0, i)) flows.

(** Association response: none of the flows is accepted 0, those included 1, all requested 7. *)
Definition ar_rejection (c : association_response) (cause time : N) : Prop :=
  ar_reject c = Some (mkRj cause time) /\ cause <= 4 /\ time <= 8.
Definition ar_acceptance_ok (c : association_response) : Prop :=
  ar_reject c = None /\ if_present (fun h => hq_ok (fst h) /\ hq_ok (snd h)) (ar_harq c) /\
  (ar_accepted c = 0 \/ ar_accepted c = 1 /\ ar_flows c <> [] \/ ar_accepted c = 7) /\ Forall flow_ok (ar_flows c) /\
  if_present (fun g => gi_group g < 128 /\ gi_tag g < 128) (ar_group c).

(** Reconfiguration. [code]: the field that gives the number of flows; [fl]: the flow octets, released, reserved and identity *)
Definition rc_fields (tx rx : option harq_config) (capability : bool) (code change : N) (fl : list (bool * N * N)) : list (N * N) :=
  [(1, present tx); (1, present rx); (1, bit capability); (3, code); (2, change)] ++
  field_opt tx hq_fields ++ field_opt rx hq_fields ++
  flat_map (fun x => [(1, bit (fst (fst x))); (1, snd (fst x)); (6, snd x)]) fl.
(** The flows in the flow octets. *)
Definition flows_in (fl : list (bool * N * N)) : list flow := map (fun x => mkFl (snd x) (fst (fst x))) fl.
Definition sent_rc (flows : list flow) : list (bool * N * N) := map (fun f => (fl_released f, 0, fl_id f)) flows.
Definition fl_ok (f : flow) : Prop := flow_ok (fl_id f).
Definition ascending_rc (l : list flow) : Prop := ascending (map fl_id l).
Definition rq_ok (c : reconf_request) : Prop :=
  if_present hq_ok (rq_tx c) /\ if_present hq_ok (rq_rx c) /\ Forall fl_ok (rq_flows c) /\ rq_change c <= 3.
(** A list of flows is only there if the flows accepted are those listed. *)
Definition rs_ok (c : reconf_response) : Prop :=
  if_present hq_ok (rs_tx c) /\ if_present hq_ok (rs_rx c) /\ rs_change c <= 3 /\ Forall fl_ok (rs_flows c) /\
  ((rs_accepted c = 0 \/ rs_accepted c = 7) /\ rs_flows c = [] \/ rs_accepted c = 1 /\ rs_flows c <> []).
Definition rs_field (c : reconf_response) : N := if rs_accepted c =? 1 then N.of_nat (length (rs_flows c)) else rs_accepted c.
