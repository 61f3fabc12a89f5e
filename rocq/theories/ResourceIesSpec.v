(** ETSI TS 103 636-4, 6.4.3.3 and 6.4.3.4: the resource allocation IE and the random access resource IE as bit fields.
    The arguments [r0], [r1], [r2] are the reserved bits, zero when sending. *)
From Verif Require Import Base WireSpec ChannelsSpec BeaconsSpec ResourceIes.
Open Scope N_scope.

(** Subslots have 8 bits for a subcarrier scaling factor up to 4 and 16 bits above. *)
Definition start_bits (mu : N) : N := if mu <=? 4 then 8 else 16.
Definition al_ok (mu : N) (a : allocation) : Prop := al_start a < 2 ^ start_bits mu /\ al_length a < 128.
Definition rp_ok (r : repeat_info) : Prop := 1 <= rp_repetition r < 256 /\ rp_validity r < 256.
Definition al_fields (mu : N) (a : allocation) : list (N * N) :=
  [(start_bits mu, al_start a); (1, bit (al_in_slots a)); (7, al_length a)].
Definition rp_fields (r : repeat_info) : list (N * N) := [(8, rp_repetition r); (8, rp_validity r)].
Definition ch_fields (r n : N) : list (N * N) := [(3, r); (13, n)].

(** Repeat field: single, in following frames, in following subslots, the same with specific resources *)
Definition repeat_field (o : option repeat_info) : N :=
  match o with
  | None => 0
  | Some r => 1 + bit (rp_in_subslots r) + 2 * bit (rp_specific r)
  end.

Definition ra_ok (mu : N) (c : resource_allocation) : Prop :=
  if_present (al_ok mu) (ra_dl c) /\ if_present (al_ok mu) (ra_ul c) /\
  if_present (fun s => s < 2 ^ 16) (ra_short_rd_id c) /\ if_present rp_ok (ra_repeat c) /\
  if_present (fun s => s < 256) (ra_sfn_offset c) /\ if_present channel (ra_channel c) /\
  if_present (fun f => 2 <= f <= 11) (ra_failure c).
(** All resources are released: nothing else is present. *)
Definition ra_release (c : resource_allocation) : Prop := c = mkRa None None false None None None None None.
(** Resources in both directions, repeated. *)
Definition ra_full (c : resource_allocation) : Prop := ra_dl c <> None /\ ra_ul c <> None /\ ra_repeat c <> None.

Definition ra_fields (mu : N) (c : resource_allocation) (r0 r1 r2 : N) : list (N * N) :=
  [(1, present (ra_ul c)); (1, present (ra_dl c)); (1, bit (ra_additional c)); (1, present (ra_short_rd_id c));
   (3, repeat_field (ra_repeat c)); (1, present (ra_sfn_offset c));
   (1, present (ra_channel c)); (1, present (ra_failure c)); (6, r0)] ++
  field_opt (ra_dl c) (al_fields mu) ++ field_opt (ra_ul c) (al_fields mu) ++
  field_opt (ra_short_rd_id c) (fun s => [(16, s)]) ++ field_opt (ra_repeat c) rp_fields ++
  field_opt (ra_sfn_offset c) (fun s => [(8, s)]) ++ field_opt (ra_channel c) (ch_fields r1) ++
  field_opt (ra_failure c) (fun f => [(4, r2); (4, f)]).

Definition rr_ok (mu : N) (c : random_access) : Prop :=
  if_present (fun r => rp_ok r /\ rp_specific r = false) (rr_repeat c) /\
  if_present (fun s => s < 256) (rr_sfn_offset c) /\ if_present channel (rr_channel c) /\ if_present channel (rr_channel_2 c) /\
  al_ok mu (rr_allocation c) /\ rr_max_length c < 16 /\ rr_cw_min c < 8 /\ rr_window c < 16 /\ rr_cw_max c < 8.
Definition rr_fields (mu : N) (c : random_access) (r0 r1 r2 : N) : list (N * N) :=
  [(3, r0); (2, repeat_field (rr_repeat c)); (1, present (rr_sfn_offset c)); (1, present (rr_channel c)); (1, present (rr_channel_2 c));
   (start_bits mu, al_start (rr_allocation c)); (1, bit (al_in_slots (rr_allocation c))); (7, al_length (rr_allocation c));
   (1, bit (rr_max_in_slots c)); (4, rr_max_length c); (3, rr_cw_min c);
   (1, bit (rr_delay c)); (4, rr_window c); (3, rr_cw_max c)] ++
  field_opt (rr_repeat c) rp_fields ++ field_opt (rr_sfn_offset c) (fun s => [(8, s)]) ++
  field_opt (rr_channel c) (ch_fields r1) ++ field_opt (rr_channel_2 c) (ch_fields r2).
