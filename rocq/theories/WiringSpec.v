(** How pools and termination points have to be connected. *)
From Coq Require Import Ascii String.
From Verif Require Import Base UpperCfg Wiring.
Open Scope nat_scope.

(** The names of the firmwares (firmware_name in the sources of upper). *)
Definition known (f : str) : Prop :=
  f = lit "basic" \/ f = lit "chscanner" \/ f = lit "loopback_mmie" \/ f = lit "loopback_ratio" \/ f = lit "loopback_snr" \/
  f = lit "nrf" \/ f = lit "p2p_ft" \/ f = lit "p2p_pt" \/ f = lit "rtt" \/ f = lit "txrxagc" \/ f = lit "txrxdelay".

Definition begins (name f : str) : Prop := exists rest, name = f ++ rest.

Record wired (n : nat) (cs : list tpoint_config) (tps : list tpoint) (pools : list pool) : Prop := {
  (** one termination point per configuration, with this configuration and a firmware its name begins with *)
  w_configs : map config tps = cs;
  w_firmware : forall t, In t tps -> known (firmware t) /\ begins (firmware_name (config t)) (firmware t);
  w_pools : List.length pools = n;
  (** every pool calls a termination point that controls this pool, under the number the pool uses for the token, with the
      token of this termination point and its network ids *)
  w_calls : forall p x, nth_error pools p = Some x ->
    exists t, nth_error tps (calls x) = Some t /\ nth_error (lower_ctrl_vec t) (token_call_id x) = Some p /\
      pool_token x = token t /\ networks x = network_ids (config t);
  (** every pool a termination point controls calls it *)
  w_controls : forall k t i p, nth_error tps k = Some t -> nth_error (lower_ctrl_vec t) i = Some p ->
    exists x, nth_error pools p = Some x /\ calls x = k /\ token_call_id x = i;
  (** every termination point controls some pool *)
  w_used : forall t, In t tps -> lower_ctrl_vec t <> [];
  (** termination points do not share tokens *)
  w_tokens : forall k k' t t', nth_error tps k = Some t -> nth_error tps k' = Some t' -> token t = token t' -> k = k';
  (** numbers fit into a token *)
  w_fits : forall x, In x pools -> token_call_id x < 4
}.

(** What is accepted. *)
Definition startable (simulation : bool) (n : nat) (cs : list tpoint_config) : Prop :=
  (forall k c, nth_error cs k = Some c -> id c = Z.of_nat k) /\
  (forall c, In c cs -> exists f, known f /\ begins (firmware_name c) f) /\
  1 <= n <= 4 /\ (List.length cs = n \/ (List.length cs = 1 /\ simulation = false)).
