(** What a well-formed configuration file contains. *)
From Coq Require Import QArith Ascii String.
From Verif Require Import Base UpperCfg.
Open Scope nat_scope.

(** A decimal numeral, leading zeros allowed. *)
Definition digit_of (c : ascii) (d : Z) : Prop := (0 <= d <= 9 /\ Z.of_nat (nat_of_ascii c) = 48 + d)%Z.
Definition numeral (s : str) (n : Z) : Prop :=
  s <> [] /\ exists ds, Forall2 digit_of s ds /\ fold_left (fun a d => (10 * a + d)%Z) ds 0%Z = n.

(** The value of a key in an object. *)
Inductive has (k : str) (v : json) : list (str * json) -> Prop :=
| has_here : forall l, has k v ((k, v) :: l)
| has_later : forall k' v' l, k' <> k -> has k v l -> has k v ((k', v') :: l).

Definition int32 (z : Z) : Prop := (- 2 ^ 31 <= z < 2 ^ 31)%Z.
Definition uint32 (z : Z) : Prop := (0 <= z < 2 ^ 32)%Z.

(** A configuration that makes sense. *)
Definition sensible (c : tpoint_config) : Prop :=
  firmware_name c <> [] /\ (0 <= firmware_id c <= 999)%Z /\
  1 <= List.length (network_ids c) <= 10 /\ Forall uint32 (network_ids c) /\
  int32 (fst (server_threads c)) /\ int32 (snd (server_threads c)) /\
  int32 (fst (client_threads c)) /\ int32 (snd (client_threads c)).

(** The entry of a file says exactly this. *)
Definition says (key : str) (j : json) (c : tpoint_config) : Prop :=
  (exists s, key = lit "TPOINT" ++ s /\ numeral s (id c)) /\
  exists l, j = JObj l /\
    has (lit "firmware_name") (JString (firmware_name c)) l /\
    has (lit "firmware_id") (JInt (firmware_id c)) l /\
    has (lit "network_ids") (JArr (map JInt (network_ids c))) l /\
    has (lit "application_server_thread_config") (JArr [JInt (fst (server_threads c)); JInt (snd (server_threads c))]) l /\
    has (lit "application_client_thread_config") (JArr [JInt (fst (client_threads c)); JInt (snd (client_threads c))]) l.

(** The weaker relation that holds for every accepted entry: the text is kept, integers are kept up to 32 bits, the first
    number of an array is an integer. Later numbers of an array that are no integers are not covered. *)
Definition same32 (v : json) (z : Z) : Prop := forall x, v = JInt x -> (z mod 2 ^ 32 = x mod 2 ^ 32)%Z.
Definition same_array (k : str) (r : list Z) (o : list (str * json)) : Prop :=
  exists l, has k (JArr l) o /\ (exists x t, l = JInt x :: t) /\ Forall2 same32 l r.
Definition derived (j : json) (c : tpoint_config) : Prop :=
  exists o, j = JObj o /\
    has (lit "firmware_name") (JString (firmware_name c)) o /\
    (exists x, has (lit "firmware_id") (JInt x) o /\ (firmware_id c mod 2 ^ 32 = x mod 2 ^ 32)%Z) /\
    same_array (lit "network_ids") (network_ids c) o /\
    same_array (lit "application_server_thread_config") [fst (server_threads c); snd (server_threads c)] o /\
    same_array (lit "application_client_thread_config") [fst (client_threads c); snd (client_threads c)] o.
