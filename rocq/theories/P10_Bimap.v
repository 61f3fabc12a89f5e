(** C14: the bidirectional map. *)
From Verif Require Import Base Bimap BimapSpec BimapFacts.
Open Scope Z_scope.

(** Lookups after any successful history. *)
Theorem C14_bimap_is_bijection :
  forall u os m, exec u [] os = Ok m ->
    (forall k, get_v m k = match effects os k with Some v => Ok v | None => Abort end) /\
    (u = true -> forall k v, get_v m k = Ok v <-> get_k m v = Ok k) /\
    (u = true -> forall v, get_k m v = Abort <-> ~ has_value (effects os) v) /\
    (forall k, is_k_known m k = true <-> effects os k <> None) /\
    (forall v, is_v_known m v = true <-> has_value (effects os) v) /\
    size_is (effects os) (get_k_cnt m) /\ get_v_cnt m = get_k_cnt m.
Proof. exact bimap_ok. Qed.
Print Assumptions C14_bimap_is_bijection.

(** A history succeeds exactly when no insert or update meets a known key or (unique map) value and
    no erase or update meets an unknown key; otherwise it aborts. *)
Theorem C14_aborts_exactly_on_misuse :
  forall u os,
    (all_allowed u fempty os -> is_ok (exec u [] os) = true) /\
    (~ all_allowed u fempty os -> exec u [] os = Abort).
Proof. exact history_exact. Qed.
Print Assumptions C14_aborts_exactly_on_misuse.

(** The not unique map: the keys of a value are exactly those mapped to it, each once. *)
Theorem C14_range_of_value :
  forall os m v, exec false [] os = Ok m ->
    match get_k_range m v with
    | Ok ks => NoDup ks /\ ks <> [] /\ forall k, In k ks <-> effects os k = Some v
    | Abort => ~ has_value (effects os) v
    | _ => False
    end.
Proof. exact bimap_range. Qed.
Print Assumptions C14_range_of_value.

Example C14_nonvacuous :
  exists m, exec true [] [Insert 1 10; Insert 2 20; SetV 1 11; Erase 2; Insert 3 20; Insert 2 10] = Ok m /\
    get_v m 1 = Ok 11 /\ get_k m 20 = Ok 3 /\ get_k m 10 = Ok 2 /\ get_k_cnt m = 3%nat.
Proof. eexists. split; [reflexivity|]. repeat split. Qed.
Example C14_misuse : exec true [] [Insert 1 10; Insert 2 10] = Abort.
Proof. reflexivity. Qed.
Example C14_multi :
  exists m, exec false [] [Insert 1 10; Insert 2 10; Insert 3 5] = Ok m /\ get_k_range m 10 = Ok [1; 2].
Proof. eexists. split; reflexivity. Qed.

(** Finding: updating a key to the value it already has aborts. *)
Theorem C14_set_same_value_aborts_refuted : exec true [] [Insert 1 10; SetV 1 10] = Abort.
Proof. reflexivity. Qed.
Print Assumptions C14_set_same_value_aborts_refuted.
