(** Model of the bidirectional map. lib/include/dectnrp/common/adt/bimap.hpp, template bimap_t. *)
From Verif Require Import Base.
Open Scope Z_scope.

(** boost::bimap (bimap.hpp 110-115) holds a set of relations (key, value), reachable through a left
    view indexed by key and a right view indexed by value. [u] is the template argument unique: the
    right view is an unordered_set_of or an unordered_multiset_of. Keys and values are integers;
    insertion order is irrelevant to the code and only fixes a representation here. *)
Definition bm := list (Z * Z).

Definition left_find (m : bm) (k : Z) : option (Z * Z) := find (fun p => fst p =? k) m.
Definition right_find (m : bm) (v : Z) : option (Z * Z) := find (fun p => snd p =? v) m.

Definition is_some {A} (o : option A) : bool := match o with Some _ => true | None => false end.

(** is_k_known, bimap.hpp 80; is_v_known, bimap.hpp 55-57 *)
Definition is_k_known (m : bm) (k : Z) : bool := is_some (left_find m k).
Definition is_v_known (m : bm) (v : Z) : bool := is_some (right_find m v).

(** boost::bimap::insert: refused when a set view already has an equal element. *)
Definition boost_insert (u : bool) (m : bm) (k v : Z) : option bm :=
  if (is_k_known m k || (u && is_v_known m v))%bool then None else Some (m ++ [(k, v)]).

(** boost left.erase(iterator) *)
Definition boost_erase (m : bm) (k : Z) : bm := filter (fun p => negb (fst p =? k)) m.

(** boost left.replace_data(iterator, v): refused when another relation has v in a set view. *)
Definition boost_replace (u : bool) (m : bm) (k v : Z) : option bm :=
  if (u && existsb (fun p => (snd p =? v) && negb (fst p =? k)) m)%bool then None
  else Some (map (fun p => if fst p =? k then (k, v) else p) m).

(** insert, bimap.hpp 39-46 *)
Definition insert (u : bool) (m : bm) (k v : Z) : res bm :=
  guard (negb (is_k_known m k)) (
  guard (negb (u && is_v_known m v)) (
  match boost_insert u m k v with Some m' => Ok m' | None => Abort end)).

(** erase, bimap.hpp 48-51 *)
Definition erase (m : bm) (k : Z) : res bm :=
  guard (is_k_known m k) (Ok (boost_erase m k)).

(** set_v, bimap.hpp 59-66 *)
Definition set_v (u : bool) (m : bm) (k v : Z) : res bm :=
  guard (is_k_known m k) (
  guard (negb (u && is_v_known m v)) (
  match boost_replace u m k v with Some m' => Ok m' | None => Abort end)).

(** get_v, bimap.hpp 68-71; left.at throws for an unknown key *)
Definition get_v (m : bm) (k : Z) : res Z :=
  guard (is_k_known m k) (match left_find m k with Some p => Ok (snd p) | None => Throw end).

(** get_k, bimap.hpp 82-87 (unique only) *)
Definition get_k (m : bm) (v : Z) : res Z :=
  guard (is_v_known m v) (match right_find m v with Some p => Ok (fst p) | None => Throw end).

(** get_k_range, bimap.hpp 95-100 (not unique only): the keys of all relations with this value. *)
Definition get_k_range (m : bm) (v : Z) : res (list Z) :=
  guard (is_v_known m v) (Ok (map fst (filter (fun p => snd p =? v) m))).

(** get_k_cnt 102, get_v_cnt 77: the size of either view is the number of relations.
    get_v_as_opt (73-75) and get_k_as_opt (89-93) do not compile when instantiated (a conditional
    expression of V and nullopt_t); nothing uses them; not modelled. reserve (104-106) only affects
    hashing. *)
Definition get_k_cnt (m : bm) : nat := length m.
Definition get_v_cnt (m : bm) : nat := length m.

Inductive op := Insert (k v : Z) | Erase (k : Z) | SetV (k v : Z).

Definition step (u : bool) (m : bm) (o : op) : res bm :=
  match o with
  | Insert k v => insert u m k v
  | Erase k => erase m k
  | SetV k v => set_v u m k v
  end.

Fixpoint exec (u : bool) (m : bm) (os : list op) : res bm :=
  match os with
  | [] => Ok m
  | o :: r => do m' <- step u m o; exec u m' r
  end.
