(** The exporter of received packets as JSON files (common/json/json_export.cpp, phy/worker_pool.cpp 46-56).
    Any number of threads append entries; a thread takes one step at a time, in any order. *)
From Verif Require Import Base.
Open Scope nat_scope.

Section Exporter.
Context {J : Type}.

(** json_export.hpp 43-48, 148: the number of entries per file, json_length. The worker pool makes an exporter only
    with a length of at least 100 (worker_pool.cpp 46-56, worker_pool.hpp 58). *)
Variable len : nat.

(** json_export.cpp 94-99 get_number_with_leading_zeros: decimal digits, most significant first. std::setw pads to the
    given width and never cuts. The fuel covers the ten digits a uint32_t has at most. *)
Fixpoint decimal (fuel : nat) (n : Z) (acc : list Z) : list Z :=
  match fuel with
  | O => acc
  | S f => if (n <? 10)%Z then n :: acc else decimal f (n / 10)%Z ((n mod 10)%Z :: acc)
  end.
Definition with_leading_zeros (number : Z) (n_characters : nat) : list Z :=
  let d := decimal 10 number [] in repeat 0%Z (n_characters - length d) ++ d.

(** json_export.cpp 58-60: the name of a file, without the fixed prefix. postfix_file is a uint64_t and is converted
    to uint32_t in the call. N_postfix_file_characters is 10 (json_export.hpp 56). *)
Definition file_name (postfix_file : nat) : list Z :=
  with_leading_zeros (Z.of_nat postfix_file mod 2 ^ 32)%Z 10.

(** Where a thread stands in append(), json_export.cpp 30-83.
    [Out]      not in append().
    [Insert]   holds lockv_json, has to add the entry (lines 41-46).
    [Check]    has to test whether the JSON is full (line 49).
    [Release]  has to unlock lockv_json (line 71), with what it has to write afterwards, if anything.
    [Export]   has to write the JSON (line 76).
    [Wipe]     has to clear it (line 79).
    [Free]     has to unlock lockv_disk (line 81).
    [Dead]     left append() with an exception or by a failed assertion. *)
Inductive place : Type :=
| Out
| Insert (j : J)
| Check
| Release (w : option (bool * list Z))
| Export (b : bool) (name : list Z)
| Wipe (b : bool)
| Free
| Dead.

(** json_export.hpp 137-156. An entry is kept with the number in its key; a key is new whenever an entry is added, so
    update() on line 44 adds it at the end of the ordered JSON. The counters are unbounded (2^64 entries are not
    reached). The locks are the holding thread, if any. The counter of statistics is left out. *)
Record exporter : Type := mk {
  json_arr : bool -> list (nat * J);
  json_arr_write : bool;
  lockv_json : option nat;
  lockv_disk : option nat;
  postfix_file : nat;
  postfix_entry : nat;
  at_place : nat -> place
}.

(** json_export.hpp 43-48, 138-156 *)
Definition created : exporter := mk (fun _ => []) false None None 0 0 (fun _ => Out).

Definition set_at {A B : Type} (eqb : A -> A -> bool) (f : A -> B) (a : A) (b : B) : A -> B :=
  fun x => if eqb x a then b else f x.
Definition goes (s : exporter) (t : nat) (p : place) : nat -> place := set_at Nat.eqb (at_place s) t p.

(** What can be seen from outside. *)
Inductive event : Type :=
| Appended (j : J)                               (** an entry was accepted *)
| Returned                                       (** append() returned without writing a file *)
| File (name : list Z) (content : list (nat * J)) (** a file was written *)
| Done                                           (** append() returned after writing a file *)
| Thrown                                         (** append() threw std::out_of_range *)
| Aborted.                                       (** an assertion failed *)

Inductive action : Type :=
| Call (j : J)  (** a thread outside of append() calls it and gets lockv_json *)
| Go.           (** a thread in append() goes on *)

(** json_export.cpp 30-83 append(), one step. [None]: the thread cannot do this now; in particular lock() on line 39
    waits while another thread holds lockv_json. try_lock() on line 53 is taken to fail only if the lock is held. *)
Definition step (s : exporter) (t : nat) (a : action) : option (exporter * list event) :=
  let '(mk arr w lj ld pf pe _) := s in
  match at_place s t, a with
  | Out, Call j =>
      match lj with
      | None => Some (mk arr w (Some t) ld pf pe (goes s t (Insert j)), [])
      | Some _ => None
      end
  | Insert j, Go =>
      Some (mk (set_at Bool.eqb arr w (arr w ++ [(pe, j)])) w lj ld pf (pe + 1) (goes s t Check), [Appended j])
  | Check, Go =>
      if pe mod len =? 0
      then match ld with
           | None => Some (mk arr (negb w) lj (Some t) (pf + 1) pe (goes s t (Release (Some (w, file_name pf)))), [])
           | Some _ => (* line 65: json_arr.at(-1), lockv_json stays locked *)
               Some (mk arr w lj ld pf pe (goes s t Dead), [Thrown])
           end
      else Some (mk arr w lj ld pf pe (goes s t (Release None)), [])
  | Release None, Go => Some (mk arr w None ld pf pe (goes s t Out), [Returned])
  | Release (Some (b, n)), Go => Some (mk arr w None ld pf pe (goes s t (Export b n)), [])
  | Export b n, Go =>
      (* lines 85-92 write_to_disk *)
      match arr b with
      | [] => Some (mk arr w lj ld pf pe (goes s t Dead), [Aborted])
      | l => Some (mk arr w lj ld pf pe (goes s t (Wipe b)), [File n l])
      end
  | Wipe b, Go => Some (mk (set_at Bool.eqb arr b []) w lj ld pf pe (goes s t Free), [])
  | Free, Go => Some (mk arr w lj None pf pe (goes s t Out), [Done])
  | _, _ => None
  end.

(** A schedule: which thread acts and how. What is not possible at the time has no effect. *)
Fixpoint exec (s : exporter) (l : list (nat * action)) : exporter * list event :=
  match l with
  | [] => (s, [])
  | (t, a) :: l' =>
      match step s t a with
      | None => exec s l'
      | Some (s', e) => let '(s'', e') := exec s' l' in (s'', e ++ e')
      end
  end.

(** json_export.cpp 41-46, 76, 79: the JSON a thread reads or changes with its next step, if any. *)
Definition touches (s : exporter) (t : nat) : option bool :=
  match at_place s t with
  | Insert _ => Some (json_arr_write s)
  | Export b _ => Some b
  | Wipe b => Some b
  | _ => None
  end.

End Exporter.
