(** Model of the contact list. lib/include/dectnrp/mac/contact_list.hpp, template contact_list_t. *)
From Verif Require Import Base Bimap.
Open Scope Z_scope.

Section ContactList.
  Context {T : Type} (dflt : T).   (* T{} *)

  (** contact_list.hpp 88-98. contact_idx_um is a std::unordered_map. *)
  Record clist := {
    srdid : bm;              (* srdid_bimap *)
    server : bm;             (* conn_idx_server_bimap *)
    client : bm;             (* conn_idx_client_bimap *)
    um : list (Z * nat);     (* contact_idx_um *)
    vec : list T             (* contacts_vec *)
  }.

  Definition init : clist := {| srdid := []; server := []; client := []; um := []; vec := [] |}.

  (** std::unordered_map::insert keeps an existing entry; at throws for an unknown key. *)
  Definition um_find (m : list (Z * nat)) (k : Z) : option nat :=
    match find (fun p => fst p =? k) m with Some p => Some (snd p) | None => None end.
  Definition um_insert (m : list (Z * nat)) (k : Z) (i : nat) : list (Z * nat) :=
    match um_find m k with Some _ => m | None => m ++ [(k, i)] end.

  (** add_new_contact_and_setup_indexing, contact_list.hpp 44-53. [l], [s]: long and short radio
      device ID. The bimaps are the unique ones. *)
  Definition add (c : clist) (l s sv cl : Z) : res clist :=
    do a <- insert true (srdid c) l s;
    do b <- insert true (server c) l sv;
    do d <- insert true (client c) l cl;
    Ok {| srdid := a; server := b; client := d;
          um := um_insert (um c) l (length (vec c)); vec := vec c ++ [dflt] |}.

  (** contact_list.hpp 57-79 *)
  Definition is_lrdid_known (c : clist) (l : Z) : bool := is_k_known (srdid c) l.
  Definition is_srdid_known (c : clist) (s : Z) : bool := is_v_known (srdid c) s.
  Definition get_lrdid_from_srdid (c : clist) (s : Z) : res Z := get_k (srdid c) s.
  Definition get_srdid_from_lrdid (c : clist) (l : Z) : res Z := get_v (srdid c) l.
  Definition get_lrdid_from_conn_idx_server (c : clist) (i : Z) : res Z := get_k (server c) i.
  Definition get_conn_idx_client_from_lrdid (c : clist) (l : Z) : res Z := get_v (client c) l.

  (** get_contact, contact_list.hpp 81-87. Both at() throw (inside noexcept: terminate). *)
  Definition get_contact (c : clist) (l : Z) : res T :=
    match um_find (um c) l with
    | None => Throw
    | Some i => match nth_error (vec c) i with None => Throw | Some x => Ok x end
    end.

  (** Assignment through the reference returned by the non-const get_contact. *)
  Definition set_contact (c : clist) (l : Z) (x : T) : res clist :=
    match um_find (um c) l with
    | None => Throw
    | Some i =>
        match nth_error (vec c) i with
        | None => Throw
        | Some _ => Ok {| srdid := srdid c; server := server c; client := client c; um := um c;
                          vec := upd (vec c) i x |}
        end
    end.

  Inductive cop := AddContact (l s sv cl : Z) | SetContact (l : Z) (x : T).

  Definition cstep (c : clist) (o : cop) : res clist :=
    match o with
    | AddContact l s sv cl => add c l s sv cl
    | SetContact l x => set_contact c l x
    end.

  Fixpoint crun (c : clist) (os : list cop) : res clist :=
    match os with
    | [] => Ok c
    | o :: r => do c' <- cstep c o; crun c' r
    end.
End ContactList.
Arguments clist : clear implicits.
Arguments cop : clear implicits.
