(** C15: the contact list. *)
From Verif Require Import Base ContactList ContactListSpec ContactListFacts.
Open Scope Z_scope.

(** Every history of registrations and changes of contact data: it returns exactly when all
    identifiers are pairwise fresh and only registered contacts are changed; then all lookups agree
    with the registrations, and each contact holds what was last stored for its own long ID. *)
Theorem C15_lookups_agree_with_registration :
  forall (T : Type) (dflt : T) os,
    (~ well_used [] os -> is_ok (crun dflt init os) = false) /\
    (well_used [] os -> exists c, crun dflt init os = Ok c /\
      (forall g, In g (regs os) ->
         get_srdid_from_lrdid c (lng g) = Ok (shrt g) /\
         get_lrdid_from_srdid c (shrt g) = Ok (lng g) /\
         get_lrdid_from_conn_idx_server c (srv g) = Ok (lng g) /\
         get_conn_idx_client_from_lrdid c (lng g) = Ok (clt g)) /\
      (forall l, is_lrdid_known c l = true <-> In l (map lng (regs os))) /\
      (forall s, is_srdid_known c s = true <-> In s (map shrt (regs os))) /\
      (forall l, get_contact c l = match data_of dflt os l with Some x => Ok x | None => Throw end) /\
      (forall l, data_of dflt os l <> None <-> In l (map lng (regs os))) /\
      length (vec c) = length (regs os)).
Proof. exact (fun T => @contact_list_ok T). Qed.
Print Assumptions C15_lookups_agree_with_registration.

Definition ex_os : list (cop Z) :=
  [AddContact 100 7 0 4; AddContact 200 8 1 5; SetContact 100 42; AddContact 300 9 2 6; SetContact 300 43].
Example C15_nonvacuous :
  well_used [] ex_os /\
  match crun 0 init ex_os with
  | Ok c => get_contact c 100 = Ok 42 /\ get_contact c 200 = Ok 0 /\
            get_lrdid_from_conn_idx_server c 2 = Ok 300
  | _ => False
  end.
Proof.
  split.
  - cbn.
    repeat match goal with
    | |- _ /\ _ => split
    | |- Forall _ [] => apply Forall_nil
    | |- Forall _ (_ :: _) => apply Forall_cons
    | |- exists g, _ => first
        [ eexists; split; [left; reflexivity|reflexivity]
        | eexists; split; [right; left; reflexivity|reflexivity]
        | eexists; split; [right; right; left; reflexivity|reflexivity] ]
    | |- _ <> _ => cbn; lia
    | |- True => exact I
    end.
  - vm_compute. auto.
Qed.
Example C15_reused_short_id :
  is_ok (crun 0 init [AddContact 100 7 0 4; AddContact 200 7 1 5]) = false.
Proof. reflexivity. Qed.
