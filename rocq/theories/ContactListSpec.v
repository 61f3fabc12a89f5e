(** Registrations and the data stored for each contact. *)
From Verif Require Import Base ContactList.
Open Scope Z_scope.

Section Spec.
  Context {T : Type} (dflt : T).

  (** A registration. *)
  Record reg := { lng : Z; shrt : Z; srv : Z; clt : Z }.

  Definition regs (os : list (cop T)) : list reg :=
    flat_map (fun o => match o with
                       | AddContact l s sv cl => [{| lng := l; shrt := s; srv := sv; clt := cl |}]
                       | SetContact _ _ => []
                       end) os.

  (** What was stored last for [l], the default right after registration. *)
  Definition data_of (os : list (cop T)) (l : Z) : option T :=
    fold_left (fun d o => match o with
                          | AddContact l' _ _ _ => if l' =? l then Some dflt else d
                          | SetContact l' x => if l' =? l then Some x else d
                          end) os None.

  (** Identifiers are pairwise fresh, data is stored only for registered contacts. *)
  Fixpoint well_used (known : list reg) (os : list (cop T)) : Prop :=
    match os with
    | [] => True
    | AddContact l s sv cl :: r =>
        Forall (fun g => lng g <> l /\ shrt g <> s /\ srv g <> sv /\ clt g <> cl) known /\
        well_used (known ++ [{| lng := l; shrt := s; srv := sv; clt := cl |}]) r
    | SetContact l _ :: r => (exists g, In g known /\ lng g = l) /\ well_used known r
    end.
End Spec.
