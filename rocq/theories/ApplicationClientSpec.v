(** Specification vocabulary for the application client: what the two sides did, read off the calls. *)
From Verif Require Import Base ApplicationClient.

(** Datagrams the client accepted (write_nto() returned a positive number), in order. *)
Fixpoint accepted (tr : list event) : list item :=
  match tr with
  | [] => []
  | EWrite c d (S _) :: t => (c, d) :: accepted t
  | _ :: t => accepted t
  end.

(** Datagrams handed to the operating system, in order. *)
Fixpoint forwarded (tr : list event) : list item :=
  match tr with
  | [] => []
  | EForward c d :: t => (c, d) :: forwarded t
  | _ :: t => forwarded t
  end.

(** Sum of all announced counts. *)
Fixpoint triggered (tr : list event) : Z :=
  match tr with
  | [] => 0
  | ETrigger n :: t => Z.of_N n + triggered t
  | _ :: t => triggered t
  end%Z.

(** The datagrams of one connection. *)
Definition on_conn (c : nat) (l : list item) : list item := filter (fun x => fst x =? c) l.

(** Datagrams a queue can take: addressed to an existing connection, not empty, not too long. *)
Definition item_ok (n maxb : nat) (x : item) : Prop := fst x < n /\ 0 < length (snd x) <= maxb.

Definition prefix_of {A} (l m : list A) : Prop := exists r, m = l ++ r.

(** No step of the forwarding thread falls between the first write of a packet and its trigger. *)
Fixpoint undisturbed (c : client) (sched : list thread) : Prop :=
  match sched with
  | [] => True
  | t :: ts =>
      (t = Forwarder -> fw_now c = None) /\
      match step c t with Ok (c', _) => undisturbed c' ts | _ => True end
  end.
