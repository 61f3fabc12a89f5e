(** What the calls made to the operating system mean, and which connections exist. *)
From Verif Require Import Base UdpApp.
Open Scope nat_scope.

(** Descriptors that are open after a list of calls. *)
Definition opened (t : list call) : list nat :=
  fold_left (fun l c => match c with
                        | CSocket fd => fd :: l
                        | CClose fd => remove Nat.eq_dec fd l
                        | _ => l
                        end) t [].

(** The operating system never hands out a descriptor that is still open. *)
Definition os_ok (t : list call) : Prop :=
  forall t1 fd t2, t = t1 ++ CSocket fd :: t2 -> ~ In fd (opened t1).

(** The descriptor a call works on. *)
Definition works_on (c : call) : option nat :=
  match c with
  | CSocket _ => None
  | CTimeout fd _ | CBind fd _ _ | CSend fd _ _ _ | CRecv fd | CClose fd => Some fd
  end.

(** Every call works on a descriptor that is open. *)
Definition sound (t : list call) : Prop :=
  forall t1 c t2 fd, t = t1 ++ c :: t2 -> works_on c = Some fd -> In fd (opened t1).

(** Local address of a descriptor. *)
Definition bound_to (t : list call) : nat -> option (Z * Z) :=
  fold_left (fun f c => match c with
                        | CBind fd ip port => fun x => if x =? fd then Some (ip, port) else f x
                        | CSocket fd => fun x => if x =? fd then None else f x
                        | _ => f
                        end) t (fun _ => None).

(** How long a descriptor waits for a datagram, in microseconds; None is for ever. *)
Definition patience (t : list call) : nat -> option Z :=
  fold_left (fun f c => match c with
                        | CTimeout fd us => fun x => if x =? fd then Some us else f x
                        | CSocket fd => fun x => if x =? fd then None else f x
                        | _ => f
                        end) t (fun _ => None).

(** The connections in the order of their indices, as asked for by the user: descriptor, address, port, timeout. *)
Definition without {A} (i : nat) (l : list A) : list A := firstn i l ++ skipn (S i) l.
Definition tx_conns (l : list op) : list (nat * Z * Z) :=
  fold_left (fun l o => match o with
                        | AddTx ip port (Some fd) => l ++ [(fd, ip, (port mod 65536)%Z)]
                        | RmTx i => without i l
                        | _ => l
                        end) l [].
Definition rx_conns (l : list op) : list (nat * Z * Z * Z) :=
  fold_left (fun l o => match o with
                        | AddRx ip port us (Some fd) _ => l ++ [(fd, ip, (port mod 65536)%Z, us)]
                        | RmRx i => without i l
                        | _ => l
                        end) l [].
Definition tx_fds (l : list op) : list nat := map (fun '(fd, _, _) => fd) (tx_conns l).
Definition rx_fds (l : list op) : list nat := map (fun '(fd, _, _, _) => fd) (rx_conns l).
