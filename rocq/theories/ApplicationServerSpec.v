(** What users of the application server rely on. *)
From Verif Require Import Base.
From Verif Require Import ApplicationServer.

(** A network interface only lets IPv4 packets pass: the first byte is 64 to 79. *)
Definition passes (vnic : bool) (d : list N) : bool :=
  match d with
  | [] => false
  | x :: _ => if vnic then (64 <=? x)%N && (x <=? 79)%N else true
  end.
(** What is taken of a datagram. *)
Definition taken (a : arrival) : list N := match a with Failed => [] | Data d => firstn 1600 d end.

(** One event on lists of waiting datagrams, one list for each of the connections, and the time since which no job was
    created. [cap]: datagrams per connection, [maxb]: bytes per datagram. *)
Definition abstract_step (vnic : bool) (cap maxb : nat) (protect : Z) (s : list (list (list N)) * Z) (e : ev)
  : res (list (list (list N)) * Z * ob) :=
  let (w, mark) := s in
  match e with
  | Arrive i a t t' _ =>
      let l := nth i w [] in
      if passes vnic (taken a) && (length l <? cap) then
        if maxb <? length (taken a) then Abort
        else
          let job := (protect <=? t - mark)%Z in
          Ok (upd w i (l ++ [taken a]), (if job then t' else mark), Kept (length (taken a)) job)
      else Ok (w, mark, Kept 0 false)
  | Read i want locked =>
      if vnic && negb (i =? 0) then Abort
      else if length w <=? i then Throw
      else match locked, nth i w [] with
           | true, d :: l => Ok (upd w i l, mark, Got (length d) (if want then d else []))
           | _, _ => Ok (w, mark, Got 0 [])
           end
  end.
Fixpoint abstract_run (vnic : bool) (cap maxb : nat) (protect : Z) (s : list (list (list N)) * Z) (es : list ev)
  : res (list (list (list N)) * Z * list ob) :=
  match es with
  | [] => Ok (fst s, snd s, [])
  | e :: es =>
      do (w, m, o) <- abstract_step vnic cap maxb protect s e ;
      do (w, m, os) <- abstract_run vnic cap maxb protect (w, m) es ;
      Ok (w, m, o :: os)
  end.

(** poll() only reports connections that exist; readers ask for the bytes. *)
Definition of_connection (n : nat) (e : ev) : Prop := match e with Arrive i _ _ _ _ => i < n | Read _ _ _ => True end.
Definition plain (n : nat) (e : ev) : Prop := match e with Arrive i _ _ _ _ => i < n | Read i want _ => want = true end.
(** Datagrams of connection [i] that were put into its queue, and those the firmware got. *)
Fixpoint accepted (i : nat) (es : list ev) (os : list ob) : list (list N) :=
  match es, os with
  | Arrive j a _ _ _ :: es, Kept n _ :: os => if (j =? i) && (0 <? n) then taken a :: accepted i es os else accepted i es os
  | _ :: es, _ :: os => accepted i es os
  | _, _ => []
  end.
Fixpoint delivered (i : nat) (es : list ev) (os : list ob) : list (list N) :=
  match es, os with
  | Read j _ _ :: es, Got n d :: os => if (j =? i) && (0 <? n) then d :: delivered i es os else delivered i es os
  | _ :: es, _ :: os => delivered i es os
  | _, _ => []
  end.
(** The clock does not run backwards. *)
Fixpoint clock_from (t : Z) (es : list ev) : Prop :=
  match es with
  | [] => True
  | Arrive _ _ a b _ :: es => (t <= a <= b)%Z /\ clock_from b es
  | Read _ _ _ :: es => clock_from t es
  end.
Definition time_in (e : ev) : Z := match e with Arrive _ _ t _ _ => t | _ => 0%Z end.
Definition time_out (e : ev) : Z := match e with Arrive _ _ _ t _ => t | _ => 0%Z end.
Definition has_job (o : ob) : bool := match o with Kept _ j => j | _ => false end.
Definition is_kept (o : ob) : bool := match o with Kept n _ => 0 <? n | _ => false end.
(** The jobs the job queue took, in order. *)
Fixpoint jobs (es : list ev) (os : list ob) : list (nat * nat) :=
  match es, os with
  | Arrive i _ _ _ true :: es, Kept n true :: os => (i, n) :: jobs es os
  | _ :: es, _ :: os => jobs es os
  | _, _ => []
  end.
