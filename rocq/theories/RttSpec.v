(** What a round-trip time measurement should do, and what has to hold around it. *)
From Verif Require Import Base Rtt.
Open Scope N_scope.

(** The two sides use the same packet size, which holds the smallest question and fits in the largest datagram. *)
Definition configured (cf cp : cfg) : Prop :=
  c_ft cf = true /\ c_ft cp = false /\ c_tb cf = c_tb cp /\ min_byte <= c_tb cf <= max_byte.

(** Nothing of a question is left anywhere. *)
Definition quiet (s : sys) : Prop :=
  f_data (y_ft s) = [] /\ ~ In 0 (y_jobs s) /\ y_up s = [] /\ y_down s = [] /\ y_socket s = [].
Definition clock_ok (t : Z) : Prop := (- 2 ^ 62 <= t < 2 ^ 62)%Z.
(** Questions fit in a packet, there is always room for a job and a free HARQ process, packets arrive intact or not at all, and
    a measurement is given up only when its question or its answer was lost. *)
Definition fair (cf : cfg) (s : sys) (e : ev) : Prop :=
  let process (h : option (list N)) := match h with Some a => c_tb cf <= len a | None => False end in
  match e with
  | Ask d job => job = true /\ min_byte <= len d <= c_tb cf
  | Print job => job = true
  | Job h t _ => process h /\ clock_ok t
  | Hear_pt g _ h _ _ => g = None /\ process h
  | Hear_ft g _ t _ => g = None /\ clock_ok t
  | Timeout => quiet s
  | _ => True
  end.
Fixpoint fair_run (cf cp : cfg) (s : sys) (es : list ev) : Prop :=
  match es with
  | [] => True
  | e :: es => fair cf s e /\ forall s' o, step cf cp s e = Ok (s', o) -> fair_run cf cp s' es
  end.

(** What the FT did with its watch since a measurement ended the last time; [w]: what it had done before. *)
Fixpoint watch_since (os : list out) (w : list out) : list out :=
  match os with
  | [] => w
  | Result _ _ _ :: os => watch_since os []
  | Started t :: os => watch_since os (w ++ [Started t])
  | Stopped t :: os => watch_since os (w ++ [Stopped t])
  | Sent _ _ :: os => watch_since os w
  | Printed _ _ _ _ :: os => watch_since os w
  end.

(** The packets a side transmits. *)
Definition packets_of (ft : bool) (os : list out) : list packet :=
  flat_map (fun o => match o with Sent b p => if Bool.eqb b ft then [p] else [] | _ => [] end) os.
(** Numbered from [n] on, none before [t], and none before the end of the one before. *)
Fixpoint in_turn (length : Z) (n t : Z) (ps : list packet) : Prop :=
  match ps with
  | [] => True
  | p :: ps => k_order p = n /\ (t <= k_time p)%Z /\ in_turn length (n + 1) (k_time p + length) ps
  end.

(** What happened since the statistics were logged the last time: how often the watch was started, and the times from the last
    start to each stop. *)
Record tally := mkTally { t_started : N; t_start : Z; t_times : list Z }.
Definition count (t : tally) (o : out) : tally :=
  match o with
  | Started c => mkTally (t_started t + 1) c (t_times t)
  | Stopped c => mkTally (t_started t) (t_start t) (t_times t ++ [(c - t_start t)%Z])
  | Printed _ _ _ _ => mkTally 0 (t_start t) []
  | _ => t
  end.
Definition tally_of (os : list out) : tally := fold_left count os (mkTally 0 0 []).
Definition least (m : Z) (l : list Z) : Prop := In m l /\ Forall (fun x => (m <= x)%Z) l.
Definition greatest (m : Z) (l : list Z) : Prop := In m l /\ Forall (fun x => (x <= m)%Z) l.
