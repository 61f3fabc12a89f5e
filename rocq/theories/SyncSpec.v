(** Specification of packet synchronisation: one sequential scan over consecutive chunks. *)
From Verif Require Import Base Sync.
Open Scope Z_scope.

(** Time of the last reported packet, chunks since the last regular job, jobs so far. *)
Record scan_state := { sc_last : Z; sc_cnt : nat; sc_jobs : list sjob }.

Definition scan_new : scan_state := {| sc_last := UNDEFINED_EARLY_64; sc_cnt := 0; sc_jobs := [] |}.

(** A detection is reported only if it is later than the last reported one by more than the limit. *)
Definition scan_packet (limit : Z) (s : scan_state) (t : Z) : scan_state :=
  if limit <? t - sc_last s
  then {| sc_last := t; sc_cnt := sc_cnt s; sc_jobs := sc_jobs s ++ [JPacket t] |}
  else s.

(** After every [period]-th chunk a regular job is issued (never if period is 0). *)
Definition scan_chunk_end (period : nat) (chunk_end : Z) (s : scan_state) : scan_state :=
  match period with
  | O => s
  | S _ =>
      if (S (sc_cnt s) =? period)%nat
      then {| sc_last := sc_last s; sc_cnt := 0; sc_jobs := sc_jobs s ++ [JRegular chunk_end (sc_last s)] |}
      else {| sc_last := sc_last s; sc_cnt := S (sc_cnt s); sc_jobs := sc_jobs s |}
  end.

(** Chunk k covers the sample times [chunk_at T len k, chunk_at T len (k+1)). *)
Definition chunk_at (T len : Z) (k : nat) : Z := T + len * Z.of_nat k.

(** State after chunks 0 .. K-1 were scanned one after the other. *)
Fixpoint scan (det : oracle) (len limit : Z) (period : nat) (T : Z) (K : nat) : scan_state :=
  match K with
  | O => scan_new
  | S k =>
      scan_chunk_end period (chunk_at T len k + (len - 1))
        (fold_left (scan_packet limit) (fst (det (chunk_at T len k))) (scan det len limit period T k))
  end.

(** Finished chunks in order: chunk k was processed by worker k mod n. *)
Definition tiling (T len : Z) (n K : nat) : list (nat * Z) :=
  map (fun k => ((k mod n)%nat, chunk_at T len k)) (seq 0 K).

(** Packet times in a job list, and the barrier of a regular job. *)
Definition packet_times (l : list sjob) : list Z :=
  flat_map (fun j => match j with JPacket t => [t] | _ => [] end) l.
