(** What a multipath link does to a signal, independent of how the signal is cut into packets. *)
From Verif Require Import Base Wireless.
From Coq Require Import QArith Qcanon.
Open Scope Qc_scope.

Definition csum (l : list C) : C := fold_right cadd c0 l.

(** Sample [n] of a signal that is silent before it begins. *)
Definition past (x : list C) (n : Z) : C := if (n <? 0)%Z then c0 else nth (Z.to_nat n) x c0.

Section Spec.
  Variable cis : Qc -> C.

  (** The sum of the sinusoids of a tap at time [t]. *)
  Definition fading (t : tap) (time : Z) : C := csum (map (fun s => cis (qz time / qz (fst s) + snd s)) (sines t)).

  (** The output of the taps at sample [n] of signal [x] that began at time [t0]: every tap delays the signal, multiplies it with its fading of that very
      moment and its amplitude, and all are added. *)
  Definition echo (ts : list tap) (x : list C) (t0 : Z) (n : nat) : C :=
    csum (map (fun t => cscale (amp t) (cmul (past x (Z.of_nat n - Z.of_nat (delay t))) (fading t (t0 + Z.of_nat n)))) ts).

  (** A sequence of calls in both directions. *)
  Record call := mkCall { c_dir : bool; c_time : Z; c_inp : list C }.
  Fixpoint link_run (spp : nat) (l : link) (cs : list call) : res (list (bool * list C)) :=
    match cs with
    | [] => Ok []
    | c :: cs =>
        do (l, out) <- pass_through_link cis spp l (c_inp c) (c_dir c) (c_time c) ;
        do outs <- link_run spp l cs ;
        Ok ((c_dir c, out) :: outs)
    end.
  Definition sent (d : bool) (cs : list call) : list C := flat_map (fun c => if Bool.eqb (c_dir c) d then c_inp c else []) cs.
  Definition heard (d : bool) (os : list (bool * list C)) : list C := flat_map (fun o => if Bool.eqb (fst o) d then snd o else []) os.

  (** In each direction the packets follow each other without gap. *)
  Fixpoint seamless (spp : nat) (next : bool -> Z) (cs : list call) : Prop :=
    match cs with
    | [] => True
    | c :: cs => c_time c = next (c_dir c) /\ length (c_inp c) = spp /\
        seamless spp (fun d => if Bool.eqb (c_dir c) d then (next d + Z.of_nat spp)%Z else next d) cs
    end.

  (** A whole turn changes nothing. *)
  Definition periodic : Prop := forall a z, cis (a + qz z) = cis a.
  Definition taps_ok (spp : nat) (ts : list tap) : Prop :=
    Forall (fun t => (delay t <= spp)%nat /\ Forall (fun s => fst s <> 0%Z) (sines t)) ts.
End Spec.

(** The sum of the powers of all taps with delay [d]. *)
Definition power_of (d : nat) (l : list (nat * Qc)) : Qc := fold_right (fun p s => (if (fst p =? d)%nat then snd p else 0) + s) 0 l.

(** A channel between two devices with [n0] and [n1] antennas: a sequence of packets in both directions, [true] from device 0 to device 1.
    [p_gain a b] is the factor from antenna [a] of the sender to antenna [b] of the receiver. *)
Record packet := mkPacket { p_dir : bool; p_time : Z; p_gain : nat -> nat -> Qc; p_tx : list (list C) }.
Definition senders (n0 n1 : nat) (d : bool) : nat := if d then n0 else n1.
Definition receivers (n0 n1 : nat) (d : bool) : nat := if d then n1 else n0.

Section Channel.
  Variable cis : Qc -> C.
  (** Every packet arrives at receive buffers that were set to zero. *)
  Fixpoint channel_run (spp n0 n1 : nat) (ch : channel) (ps : list packet) : res (list (bool * list (list C))) :=
    match ps with
    | [] => Ok []
    | p :: ps =>
        let d := p_dir p in
        do (ch, out) <- superimpose cis spp ch (if d then 0 else 1) (if d then 1 else 0) (p_time p) (p_gain p) (p_tx p)
                          (repeat (repeat c0 spp) (receivers n0 n1 d)) ;
        do outs <- channel_run spp n0 n1 ch ps ;
        Ok ((d, out) :: outs)
    end.
  (** What antenna [a] sends to antenna [b] of the other device, with path loss; and what antenna [b] receives. *)
  Definition sent_to (d : bool) (a b : nat) (ps : list packet) : list C :=
    flat_map (fun p => if Bool.eqb (p_dir p) d then map (cscale (p_gain p a b)) (nth a (p_tx p) []) else []) ps.
  Definition heard_at (d : bool) (b : nat) (os : list (bool * list (list C))) : list C :=
    flat_map (fun o => if Bool.eqb (fst o) d then nth b (snd o) [] else []) os.
  Definition nof (d : bool) (ps : list packet) : nat := length (filter (fun p => Bool.eqb (p_dir p) d) ps).
  Fixpoint packets_ok (spp n0 n1 : nat) (next : bool -> Z) (ps : list packet) : Prop :=
    match ps with
    | [] => True
    | p :: ps => p_time p = next (p_dir p) /\ length (p_tx p) = senders n0 n1 (p_dir p) /\ Forall (fun x => length x = spp) (p_tx p) /\
        packets_ok spp n0 n1 (fun d => if Bool.eqb (p_dir p) d then (next d + Z.of_nat spp)%Z else next d) ps
    end.
End Channel.
