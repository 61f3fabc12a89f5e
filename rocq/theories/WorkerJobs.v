(** Model of how a worker of the physical layer carries out its jobs and the answers of the firmware: lib/src/phy/pool/worker_tx_rx.cpp 84-245 (one job,
    without UPPER_TPOINT_ENABLE_WORK_PCC_ERROR, which nothing defines, without JSON export) and 295-354 (run_tx_chscan).

    The firmware and the pools of TX buffers are parameters: functions of a world [W] that may be shared with other threads. Each effect is an event. *)
From Verif Require Import Base.

(** tx_descriptor.hpp: of the packet only the HARQ process and the hardware are kept. [d_id] stands for everything else. *)
Record desc := mkDesc { d_id : nat; d_hp : nat; d_hw : Z }.
(** machigh_phy.hpp. The irregular report: its time, None for undefined_late (irregular_report.hpp 38-42). *)
Record answer := mkAnswer { a_tx : list desc; a_irregular : option Z; a_scan : option nat }.
(** maclow_phy.hpp *)
Record low := mkLow { l_continue : bool; l_hp : option nat }.

Inductive call := WRegular | WIrregular | WPcc | WPdc | WPdcError | WApplication | WChannel (s : nat).
(** job.hpp. For a detected packet the job carries what the receiver will find: a PLCF or none, and the CRC of the PDC. *)
Inductive content := CRegular | CIrregular | CSync (any_plcf crc : bool) | CApplication | CNone.
Record job := mkJob { j_fifo : Z; j_content : content }.

Inductive event :=
  | ELockFifo (fifo : Z) | EUnlockFifo | ELock | EUnlock
  | ECall (c : call) (a : answer) | ECallLow (l : low)
  | EPacket (d : desc) | EFinTx (hp : nat) | EIrregular (t : Z) | EScan (s : nat)
  | EReset | EFinRx (hp : nat) (crc : bool).

(** Why a worker stops: an assertion, an exception nobody catches, a null pointer. *)
Inductive failure := FAbort | FThrow | FNull.

Section Worker.
  Variable W : Type.
  Variable firmware : W -> call -> W * answer.
  Variable firmware_pcc : W -> W * low.
  (** get_buffer_tx_to_fill of the pool of a hardware: true if there is a buffer; None is the associated hardware *)
  Variable take_buffer : W -> option Z -> W * bool.
  (** the length of phy_radio.radio_ctrl_vec *)
  Variable nof_hw : Z.
  (** ENABLE_ASSERT *)
  Variable asserts : bool.

  Definition M (A : Type) : Type := W -> W * list event * (A + failure).
  Definition ret {A} (x : A) : M A := fun w => (w, [], inl x).
  Definition fail {A} (f : failure) : M A := fun w => (w, [], inr f).
  Definition emit (e : event) : M unit := fun w => (w, [e], inl tt).
  Definition bindM {A B} (m : M A) (k : A -> M B) : M B := fun w =>
    let '(w1, t1, r) := m w in
    match r with
    | inl x => let '(w2, t2, r2) := k x w1 in (w2, t1 ++ t2, r2)
    | inr f => (w1, t1, inr f)
    end.
  Notation "m >> k" := (bindM m (fun _ => k)) (at level 50, left associativity).
  Definition ask {A} (f : W -> W * A) (e : A -> list event) : M A := fun w => let '(w, a) := f w in (w, e a, inl a).

  (** lines 301-327: hw_id <= hw_id_associated (-1) is the associated hardware; otherwise at() is called with hw_id_associated, converted to size_t *)
  Definition get_buffer (hw : Z) : M bool :=
    if (hw <=? -1)%Z then ask (fun w => take_buffer w None) (fun _ => [])
    else
      let idx := ((-1) mod 2 ^ 64)%Z in
      if (idx <? nof_hw)%Z then ask (fun w => take_buffer w (Some idx)) (fun _ => []) else fail FThrow.

  (** lines 298-333 *)
  Fixpoint run_tx (ds : list desc) : M unit :=
    match ds with
    | [] => ret tt
    | d :: ds =>
        bindM (get_buffer (d_hw d)) (fun ok =>
          if ok then emit (EPacket d) >> emit (EFinTx (d_hp d)) >> run_tx ds
          else if asserts then fail FAbort else run_tx ds)
    end.
  (** lines 335-337 *)
  Definition run_irregular (r : option Z) : M unit := match r with Some t => emit (EIrregular t) | None => ret tt end.
  (** lines 295-354; the recursive call has no scan *)
  Definition run_tx_chscan (a : answer) : M unit :=
    run_tx (a_tx a) >> run_irregular (a_irregular a) >>
    match a_scan a with
    | None => ret tt
    | Some s =>
        emit (EScan s) >> emit ELock >>
        bindM (ask (fun w => firmware w (WChannel s)) (fun a => [ECall (WChannel s) a])) (fun a' =>
          emit EUnlock >> run_tx (a_tx a') >> run_irregular (a_irregular a'))
    end.

  (** lines 87-97 and the like *)
  Definition fifo_call (fifo : Z) (c : call) : M unit :=
    emit (ELockFifo fifo) >>
    bindM (ask (fun w => firmware w c) (fun a => [ECall c a])) (fun a => emit EUnlockFifo >> run_tx_chscan a).

  (** lines 86-245 *)
  Definition do_job (j : job) : M unit :=
    match j_content j with
    | CRegular => fifo_call (j_fifo j) WRegular
    | CIrregular => fifo_call (j_fifo j) WIrregular
    | CApplication => fifo_call (j_fifo j) WApplication
    | CSync false _ => emit (ELockFifo (j_fifo j)) >> emit EUnlockFifo >> emit EReset
    | CSync true crc =>
        emit (ELockFifo (j_fifo j)) >>
        bindM (ask firmware_pcc (fun l => [ECallLow l])) (fun l =>
          emit EUnlockFifo >>
          if negb (l_continue l) then
            emit EReset >> match l_hp l with None => ret tt | Some _ => if asserts then fail FAbort else ret tt end
          else
            match l_hp l with
            | None => fail FNull
            | Some hp =>
                let c := if crc then WPdc else WPdcError in
                emit ELock >>
                bindM (ask (fun w => firmware w c) (fun a => [ECall c a])) (fun a =>
                  emit EUnlock >> run_tx_chscan a >> emit EReset >> emit (EFinRx hp crc))
            end)
    | CNone => if asserts then fail FAbort else ret tt
    end.

  Fixpoint do_jobs (js : list job) : M unit := match js with [] => ret tt | j :: js => do_job j >> do_jobs js end.
End Worker.
