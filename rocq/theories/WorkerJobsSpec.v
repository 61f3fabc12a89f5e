(** What a firmware may expect of a worker. *)
From Verif Require Import Base WorkerJobs.

(** What happened, read off a trace. *)
Definition answers (t : list event) : list (call * answer) := flat_map (fun e => match e with ECall c a => [(c, a)] | _ => [] end) t.
Definition packets (t : list event) : list desc := flat_map (fun e => match e with EPacket d => [d] | _ => [] end) t.
Definition released (t : list event) : list nat := flat_map (fun e => match e with EFinTx h => [h] | _ => [] end) t.
Definition irregulars (t : list event) : list Z := flat_map (fun e => match e with EIrregular x => [x] | _ => [] end) t.
Definition scans (t : list event) : list nat := flat_map (fun e => match e with EScan s => [s] | _ => [] end) t.
Definition scan_calls (t : list event) : list nat := flat_map (fun e => match e with ECall (WChannel s) _ => [s] | _ => [] end) t.
Definition accepted (t : list event) : list nat :=
  flat_map (fun e => match e with ECallLow l => if l_continue l then match l_hp l with Some h => [h] | None => [] end else [] | _ => [] end) t.
Definition finished (t : list event) : list nat := flat_map (fun e => match e with EFinRx h _ => [h] | _ => [] end) t.
Definition tickets (t : list event) : list Z := flat_map (fun e => match e with ELockFifo n => [n] | _ => [] end) t.

Definition opt {A} (o : option A) : list A := match o with Some x => [x] | None => [] end.
Definition is_channel (c : call) : bool := match c with WChannel _ => true | _ => false end.

(** Everything asked for by the answers in [t] has been done in [t], once and in order: packets generated and their HARQ processes given back, irregular
    calls registered, measurements made (unless asked for in the answer to a measurement). *)
Definition carried_out (t : list event) : Prop :=
  packets t = flat_map (fun ca => a_tx (snd ca)) (answers t) /\ released t = map d_hp (packets t) /\
  irregulars t = flat_map (fun ca => opt (a_irregular (snd ca))) (answers t) /\
  scans t = flat_map (fun ca => if is_channel (fst ca) then [] else opt (a_scan (snd ca))) (answers t).

(** Whether the token is held: [Some true] by way of the ticket. A firmware is called only by the holder, and the ticket is passed on once. *)
Inductive lock := Free | Held | HeldFifo.
Definition token_step (s : lock) (e : event) : option lock :=
  match e, s with
  | ELockFifo _, Free => Some HeldFifo
  | ELock, Free => Some Held
  | EUnlockFifo, HeldFifo => Some Free
  | EUnlock, Held => Some Free
  | ECall _ _, Held | ECall _ _, HeldFifo | ECallLow _, HeldFifo => Some s
  | (ELockFifo _ | ELock | EUnlockFifo | EUnlock | ECall _ _ | ECallLow _), _ => None
  | _, Free => Some Free
  | _, _ => None (* no work while holding the token *)
  end.
Fixpoint token_run (s : lock) (t : list event) : option lock :=
  match t with [] => Some s | e :: t => match token_step s e with Some s => token_run s t | None => None end end.

(** The calls of one job. *)
Definition calls (t : list event) : list call := map fst (answers t).
Definition then_scan (c : call) (cs : list call) : Prop := cs = [c] \/ exists s, cs = [c; WChannel s].
Definition job_calls (j : job) (t : list event) : Prop :=
  match j_content j with
  | CRegular => then_scan WRegular (calls t)
  | CIrregular => then_scan WIrregular (calls t)
  | CApplication => then_scan WApplication (calls t)
  | CSync false _ => calls t = []
  | CSync true crc => exists l, flat_map (fun e => match e with ECallLow l => [l] | _ => [] end) t = [l] /\
      (if l_continue l then then_scan (if crc then WPdc else WPdcError) (calls t) /\ exists h, l_hp l = Some h /\ flat_map (fun e => match e with EFinRx h c => [(h, c)] | _ => [] end) t = [(h, crc)]
       else calls t = [] /\ finished t = [])
  | CNone => calls t = []
  end.
