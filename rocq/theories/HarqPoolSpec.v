(** Specification of the HARQ pool: each process is idle, handed out, parked or being given back. *)
From Verif Require Import Base HarqPool.
Open Scope nat_scope.

(** What a holder has leased: network id, number of codeblocks, redundancy version (given by the request on RX;
    derived from the number of increases on TX), number of increases, contents of the C codeblocks. *)
Record lease := { l_net : N; l_C : nat; l_base : option N; l_k : nat; l_soft : list (list N) }.

Inductive status := SIdle | SBusy (p : policy) (l : lease) | SParked (l : lease) | SEnding.

(** Redundancy versions in the order of transmission. *)
Definition rv_cycle : list N := [0; 2; 3; 1]%N.
Definition version (l : lease) : N :=
  match l_base l with Some v => v | None => nth (l_k l mod 4) rv_cycle 0%N end.

Record spool := { sts : list status; s_max_tb : N; s_cmax : nat; s_scan : option (nat * request) }.

Definition spool_new (n cmax : nat) (tb : N) : spool :=
  {| sts := repeat SIdle n; s_max_tb := tb; s_cmax := cmax; s_scan := None |}.

(** [SMisuse]: the caller broke the usage rules, nothing is claimed. *)
Inductive sres := SOk (s : spool) (o : hout) | SAbort | SThrow | SMisuse.

Definition with_status (s : spool) (i : nat) (x : status) : spool :=
  {| sts := upd (sts s) i x; s_max_tb := s_max_tb s; s_cmax := s_cmax s; s_scan := s_scan s |}.
Definition with_scan (s : spool) (x : option (nat * request)) : spool :=
  {| sts := sts s; s_max_tb := s_max_tb s; s_cmax := s_cmax s; s_scan := x |}.

(** The full soft buffer: the codeblocks in use, then empty ones. *)
Definition full_soft (cmax : nat) (l : lease) : list (list N) := l_soft l ++ repeat [] (cmax - l_C l).

Definition sstep (s : spool) (o : hop) : sres :=
  match o with
  | HGet r =>
      match s_scan s with
      | Some _ => SOk s RSkip
      | None =>
          if ((r_plcf r =? 1) || (r_plcf r =? 2))%N then
            match r_sizes r with
            | None => SAbort
            | Some (_, C) => if C <=? s_cmax s then SOk (with_scan s (Some (0, r))) RScan else SMisuse
            end
          else SAbort
      end
  | HProbe =>
      match s_scan s with
      | None => SOk s RSkip
      | Some (i, r) =>
          match nth_error (sts s) i, r_sizes r with
          | Some SIdle, Some (tb, C) =>
              if (tb <=? s_max_tb s)%N
              then SOk (with_scan (with_status s i (SBusy (r_pol r)
                      {| l_net := r_net r; l_C := C; l_base := r_rv r; l_k := 0; l_soft := repeat [] C |})) None) (RGot i)
              else SAbort
          | Some _, Some _ => SOk (with_scan s (Some (S i, r))) RBusy
          | _, _ => SOk (with_scan s None) RNull
          end
      end
  | HRunning id pl v =>
      match nth_error (sts s) id with
      | None => SThrow
      | Some SIdle => SAbort
      | Some SEnding => SMisuse
      | Some (SBusy _ _) => SOk s (RRun false)
      | Some (SParked l) =>
          match l_base l, v with
          | None, None => SOk (with_status s id (SBusy pl l)) (RRun true)
          | Some _, Some _ =>
              SOk (with_status s id (SBusy pl
                {| l_net := l_net l; l_C := l_C l; l_base := v; l_k := l_k l; l_soft := l_soft l |})) (RRun true)
          | _, _ => SMisuse
          end
      end
  | HInfo id =>
      match nth_error (sts s) id with
      | None => SOk s RSkip
      | Some (SBusy _ l) =>
          if (version l <=? rv_max)%N then SOk s (RInfo (version l) (l_net l) (l_C l) (full_soft (s_cmax s) l)) else SAbort
      | Some _ => SAbort
      end
  | HCode id cb x =>
      match nth_error (sts s) id with
      | None => SOk s RSkip
      | Some (SBusy p l) =>
          match nth_error (l_soft l) cb with
          | Some y => SOk (with_status s id (SBusy p
                {| l_net := l_net l; l_C := l_C l; l_base := l_base l; l_k := l_k l;
                   l_soft := upd (l_soft l) cb (y ++ [x]) |})) RDone
          | None => SMisuse
          end
      | Some _ => SMisuse
      end
  | HFinalize id crc =>
      match nth_error (sts s) id with
      | None => SOk s RSkip
      | Some (SBusy p l) =>
          match p with
          | PReset => SOk (with_status s id SEnding) RDone
          | PKeep => SOk (with_status s id (SParked l)) RDone
          | PKeepUnlessCrc => SOk (with_status s id (if crc then SEnding else SParked l)) RDone
          | PInc =>
              match l_base l with
              | Some _ => SMisuse
              | None =>
                  if l_k l =? 7 then SAbort
                  else SOk (with_status s id (SParked
                         {| l_net := l_net l; l_C := l_C l; l_base := None; l_k := S (l_k l); l_soft := l_soft l |})) RDone
              end
          end
      | Some _ => SAbort
      end
  | HRelease id =>
      match nth_error (sts s) id with
      | Some SEnding => SOk (with_status s id SIdle) RDone
      | _ => SOk s RSkip
      end
  end.

Inductive srres := SROk (s : spool) (o : list hout) | SRAbort | SRThrow | SRMisuse.

Fixpoint srun (s : spool) (ops : list hop) : srres :=
  match ops with
  | [] => SROk s []
  | o :: os =>
      match sstep s o with
      | SOk s1 r =>
          match srun s1 os with
          | SROk s2 rs => SROk s2 (r :: rs)
          | x => x
          end
      | SAbort => SRAbort
      | SThrow => SRThrow
      | SMisuse => SRMisuse
      end
  end.

(** Handing out and giving back process i, read off a trace of calls and results. *)
Definition handed (i : nat) (t : hop * hout) : nat :=
  match t with
  | (_, RGot j) => if j =? i then 1 else 0
  | (HRunning j _ _, RRun true) => if j =? i then 1 else 0
  | _ => 0
  end.
Definition given_back (i : nat) (t : hop * hout) : nat :=
  match t with
  | (HFinalize j _, RDone) => if j =? i then 1 else 0
  | _ => 0
  end.
Definition count (f : hop * hout -> nat) (tr : list (hop * hout)) : nat := fold_right (fun t a => f t + a) 0 tr.

(** Policy in force for process i and number of version increases since it was last obtained with
    get_process_tx, read off a trace; [cur] is the request being served. *)
Record tracked := { t_pol : policy; t_incs : nat; t_req : policy }.
Definition track_step (i : nat) (c : tracked) (t : hop * hout) : tracked :=
  match t with
  | (HGet r, RScan) => {| t_pol := t_pol c; t_incs := t_incs c; t_req := r_pol r |}
  | (_, RGot j) => if j =? i then {| t_pol := t_req c; t_incs := 0; t_req := t_req c |} else c
  | (HRunning j p _, RRun true) => if j =? i then {| t_pol := p; t_incs := t_incs c; t_req := t_req c |} else c
  | (HFinalize j _, RDone) =>
      if (j =? i) && match t_pol c with PInc => true | _ => false end
      then {| t_pol := t_pol c; t_incs := S (t_incs c); t_req := t_req c |} else c
  | _ => c
  end.
Definition track (i : nat) (tr : list (hop * hout)) : tracked :=
  fold_left (track_step i) tr {| t_pol := PReset; t_incs := 0; t_req := PReset |}.

(** Process i obtained from / given back to the pool for good, read off a trace; in use in between. *)
Definition obtained (i : nat) (t : hop * hout) : nat :=
  match t with (_, RGot j) => if j =? i then 1 else 0 | _ => 0 end.
Definition released (i : nat) (t : hop * hout) : nat :=
  match t with (HRelease j, RDone) => if j =? i then 1 else 0 | _ => 0 end.
Definition in_use (i : nat) (tr : list (hop * hout)) : Prop := count (released i) tr < count (obtained i) tr.

(** What the holder combined into codeblock cb of process i since it was last obtained from the pool. *)
Definition written_step (i cb : nat) (w : list N) (t : hop * hout) : list N :=
  match t with
  | (_, RGot j) => if j =? i then [] else w
  | (HCode j c x, RDone) => if (j =? i) && (c =? cb) then w ++ [x] else w
  | _ => w
  end.
Definition written (i cb : nat) (tr : list (hop * hout)) : list N := fold_left (written_step i cb) tr [].

(** A request the pool can serve: packet type 1 or 2, sizes defined and within what the pool was built for. *)
Definition valid_request (r : request) (tb : N) (cmax : nat) : Prop :=
  (r_plcf r = 1%N \/ r_plcf r = 2%N) /\ exists t C, r_sizes r = Some (t, C) /\ (t <= tb)%N /\ C <= cmax.

(** Calls of a TX pool: no request carries a redundancy version. *)
Definition tx_op (o : hop) : Prop :=
  match o with
  | HGet r => r_rv r = None
  | HRunning _ _ v => v = None
  | _ => True
  end.
