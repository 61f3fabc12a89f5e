(** Specification of the datagram queue: a bounded list of datagrams, oldest first.
    It mentions no ring, no index and no slot. *)
From Verif Require Import Base DatagramQueue.

(** Callers hand write() a buffer that really holds the announced number of bytes. *)
Definition op_wf (o : op) : Prop :=
  match o with OWrite inp n _ => n <= length inp | _ => True end.

(** One call on a FIFO that holds at most [cap] datagrams of at most [maxb] bytes. *)
Definition spec_step (cap maxb : nat) (s : list (list N)) (o : op) : res (list (list N) * out) :=
  match o with
  | OWrite inp n true =>
      if cap <=? length s then Ok (s, RWrite 0)
      else if maxb <? n then Abort
      else Ok (s ++ [firstn n inp], RWrite n)
  | OWrite _ _ false => Ok (s, RWrite 0)
  | ORead want true =>
      match s with
      | [] => Ok (s, RRead 0 [])
      | x :: s' => Ok (s', RRead (length x) (if want then x else []))
      end
  | ORead _ false => Ok (s, RRead 0 [])
  | OLevel n true => if 8 <? n then Abort else Ok (s, RLevel (map (@length N) (firstn n s)))
  | OLevel _ false => Ok (s, RLevel [])
  | OClear => Ok ([], RClear)
  end.

Fixpoint spec_run (cap maxb : nat) (s : list (list N)) (ops : list op) : res (list (list N) * list out) :=
  match ops with
  | [] => Ok (s, [])
  | o :: os =>
      do sr <- spec_step cap maxb s o ;
      do srs <- spec_run cap maxb (fst sr) os ;
      Ok (fst srs, snd sr :: snd srs)
  end.

(** What an observer sees: the non-empty datagrams whose write returned a non-zero count ... *)
Fixpoint accepted (ops : list op) (outs : list out) : list (list N) :=
  match ops, outs with
  | OWrite inp n _ :: os, RWrite k :: rs =>
      if k =? 0 then accepted os rs else firstn k inp :: accepted os rs
  | _ :: os, _ :: rs => accepted os rs
  | _, _ => []
  end.

(** ... and the datagrams delivered by reads that returned a non-zero count. *)
Fixpoint delivered (outs : list out) : list (list N) :=
  match outs with
  | RRead k bytes :: rs => if k =? 0 then delivered rs else bytes :: delivered rs
  | _ :: rs => delivered rs
  | [] => []
  end.

(** Every write announces at least one byte, every read asks for the bytes, nothing is cleared. *)
Definition op_plain (o : op) : Prop :=
  match o with
  | OWrite inp n _ => 0 < n <= length inp
  | ORead want _ => want = true
  | OLevel _ _ => True
  | OClear => False
  end.

(** Length returned and number of bytes delivered by a read. *)
Definition read_len (r : out) : option (nat * nat) :=
  match r with RRead k bytes => Some (k, length bytes) | _ => None end.
