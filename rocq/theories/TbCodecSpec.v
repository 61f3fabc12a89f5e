(** What the channel coding of a transport block should do, for any codec. *)
From Verif Require Import Base PacketSizes PacketSizesSpec TbCodec.
Open Scope N_scope.

(** The coding configuration of a packet of sizes [q], as the transmitter and the receiver fill it
    (tx.cpp, rx_synced.cpp 343-351). *)
Definition fec_of (q : packet_sizes) (rv : N) : fec_cfg :=
  mkFec (q_N_TB_bits q) (N_bps (q_mcs q)) rv (q_G q) (d_Z (q_psdef q)).

(** Lengths never decrease. *)
Definition ascending (l : list N) : Prop :=
  forall i j a b, (i < j)%nat -> nth_error l i = Some a -> nth_error l j = Some b -> a <= b.

(** The coded bits are shared as evenly as whole cells of [qm] bits allow, the larger shares last. *)
Definition shares (qm G : N) (n : nat) : list N :=
  let g := G / qm in let k := N.of_nat n in
  repeat (qm * (g / k)) (n - N.to_nat (g mod k)) ++ repeat (qm * (g / k + 1)) (N.to_nat (g mod k)).
Definition even_split (qm G : N) (n : nat) (l : list N) : Prop :=
  length l = n /\ sum l = G /\ ascending l /\ Forall (fun x => x mod qm = 0) l /\
  forall x y, In x l -> In y l -> x <= y + qm.

(** Bits of the transport block and its checksum carried by a block of length [k], one of [n]. *)
Definition payload (n : nat) (k : N) : N := if (n =? 1)%nat then k else k - 24.
Definition payloads (lens : list N) : list N := map (payload (length lens)) lens.

(** Consecutive pieces of given lengths. *)
Fixpoint cut {A} (ns : list N) (l : list A) : list (list A) :=
  match ns with
  | [] => []
  | n :: t => firstn (N.to_nat n) l :: cut t (skipn (N.to_nat n) l)
  end.

Section Codec.
  Context {CS W : Type}.
  Variable turbo : CS -> list bool -> bool -> N -> bool -> W * CS.
  Variable select : W -> N -> N -> list bool.
  (** The blocks are encoded in order, the last one completes the checksum of the transport block. *)
  Fixpoint coded (crc : CS) (many : bool) (lens : list N) (xs : list (list bool)) : list W :=
    match lens, xs with
    | k :: lens, x :: xs =>
        let (w, crc1) := turbo crc x (match lens with [] => true | _ => false end) k many in
        w :: coded crc1 many lens xs
    | _, _ => []
    end.
  Definition codewords (rv : N) (ws : list W) (ns : list N) : list (list bool) :=
    map (fun p => select (fst p) (snd p) rv) (combine ws ns).
End Codec.

(** Code bits asked for so far. *)
Definition demanded (G : N) (l : list N) : N := fold_right N.max 0 (map (N.min G) l).

(** Soft bits of each share that reach the decoder: all of them, except that the first of the larger shares loses
    its last cell. *)
Definition used (qm G : N) (n : nat) : list N :=
  let g := G / qm in let k := N.of_nat n in let r := N.to_nat (g mod k) in
  repeat (qm * (g / k)) (n - (r - 1)) ++ repeat (qm * (g / k + 1)) (r - 1).
(** The soft bits of the blocks of a received packet. *)
Definition soft_bits {L} (descr : bool -> L -> L) (llrs : list L) (c : list bool) (ns us : list N) : list (list L) :=
  map (fun p => firstn (N.to_nat (snd p)) (fst p)) (combine (cut ns (descramble descr llrs c)) us).

Section Reception.
  Context {S L : Type}.
  Variable comb : S -> list L -> N -> N -> S.
  Variable tdec : S -> N -> nat -> list bool.
  Variable crc_cb_ok crc_tb_ok : list bool -> bool.

  (** Output of the turbo decoder for one block: that of the first iteration, from the second to the tenth, whose
      checksum holds, or that of the tenth. *)
  Fixpoint first_good (ok : list bool -> bool) (out : nat -> list bool) (is : list nat) : list bool * bool :=
    match is with
    | [] => (out 10%nat, false)
    | i :: t => if ok (out i) then (out i, true) else first_good ok out t
    end.
  (** A block of length [k], one of [n], with its soft buffer and its new soft bits: payload and soft buffer *)
  Definition block_result (n : nat) (rv k : N) (b : blk) (y : list L) : list bool * blk (S := S) :=
    if b_ok b then (firstn (N.to_nat (payload n k)) (b_data b), b)
    else
      let x := comb (b_soft b) y rv k in
      let r := first_good (if (n =? 1)%nat then crc_tb_ok else crc_cb_ok) (tdec x k) (seq 2 9) in
      (firstn (N.to_nat (payload n k)) (fst r), mkBlk x (snd r) (b_data b)).
  Fixpoint results (n : nat) (rv : N) (lens : list N) (w : list blk) (ys : list (list L)) : list (list bool * blk (S := S)) :=
    match lens, w, ys with
    | k :: lens, b :: w, y :: ys => block_result n rv k b y :: results n rv lens w ys
    | _, _, _ => []
    end.

  (** The whole transport block is accepted if every block is good and, with several blocks, its own checksum
      holds. *)
  Definition accepted (n : nat) (rs : list (list bool * blk (S := S))) : bool :=
    forallb (fun r => b_ok (snd r)) rs &&
    ((n =? 1)%nat || crc_tb_ok (concat (map fst rs))).
  (** What is kept in the soft buffer: the data of the good blocks of a transport block that is not complete;
      if all blocks look good but the transport block is not, none is trusted any more. *)
  Definition kept (n : nat) (rs : list (list bool * blk (S := S))) : list (blk (S := S)) :=
    if accepted n rs then map snd rs
    else if forallb (fun r => b_ok (snd r)) rs
    then map (fun r => mkBlk (b_soft (snd r)) false (b_data (snd r))) rs
    else map (fun r => if b_ok (snd r)
                       then mkBlk (b_soft (snd r)) true (fst r ++ skipn (length (fst r)) (b_data (snd r)))
                       else snd r) rs.
End Reception.
