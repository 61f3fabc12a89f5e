(** What the coding of the control header should do, for any codec. *)
From Verif Require Import Base WireSpec Feedback FeedbackSpec Plcf PlcfSpec TbCodec PccCodec PlcfDecoderFacts.
Open Scope N_scope.

(** Bytes of a header of type 1 or 2; number of the turbo code block of that many bytes and a checksum of two. *)
Definition header_bytes (type : N) : nat := if type =? 1 then 5 else 10.
Definition block_no (type : N) : nat := if type =? 1 then 2 else 7.
Definition block_bits (type : N) : N := if type =? 1 then 56 else 96.

(** ETSI TS 103 636-3, 7.5.2: the checksum follows the header, its bits 0101... are inverted for closed loop MIMO
    and its bits 1010... for beamforming. *)
Definition flag_byte (cl bf : bool) : N := N.lxor (if cl then 0x55 else 0) (if bf then 0xAA else 0).
Definition word (crc : list N -> N) (h : list N) (cl bf : bool) : list N :=
  h ++ [N.lxor (crc h mod 65536 / 256) (flag_byte cl bf); N.lxor (crc h mod 65536 mod 256) (flag_byte cl bf)].

Section Reception.
  Context {S L : Type}.
  Variable crc : list N -> N.
  Variable comb : nat -> list L -> S.
  Variable tdec : S -> N -> nat -> list N.
  Variable descr : bool -> L -> L.
  Variable seq : list bool.

  (** The turbo decoder writes whole blocks of bytes. *)
  Definition writes_blocks : Prop := forall x type i, type = 1 \/ type = 2 ->
    length (tdec x (block_bits type) i) = (header_bytes type + 2)%nat /\ bytes (tdec x (block_bits type) i).

  (** Output of the turbo decoder for soft bits [d] after [i] iterations, tried as type [type] *)
  Definition output (d : list L) (type : N) (i : nat) : list N :=
    tdec (comb (block_no type) (descramble descr (firstn 196 d) (firstn 196 seq))) (block_bits type) i.

  (** The soft bits yield header [h] with its flags if tried as [type]: it is the first output within five
      iterations that is the word of some header. *)
  Definition yields (d : list L) (type : N) (h : list N) (cl bf : bool) : Prop :=
    length h = header_bytes type /\
    exists i, (1 <= i <= 5)%nat /\ output d type i = word crc h cl bf /\
    forall j h' cl' bf', (1 <= j < i)%nat -> length h' = header_bytes type -> output d type j <> word crc h' cl' bf'.

  (** What a receiver reports on a packet with soft bits [d]: for each type the header the soft bits yield if it is
      valid and within the device class, with the flags it was sent with, and nothing otherwise. *)
  Definition reports (r : receiver) (d : list L) : Prop :=
    (match get_plcf_base (r_dec r) 1 with
     | Ok (Some (P10 p)) =>
         exists h, yields d 1 h (closed_loop (r_fec1 r)) (beamforming (r_fec1 r)) /\ accepts10 (r_dec r) h p
     | Ok None => forall h cl bf p, yields d 1 h cl bf -> ~ accepts10 (r_dec r) h p
     | _ => False
     end) /\
    (match get_plcf_base (r_dec r) 2 with
     | Ok (Some (P20 p)) =>
         exists h level, yields d 2 h (closed_loop (r_fec2 r)) (beamforming (r_fec2 r)) /\
           accepts20 (r_dec r) h p level /\ size_is20 p level
     | Ok (Some (P21 p)) =>
         exists h level, yields d 2 h (closed_loop (r_fec2 r)) (beamforming (r_fec2 r)) /\
           accepts21 (r_dec r) h p level /\ size_is21 p level
     | Ok None => forall h cl bf, yields d 2 h cl bf ->
         (forall p level, ~ accepts20 (r_dec r) h p level) /\ (forall p level, ~ accepts21 (r_dec r) h p level)
     | _ => False
     end) /\
    has_any_plcf (r_dec r) =
      (match get_plcf_base (r_dec r) 1 with Ok (Some _) => 1 | _ => 0 end) +
      (match get_plcf_base (r_dec r) 2 with Ok (Some _) => 2 | _ => 0 end).
End Reception.

(** Buffers as the constructors allocate them. *)
Definition pcc_sized (q : pcc) : Prop := length (c_systematic q) = 12%nat /\ length (c_rx q) = 12%nat.
Definition rx_sized (r : receiver) : Prop := pcc_sized (r_pcc r) /\ length (r_a r) = 10%nat.
