(** C17: the PLCF decoder accepts exactly the bytes some valid header within the device class encodes. *)
From Verif Require Import Base Bytes WireSpec ByteFacts Feedback FeedbackSpec Plcf PlcfSpec PlcfFacts PlcfDecoderFacts P12_Plcf.
Open Scope N_scope.

(** Whatever state earlier packets left the decoder in: after set_configuration, decoding any 5 and any
    10 bytes never aborts, and each getter returns a header exactly if the bytes encode one that is
    valid and within the limits, and then that header. *)
Theorem C17_decoder_exact : forall d m1 m2,
  (5 <= length m1)%nat -> bytes (firstn 5 m1) -> (10 <= length m2)%nat -> bytes (firstn 10 m2) ->
  exists d1 d2,
    decode_and_rdc_check (set_configuration d) 1 m1 = Ok d1 /\
    decode_and_rdc_check d1 2 m2 = Ok d2 /\
    (match get_plcf_base d2 1 with
     | Ok (Some (P10 p)) => accepts10 d m1 p
     | Ok None => forall p, ~ accepts10 d m1 p
     | _ => False
     end) /\
    (match get_plcf_base d2 2 with
     | Ok (Some (P20 p)) => exists level, accepts20 d m2 p level /\ size_is20 p level
     | Ok (Some (P21 p)) => exists level, accepts21 d m2 p level /\ size_is21 p level
     | Ok None => (forall p level, ~ accepts20 d m2 p level) /\ (forall p level, ~ accepts21 d m2 p level)
     | _ => False
     end) /\
    has_any_plcf d2 =
      (match get_plcf_base d2 1 with Ok (Some _) => 1 | _ => 0 end) +
      (match get_plcf_base d2 2 with Ok (Some _) => 2 | _ => 0 end).
Proof. exact decoder_exact. Qed.

(** What a sender packed is what the decoder reports. *)
Theorem C17_reports_packed_type1 : forall d m p m',
  (5 <= length m)%nat -> p10_ok p -> p10_pack p m = Ok m' ->
  PacketLength_m1 (p10_base p) + 1 <= PacketLength_max d -> p10_mcs p <= mcs_index_max d -> 1 <= N_SS_max d ->
  exists d1, decode_and_rdc_check (set_configuration d) 1 m' = Ok d1 /\ get_plcf_base d1 1 = Ok (Some (P10 p)).
Proof. exact decoder_reports_packed10. Qed.

(** Decoding a second packet without set_configuration in between aborts: the reset is mandatory. *)
Theorem C17_reset_required_refuted :
  exists d m d1, decode_and_rdc_check d 1 m = Ok d1 /\ decode_and_rdc_check d1 1 m = Abort.
Proof.
  exists (mkDec 16 7 1 None None ex10 ex20 ex21), [19; 77; 18; 52; 198].
  eexists. split; [vm_compute; reflexivity|]. vm_compute. reflexivity.
Qed.

Definition ex_dec := mkDec 16 9 4 (Some 0) None ex10 ex20 ex21.
Example C17_hypotheses_met :
  match decode_and_rdc_check (set_configuration ex_dec) 1 [19; 77; 18; 52; 198] with
  | Ok d1 => match decode_and_rdc_check d1 2 [23; 200; 18; 52; 148; 202; 254; 109; 23; 70] with
             | Ok d2 => get_plcf_base d2 1 = Ok (Some (P10 ex10)) /\ has_any_plcf d2 = 3
             | _ => False
             end
  | _ => False
  end.
Proof. vm_compute. split; reflexivity. Qed.

Print Assumptions C17_decoder_exact.
Print Assumptions C17_reports_packed_type1.
Print Assumptions C17_reset_required_refuted.
