(** Facts about the assembly of a MAC PDU. *)
From Verif Require Import Base Bytes WireSpec BitSolve ByteFacts Fields MacHeader MacHeaderSpec MacHeaderFacts P16_MacHeader Mux MuxFacts IeBase
  Beacons BeaconsSpec BeaconsFacts P26_Beacons SmallIes SmallIesSpec IeFacts SmallIesFacts Decoder DecoderSpec DecoderFacts Assembly AssemblySpec.
Open Scope N_scope.

Definition element_bytes (mu : N) (e : element_tx) : list N :=
  match e with
  | TxData flow l => let n := N.of_nat (length l) in
    (if n <=? 255 then [66 + flow; n] else [130 + flow; n / 256; n mod 256]) ++ l
  | TxBeacon c => 9 :: field_bytes (cb_fields mu c 0 0 0)
  | TxPower v => [29; v]
  | TxTime t => 30 :: field_bytes (ta_fields t)
  end.
Lemma data_small (l : list N) : (N.of_nat (length l) <=? 255) = (length l <=? 255)%nat.
Proof. destruct (Nat.leb_spec (length l) 255); lia. Qed.
Lemma element_length mu e : element_ok mu e -> length (element_bytes mu e) = element_size mu e.
Proof.
  destruct e as [fl l|c|v|t]; cbn [element_ok element_bytes element_size].
  - intros _. cbv zeta. rewrite data_small, app_length. destruct (length l <=? 255)%nat; reflexivity.
  - intros K. cbn [length]. rewrite fb_length, cb_size_eq by now apply cb_ok_raw. reflexivity.
  - reflexivity.
  - intros K. cbn [length]. rewrite fb_length. reflexivity.
Qed.
Lemma element_bytes_ok mu e : element_ok mu e -> bytes (element_bytes mu e).
Proof.
  destruct e as [fl l|c|v|t]; cbn [element_ok element_bytes].
  - intros (F & L & B). cbv zeta. apply Forall_app. split; [|exact B]. destruct (N.leb_spec (N.of_nat (length l)) 255); repeat constructor; try lia.
  - intros _. constructor; [lia|apply fb_bytes].
  - intros V. repeat constructor; lia.
  - intros _. constructor; [lia|apply fb_bytes].
Qed.

Lemma flow_cases fl : 1 <= fl <= 4 -> fl = 1 \/ fl = 2 \/ fl = 3 \/ fl = 4. Proof. lia. Qed.
Lemma data_mmh_ok fl n : 1 <= fl <= 4 -> 1 <= N.of_nat n <= 65535 ->
  data_mmh fl n = Ok (mkMmh (if N.of_nat n <=? 255 then 1 else 2) (2 + fl) (N.of_nat n) None).
Proof.
  intros F L. unfold data_mmh, set_data_size. replace ((0 <? N.of_nat n) && (N.of_nat n <=? 65535)) with true by lia.
  destruct (flow_cases fl F) as [->|[->|[->| ->]]]; reflexivity.
Qed.
Lemma put_ok mu e pre rest : element_ok mu e -> (element_size mu e <= length rest)%nat ->
  put_element mu (length pre + length rest) e (pre ++ rest, length pre) =
  Ok (pre ++ element_bytes mu e ++ skipn (element_size mu e) rest, (length pre + element_size mu e)%nat).
Proof.
  intros K L. destruct e as [fl l|c|v|t]; cbn [element_ok element_bytes element_size put_element] in *.
  - destruct K as (F & Ll & B). rewrite data_mmh_ok by assumption. cbn [bind]. cbv zeta. rewrite data_small in *.
    assert (In (2 + fl) [3; 4; 5; 6]) as Ie by (destruct (flow_cases fl F) as [->|[->|[->| ->]]]; cbn; tauto).
    unfold flowing_size, flowing_pack. destruct (Nat.leb_spec (length l) 255) as [Q|Q].
    + change (mmh_size (mkMmh 1 (2 + fl) (N.of_nat (length l)) None)) with (Ok 2%nat). cbn [bind mx_len].
      replace (N.of_nat (length pre) + (N.of_nat 2 + N.of_nat (length l)) <=? N.of_nat (length pre + length rest)) with true by lia. cbn [guard].
      rewrite at_off_app, pack_ext1 by (try assumption; try lia; cbn in Ie |- *; tauto). rewrite behind_ok. cbn [bind].
      change ((64 + (2 + fl)) :: N.of_nat (length l) :: skipn 2 rest) with ([64 + (2 + fl); N.of_nat (length l)] ++ skipn 2 rest). rewrite app_assoc.
      replace (length pre + 2)%nat with (length (pre ++ [64 + (2 + fl); N.of_nat (length l)])) by (rewrite app_length; reflexivity).
      rewrite cp_at by (rewrite skipn_length; lia). cbn [bind]. rewrite skipn_add, <- !app_assoc. replace (64 + (2 + fl)) with (66 + fl) by lia. f_equal. f_equal. lia.
    + change (mmh_size (mkMmh 2 (2 + fl) (N.of_nat (length l)) None)) with (Ok 3%nat). cbn [bind mx_len].
      replace (N.of_nat (length pre) + (N.of_nat 3 + N.of_nat (length l)) <=? N.of_nat (length pre + length rest)) with true by lia. cbn [guard].
      rewrite at_off_app, pack_ext2 by (try assumption; lia). rewrite behind_ok. cbn [bind].
      set (n := N.of_nat (length l)) in *.
      change ((128 + (2 + fl)) :: n / 256 :: n mod 256 :: skipn 3 rest) with ([128 + (2 + fl); n / 256; n mod 256] ++ skipn 3 rest). rewrite app_assoc.
      replace (length pre + 3)%nat with (length (pre ++ [128 + (2 + fl); n / 256; n mod 256])) by (rewrite app_length; reflexivity).
      rewrite cp_at by (rewrite skipn_length; lia). cbn [bind]. rewrite skipn_add, <- !app_assoc. replace (128 + (2 + fl)) with (130 + fl) by lia. f_equal. f_equal. lia.
  - change (packing_size cb_mmh (cb_size mu c)) with (Ok (1 + cb_size mu c)%nat). cbn [bind].
    replace (length pre + (1 + cb_size mu c) <=? length pre + length rest)%nat with true by (symmetry; apply Nat.leb_le; lia). cbn [guard].
    unfold packing_pack. rewrite at_off_app. unfold cb_mmh. rewrite pack_ext0 by (cbn; tauto || lia). rewrite behind_ok. cbn [bind].
    change (mmh_size (mkMmh 0 9 UNDEF32 None)) with (Ok 1%nat). cbn [bind].
    change (9 :: skipn 1 rest) with ([9] ++ skipn 1 rest). rewrite app_assoc. replace (length pre + 1)%nat with (length (pre ++ [9])) by (rewrite app_length; reflexivity).
    rewrite at_off_app, cb_pack_ok by (try assumption; rewrite skipn_length; lia). rewrite behind_ok. cbn [bind]. rewrite skipn_add, <- !app_assoc. reflexivity.
  - change (packing_size pt_mmh pt_size) with (Ok 2%nat). cbn [bind].
    replace (length pre + 2 <=? length pre + length rest)%nat with true by (symmetry; apply Nat.leb_le; lia). cbn [guard].
    unfold packing_pack. rewrite at_off_app. unfold pt_mmh. rewrite pack_ext0 by (cbn; tauto || lia). rewrite behind_ok. cbn [bind].
    change (mmh_size (mkMmh 0 29 UNDEF32 None)) with (Ok 1%nat). cbn [bind].
    change (29 :: skipn 1 rest) with ([29] ++ skipn 1 rest). rewrite app_assoc. replace (length pre + 1)%nat with (length (pre ++ [29])) by (rewrite app_length; reflexivity).
    rewrite at_off_app. unfold pt_pack, pt_valid. replace ((45 <=? v) && (v <=? 60)) with true by lia. cbn [guard].
    destruct rest as [|r0 [|r1 rest]]; try (cbn in L; lia). cbn [skipn st nth_error upd]. rewrite u8_id by lia. rewrite behind_ok. cbn [bind]. rewrite <- !app_assoc. reflexivity.
  - change (packing_size ta_mmh ta_size) with (Ok 12%nat). cbn [bind].
    replace (length pre + 12 <=? length pre + length rest)%nat with true by (symmetry; apply Nat.leb_le; lia). cbn [guard].
    unfold packing_pack. rewrite at_off_app. unfold ta_mmh. rewrite pack_ext0 by (cbn; tauto || lia). rewrite behind_ok. cbn [bind].
    change (mmh_size (mkMmh 0 30 UNDEF32 None)) with (Ok 1%nat). cbn [bind].
    change (30 :: skipn 1 rest) with ([30] ++ skipn 1 rest). rewrite app_assoc. replace (length pre + 1)%nat with (length (pre ++ [30])) by (rewrite app_length; reflexivity).
    rewrite at_off_app, ta_pack_ok by (try assumption; rewrite skipn_length; lia). rewrite behind_ok. cbn [bind]. rewrite skipn_add, <- !app_assoc. reflexivity.
Qed.
Definition elements_bytes (mu : N) (es : list element_tx) : list N := concat (map (element_bytes mu) es).
Definition elements_size (mu : N) (es : list element_tx) : nat := list_sum (map (element_size mu) es).
Lemma elements_length mu es : Forall (element_ok mu) es -> length (elements_bytes mu es) = elements_size mu es.
Proof.
  induction 1 as [|e es K _ IH]; [reflexivity|]. unfold elements_bytes, elements_size in *. cbn [map concat list_sum fold_right]. rewrite app_length, IH, element_length by exact K. reflexivity.
Qed.
Lemma elements_bytes_ok mu es : Forall (element_ok mu) es -> bytes (elements_bytes mu es).
Proof. induction 1 as [|e es K _ IH]; [constructor|]. apply Forall_app. split; [now apply element_bytes_ok|exact IH]. Qed.
Lemma puts_ok mu es : Forall (element_ok mu) es -> forall pre rest, (elements_size mu es <= length rest)%nat ->
  put_elements mu (length pre + length rest) es (pre ++ rest, length pre) =
  Ok (pre ++ elements_bytes mu es ++ skipn (elements_size mu es) rest, (length pre + elements_size mu es)%nat).
Proof.
  induction 1 as [|e es K _ IH]; intros pre rest L; unfold elements_size, elements_bytes in *; cbn [map concat list_sum fold_right put_elements] in *.
  - rewrite Nat.add_0_r. reflexivity.
  - rewrite put_ok by (try assumption; unfold list_sum in *; lia). cbn [bind]. rewrite app_assoc.
    assert (E : (length pre + element_size mu e)%nat = length (pre ++ element_bytes mu e)) by (rewrite app_length, element_length by exact K; lia).
    assert (T : (length pre + length rest)%nat = (length (pre ++ element_bytes mu e) + length (skipn (element_size mu e) rest))%nat).
    { rewrite <- E, skipn_length. unfold list_sum in L. lia. }
    rewrite E, T, IH by (rewrite skipn_length; unfold list_sum in *; lia). rewrite <- E, skipn_add, <- !app_assoc. f_equal. f_equal. unfold list_sum. lia.
Qed.

(** *** Reading it *)
Lemma items_element mu caps e rest : element_ok mu e -> (0 < caps (element_kind e))%nat ->
  items mu caps (element_bytes mu e ++ rest) = as_item e :: items mu (less caps (element_kind e)) rest.
Proof.
  intros K C.
  assert (H : exists fl h n, announced mu (element_bytes mu e ++ rest) = Some (element_kind e, fl, h, n) /\ (h + n)%nat = element_size mu e /\
    meaning (element_kind e) mu fl (firstn n (skipn h (element_bytes mu e ++ rest))) = Some (as_item e)).
  { destruct e as [fl l|c|v|t]; cbn [element_ok element_bytes element_size element_kind as_item] in *.
    - destruct K as (F & Ll & B). cbv zeta. rewrite data_small. destruct (Nat.leb_spec (length l) 255) as [Q|Q].
      + exists fl, 2%nat, (length l). split; [|split; [reflexivity|]].
        * cbn [app announced]. replace (66 + fl =? 9) with false by lia. replace (66 + fl =? 29) with false by lia. replace (66 + fl =? 30) with false by lia.
          replace ((64 + 3 <=? 66 + fl) && (66 + fl <=? 64 + 6)) with true by lia. rewrite Nat2N.id. replace (66 + fl - 66) with fl by lia. reflexivity.
        * cbn [app skipn meaning]. rewrite firstn_app, Nat.sub_diag, firstn_O, app_nil_r, firstn_all. reflexivity.
      + exists fl, 3%nat, (length l). split; [|split; [reflexivity|]].
        * cbn [app announced]. replace (130 + fl =? 9) with false by lia. replace (130 + fl =? 29) with false by lia. replace (130 + fl =? 30) with false by lia.
          replace ((64 + 3 <=? 130 + fl) && (130 + fl <=? 64 + 6)) with false by lia. replace ((128 + 3 <=? 130 + fl) && (130 + fl <=? 128 + 6)) with true by lia.
          replace (256 * (N.of_nat (length l) / 256) + N.of_nat (length l) mod 256) with (N.of_nat (length l)) by (apply N.div_mod; lia).
          rewrite Nat2N.id. replace (130 + fl - 130) with fl by lia. reflexivity.
        * cbn [app skipn meaning]. rewrite firstn_app, Nat.sub_diag, firstn_O, app_nil_r, firstn_all. reflexivity.
    - pose proof (cb_ok_raw mu c K) as Rw. exists 0, 1%nat, (cb_size mu c). split; [|split; [reflexivity|]].
      + pose proof (cb_size_eq mu c 0 0 0 Rw) as Z. cbn [app]. 
        pose proof (cb_peek_raw mu c 0 (field_bytes (field_opt (cb_power c) (f_power 0)) ++ field_bytes (field_opt (cb_offset c) (f_offset mu)) ++
  field_bytes (field_opt (cb_next_channel c) (f_channel 0)) ++ field_bytes (field_opt (cb_time_to_next c) f_time) ++ rest) (proj1 Rw)) as P.
        rewrite (cb_bytes_eq mu c 0 0 0 Rw), <- !app_assoc. set (y := field_bytes (cb_head c 0) ++ _) in *.
        assert (Ly : (2 <= length y)%nat) by (unfold y; rewrite app_length, fb_length; change (nbytes (cb_head c 0)) with 4%nat; lia).
        destruct y as [|a [|f y]]; try (cbn in Ly; lia). rewrite cb_peek_first in P. apply (f_equal (fun r => match r with Ok z => z | _ => 0%nat end)) in P. cbn beta iota in P. unfold announced. change (9 =? 9) with true. cbn iota. now rewrite P.
      + cbn [app skipn meaning]. rewrite <- (cb_size_eq mu c 0 0 0 Rw), <- fb_length, firstn_app, Nat.sub_diag, firstn_O, app_nil_r, firstn_all.
        rewrite <- (app_nil_r (field_bytes _)), (cb_unpack_raw mu c 0 0 0 [] Rw), (cb_ok_dec mu c K), (cb_ok_valid mu c K). reflexivity.
    - exists 0, 1%nat, 1%nat. split; [reflexivity|]. split; [reflexivity|]. cbn [app skipn firstn meaning]. change (be_number [v]) with (N.lor (N.shiftl 0 8) v). rewrite N.shiftl_0_l, N.lor_0_l.
      replace ((45 <=? v) && (v <=? 60)) with true by lia. reflexivity.
    - exists 0, 1%nat, 11%nat. split; [reflexivity|]. split; [reflexivity|]. cbn [app]. change (skipn 1 (30 :: field_bytes (ta_fields t) ++ rest)) with (field_bytes (ta_fields t) ++ rest).
      assert (L11 : length (field_bytes (ta_fields t)) = 11%nat) by now rewrite fb_length. rewrite firstn_app, L11, Nat.sub_diag, firstn_O, app_nil_r, firstn_all2 by lia.
      rewrite (ta_bytes_eq t K). destruct K as (K1 & K2 & K3 & K4). set (x := rev (le_bytes 8 (Z.to_N (ta_sec t)))). assert (Lx : length x = 8%nat) by (unfold x; now rewrite rev_length, le_bytes_length).
      assert (Bx : be_number x = Z.to_N (ta_sec t)) by (apply be_le; change (2 ^ (8 * N.of_nat 8)) with 18446744073709551616; lia).
      unfold meaning. cbn [nth]. change (skipn 2 (ta_type t :: ta_frames t :: x ++ [ta_tai t])) with (x ++ [ta_tai t]).
      rewrite firstn_app, Lx, Nat.sub_diag, firstn_O, app_nil_r, firstn_all2, Bx by lia.
      rewrite app_nth2 by lia. rewrite Lx. change (nth (8 - 8) [ta_tai t] 0) with (ta_tai t).
      replace ((ta_type t <=? 2) && (Z.to_N (ta_sec t) <? 2 ^ 63)) with true by (change (2 ^ 63) with 9223372036854775808; change (2 ^ 63)%Z with 9223372036854775808%Z in *; lia).
      rewrite Z2N.id by lia. destruct t; reflexivity. }
  destruct H as (fl & h & n & A & Sz & M). rewrite items_step, A, Sz.
  replace ((0 <? caps (element_kind e)) && (element_size mu e <=? length (element_bytes mu e ++ rest)))%nat with true.
  - rewrite M. f_equal. rewrite <- (element_length mu e K). now rewrite skipn_app, skipn_all, Nat.sub_diag.
  - symmetry. rewrite app_length, element_length by exact K. apply andb_true_iff. split; [apply Nat.ltb_lt; lia|apply Nat.leb_le; lia].
Qed.
Lemma how_many_cons k e es : how_many k (e :: es) = ((if kind_dec (element_kind e) k then 1 else 0) + how_many k es)%nat.
Proof. unfold how_many. cbn [filter]. destruct (kind_dec (element_kind e) k); reflexivity. Qed.
Lemma items_elements mu es : Forall (element_ok mu) es -> forall caps rest, (forall k, how_many k es <= caps k)%nat -> (forall c, items mu c rest = []) ->
  items mu caps (elements_bytes mu es ++ rest) = map as_item es.
Proof.
  induction 1 as [|e es K _ IH]; intros caps rest C Z; unfold elements_bytes in *; cbn [map concat].
  - apply Z.
  - rewrite <- app_assoc. assert (C' : forall k, ((if kind_dec (element_kind e) k then 1 else 0) + how_many k es <= caps k)%nat) by (intros k; rewrite <- how_many_cons; apply C).
    rewrite items_element; [f_equal|exact K|].
    + apply IH; [|exact Z]. intros k. specialize (C' k). unfold less, at_kind. destruct (kind_dec k (element_kind e)) as [->|N0].
      * destruct (kind_dec (element_kind e) (element_kind e)); [lia|congruence].
      * destruct (kind_dec (element_kind e) k); [congruence|lia].
    + specialize (C' (element_kind e)). destruct (kind_dec (element_kind e) (element_kind e)); [lia|congruence].
Qed.
Lemma items_paddings mu l : paddings l -> forall c, items mu c l = [].
Proof.
  intros (ies & F & ->) c. rewrite items_step. destruct F as [|x ies P _]; [reflexivity|]. cbn [concat]. destruct P; reflexivity.
Qed.
Lemma paddings_bytes l : paddings l -> bytes l.
Proof.
  intros (ies & F & ->). induction F as [|x ies P _ IH]; [constructor|]. cbn [concat]. apply Forall_app. split; [|exact IH]. destruct P; repeat constructor.
  - lia. - apply Forall_forall. intros x Hx. apply repeat_spec in Hx. subst. lia.
Qed.

(** *** The headers *)
Lemma mch_round c m m' : mch_ok c -> bytes m -> (mch_size c <= length m)%nat -> mch_pack c m = Ok m' -> common_header (type_of c) m' = Some (as_received c).
Proof.
  intros K B L E. pose proof (C19_round_trip m B) as (_ & R1 & R2 & R3). destruct c as [h|h|h|h|]; cbn [mch_ok mch_pack mch_size type_of common_header as_received] in *.
  - destruct (R1 h L K) as (x & E' & U). rewrite E' in E. injection E as <-. now rewrite U.
  - destruct (C19_beacon_round_trip h m L K) as (x & E' & _ & _ & U). rewrite E' in E. injection E as <-. now rewrite U.
  - destruct (R2 h L K) as (x & E' & U). rewrite E' in E. injection E as <-. now rewrite U.
  - destruct (R3 h L K) as (x & E' & U). rewrite E' in E. injection E as <-. now rewrite U.
  - reflexivity.
Qed.
Lemma type_size c : common_size (type_of c) = mch_size c. Proof. destruct c; reflexivity. Qed.
Lemma type_le c : type_of c <= 4. Proof. destruct c; cbn; lia. Qed.
Lemma headers_ok h c m : mht_ok h -> mht_type h = type_of c -> mch_ok c -> bytes m -> (1 + mch_size c <= length m)%nat ->
  exists b x, length x = mch_size c /\ bytes (b :: x) /\ pack_headers h c m = Ok (b :: x ++ skipn (1 + mch_size c) m, (1 + mch_size c)%nat) /\
  forall mu y, read_pdu mu (b :: x ++ y) = mkPdu (Some h) (Some (as_received c)) (items mu room y).
Proof.
  intros Hh Ht Hc B L. destruct (C19_round_trip m B) as (R0 & _). destruct (R0 h ltac:(lia) Hh) as (m1 & E1 & U1).
  destruct (C19_layout m) as (Lay & _). destruct (Lay h ltac:(lia) Hh) as (m1' & E1' & (W1 & W2 & W3 & _)). rewrite E1 in E1'. injection E1' as <-.
  destruct m1 as [|b m1]; [cbn in W1; lia|]. destruct m as [|b0 m0]; [cbn in L; lia|]. change (skipn 1 (b :: m1)) with m1 in W2. change (skipn 1 (b0 :: m0)) with m0 in W2. subst m1.
  assert (B0 : bytes m0) by now inversion B. assert (Bb : b < 256) by (change (firstn 1 (b :: m0)) with [b] in W3; now inversion W3). cbn [length] in L.
  destruct (C19_announced_size c m0 Hc B0 ltac:(lia)) as (m2 & E2 & (V1 & V2 & V3 & _)).
  pose proof (mch_round c m0 m2 Hc B0 ltac:(lia) E2) as U2.
  assert (S2 : m2 = firstn (mch_size c) m2 ++ skipn (mch_size c) m0) by (rewrite <- V2; symmetry; apply firstn_skipn).
  set (x := firstn (mch_size c) m2) in *. assert (Lx : length x = mch_size c) by (unfold x; rewrite firstn_length; lia).
  exists b, x. split; [exact Lx|]. split; [constructor; assumption|]. split.
  - unfold pack_headers. rewrite E1. cbn [bind]. change (b :: m0) with ([b] ++ m0). change (at_off 1) with (at_off (length [b])). rewrite at_off_app, E2, behind_ok. cbn [bind]. rewrite S2. reflexivity.
  - intros mu y. unfold read_pdu. destruct (mht_total b) as (h' & v' & T). rewrite T. rewrite T in U1. injection U1 as -> ->. rewrite Ht, type_size.
    replace (1 + mch_size c <=? length (b :: x ++ y))%nat with true by (symmetry; apply Nat.leb_le; cbn [length]; rewrite app_length; lia).
    change (skipn 1 (b :: x ++ y)) with (x ++ y). change (skipn (1 + mch_size c) (b :: x ++ y)) with (skipn (mch_size c) (x ++ y)).
    assert (Sk : skipn (mch_size c) (x ++ y) = y) by (rewrite <- Lx, skipn_app, skipn_all, Nat.sub_diag; reflexivity). rewrite Sk.
    destruct (mch_total (type_of c) x (type_le c) ltac:(now rewrite type_size)) as (c' & v & _ & M). rewrite M. rewrite S2, M in U2. now rewrite U2.
Qed.

Lemma assemble_ok mu h c es m : mht_ok h -> mht_type h = type_of c -> mch_ok c -> bytes m -> Forall (element_ok mu) es ->
  (1 + mch_size c + elements_size mu es <= length m)%nat ->
  exists b x pad, length x = mch_size c /\ bytes (b :: x) /\ paddings pad /\ length (b :: x ++ elements_bytes mu es ++ pad) = length m /\
    assemble mu h c es m = Ok (b :: x ++ elements_bytes mu es ++ pad) /\
    forall y, read_pdu mu (b :: x ++ y) = mkPdu (Some h) (Some (as_received c)) (items mu room y).
Proof.
  intros Hh Ht Hc B F L. destruct (headers_ok h c m Hh Ht Hc B ltac:(lia)) as (b & x & Lx & Bx & E & Rd).
  set (rest := skipn (1 + mch_size c) m) in *. assert (Lr : length rest = (length m - (1 + mch_size c))%nat) by (unfold rest; now rewrite skipn_length).
  set (n := (length rest - elements_size mu es)%nat). exists b, x, (filling n n). split; [exact Lx|]. split; [exact Bx|]. split; [apply filling_paddings|].
  split; [cbn [length]; rewrite !app_length, Lx, elements_length, filling_length by (auto; lia); lia|]. split; [|apply Rd].
  unfold assemble. rewrite E. cbn [bind]. change (b :: x ++ rest) with ((b :: x) ++ rest).
  assert (Lbx : (1 + mch_size c)%nat = length (b :: x)) by (cbn [length]; lia).
  assert (Lm : length m = (length (b :: x) + length rest)%nat) by lia. rewrite Lbx, Lm, (puts_ok mu es F (b :: x) rest) by lia. cbn [bind]. rewrite app_assoc.
  assert (Lo : (length (b :: x) + elements_size mu es)%nat = length ((b :: x) ++ elements_bytes mu es)) by (rewrite app_length, elements_length by exact F; reflexivity).
  rewrite Lo. replace (N.of_nat (length (b :: x) + length rest) - N.of_nat (length ((b :: x) ++ elements_bytes mu es))) with (N.of_nat n) by (rewrite <- Lo; unfold n; lia).
  rewrite fill_ok by (rewrite skipn_length; unfold n; lia). rewrite skipn_add. replace (elements_size mu es + n)%nat with (length rest) by (unfold n; lia).
  rewrite skipn_all, app_nil_r, <- !app_assoc. reflexivity.
Qed.
(** Too many elements *)
Lemma size_pos mu e : element_ok mu e -> (0 < element_size mu e)%nat.
Proof. destruct e; cbn [element_size]; try lia. destruct (length payload <=? 255)%nat; lia. Qed.
Lemma put_too_large mu e m off tb : element_ok mu e -> (tb < off + element_size mu e)%nat -> put_element mu tb e (m, off) = Abort.
Proof.
  intros K L. destruct e as [fl l|c|v|t]; cbn [element_ok element_size put_element] in *.
  - destruct K as (F & Ll & B). rewrite data_mmh_ok by assumption. cbn [bind]. rewrite data_small. unfold flowing_size. destruct (Nat.leb_spec (length l) 255) as [Q|Q].
    + change (mmh_size (mkMmh 1 (2 + fl) (N.of_nat (length l)) None)) with (Ok 2%nat). cbn [bind mx_len].
      replace (N.of_nat off + (N.of_nat 2 + N.of_nat (length l)) <=? N.of_nat tb) with false by lia. reflexivity.
    + change (mmh_size (mkMmh 2 (2 + fl) (N.of_nat (length l)) None)) with (Ok 3%nat). cbn [bind mx_len].
      replace (N.of_nat off + (N.of_nat 3 + N.of_nat (length l)) <=? N.of_nat tb) with false by lia. reflexivity.
  - change (packing_size cb_mmh (cb_size mu c)) with (Ok (1 + cb_size mu c)%nat). cbn [bind].
    replace (off + (1 + cb_size mu c) <=? tb)%nat with false by (symmetry; apply Nat.leb_gt; lia). reflexivity.
  - change (packing_size pt_mmh pt_size) with (Ok 2%nat). cbn [bind]. replace (off + 2 <=? tb)%nat with false by (symmetry; apply Nat.leb_gt; lia). reflexivity.
  - change (packing_size ta_mmh ta_size) with (Ok 12%nat). cbn [bind]. replace (off + 12 <=? tb)%nat with false by (symmetry; apply Nat.leb_gt; lia). reflexivity.
Qed.
Lemma puts_too_large mu es : Forall (element_ok mu) es -> forall pre rest, (length rest < elements_size mu es)%nat ->
  put_elements mu (length pre + length rest) es (pre ++ rest, length pre) = Abort.
Proof.
  induction 1 as [|e es K _ IH]; intros pre rest L; unfold elements_size in *; cbn [map list_sum fold_right put_elements] in *; [lia|].
  fold (list_sum (map (element_size mu) es)) in L. destruct (Nat.le_gt_cases (element_size mu e) (length rest)) as [Q|Q].
  - rewrite put_ok by assumption. cbn [bind]. rewrite app_assoc.
    assert (E : (length pre + element_size mu e)%nat = length (pre ++ element_bytes mu e)) by (rewrite app_length, element_length by exact K; lia).
    assert (T : (length pre + length rest)%nat = (length (pre ++ element_bytes mu e) + length (skipn (element_size mu e) rest))%nat) by (rewrite <- E, skipn_length; lia).
    rewrite E, T. apply IH. rewrite skipn_length. lia.
  - rewrite put_too_large by (try assumption; lia). reflexivity.
Qed.
