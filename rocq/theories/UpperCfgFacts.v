(** Facts about reading configuration files. *)
From Coq Require Import QArith Qround Ascii String.
From Verif Require Import Base UpperCfg UpperCfgSpec.
Open Scope nat_scope.

Lemma str_eqb_true : forall a b, str_eqb a b = true <-> a = b.
Proof. intros a b. unfold str_eqb. destruct (list_eq_dec ascii_dec a b); split; congruence. Qed.

Lemma lookup_has : forall k v l, has k v l -> lookup k l = v.
Proof.
  intros k v l H. induction H; cbn [lookup].
  - rewrite (proj2 (str_eqb_true k k) eq_refl). reflexivity.
  - destruct (str_eqb k' k) eqn:E; [apply str_eqb_true in E; contradiction|exact IHhas].
Qed.

Lemma has_lookup : forall k l, lookup k l <> JNull -> has k (lookup k l) l.
Proof.
  induction l as [|[k' v'] l IH]; intros H; cbn [lookup] in *; [contradiction|].
  destruct (str_eqb k' k) eqn:E.
  - apply str_eqb_true in E. subst k'. constructor.
  - constructor; [|exact (IH H)]. intros Q. apply str_eqb_true in Q. congruence.
Qed.

Lemma to_int32_id : forall z, int32 z -> to_int32 z = z.
Proof. intros z H. unfold to_int32, int32 in *. rewrite Z.mod_small by lia. lia. Qed.
Lemma to_int32_range : forall z, int32 (to_int32 z).
Proof. intros z. unfold to_int32, int32. assert (A := Z.mod_pos_bound (z + 2 ^ 31) (2 ^ 32) ltac:(lia)). lia. Qed.
Lemma to_uint32_range : forall z, uint32 (to_uint32 z).
Proof. intros z. unfold to_uint32, uint32. apply Z.mod_pos_bound. lia. Qed.
Lemma to_int32_mod : forall z, (to_int32 z mod 2 ^ 32 = z mod 2 ^ 32)%Z.
Proof.
  intros z. unfold to_int32. rewrite Zminus_mod_idemp_l. f_equal. lia.
Qed.
Lemma uint_int : forall z, to_uint32 (to_int32 z) = (z mod 2 ^ 32)%Z.
Proof. intros z. apply to_int32_mod. Qed.

Lemma digits_value : forall s ds acc, Forall2 digit_of s ds -> digits s acc = fold_left (fun a d => (10 * a + d)%Z) ds acc.
Proof.
  intros s ds acc H. revert acc. induction H as [|c d s ds [Hd Hc] _ IH]; intros acc; [reflexivity|].
  cbn [digits fold_left]. unfold is_digit, code. assert (nat_of_ascii c = 48 + Z.to_nat d) by lia.
  rewrite (proj2 (Nat.leb_le 48 _)) by lia. rewrite (proj2 (Nat.leb_le _ 57)) by lia. cbn [andb].
  rewrite IH. f_equal. lia.
Qed.

Lemma stoi_numeral : forall s n, numeral s n -> (n < 2 ^ 31)%Z -> (0 <= n)%Z -> stoi s = Ok n.
Proof.
  intros s n [Hs [ds [Hf Hv]]] Hn H0. unfold stoi. destruct s as [|c s]; [contradiction|].
  destruct ds as [|d ds]; [inversion Hf|]. assert (Hf' := Hf).
  assert (Hc : nat_of_ascii c = 48 + Z.to_nat d /\ Z.to_nat d <= 9) by (inversion Hf'; subst; unfold digit_of in *; lia).
  destruct Hc as [Hc Hd]. cbn [skip_space]. unfold is_space, code. rewrite Hc.
  rewrite (proj2 (Nat.eqb_neq (48 + Z.to_nat d) 32)) by lia. rewrite (proj2 (Nat.leb_gt (48 + Z.to_nat d) 13)) by lia.
  rewrite Bool.andb_false_r. cbn [orb]. rewrite Hc.
  rewrite (proj2 (Nat.eqb_neq (48 + Z.to_nat d) 45)) by lia. rewrite (proj2 (Nat.eqb_neq (48 + Z.to_nat d) 43)) by lia.
  unfold magnitude, is_digit, code. rewrite Hc, (proj2 (Nat.leb_le 48 _)) by lia. rewrite (proj2 (Nat.leb_le _ 57)) by lia.
  cbn [andb bind]. rewrite (digits_value _ _ _ Hf'), Hv.
  rewrite (proj2 (Z.leb_le _ _)) by lia. rewrite (proj2 (Z.ltb_lt _ _)) by lia. reflexivity.
Qed.

Lemma starts_app : forall p s, starts_with (p ++ s) p = true.
Proof. induction p as [|a p IH]; intros s; [destruct s; reflexivity|]. cbn [starts_with app]. destruct (ascii_dec a a); [apply IH|congruence]. Qed.
Lemma starts_split : forall p s, starts_with s p = true -> exists r, s = p ++ r.
Proof.
  induction p as [|a p IH]; intros s H; [exists s; reflexivity|]. destruct s as [|b s]; [discriminate|].
  cbn [starts_with] in H. destruct (ascii_dec a b) as [->|]; [|discriminate]. destruct (IH s H) as [r ->]. exists r. reflexivity.
Qed.

Lemma skipn_app_len : forall A (p s : list A), skipn (List.length p) (p ++ s) = s.
Proof. induction p as [|a p IH]; intros s; [reflexivity|]. cbn. apply IH. Qed.

Lemma extract_numeral : forall p s n, numeral s n -> (0 <= n < 2 ^ 31)%Z -> extract_id (p ++ s) p = Ok n.
Proof.
  intros p s n H Hn. unfold extract_id, guard. rewrite app_length, (proj2 (Nat.ltb_lt _ _)).
  - rewrite skipn_app_len, (stoi_numeral _ _ H) by lia. cbn [bind]. unfold to_uint32. rewrite Z.mod_small by lia. reflexivity.
  - destruct H as [Hs _]. destruct s; [contradiction|cbn [List.length]; lia].
Qed.

Lemma convert_ints : forall l, convert_all (map JInt l) = Ok (map to_int32 l).
Proof. induction l as [|z l IH]; [reflexivity|]. cbn [map convert_all convert bind]. rewrite IH. reflexivity. Qed.

Lemma array_ints : forall o k l a b m, has k (JArr (map JInt l)) o ->
  1 <= List.length l -> a <= List.length l <= b -> List.length l mod m = 0 ->
  read_int_array (JObj o) k a b m = Ok (map to_int32 l).
Proof.
  intros o k l a b m H H1 H2 H3. unfold read_int_array, field, guard. cbn [bind]. rewrite (lookup_has _ _ _ H), map_length, H3.
  rewrite (proj2 (Nat.ltb_lt _ _)), !(proj2 (Nat.leb_le _ _)) by lia. cbn [andb Nat.eqb].
  destruct l as [|z l]; [cbn in H1; lia|]. cbn [map]. apply (convert_ints (z :: l)).
Qed.

Lemma read_tpoint_says : forall n key j c, says key j c -> sensible c -> id c = Z.of_nat n -> (Z.of_nat n < 2 ^ 31)%Z ->
  read_tpoint n key j = Ok c.
Proof.
  intros n key j c [[s [-> Hs]] [l [-> [F1 [F2 [F3 [F4 F5]]]]]]] [S1 [S2 [S3 [S4 [S5 [S6 [S7 S8]]]]]]] Hi Hn.
  unfold read_tpoint. change (lit "TPOINT") with json_log_key. rewrite starts_app. cbn [guard].
  rewrite (extract_numeral _ _ _ Hs) by lia. cbn [bind].
  unfold read_string, read_int_range, read_int, field, guard. cbn [bind]. rewrite (lookup_has _ _ _ F1), (lookup_has _ _ _ F2).
  destruct (str_eqb (firmware_name c) []) eqn:E; [apply str_eqb_true in E; contradiction|]. cbn [negb bind].
  rewrite to_int32_id by (unfold int32; lia). rewrite !(proj2 (Z.leb_le _ _)) by lia. cbn [andb bind].
  rewrite (array_ints _ _ _ 1 10 1 F3) by (lia || apply Nat.mod_1_r). cbn [bind].
  rewrite (array_ints l _ [fst (server_threads c); snd (server_threads c)] 2 2 2 F4) by (cbn; lia). cbn [bind].
  rewrite (array_ints l _ [fst (client_threads c); snd (client_threads c)] 2 2 2 F5) by (cbn; lia). cbn [bind map nth].
  rewrite Hi, Z.eqb_refl. rewrite !to_int32_id by assumption. rewrite <- Hi, map_map.
  rewrite (map_ext_in _ (fun z => z)).
  - rewrite map_id. unfold to_uint32 at 1. rewrite Z.mod_small by lia. destruct c as [i nm fid nets [? ?] [? ?]]. reflexivity.
  - intros z Hz. rewrite Forall_forall in S4. specialize (S4 z Hz). unfold uint32 in S4. rewrite uint_int. apply Z.mod_small. exact S4.
Qed.

Lemma read_from_says : forall l cs n, Forall2 (fun e c => says (fst e) (snd e) c /\ sensible c) l cs ->
  (forall k c, nth_error cs k = Some c -> id c = Z.of_nat (n + k)) -> (Z.of_nat (n + List.length l) < 2 ^ 31)%Z ->
  read_from n l = Ok cs.
Proof.
  intros l cs n H. revert n. induction H as [|[key j] c l cs [H1 H2] _ IH]; intros n Hi Hn; [reflexivity|].
  cbn [read_from List.length fst snd] in *.
  rewrite (read_tpoint_says n key j c H1 H2); [|rewrite (Hi 0 c eq_refl); f_equal; lia|lia]. cbn [bind].
  rewrite IH; [reflexivity| |lia]. intros k x Hx. rewrite (Hi (S k) x Hx). f_equal. lia.
Qed.

(** ** What is accepted *)

Lemma bind_ok : forall A B (m : res A) (f : A -> res B) y, bind m f = Ok y -> exists x, m = Ok x /\ f x = Ok y.
Proof. intros A B [x| | |] f y H; cbn [bind] in H; try discriminate. exists x. split; [reflexivity|exact H]. Qed.
Lemma guard_ok : forall A b (m : res A) y, guard b m = Ok y -> b = true /\ m = Ok y.
Proof. intros A [|] m y H; cbn [guard] in H; [split; [reflexivity|exact H]|discriminate]. Qed.

Lemma convert_range : forall v z, convert v = Ok z -> int32 z.
Proof.
  intros v z H. destruct v; cbn [convert] in H; try discriminate.
  - injection H as <-. destruct b; unfold int32; lia.
  - injection H as <-. apply to_int32_range.
  - destruct ((- 2 ^ 31 <=? (if Qle_bool 0 q then Qfloor q else Qceiling q)) && ((if Qle_bool 0 q then Qfloor q else Qceiling q) <? 2 ^ 31))%Z eqn:E; [|discriminate].
    injection H as <-. apply andb_prop in E. destruct E as [E1 E2]. apply Z.leb_le in E1. apply Z.ltb_lt in E2. split; assumption.
Qed.

Lemma convert_all_spec : forall l r, convert_all l = Ok r -> Forall2 (fun v z => convert v = Ok z) l r.
Proof.
  induction l as [|v l IH]; intros r H; cbn [convert_all] in H.
  - injection H as <-. constructor.
  - apply bind_ok in H. destruct H as [z [Hz H]]. apply bind_ok in H. destruct H as [r' [Hr H]]. injection H as <-.
    constructor; [exact Hz|exact (IH _ Hr)].
Qed.

Lemma f2_length : forall A B (R : A -> B -> Prop) l r, Forall2 R l r -> List.length l = List.length r.
Proof. intros A B R l r H. induction H; cbn [List.length]; congruence. Qed.

Lemma f2_head : forall A B (R : A -> B -> Prop) a l r, Forall2 R (a :: l) r -> exists b, R a b.
Proof. intros A B R a l r H. inversion H; subst. eexists. eassumption. Qed.

Lemma array_spec : forall j k a b m r, 1 <= a -> read_int_array j k a b m = Ok r ->
  exists o l, j = JObj o /\ has k (JArr l) o /\ Forall2 (fun v z => convert v = Ok z) l r /\
  a <= List.length r <= b /\ (exists x t, l = JInt x :: t).
Proof.
  intros j k a b m r Ha H. unfold read_int_array in H. apply bind_ok in H. destruct H as [v [Hv H]].
  destruct v as [| | | | |l|]; try discriminate. apply guard_ok in H. destruct H as [G H]. apply guard_ok in H. destruct H as [G2 H].
  apply convert_all_spec in H. assert (L := f2_length _ _ _ _ _ H). rewrite L in G.
  destruct j as [| | | | | |o]; cbn [field] in Hv; try discriminate. injection Hv as Hv.
  exists o, l. split; [reflexivity|]. split; [rewrite <- Hv; apply has_lookup; rewrite Hv; discriminate|]. split; [exact H|]. split.
  - apply andb_prop in G. destruct G as [G _]. apply andb_prop in G. destruct G as [G G3]. apply andb_prop in G.
    destruct G as [_ G4]. apply Nat.leb_le in G3, G4. lia.
  - destruct l as [|[| |x| | | |] t]; try discriminate. exists x, t. reflexivity.
Qed.

Lemma array_range : forall (l : list json) r, Forall2 (fun v z => convert v = Ok z) l r -> Forall int32 r.
Proof. intros l r H. induction H; constructor; [exact (convert_range _ _ H)|assumption]. Qed.

Lemma nth_range : forall (r : list Z) i, Forall int32 r -> int32 (nth i r 0%Z).
Proof.
  intros r i H. destruct (Nat.lt_ge_cases i (List.length r)) as [L|L].
  - rewrite Forall_forall in H. apply H, nth_In, L.
  - rewrite nth_overflow by exact L. unfold int32. lia.
Qed.

Lemma string_spec : forall j k s, read_string j k = Ok s -> exists o, j = JObj o /\ has k (JString s) o /\ s <> [].
Proof.
  intros j k s H. unfold read_string in H. apply bind_ok in H. destruct H as [v [Hv H]].
  destruct v as [| | | |t| |]; try discriminate. apply guard_ok in H. destruct H as [G H]. injection H as ->.
  destruct j as [| | | | | |o]; cbn [field] in Hv; try discriminate. injection Hv as Hv.
  exists o. split; [reflexivity|]. split; [rewrite <- Hv; apply has_lookup; rewrite Hv; discriminate|].
  intros ->. rewrite (proj2 (str_eqb_true [] []) eq_refl) in G. discriminate.
Qed.

Lemma int_spec : forall j k a b r, read_int_range j k a b = Ok r ->
  exists o x, j = JObj o /\ has k (JInt x) o /\ r = to_int32 x /\ (a <= r <= b)%Z.
Proof.
  intros j k a b r H. unfold read_int_range, read_int in H. apply bind_ok in H. destruct H as [y [Hy H]].
  apply guard_ok in H. destruct H as [G H]. injection H as <-. apply bind_ok in Hy. destruct Hy as [v [Hv Hy]].
  destruct v as [| |x| | | |]; try discriminate. injection Hy as <-.
  destruct j as [| | | | | |o]; cbn [field] in Hv; try discriminate. injection Hv as Hv.
  exists o, x. split; [reflexivity|]. split; [rewrite <- Hv; apply has_lookup; rewrite Hv; discriminate|]. split; [reflexivity|].
  apply andb_prop in G. destruct G as [G1 G2]. apply Z.leb_le in G1, G2. lia.
Qed.

Lemma convert_same : forall v z, convert v = Ok z -> forall x, v = JInt x -> (z mod 2 ^ 32 = x mod 2 ^ 32)%Z.
Proof. intros v z H x ->. cbn [convert] in H. injection H as <-. apply to_int32_mod. Qed.

Lemma ints_same : forall l r, Forall2 (fun v z => convert v = Ok z) l r ->
  Forall2 (fun v z => forall x, v = JInt x -> (z mod 2 ^ 32 = x mod 2 ^ 32)%Z) l r.
Proof. intros l r H. induction H; constructor; [exact (convert_same _ _ H)|assumption]. Qed.

Lemma ints_unsigned : forall l r, Forall2 (fun v z => forall x, v = JInt x -> (z mod 2 ^ 32 = x mod 2 ^ 32)%Z) l r ->
  Forall2 (fun v z => forall x, v = JInt x -> (z mod 2 ^ 32 = x mod 2 ^ 32)%Z) l (map to_uint32 r).
Proof.
  intros l r H. induction H as [|v z l r H _ IH]; cbn [map]; constructor; [|exact IH].
  intros x E. unfold to_uint32. rewrite Z.mod_mod by lia. exact (H x E).
Qed.

Lemma two : forall (r : list Z), List.length r = 2 -> r = [nth 0 r 0%Z; nth 1 r 0%Z].
Proof. intros [|a [|b [|c r]]] H; try discriminate. reflexivity. Qed.

Lemma read_tpoint_inv : forall n key j c, read_tpoint n key j = Ok c ->
  id c = Z.of_nat n /\ sensible c /\ (exists s, key = lit "TPOINT" ++ s /\ s <> []) /\ derived j c.
Proof.
  intros n key j c H. unfold read_tpoint in H. apply guard_ok in H. destruct H as [K H].
  apply bind_ok in H. destruct H as [i [Hi H]]. apply bind_ok in H. destruct H as [name [Hname H]].
  apply bind_ok in H. destruct H as [fid [Hfid H]]. apply bind_ok in H. destruct H as [nets [Hnets H]].
  apply bind_ok in H. destruct H as [srv [Hsrv H]]. apply bind_ok in H. destruct H as [cli [Hcli H]].
  apply guard_ok in H. destruct H as [G H]. injection H as <-. apply Z.eqb_eq in G.
  apply string_spec in Hname. destruct Hname as [o [-> [N1 N2]]].
  apply int_spec in Hfid. destruct Hfid as [o1 [x [E1 [F1 [F2 F3]]]]]. injection E1 as <-.
  apply array_spec in Hnets; [|lia]. destruct Hnets as [o2 [ln [E2 [A1 [A2 [A3 A4]]]]]]. injection E2 as <-.
  apply array_spec in Hsrv; [|lia]. destruct Hsrv as [o3 [ls [E3 [B1 [B2 [B3 B4]]]]]]. injection E3 as <-.
  apply array_spec in Hcli; [|lia]. destruct Hcli as [o4 [lc [E4 [D1 [D2 [D3 D4]]]]]]. injection E4 as <-.
  assert (RS := array_range _ _ B2). assert (RC := array_range _ _ D2).
  assert (U : to_uint32 fid = fid) by (unfold to_uint32; apply Z.mod_small; lia).
  split; [exact G|]. split; [|split].
  - unfold sensible. cbn [firmware_name firmware_id network_ids server_threads client_threads fst snd]. rewrite map_length, U.
    repeat split; try exact N2; try lia; try (apply nth_range; assumption).
    apply Forall_forall. intros z Hz. apply in_map_iff in Hz. destruct Hz as [y [<- _]]. apply to_uint32_range.
  - apply starts_split in K. destruct K as [r ->]. exists r. split; [reflexivity|].
    intros ->. unfold extract_id in Hi. apply guard_ok in Hi. destruct Hi as [L _]. rewrite app_nil_r in L.
    apply Nat.ltb_lt in L. lia.
  - exists o. cbn [firmware_name firmware_id network_ids server_threads client_threads fst snd].
    split; [reflexivity|]. split; [exact N1|]. split; [|split; [|split]].
    + exists x. split; [exact F1|]. rewrite U, F2. apply to_int32_mod.
    + exists ln. split; [exact A1|]. split; [exact A4|]. apply ints_unsigned, ints_same, A2.
    + exists ls. split; [exact B1|]. split; [exact B4|]. rewrite <- (two srv) by lia. apply ints_same, B2.
    + exists lc. split; [exact D1|]. split; [exact D4|]. rewrite <- (two cli) by lia. apply ints_same, D2.
Qed.

Lemma read_from_inv : forall l n cs, read_from n l = Ok cs ->
  List.length cs = List.length l /\
  forall k key j c, nth_error l k = Some (key, j) -> nth_error cs k = Some c ->
    id c = Z.of_nat (n + k) /\ sensible c /\ (exists s, key = lit "TPOINT" ++ s /\ s <> []) /\ derived j c.
Proof.
  induction l as [|[key0 j0] l IH]; intros n cs H; cbn [read_from] in H.
  - injection H as <-. split; [reflexivity|]. intros [|k] key j c Hk; discriminate.
  - apply bind_ok in H. destruct H as [c0 [Hc H]]. apply bind_ok in H. destruct H as [r [Hr H]]. injection H as <-.
    destruct (IH _ _ Hr) as [L I]. split; [cbn [List.length]; lia|].
    intros [|k] key j c Hk Hck; cbn [nth_error] in Hk, Hck.
    + injection Hk as <- <-. injection Hck as <-. rewrite Nat.add_0_r. exact (read_tpoint_inv _ _ _ _ Hc).
    + replace (n + S k) with (n + 1 + k) by lia. exact (I k key j c Hk Hck).
Qed.
