From Verif Require Import Base Bytes WireSpec BitSolve ByteFacts Feedback FeedbackSpec.
Open Scope N_scope.

Ltac pow_consts :=
  repeat match goal with
  | |- context [2 ^ ?k] => let b0 := nconst k in match b0 with true =>
        let v := eval vm_compute in (2 ^ k) in change (2 ^ k) with v end
  end.

Lemma status_le b0 : buffer_size_2_buffer_status b0 <= 15.
Proof.
  unfold buffer_size_2_buffer_status.
  repeat match goal with |- context [if ?c then _ else _] => destruct c end; lia.
Qed.

Lemma level_cases k : k <= 15 ->
  k = 0 \/ k = 1 \/ k = 2 \/ k = 3 \/ k = 4 \/ k = 5 \/ k = 6 \/ k = 7 \/ k = 8 \/ k = 9 \/
  k = 10 \/ k = 11 \/ k = 12 \/ k = 13 \/ k = 14 \/ k = 15.
Proof. lia. Qed.

Lemma level_max_mono j k : j < k -> k <= 15 -> level_max j < level_max k.
Proof.
  intros H Hk. assert (Hj : j <= 15) by lia.
  destruct (level_cases j Hj) as [->|[->|[->|[->|[->|[->|[->|[->|[->|[->|[->|[->|[->|[->|[->| ->]]]]]]]]]]]]]]];
  destruct (level_cases k Hk) as [->|[->|[->|[->|[->|[->|[->|[->|[->|[->|[->|[->|[->|[->|[->| ->]]]]]]]]]]]]]]];
  try lia; vm_compute; reflexivity.
Qed.

Lemma level_prev b0 k : k <= 15 -> b0 <= level_max k -> (k = 0 \/ level_max (k - 1) < b0) -> buffer_level b0 k.
Proof.
  intros Hk Hb Hp. split; [auto|]. split; [auto|]. intros j Hj.
  destruct Hp as [->|Hp]; [lia|].
  destruct (N.eq_dec j (k - 1)) as [->|]; [auto|].
  assert (level_max j < level_max (k - 1)) by (apply level_max_mono; lia). lia.
Qed.

Lemma status_level b0 : b0 < 4294967296 -> buffer_level b0 (buffer_size_2_buffer_status b0).
Proof.
  intros Hb. unfold buffer_size_2_buffer_status.
  repeat match goal with |- context [if ?c then _ else _] => destruct c eqn:? end;
    (apply level_prev; [lia| |]);
    match goal with
    | |- _ <= level_max ?k => let v := eval vm_compute in (level_max k) in change (level_max k) with v; lia
    | |- ?k = 0 \/ level_max ?j < _ =>
        first [left; reflexivity
              | right; let v := eval vm_compute in (level_max j) in change (level_max j) with v; lia]
    end.
Qed.

Lemma level_unique b0 j k : buffer_level b0 j -> buffer_level b0 k -> j = k.
Proof.
  intros (H1 & H2 & H3) (G1 & G2 & G3).
  destruct (N.lt_trichotomy j k) as [H|[H|H]]; [|auto|].
  - specialize (G3 j H). lia.
  - specialize (H3 k H). lia.
Qed.

Lemma size_lower_min k : k <= 15 -> size_lower k = level_min k.
Proof.
  intros Hk.
  destruct (level_cases k Hk) as [->|[->|[->|[->|[->|[->|[->|[->|[->|[->|[->|[->|[->|[->|[->| ->]]]]]]]]]]]]]]];
  vm_compute; reflexivity.
Qed.

Lemma level_of_min k : 1 <= k <= 15 -> buffer_level (level_min k) (k - 1).
Proof.
  intros [H1 H2]. assert (Hm : level_min k = level_max (k - 1)).
  { unfold level_min. destruct (N.eqb_spec k 0); [lia|auto]. }
  rewrite Hm. split; [lia|]. split; [lia|]. intros j Hj. apply level_max_mono; lia.
Qed.

Lemma level_min_lt b0 k : buffer_level b0 k -> k <> 0 -> level_min k < b0.
Proof.
  intros (H1 & H2 & H3) Hk. unfold level_min. destruct (N.eqb_spec k 0); [lia|]. apply H3. lia.
Qed.

Lemma tfb_defined_ok t : tfb_defined t = true <-> tf_ok t.
Proof. unfold tf_ok. destruct t; cbn; split; intros H; try discriminate; auto; destruct H; discriminate. Qed.

Lemma fmt_cases fmt : fmt = 0 \/ fmt = 1 \/ fmt = 2 \/ fmt = 3 \/ fmt = 4 \/ fmt = 5 \/ fmt = 6 \/ 7 <= fmt.
Proof. lia. Qed.

Lemma fmt_big fmt p m : 7 <= fmt ->
  pool_pack p fmt m = Abort /\ pool_unpack p fmt m = Ok (p, false) /\ fb_view fmt p = FbUnknown.
Proof.
  intros H. destruct fmt as [|q]; [lia|].
  destruct q as [[[q|q|]|[q|q|]|]|[[q|q|]|[q|q|]|]|]; try lia; repeat split; reflexivity.
Qed.

Lemma tf_code_bit t : tf_ok t -> tfb_code t = tf_bit t.
Proof. intros [->| ->]; reflexivity. Qed.
Lemma tf_bit_le t : tf_bit t <= 1.
Proof. destruct t; cbn; lia. Qed.
Lemma mimo_code_bits t : t <> mimo_not_defined -> mimo_code t = mimo_bits t.
Proof. destruct t; cbn; congruence. Qed.
Lemma mimo_bits_le t : mimo_bits t <= 3.
Proof. destruct t; cbn; lia. Qed.
Lemma mimo_bits_sd t : t = single_layer \/ t = dual_layer -> mimo_bits t <= 1.
Proof. intros [->| ->]; cbn; lia. Qed.
Lemma tf_cast_bit t : tf_ok t -> tfb_cast (tf_bit t) = t.
Proof. intros [->| ->]; reflexivity. Qed.
Lemma mimo_cast_bits t : t <> mimo_not_defined -> mimo_cast (mimo_bits t) = t.
Proof. destruct t; cbn; congruence. Qed.
Lemma sd_defined t : t = single_layer \/ t = dual_layer -> t <> mimo_not_defined.
Proof. intros [->| ->]; discriminate. Qed.
Lemma cqi_back x : x <= 11 -> cqi_2_mcs (x + 1) = x.
Proof. intros. unfold cqi_2_mcs. destruct ((x + 1 =? 0) || (12 <? x + 1)) eqn:E; lia. Qed.
Lemma cqi_ok c : cqi_2_mcs c <= 11 -> c = cqi_2_mcs c + 1 /\ c <= 12.
Proof.
  unfold cqi_2_mcs, MCS_out_of_range. destruct ((c =? 0) || (12 <? c)) eqn:E; lia.
Qed.

(** validity, per format *)
Lemma f1_valid_ok f : f1_valid f = true <-> fb_ok (Fb1 f).
Proof.
  unfold f1_valid, fb_ok. rewrite !andb_true_iff, tfb_defined_ok, !N.leb_le.
  pose proof (status_le (f1_buf f)). tauto.
Qed.
Lemma f2_valid_ok f : f2_valid f = true <-> fb_ok (Fb2 f).
Proof.
  unfold f2_valid, fb_ok. rewrite !andb_true_iff, !N.leb_le.
  pose proof (status_le (f2_buf f)).
  destruct (f2_mimo f); cbn; intuition (try discriminate; auto).
Qed.
Lemma f3_valid_ok f : f3_valid f = true <-> fb_ok (Fb3 f).
Proof. unfold f3_valid, fb_ok. rewrite !andb_true_iff, !tfb_defined_ok, !N.leb_le. tauto. Qed.
Lemma f4_valid_ok f : f4_valid f = true <-> fb_ok (Fb4 f).
Proof. unfold f4_valid, fb_ok. rewrite !andb_true_iff, !N.leb_le. tauto. Qed.
Lemma f5_valid_ok f : f5_valid f = true <-> fb_ok (Fb5 f).
Proof.
  unfold f5_valid, fb_ok. rewrite !andb_true_iff, !tfb_defined_ok, !N.leb_le.
  destruct (f5_mimo f); cbn; intuition (try discriminate; auto; try congruence).
Qed.
Lemma f6_valid_ok f : f6_valid f = true <-> fb_ok (Fb6 f).
Proof.
  unfold f6_valid, fb_ok. rewrite !andb_true_iff, !N.leb_le, N.eqb_eq.
  pose proof (status_le (f6_buf f)). tauto.
Qed.

Definition fb_size_ok (f : feedback) : Prop := fb_buf f < 4294967296.

Lemma view_level f : fb_size_ok f -> buffer_level (fb_buf f) (buffer_size_2_buffer_status (fb_buf f)).
Proof. apply status_level. Qed.

(** Packing writes the wire fields. *)
Lemma pool_pack_fields p fmt m :
  (2 <= length m)%nat -> nth 0 m 0 < 256 -> fb_ok (fb_view fmt p) ->
  exists m', pool_pack p fmt m = Ok m' /\
    writes 2 m m' ((4, N.shiftr (nth 0 m 0) 4) ::
                   fb_fields (fb_view fmt p) (buffer_size_2_buffer_status (fb_buf (fb_view fmt p)))).
Proof.
  intros Hl Hb Hok. cells m 2%nat. cbn [nth] in Hb |- *.
  assert (Hhi : N.shiftr b0 4 < 16) by (bits_lt 4%nat).
  destruct (fmt_cases fmt) as [->|[->|[->|[->|[->|[->|[->|H7]]]]]]];
    [ | | | | | | |destruct (fmt_big fmt p (b0 :: b1 :: m) H7) as (_ & _ & E); rewrite E in Hok; destruct Hok];
    cbn [fb_view] in *; cbn [pool_pack fb_fields fb_buf].
  - mcbn. eexists. split; [reflexivity|]. writes_tac.
  - pose proof (status_le (f1_buf (pf1 p))) as Hs. unfold f1_pack. pose proof Hok as Hv. rewrite <- f1_valid_ok in Hv.
    rewrite Hv. destruct Hok as (H1 & H2 & H3). rewrite (tf_code_bit _ H2). pose proof (tf_bit_le (f1_tf (pf1 p))).
    unfold mcs_2_cqi. apply N.leb_le in H3 as H3'. rewrite H3'. mcbn.
    eexists. split; [reflexivity|]. writes_tac.
  - pose proof (status_le (f2_buf (pf2 p))) as Hs. unfold f2_pack. pose proof Hok as Hv. rewrite <- f2_valid_ok in Hv.
    rewrite Hv. destruct Hok as (H1 & H2 & H3). rewrite (mimo_code_bits _ (sd_defined _ H2)). pose proof (mimo_bits_sd _ H2).
    unfold mcs_2_cqi. apply N.leb_le in H3 as H3'. rewrite H3'. mcbn.
    eexists. split; [reflexivity|]. writes_tac.
  - unfold f3_pack. pose proof Hok as Hv. rewrite <- f3_valid_ok in Hv.
    rewrite Hv. destruct Hok as (H1 & H2 & H3 & H4 & H5). rewrite (tf_code_bit _ H2), (tf_code_bit _ H4).
    pose proof (tf_bit_le (f3_tf0 (pf3 p))). pose proof (tf_bit_le (f3_tf1 (pf3 p))).
    unfold mcs_2_cqi. apply N.leb_le in H5 as H5'. rewrite H5'. mcbn.
    eexists. split; [reflexivity|]. writes_tac.
  - unfold f4_pack. pose proof Hok as Hv. rewrite <- f4_valid_ok in Hv.
    rewrite Hv. destruct Hok as (H1 & H3).
    unfold mcs_2_cqi. apply N.leb_le in H3 as H3'. rewrite H3'. mcbn.
    eexists. split; [reflexivity|]. writes_tac.
  - unfold f5_pack. pose proof Hok as Hv. rewrite <- f5_valid_ok in Hv.
    rewrite Hv. destruct Hok as (H1 & H2 & H3 & H4). rewrite (tf_code_bit _ H2), (mimo_code_bits _ H3).
    pose proof (tf_bit_le (f5_tf (pf5 p))). pose proof (mimo_bits_le (f5_mimo (pf5 p))). mcbn.
    eexists. split; [reflexivity|]. writes_tac.
  - pose proof (status_le (f6_buf (pf6 p))) as Hs. unfold f6_pack. pose proof Hok as Hv. rewrite <- f6_valid_ok in Hv.
    rewrite Hv. destruct Hok as (H1 & H2 & H3). rewrite H2.
    unfold mcs_2_cqi. apply N.leb_le in H3 as H3'. rewrite H3'. mcbn.
    eexists. split; [reflexivity|]. writes_tac.
Qed.

(** Packing anything else aborts. *)
Lemma pool_pack_abort p fmt m : (2 <= length m)%nat -> ~ fb_ok (fb_view fmt p) -> pool_pack p fmt m = Abort.
Proof.
  intros Hl Hok.
  destruct (fmt_cases fmt) as [->|[->|[->|[->|[->|[->|[->|H7]]]]]]];
    [ | | | | | | |apply fmt_big; auto];
    cbn [fb_view] in *; cbn [pool_pack].
  - exfalso. apply Hok. exact I.
  - rewrite <- f1_valid_ok in Hok. unfold f1_pack. destruct (f1_valid _); [congruence|reflexivity].
  - rewrite <- f2_valid_ok in Hok. unfold f2_pack. destruct (f2_valid _); [congruence|reflexivity].
  - rewrite <- f3_valid_ok in Hok. unfold f3_pack. destruct (f3_valid _); [congruence|reflexivity].
  - rewrite <- f4_valid_ok in Hok. unfold f4_pack. destruct (f4_valid _); [congruence|reflexivity].
  - rewrite <- f5_valid_ok in Hok. unfold f5_pack. destruct (f5_valid _); [congruence|reflexivity].
  - rewrite <- f6_valid_ok in Hok. unfold f6_pack. destruct (f6_valid _); [congruence|reflexivity].
Qed.

Definition pool_set_only (fmt : N) (p p' : pool) : Prop :=
  forall k, k <> fmt -> fb_view k p' = fb_view k p.

Lemma set_only_refl fmt p : pool_set_only fmt p p.
Proof. intros k _. reflexivity. Qed.

Ltac set_only_tac :=
  let k := fresh "k" in let Hk := fresh "Hk" in
  intros k Hk; destruct k as [|k]; [reflexivity|];
  destruct k as [[[k|k|]|[k|k|]|]|[[k|k|]|[k|k|]|]|]; try reflexivity; exfalso; apply Hk; reflexivity.

(** Unpacking is total. *)
Lemma pool_unpack_total p fmt m : (2 <= length m)%nat ->
  exists p' ok, pool_unpack p fmt m = Ok (p', ok) /\ pool_set_only fmt p p'.
Proof.
  intros Hl. cells m 2%nat.
  destruct (fmt_cases fmt) as [->|[->|[->|[->|[->|[->|[->|H7]]]]]]];
    [ | | | | | | |destruct (fmt_big fmt p (b0 :: b1 :: m) H7) as (_ & -> & _); eexists _, _; split; [reflexivity|apply set_only_refl]];
    cbn [pool_unpack]; unfold f1_unpack, f2_unpack, f3_unpack, f4_unpack, f5_unpack, f6_unpack; mcbn.
  - destruct (N.land b0 15 =? 0); mcbn; [destruct (b1 =? 0)|]; mcbn; eexists _, _; (split; [reflexivity|apply set_only_refl]).
  - eexists _, _; split; [reflexivity|]. set_only_tac.
  - eexists _, _; split; [reflexivity|]. set_only_tac.
  - eexists _, _; split; [reflexivity|]. set_only_tac.
  - eexists _, _; split; [reflexivity|]. set_only_tac.
  - eexists _, _; split; [reflexivity|]. set_only_tac.
  - eexists _, _; split; [reflexivity|]. set_only_tac.
Qed.

Lemma land15_le x : N.land x 15 <= 15. Proof. apply land_le. Qed.
Lemma land7_le x : N.land x 7 <= 7. Proof. apply land_le. Qed.
Lemma land1_le x : N.land x 1 <= 1. Proof. apply land_le. Qed.
Lemma land3_le x : N.land x 3 <= 3. Proof. apply land_le. Qed.
Lemma land63_le x : N.land x 63 <= 63. Proof. apply land_le. Qed.

Lemma tf_bit_cast x : x <= 1 -> tf_bit (tfb_cast x) = x /\ tf_ok (tfb_cast x).
Proof. intros. assert (x = 0 \/ x = 1) as [->| ->] by lia; split; try reflexivity; [left|right]; reflexivity. Qed.
Lemma mimo_bits_cast x : x <= 3 -> mimo_bits (mimo_cast x) = x /\ mimo_cast x <> mimo_not_defined.
Proof. intros. assert (x = 0 \/ x = 1 \/ x = 2 \/ x = 3) as [->|[->|[->| ->]]] by lia; split; try reflexivity; discriminate. Qed.

(** What an accepted pair of bytes means. *)
Lemma pool_unpack_sound p fmt m p' :
  (2 <= length m)%nat -> bytes (firstn 2 m) -> pool_unpack p fmt m = Ok (p', true) ->
  fb_ok (fb_view fmt p') /\
  exists level, level <= 15 /\ with_buf (fb_view fmt p') (level_min level) = fb_view fmt p' /\
    spells 2 m ((4, N.shiftr (nth 0 m 0) 4) :: fb_fields (fb_view fmt p') level).
Proof.
  intros Hl Hb Hu. cells m 2%nat. cbn [firstn] in Hb. cbn [nth]. inv_bytes.
  assert (Hhi : N.shiftr b0 4 < 16) by (bits_lt 4%nat).
  destruct (fmt_cases fmt) as [->|[->|[->|[->|[->|[->|[->|H7]]]]]]];
    [ | | | | | | |destruct (fmt_big fmt p (b0 :: b1 :: m) H7) as (_ & E & _); rewrite E in Hu; discriminate];
    cbn [pool_unpack] in Hu; unfold f1_unpack, f2_unpack, f3_unpack, f4_unpack, f5_unpack, f6_unpack in Hu;
    mcbn in Hu;
    pose proof (land15_le b1) as L0; pose proof (land15_le (N.shiftr b1 4)) as L1;
    pose proof (land7_le (N.shiftr b0 1)) as L2; pose proof (land1_le b0) as L3;
    pose proof (land7_le (N.shiftr b1 5)) as L4; pose proof (land1_le (N.shiftr b1 4)) as L5;
    pose proof (land3_le (N.shiftr b1 6)) as L6; pose proof (land63_le b1) as L7;
    exact I || idtac.
  - destruct (N.eqb_spec (N.land b0 15) 0) as [E1|]; [|discriminate]. mcbn in Hu.
    destruct (N.eqb_spec b1 0) as [E2|]; [|discriminate]. cbn in Hu. injection Hu as <-.
    cbn [fb_view]. split; [exact I|]. exists 0. split; [lia|]. split; [reflexivity|].
    subst b1. split; [cbn [length]; lia|]. split; [reflexivity|]. cbn [fb_fields]. split; [fit_tac|].
    unfold be_number, cat_fields; cbn [firstn fold_left fst snd].
    assert (Eb : b0 = N.lor (N.shiftl (N.shiftr b0 4) 4) (N.land b0 15)) by bits.
    rewrite E1 in Eb. rewrite Eb at 1. bits.
  - injection Hu as <- Hv. cbn [fb_view set_f1 pf1]. apply f1_valid_ok in Hv. split; [exact Hv|].
    destruct Hv as (H1 & H2 & H3). cbn [f1_harq f1_tf f1_mcs] in *.
    exists (N.land (N.shiftr b1 4) 15). split; [lia|].
    split; [cbn [with_buf f1_harq f1_tf f1_mcs]; now rewrite size_lower_min by lia|].
    destruct (cqi_ok _ H3) as [C1 C2]. cbn [fb_fields f1_harq f1_tf f1_mcs].
    rewrite <- C1. rewrite (proj1 (tf_bit_cast _ L3)).
    split; [cbn [length]; lia|]. split; [reflexivity|]. split; [fit_tac|spell_tac].
  - injection Hu as <- Hv. cbn [fb_view set_f2 pf2]. apply f2_valid_ok in Hv. split; [exact Hv|].
    destruct Hv as (H1 & H2 & H3). cbn [f2_cb f2_mimo f2_mcs] in *.
    exists (N.land (N.shiftr b1 4) 15). split; [lia|].
    split; [cbn [with_buf f2_cb f2_mimo f2_mcs]; now rewrite size_lower_min by lia|].
    destruct (cqi_ok _ H3) as [C1 C2]. cbn [fb_fields f2_cb f2_mimo f2_mcs].
    rewrite <- C1. rewrite (proj1 (mimo_bits_cast (N.land b0 1) ltac:(lia))).
    split; [cbn [length]; lia|]. split; [reflexivity|]. split; [fit_tac|spell_tac].
  - injection Hu as <- Hv. cbn [fb_view set_f3 pf3]. apply f3_valid_ok in Hv. split; [exact Hv|].
    destruct Hv as (H1 & H2 & H3 & H4 & H5). cbn [f3_harq0 f3_tf0 f3_harq1 f3_tf1 f3_mcs] in *.
    exists 0. split; [lia|]. split; [reflexivity|].
    destruct (cqi_ok _ H5) as [C1 C2]. cbn [fb_fields f3_harq0 f3_tf0 f3_harq1 f3_tf1 f3_mcs].
    rewrite <- C1. rewrite (proj1 (tf_bit_cast _ L3)), (proj1 (tf_bit_cast _ L5)).
    split; [cbn [length]; lia|]. split; [reflexivity|]. split; [fit_tac|spell_tac].
  - injection Hu as <- Hv. cbn [fb_view set_f4 pf4]. apply f4_valid_ok in Hv. split; [exact Hv|].
    destruct Hv as (H1 & H5). cbn [f4_bitmap f4_mcs] in *.
    exists 0. split; [lia|]. split; [reflexivity|].
    destruct (cqi_ok _ H5) as [C1 C2]. cbn [fb_fields f4_bitmap f4_mcs].
    rewrite <- C1.
    split; [cbn [length]; lia|]. split; [reflexivity|]. split; [fit_tac|spell_tac].
  - injection Hu as <- Hv. cbn [fb_view set_f5 pf5]. apply f5_valid_ok in Hv. split; [exact Hv|].
    exists 0. split; [lia|]. split; [reflexivity|].
    cbn [fb_fields f5_harq f5_tf f5_mimo f5_cb].
    rewrite (proj1 (tf_bit_cast _ L3)), (proj1 (mimo_bits_cast _ L6)).
    split; [cbn [length]; lia|]. split; [reflexivity|]. split; [fit_tac|spell_tac].
  - injection Hu as <- Hv. cbn [fb_view set_f6 pf6]. apply f6_valid_ok in Hv. split; [exact Hv|].
    destruct Hv as (H1 & H2 & H3). cbn [f6_harq f6_reserved f6_mcs] in *.
    exists (N.land (N.shiftr b1 4) 15). split; [lia|].
    split; [cbn [with_buf f6_harq f6_reserved f6_mcs]; now rewrite size_lower_min by lia|].
    destruct (cqi_ok _ H3) as [C1 C2]. cbn [fb_fields f6_harq f6_reserved f6_mcs].
    rewrite <- C1.
    split; [cbn [length]; lia|]. split; [reflexivity|]. split; [fit_tac|].
    assert (E : be_number [b0; b1] =
      cat_fields [(4, N.shiftr b0 4); (3, N.land (N.shiftr b0 1) 7); (1, N.land b0 1);
                  (4, N.land (N.shiftr b1 4) 15); (4, N.land b1 15)]) by spell_tac.
    rewrite H2 in E. exact E.
Qed.

(** Bytes spelling sendable feedback are accepted and give that feedback. *)
Lemma pool_unpack_complete p fmt m q hi level :
  (2 <= length m)%nat -> bytes (firstn 2 m) -> fb_ok (fb_view fmt q) -> level <= 15 ->
  spells 2 m ((4, hi) :: fb_fields (fb_view fmt q) level) ->
  exists p', pool_unpack p fmt m = Ok (p', true) /\ pool_set_only fmt p p' /\
    fb_view fmt p' = with_buf (fb_view fmt q) (level_min level).
Proof.
  intros Hl Hb Hok Hlv Hsp. cells m 2%nat. cbn [firstn] in Hb. inv_bytes.
  destruct Hsp as (_ & _ & Hfit & Hcat). cbn [firstn] in Hcat.
  assert (Hhi : N.shiftr b0 4 < 16) by (bits_lt 4%nat).
  pose proof (land15_le b1) as L0; pose proof (land15_le (N.shiftr b1 4)) as L1;
  pose proof (land7_le (N.shiftr b0 1)) as L2; pose proof (land1_le b0) as L3;
  pose proof (land7_le (N.shiftr b1 5)) as L4; pose proof (land1_le (N.shiftr b1 4)) as L5;
  pose proof (land3_le (N.shiftr b1 6)) as L6; pose proof (land63_le b1) as L7.
  pose proof (land15_le b0) as L8.
  pose proof (pool_unpack_total p fmt (b0 :: b1 :: m) ltac:(cbn [length]; lia)) as (p' & ok & Hu & Hs).
  destruct (fmt_cases fmt) as [->|[->|[->|[->|[->|[->|[->|H7]]]]]]];
    [ | | | | | | |destruct (fmt_big fmt q (b0 :: b1 :: m) H7) as (_ & _ & E); rewrite E in Hok; destruct Hok];
    cbn [fb_view] in *; rewrite Hu; exists p'; cbn [pool_unpack] in Hu;
    unfold f1_unpack, f2_unpack, f3_unpack, f4_unpack, f5_unpack, f6_unpack in Hu; mcbn in Hu;
    cbn [fb_fields] in Hfit, Hcat.
  - assert (E : [(4, hi); (12, 0)] = [(4, N.shiftr b0 4); (12, N.lor (N.shiftl (N.land b0 15) 8) b1)]).
    { apply cat_fields_inj; auto.
      - assert (N.lor (N.shiftl (N.land b0 15) 8) b1 < 4096) by (bits_lt 12%nat). fit_tac.
      - rewrite <- Hcat. spell_tac. }
    injection E as E1 E2. symmetry in E2. apply N.lor_eq_0_iff in E2. destruct E2 as [E2 E3].
    apply N.shiftl_eq_0_iff in E2. rewrite E2, E3 in Hu. cbn in Hu. injection Hu as <- <-. auto.
  - assert (E : [(4, hi); (3, f1_harq (pf1 q)); (1, tf_bit (f1_tf (pf1 q))); (4, level); (4, f1_mcs (pf1 q) + 1)] =
                [(4, N.shiftr b0 4); (3, N.land (N.shiftr b0 1) 7); (1, N.land b0 1); (4, N.land (N.shiftr b1 4) 15); (4, N.land b1 15)]).
    { apply cat_fields_inj; auto; [fit_tac|]. rewrite <- Hcat. spell_tac. }
    injection E as E1 E2 E3 E4 E5. rewrite <- E2, <- E3, <- E4, <- E5 in Hu.
    destruct Hok as (H1 & H2 & H3).
    rewrite (tf_cast_bit _ H2), (cqi_back _ H3), (size_lower_min _ Hlv) in Hu.
    injection Hu as <- <-. cbn [set_f1 pf1 with_buf].
    split; [|auto]. do 2 f_equal. apply f1_valid_ok. cbn. auto.
  - assert (E : [(4, hi); (3, f2_cb (pf2 q)); (1, mimo_bits (f2_mimo (pf2 q))); (4, level); (4, f2_mcs (pf2 q) + 1)] =
                [(4, N.shiftr b0 4); (3, N.land (N.shiftr b0 1) 7); (1, N.land b0 1); (4, N.land (N.shiftr b1 4) 15); (4, N.land b1 15)]).
    { apply cat_fields_inj; auto; [fit_tac|]. rewrite <- Hcat. spell_tac. }
    injection E as E1 E2 E3 E4 E5. rewrite <- E2, <- E3, <- E4, <- E5 in Hu.
    destruct Hok as (H1 & H2 & H3).
    rewrite (mimo_cast_bits _ (sd_defined _ H2)), (cqi_back _ H3), (size_lower_min _ Hlv) in Hu.
    injection Hu as <- <-. cbn [set_f2 pf2 with_buf].
    split; [|auto]. do 2 f_equal. apply f2_valid_ok. cbn. auto.
  - assert (E : [(4, hi); (3, f3_harq0 (pf3 q)); (1, tf_bit (f3_tf0 (pf3 q))); (3, f3_harq1 (pf3 q)); (1, tf_bit (f3_tf1 (pf3 q))); (4, f3_mcs (pf3 q) + 1)] =
                [(4, N.shiftr b0 4); (3, N.land (N.shiftr b0 1) 7); (1, N.land b0 1); (3, N.land (N.shiftr b1 5) 7); (1, N.land (N.shiftr b1 4) 1); (4, N.land b1 15)]).
    { apply cat_fields_inj; auto; [fit_tac|]. rewrite <- Hcat. spell_tac. }
    injection E as E1 E2 E3 E4 E5 E6. rewrite <- E2, <- E3, <- E4, <- E5, <- E6 in Hu.
    destruct Hok as (H1 & H2 & H3 & H4 & H5).
    rewrite (tf_cast_bit _ H2), (tf_cast_bit _ H4), (cqi_back _ H5) in Hu.
    injection Hu as <- <-. cbn [set_f3 pf3 with_buf].
    split; [|split; [auto|destruct (pf3 q); reflexivity]]. do 2 f_equal. apply f3_valid_ok. cbn. auto.
  - assert (Hx : N.lor (N.shiftl (N.land b0 15) 4) (N.land (N.shiftr b1 4) 15) < 256) by (bits_lt 8%nat).
    assert (E : [(4, hi); (8, f4_bitmap (pf4 q)); (4, f4_mcs (pf4 q) + 1)] =
                [(4, N.shiftr b0 4); (8, N.lor (N.shiftl (N.land b0 15) 4) (N.land (N.shiftr b1 4) 15)); (4, N.land b1 15)]).
    { apply cat_fields_inj; auto; [fit_tac|]. rewrite <- Hcat. spell_tac. }
    injection E as E1 E2 E3. rewrite <- E2, <- E3 in Hu.
    destruct Hok as (H1 & H5).
    rewrite (cqi_back _ H5) in Hu.
    injection Hu as <- <-. cbn [set_f4 pf4 with_buf].
    split; [|split; [auto|destruct (pf4 q); reflexivity]]. do 2 f_equal. apply f4_valid_ok. cbn. auto.
  - assert (E : [(4, hi); (3, f5_harq (pf5 q)); (1, tf_bit (f5_tf (pf5 q))); (2, mimo_bits (f5_mimo (pf5 q))); (6, f5_cb (pf5 q))] =
                [(4, N.shiftr b0 4); (3, N.land (N.shiftr b0 1) 7); (1, N.land b0 1); (2, N.land (N.shiftr b1 6) 3); (6, N.land b1 63)]).
    { apply cat_fields_inj; auto; [fit_tac|]. rewrite <- Hcat. spell_tac. }
    injection E as E1 E2 E3 E4 E5. rewrite <- E2, <- E3, <- E4, <- E5 in Hu.
    destruct Hok as (H1 & H2 & H3 & H4).
    rewrite (tf_cast_bit _ H2), (mimo_cast_bits _ H3) in Hu.
    injection Hu as <- <-. cbn [set_f5 pf5 with_buf].
    split; [|split; [auto|destruct (pf5 q); reflexivity]]. do 2 f_equal. apply f5_valid_ok. cbn. auto.
  - assert (E : [(4, hi); (3, f6_harq (pf6 q)); (1, 0); (4, level); (4, f6_mcs (pf6 q) + 1)] =
                [(4, N.shiftr b0 4); (3, N.land (N.shiftr b0 1) 7); (1, N.land b0 1); (4, N.land (N.shiftr b1 4) 15); (4, N.land b1 15)]).
    { apply cat_fields_inj; auto; [fit_tac|]. rewrite <- Hcat. spell_tac. }
    injection E as E1 E2 E3 E4 E5. rewrite <- E2, <- E3, <- E4, <- E5 in Hu.
    destruct Hok as (H1 & H2 & H3).
    rewrite (cqi_back _ H3), (size_lower_min _ Hlv) in Hu.
    injection Hu as <- <-. cbn [set_f6 pf6 with_buf]. rewrite H2.
    split; [|auto]. do 2 f_equal. apply f6_valid_ok. cbn. auto.
Qed.
