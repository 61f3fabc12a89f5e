(** The indicator: when it is exact. *)
From Verif Require Import Base DatagramQueue DatagramQueueSpec DatagramQueueFacts.
From Verif Require Import ApplicationClient ApplicationClientSpec ApplicationClientFacts.
Import ApplicationClient ApplicationClientSpec.

Definition AI (n : nat) (c : client) : Prop :=
  (0 <= indicator_cnt c)%Z /\
  (indicator_cnt c + open_cnt c = Z.of_nat (total (queue_vec c)))%Z /\
  forall i e, forwarder c = Scanning i e ->
    i <= n /\ (i = 0 -> e = true) /\
    (e = true -> (0 < indicator_cnt c)%Z /\ exists j, i <= j < n /\ content (queue_vec c) j <> []).

(** Steps the forwarding thread has left until it waits with nothing to do. *)
Definition left (n : nat) (c : client) : nat :=
  let k := Z.to_nat (indicator_cnt c) * (n + 2) in
  match forwarder c with
  | Waiting => if (0 <? indicator_cnt c)%Z then k + 2 else 0
  | Looping => k + 1
  | Scanning i true => k - i
  | Scanning i false => k + (2 + n - i)
  end.

Lemma to_int32_id z : (-2147483648 <= z < 2147483648)%Z -> to_int32 z = z.
Proof. intros H. unfold to_int32. rewrite Z.mod_small by lia. lia. Qed.
Lemma to_uint32_id z : (0 <= z < 4294967296)%Z -> to_uint32 z = z.
Proof. intros H. unfold to_uint32. apply Z.mod_small. exact H. Qed.

Lemma total_some qs n : length qs = n -> 0 < total qs -> exists j, j < n /\ content qs j <> [].
Proof.
  intros <-. unfold total, list_sum, content. induction qs as [|h qs IH]; cbn [map fold_right length]; [lia|].
  intros H. destruct (abs h) eqn:A.
  - cbn [length plus] in H. destruct (IH H) as (j & Hj & Hn). exists (S j). split; [lia|exact Hn].
  - exists 0. split; [lia|]. cbn. rewrite A. discriminate.
Qed.

Lemma valid_size sz : queue_size_is_valid sz = true -> N_datagram sz <= 256.
Proof.
  unfold queue_size_is_valid, max_queue_datagram. intros H.
  apply andb_prop in H as [H _]. apply negb_true_iff, orb_false_iff in H as [_ H].
  apply Nat.ltb_ge in H. exact H.
Qed.

Lemma open_cnt_nonneg c : (0 <= open_cnt c)%Z.
Proof. unfold open_cnt. destruct (fw_now c) as [[? ?]|]; lia. Qed.

Lemma AI_step n sz c tr t :
  n <= 32 -> N_datagram sz <= 256 ->
  SI n sz c tr -> AI n c -> (t = Forwarder -> n = 1 \/ fw_now c = None) ->
  exists c' e, step c t = Ok (c', e) /\ AI n c' /\
    (t = Forwarder -> fw_now c' = fw_now c /\ triggered e = 0%Z /\
       (left n c' < left n c \/ left n c = 0 /\ left n c' = 0)).
Proof.
  intros Hn Hsz (HQ & HI & HC & HT & HA & HFa & HFf) (A0 & A1 & A2) Hmay.
  pose proof (QI_total sz n _ HQ) as Hb.
  assert (Hr : total (queue_vec c) <= 32 * 256).
  { etransitivity; [exact Hb|]. apply Nat.mul_le_mono; lia. }
  pose proof (open_cnt_nonneg c) as Ho.
  destruct t; cbn [step].
  - unfold firmware_step. destruct (fw_now c) as [[[|[conn data] r] k]|] eqn:W.
    + assert (Stay : exists c' e, Ok (c, @nil event) = Ok (c', e) /\ AI n c' /\
                (Firmware = Forwarder -> fw_now c' = fw_now c /\ triggered e = 0%Z /\ (left n c' < left n c \/ left n c = 0 /\ left n c' = 0))).
      { exists c, []. split; [reflexivity|]. split; [unfold AI; auto|discriminate]. }
      rewrite W in Stay. destruct (forwarder c) eqn:P; [|exact Stay|exact Stay].
      eexists _, _. split; [reflexivity|]. split; [|discriminate].
      unfold open_cnt in *. rewrite W in *. unfold AI, inc_indicator, open_cnt; cbn [indicator_cnt queue_vec forwarder fw_now].
      rewrite to_uint32_id by lia. rewrite to_int32_id by lia.
      split; [lia|]. split; [lia|]. discriminate.
    + unfold items_left in HI. rewrite W in HI. cbn [app] in HI. inversion HI as [|? ? [Hc Hd] HI']. cbn [fst snd] in *.
      destruct (write_nto_ok sz n c conn data HQ Hc Hd) as (qs' & kk & -> & HQ' & Cases).
      cbn [bind fst snd]. eexists _, _. split; [reflexivity|]. split; [|discriminate].
      unfold open_cnt in *. rewrite W in *. unfold AI, open_cnt; cbn [indicator_cnt queue_vec forwarder fw_now].
      split; [exact A0|]. destruct Cases as [(-> & C1 & T1)|(-> & T1 & C1)].
      * cbn [Nat.ltb Nat.leb]. split; [lia|]. intros i e Pe. destruct (A2 i e Pe) as (B1 & B2 & B3).
        split; [exact B1|]. split; [exact B2|]. intros He. destruct (B3 He) as (B4 & j & Hj & Nj).
        split; [exact B4|]. exists j. rewrite C1. auto.
      * destruct (Nat.ltb_spec 0 (length data)); [|lia].
        split; [lia|]. intros i e Pe. destruct (A2 i e Pe) as (B1 & B2 & B3).
        split; [exact B1|]. split; [exact B2|]. intros He. destruct (B3 He) as (B4 & j & Hj & Nj).
        split; [exact B4|]. exists j. split; [exact Hj|]. rewrite C1. destruct (Nat.eqb_spec j conn) as [->|]; [|exact Nj].
        intros E. apply app_eq_nil in E as [_ E]. discriminate E.
    + destruct (fw_next c) as [|p ps] eqn:Wn; eexists _, _; (split; [reflexivity|]); (split; [|discriminate]).
      * unfold AI; auto.
      * unfold open_cnt in *. rewrite W in *. unfold AI, open_cnt; cbn [indicator_cnt queue_vec forwarder fw_now]. auto.
  - unfold forwarder_step. destruct (forwarder c) as [| |i e] eqn:P.
    + destruct (Z.ltb_spec 0 (indicator_cnt c)) as [Hp|Hp]; eexists _, _; (split; [reflexivity|]); split.
      * unfold AI, open_cnt in *; cbn [indicator_cnt queue_vec forwarder fw_now]. split; [exact A0|]. split; [exact A1|]. discriminate.
      * intros _. split; [reflexivity|]. split; [reflexivity|]. left. unfold left; cbn [forwarder indicator_cnt]. rewrite P.
        destruct (Z.ltb_spec 0 (indicator_cnt c)); lia.
      * unfold AI. rewrite P. split; [exact A0|]. split; [exact A1|]. discriminate.
      * intros _. split; [reflexivity|]. split; [reflexivity|]. right. unfold left. rewrite P.
        destruct (Z.ltb_spec 0 (indicator_cnt c)); lia.
    + eexists _, _; (split; [reflexivity|]). rewrite to_uint32_id by lia. split.
      * unfold AI, open_cnt in *; cbn [indicator_cnt queue_vec forwarder fw_now]. split; [exact A0|]. split; [exact A1|].
        destruct (Z.ltb_spec 0 (indicator_cnt c)) as [Hp|Hp]; [|discriminate].
        intros i e [= <- <-]. split; [lia|]. split; [reflexivity|]. intros _. split; [exact Hp|].
        destruct HQ as [L _]. destruct (total_some _ _ L ltac:(lia)) as (j & Hj & Nj). exists j. split; [lia|exact Nj].
      * intros _. split; [reflexivity|]. split; [reflexivity|]. left. unfold left; cbn [forwarder indicator_cnt]. rewrite P.
        destruct (Z.ltb_spec 0 (indicator_cnt c)); lia.
    + destruct (A2 i e eq_refl) as (B1 & B2 & B3). pose proof HQ as [L _].
      destruct (Nat.ltb_spec i (length (queue_vec c))) as [Hi|Hi].
      * assert (Hin : i < n) by lia.
        destruct (read_ok sz n (queue_vec c) i HQ Hin) as (q & q' & k & b & -> & R & HQ' & Cases).
        cbn [bind]. rewrite R. cbn [bind fst snd].
        destruct Cases as [(-> & C0 & C1 & T1)|(Hk & T1 & C0 & C1)].
        -- cbn [Nat.ltb Nat.leb]. eexists _, _. split; [reflexivity|]. split.
           ++ unfold AI, open_cnt in *; cbn [indicator_cnt queue_vec forwarder fw_now]. split; [exact A0|]. split; [lia|].
              intros i' e' [= <- <-]. split; [lia|]. split; [lia|]. intros He. destruct (B3 He) as (B4 & j & Hj & Nj).
              split; [exact B4|]. exists j. rewrite C1. split; [|exact Nj].
              destruct (Nat.eq_dec j i) as [->|]; [contradiction|lia].
           ++ intros _. split; [reflexivity|]. split; [reflexivity|]. left. unfold left; cbn [forwarder indicator_cnt]. rewrite P.
              destruct e; [|lia]. destruct (B3 eq_refl) as (B4 & _).
              assert (n + 2 <= Z.to_nat (indicator_cnt c) * (n + 2)).
              { rewrite <- (Nat.mul_1_l (n + 2)) at 1. apply Nat.mul_le_mono_r. lia. }
              lia.
        -- assert (Hpos : (0 < indicator_cnt c)%Z).
           { destruct e; [apply B3; reflexivity|]. destruct (Hmay eq_refl) as [->|Hnone].
             - assert (i = 0) by lia. discriminate (B2 H).
             - unfold open_cnt in A1. rewrite Hnone in A1. lia. }
           destruct (Nat.ltb_spec 0 k); [|lia]. eexists _, _. split; [reflexivity|].
           rewrite to_int32_id by lia. split.
           ++ unfold AI, open_cnt in *; cbn [indicator_cnt queue_vec forwarder fw_now]. split; [lia|]. split; [lia|].
              intros i' e' [= <- <-]. split; [lia|]. split; [lia|]. discriminate.
           ++ intros _. split; [reflexivity|]. split; [reflexivity|]. left. unfold left; cbn [forwarder indicator_cnt]. rewrite P.
              replace (Z.to_nat (indicator_cnt c)) with (S (Z.to_nat (indicator_cnt c - 1))) by lia.
              cbn [Nat.mul]. destruct e; lia.
      * destruct e.
        -- destruct (B3 eq_refl) as (_ & j & Hj & _). lia.
        -- cbn [negb guard]. eexists _, _. split; [reflexivity|]. split.
           ++ unfold AI, open_cnt in *; cbn [indicator_cnt queue_vec forwarder fw_now]. split; [exact A0|]. split; [exact A1|]. discriminate.
           ++ intros _. split; [reflexivity|]. split; [reflexivity|]. left. unfold left; cbn [forwarder indicator_cnt]. rewrite P. lia.
Qed.

Lemma SI_step n sz c tr t c' e : SI n sz c tr -> step c t = Ok (c', e) -> SI n sz c' (tr ++ e).
Proof.
  intros HS E. destruct (step_SI n sz c tr t HS) as [(c1 & e1 & E1 & H1)|(_ & _ & E1)]; rewrite E1 in E; [|discriminate].
  injection E as <- <-. exact H1.
Qed.

Lemma run_AI n sz : n <= 32 -> N_datagram sz <= 256 -> forall sched c tr,
  SI n sz c tr -> AI n c -> (n = 1 \/ undisturbed c sched) ->
  exists c' tr', run c sched = Ok (c', tr') /\ SI n sz c' (tr ++ tr') /\ AI n c'.
Proof.
  intros Hn Hz. induction sched as [|t ts IH]; intros c tr HS HA Hu; cbn [run].
  - exists c, []. rewrite app_nil_r. auto.
  - destruct (AI_step n sz c tr t Hn Hz HS HA) as (c1 & e1 & E1 & A1 & _).
    { intros ->. destruct Hu as [->|Hu]; [left; reflexivity|]. right. apply Hu. reflexivity. }
    rewrite E1. cbn [bind]. pose proof (SI_step _ _ _ _ _ _ _ HS E1) as S1.
    destruct (IH c1 (tr ++ e1) S1 A1) as (c2 & e2 & E2 & S2 & A2).
    { destruct Hu as [->|Hu]; [left; reflexivity|]. right. cbn [undisturbed] in Hu. rewrite E1 in Hu. apply Hu. }
    rewrite E2. cbn [bind]. exists c2, (e1 ++ e2). rewrite app_assoc. auto.
Qed.

Lemma drain n sz : n <= 32 -> N_datagram sz <= 256 -> forall m c tr,
  SI n sz c tr -> AI n c -> (n = 1 \/ fw_now c = None) -> left n c <= m ->
  exists c' tr', run c (repeat Forwarder m) = Ok (c', tr') /\ SI n sz c' (tr ++ tr') /\ AI n c' /\
    triggered tr' = 0%Z /\ left n c' = 0.
Proof.
  intros Hn Hz. induction m as [|m IH]; intros c tr HS HA Hf Hm; cbn [repeat run].
  - exists c, []. rewrite app_nil_r. split; [reflexivity|]. split; [exact HS|]. split; [exact HA|].
    split; [reflexivity|lia].
  - destruct (AI_step n sz c tr Forwarder Hn Hz HS HA (fun _ => Hf)) as (c1 & e1 & E1 & A1 & M).
    destruct (M eq_refl) as (Hw & Ht & Hl).
    change (forwarder_step c) with (step c Forwarder). cbn [step] in *. rewrite E1. cbn [bind].
    pose proof (SI_step _ _ _ _ Forwarder _ _ HS E1) as S1.
    destruct (IH c1 (tr ++ e1) S1 A1) as (c2 & e2 & E2 & S2 & A2 & T2 & L2).
    { rewrite Hw. exact Hf. }
    { lia. }
    rewrite E2. cbn [bind]. exists c2, (e1 ++ e2). rewrite app_assoc, triggered_app, Ht, T2. auto.
Qed.

Lemma AI_init n sz fill pdus c : client_new n sz fill pdus = Ok c ->
  Forall (Forall (item_ok n (N_datagram_max_byte sz))) pdus ->
  SI n sz c [] /\ AI n c /\ n <= 32 /\ N_datagram sz <= 256 /\ fw_now c = None.
Proof.
  intros E F. pose proof (SI_init _ _ _ _ _ E F) as HS. split; [exact HS|].
  destruct HS as (_ & _ & _ & HT & _). cbn in HT.
  unfold client_new, guard in E. destruct (0 <? n); [|discriminate].
  destruct (Nat.leb_spec n 32); [|discriminate].
  destruct (queue_size_is_valid sz) eqn:V; [|discriminate]. injection E as <-.
  cbn [queue_vec] in HT. split; [|split; [assumption|split; [apply valid_size; exact V|reflexivity]]].
  unfold AI, open_cnt; cbn [indicator_cnt fw_now queue_vec forwarder]. rewrite <- HT.
  split; [lia|]. split; [reflexivity|]. discriminate.
Qed.

Lemma run_app c : forall a b, run c (a ++ b) =
  (do (c1, e1) <- run c a ; do (c2, e2) <- run c1 b ; Ok (c2, e1 ++ e2)).
Proof.
  intros a; revert c; induction a as [|t a IH]; intros c b; cbn [app run].
  - cbn [bind]. destruct (run c b) as [[c2 e2]| | |]; reflexivity.
  - destruct (step c t) as [[c1 e1]| | |]; cbn [bind]; try reflexivity. rewrite IH.
    destruct (run c1 a) as [[c2 e2]| | |]; cbn [bind]; try reflexivity.
    destruct (run c2 b) as [[c3 e3]| | |]; cbn [bind]; try reflexivity. rewrite app_assoc. reflexivity.
Qed.

Lemma left_zero n c : left n c = 0 -> AI n c -> forwarder c = Waiting /\ indicator_cnt c = 0%Z.
Proof.
  intros HL (A0 & _ & A2). unfold left in HL. destruct (forwarder c) as [| |i e] eqn:P.
  - destruct (Z.ltb_spec 0 (indicator_cnt c)); [lia|]. split; [reflexivity|lia].
  - lia.
  - destruct (A2 i e eq_refl) as (B1 & _ & B3). destruct e; [|lia].
    destruct (B3 eq_refl) as (B4 & j & Hj & _).
    assert (n + 2 <= Z.to_nat (indicator_cnt c) * (n + 2)).
    { rewrite <- (Nat.mul_1_l (n + 2)) at 1. apply Nat.mul_le_mono_r. lia. }
    lia.
Qed.
