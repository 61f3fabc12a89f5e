(** Further lemmas on fields at a cursor, for the information elements. *)
From Verif Require Import Base Bytes WireSpec BitSolve ByteFacts Fields MacHeader Channels ChannelsSpec IeBase BeaconsSpec IeFacts.
Open Scope N_scope.

Lemma skipn_split {A} off (m l : list A) : l <> [] -> skipn off m = l -> m = firstn off m ++ l /\ length (firstn off m) = off.
Proof.
  intros N E. split; [rewrite <- E; symmetry; apply firstn_skipn|]. rewrite firstn_length.
  destruct (Nat.le_gt_cases off (length m)); [lia|]. rewrite skipn_all2 in E by lia. congruence.
Qed.

(** A reader at a position known by what follows. *)
Lemma reader_at {A} (r : list N -> nat -> res A) l v m off tail :
  reader r l v -> (0 < nbytes l)%nat -> skipn off m = field_bytes l ++ tail -> r m off = Ok v.
Proof.
  intros R P E. destruct (skipn_split off m (field_bytes l ++ tail)) as (E1 & E2); [|exact E|].
  - intros Z. apply (f_equal (@length N)) in Z. rewrite app_length, fb_length in Z. cbn [length] in Z. lia.
  - rewrite E1. rewrite <- E2 at 2. apply R.
Qed.
Lemma skipn_next m off l tail k : nbytes l = k -> skipn off m = field_bytes l ++ tail -> skipn (off + k) m = tail.
Proof. intros K E. rewrite <- skipn_add, E, <- K, <- fb_length, skipn_app, skipn_all, Nat.sub_diag. reflexivity. Qed.

Lemma get_at {A B} (o : option A) (r : list N -> nat -> res B) k f dec p m off tail :
  skipn off m = field_bytes (field_opt o f) ++ tail -> p = is_some o -> (0 < k)%nat ->
  (forall x, o = Some x -> reader r (f x) (dec x) /\ nbytes (f x) = k) ->
  get p r k m off = Ok (option_map dec o, (off + opt_size o k)%nat) /\ skipn (off + opt_size o k) m = tail.
Proof.
  intros E -> K H. destruct o as [x|]; cbn [get field_opt is_some option_map opt_size] in *.
  - destruct (H x eq_refl) as (R & Nk). rewrite (reader_at r (f x) (dec x) m off tail R) by (auto; lia).
    cbn [bind]. split; [reflexivity|]. eapply skipn_next; eassumption.
  - rewrite fb_nil in E. rewrite Nat.add_0_r. auto.
Qed.

Lemma reader_ext {A} (r r' : list N -> nat -> res A) l v : reader r l v -> (forall m i, r m i = r' m i) -> reader r' l v.
Proof. intros R E pre tail. rewrite <- E. apply R. Qed.
Lemma reader_map {A B} (r : list N -> nat -> res A) (f : A -> B) l v : reader r l v -> reader (fun m i => do x <- r m i ; Ok (f x)) l (f v).
Proof. intros R pre tail. cbv beta. rewrite R. reflexivity. Qed.

Lemma reader_ld v : v < 256 -> reader (fun m i => ld m i) [(8, v)] v.
Proof. intros Hv pre tail. rewrite ld_app0, (fb_eq 1) by reflexivity. fbx. mcbn. f_equal. bits. Qed.
Lemma writer_wr_byte v : v < 256 -> writer (wr_byte v) [(8, v)].
Proof.
  intros Hv pre rest L. change (nbytes [(8, v)]) with 1%nat in *. unfold wr_byte. rewrite st_app0, (fb_eq 1) by reflexivity. fbx.
  cells rest 1%nat. mcbn. rewrite behind_ok. cells_eq.
Qed.

Lemma bind_behind {B} pre (r : res (list N)) (k : list N -> res B) :
  (do m <- behind pre r ; k m) = (do s <- r ; k (pre ++ s)).
Proof. destruct r; reflexivity. Qed.

(** What packing leaves in memory. *)
Definition packed (l : list (N * N)) (m : list N) : list N := field_bytes l ++ skipn (nbytes l) m.
Lemma packed_writes l m : whole l -> (nbytes l <= length m)%nat -> writes (nbytes l) m (packed l m) l.
Proof. apply fb_writes. Qed.
Lemma at_packed m l : at_ m (field_bytes l) = packed l m.
Proof. unfold at_, packed. now rewrite fb_length. Qed.
Lemma firstn_packed l m tail : firstn (nbytes l) (packed l m) ++ tail = field_bytes l ++ tail.
Proof. unfold packed. rewrite <- (fb_length l) at 1. rewrite firstn_app, Nat.sub_diag, firstn_O, app_nil_r, firstn_all. reflexivity. Qed.

Lemma whole_fit l : width l mod 8 = 0 -> fields_fit l -> whole l.
Proof. intros W F. split; assumption. Qed.

(** One optional field written at the end of the fields [h]. *)
Lemma put_at {A} (o : option A) w k f m h :
  (forall x, o = Some x -> writer (w x) (f x) /\ nbytes (f x) = k /\ whole (f x)) -> whole h ->
  (nbytes h + opt_size o k <= length m)%nat ->
  put o w k (packed h m, nbytes h) = Ok (packed (h ++ field_opt o f) m, nbytes (h ++ field_opt o f)) /\
  whole (h ++ field_opt o f) /\ nbytes (h ++ field_opt o f) = (nbytes h + opt_size o k)%nat.
Proof.
  intros H Wh L. assert (W : whole (field_opt o f)) by (apply whole_opt; intros x E; apply (H x E)).
  assert (Nk : nbytes (field_opt o f) = opt_size o k) by (apply nbytes_opt; intros x E; apply (H x E)).
  rewrite nbytes_app by exact Wh. split; [|split; [now apply whole_app|lia]].
  rewrite <- !at_packed. rewrite <- (fb_length h) at 1.
  rewrite (put_step o w k f m (field_bytes h)).
  - rewrite fb_app, app_length, !fb_length by assumption. reflexivity.
  - intros x E. split; apply (H x E).
  - rewrite fb_length. exact L.
Qed.
Lemma opt_map_id {A} (o : option A) : option_map (fun x => x) o = o.
Proof. destruct o; reflexivity. Qed.
Lemma opt_size_map {A B} (f : A -> B) (o : option A) k : opt_size (option_map f o) k = opt_size o k.
Proof. destruct o; reflexivity. Qed.
Lemma is_some_map {A B} (f : A -> B) (o : option A) : is_some (option_map f o) = is_some o.
Proof. destruct o; reflexivity. Qed.
