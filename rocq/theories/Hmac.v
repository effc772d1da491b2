(** HMAC over any hash that meets its specification. *)
From Verif Require Import Base BytesSpec Bytes Lists HmacModel HmacSpec HashModel HashSpec HashBase HashComp HashStream HashMd HashMd2.

Lemma hmac_pad_ok v key : (length key <= 64)%nat -> hmac_pad v key = xorl (key ++ repeat 0 (64 - length key)) (repeat v 64).
Proof.
  intro L. apply (list_eq 0).
  { unfold hmac_pad. rewrite map_length, seq_length, xorl_length_eq; rewrite ?app_length, ?repeat_length; lia. }
  intros i Hi. unfold hmac_pad in *. rewrite map_length, seq_length in Hi. 
  rewrite nth_xorl by (rewrite ?app_length, ?repeat_length; lia).
  set (g := fun i : nat => _). rewrite (nth_indep _ _ (g 0%nat)) by (rewrite map_length, seq_length; auto). rewrite map_nth, seq_nth by auto. cbn [Nat.add]. unfold g.
  assert (R : nth i (repeat v 64) 0 = v) by (rewrite (nth_indep _ _ v) by (rewrite repeat_length; auto); apply nth_repeat). rewrite R.
  destruct (Nat.ltb_spec i (length key)).
  - rewrite app_nth1 by auto. apply Z.lxor_comm.
  - rewrite app_nth2 by lia. rewrite nth_repeat. reflexivity.
Qed.
Lemma hmac_pad_bytes v key : byte v -> bytes key -> bytes (hmac_pad v key).
Proof.
  intros Hv Hk. apply Forall_forall. intros x Hx. apply in_map_iff in Hx as (i & <- & _). destruct (Nat.ltb i (length key)); [|auto].
  apply byte_lxor; auto. apply (Forall_nth_d byte); auto. unfold byte; lia.
Qed.
Definition hashes {C} (itf : hash_itf C) (ok : list Z -> Prop) (H : list Z -> list Z) (n : nat) : Prop :=
  (forall ds, Forall bytes ds -> Forall ok ds -> hi_digest itf (fold_left (hi_update itf) ds (hi_init itf)) = H (concat ds)) /\
  (forall m, length (H m) = n /\ bytes (H m)) /\ (forall d, (length d <= 64)%nat -> ok d) /\ (n <= 64)%nat.
Lemma hmac_ctx_fold {C} (itf : hash_itf C) ds : forall c, fold_left (hmac_update itf) ds c = {| hm_ctx := fold_left (hi_update itf) ds (hm_ctx c); hm_key := hm_key c |}.
Proof. induction ds as [|d ds IH]; intro c; cbn [fold_left]; [destruct c; reflexivity|]. rewrite IH. reflexivity. Qed.
Theorem hmac_ok {C} (itf : hash_itf C) ok H n key ds : hashes itf ok H n -> bytes key -> ok key -> Forall bytes ds -> Forall ok ds ->
  hmac_run itf n key ds = Ok (HMAC 64 H key (concat ds)).
Proof.
  intros (Hh & Hl & Hok & Hn) Bk Ok1 Bd Od. unfold hmac_run, hmac_init, HMAC, hmac_key. cbv zeta.
  assert (G : forall k, (length k <= 64)%nat -> bytes k ->
    hmac_digest itf n (fold_left (hmac_update itf) ds {| hm_ctx := hi_update itf (hi_init itf) (hmac_pad 54 k); hm_key := k |}) =
    Ok (H (xorl (k ++ repeat 0 (64 - length k)) (repeat 92 64) ++ H (xorl (k ++ repeat 0 (64 - length k)) (repeat 54 64) ++ concat ds)))).
  { intros k Lk Bk'. rewrite hmac_ctx_fold. cbn [hm_ctx hm_key]. unfold hmac_digest. cbv zeta. cbn [hm_ctx hm_key].
    change (fold_left (hi_update itf) ds (hi_update itf (hi_init itf) (hmac_pad 54 k))) with (fold_left (hi_update itf) (hmac_pad 54 k :: ds) (hi_init itf)).
    assert (P : forall v, byte v -> bytes (hmac_pad v k) /\ ok (hmac_pad v k)).
    { intros v Hv. split; [apply hmac_pad_bytes; auto|]. apply Hok. unfold hmac_pad. rewrite map_length, seq_length. lia. }
    assert (B54 : byte 54) by (unfold byte; lia). assert (B92 : byte 92) by (unfold byte; lia).
    rewrite Hh by (constructor; [apply P|]; auto). cbn [concat]. set (inner := H _).
    assert (Li : length inner = n) by apply Hl. rewrite Li, Nat.ltb_irrefl. rewrite firstn_all2 by lia.
    change (hi_update itf (hi_update itf (hi_init itf) (hmac_pad 92 k)) inner) with (fold_left (hi_update itf) [hmac_pad 92 k; inner] (hi_init itf)).
    rewrite Hh.
    - unfold inner. cbn [concat]. rewrite !hmac_pad_ok by auto. rewrite app_nil_r. reflexivity.
    - constructor; [apply P; auto|]. constructor; [apply Hl|constructor].
    - constructor; [apply P; auto|]. constructor; [apply Hok; lia|constructor]. }
  destruct (Nat.leb_spec (length key) 64) as [L|L].
  - destruct (Nat.ltb_spec 64 (length key)); [lia|]. cbn [bind]. apply G; auto.
  - destruct (Nat.ltb_spec 64 (length key)); [|lia].
    assert (E : hi_digest itf (hi_update itf (hi_init itf) key) = H key).
    { change (hi_update itf (hi_init itf) key) with (fold_left (hi_update itf) [key] (hi_init itf)). rewrite Hh by auto. cbn [concat]. rewrite app_nil_r. reflexivity. }
    rewrite E. destruct (Hl key) as [L1 B1]. rewrite L1, Nat.ltb_irrefl. destruct (Nat.ltb_spec 64 n); [lia|]. cbn [orb bind].
    rewrite firstn_all2 by lia. pose proof (G (H key) ltac:(lia) B1) as Q. rewrite L1 in Q. exact Q.
Qed.

(** the hashes shipped *)
Definition sha256_itf : hash_itf sha256 := {| hi_init := sha256_init; hi_update := sha256_update; hi_digest := sha256_digest |}.
Definition sha1_itf : hash_itf sha1 := {| hi_init := sha1_init; hi_update := sha1_update; hi_digest := sha1_digest |}.
Definition md5_itf : hash_itf md5 := {| hi_init := md5_init; hi_update := md5_update; hi_digest := md5_digest |}.
Definition sha512_itf (is384 : bool) : hash_itf sha512 := {| hi_init := sha512_init is384; hi_update := sha512_update; hi_digest := sha512_digest |}.
Lemma concat_len (f : Z -> list Z) k l : (forall x, length (f x) = k) -> length (concat (map f l)) = (k * length l)%nat.
Proof. intro H. induction l as [|x l IH]; [cbn [map concat length]; lia|]. cbn [map concat length]. rewrite app_length, H, IH. lia. Qed.
Lemma concat_bytes (f : Z -> list Z) l : (forall x, bytes (f x)) -> bytes (concat (map f l)).
Proof. intro H. induction l as [|x l IH]; [constructor|]. cbn [map concat]. apply bytes_app. auto. Qed.
Lemma iter_len (comp : list Z -> list Z -> list Z) bl : forall st n, length st = n -> (forall st b, length st = n -> length (comp st b) = n) -> length (fold_left comp bl st) = n.
Proof. induction bl as [|b bl IH]; intros st n L H; cbn [fold_left]; auto. Qed.
Lemma step2_len w S0 S1 r kw : length r = 8%nat -> length (sha2_step w S0 S1 r kw) = 8%nat.
Proof. intro L. do 8 (destruct r as [|? r]; [discriminate L|]). destruct r; [reflexivity|discriminate L]. Qed.
Lemma fold_step2_len w S0 S1 l : forall r, length r = 8%nat -> length (fold_left (sha2_step w S0 S1) l r) = 8%nat.
Proof. induction l as [|x l IH]; intros r L; cbn [fold_left]; auto using step2_len. Qed.
Lemma SHA256_len m : length (SHA256 m) = 32%nat /\ bytes (SHA256 m).
Proof.
  unfold SHA256, out_be. split; [|apply concat_bytes; intro; apply be_bytes_bytes]. rewrite (concat_len _ 4) by (intro; apply be_bytes_length).
  unfold iterate. rewrite (iter_len _ _ _ 8); [reflexivity|rewrite <- H256_ok; reflexivity|]. intros st b L. unfold sha256_compress. cbv zeta.
  rewrite add_words_length; [auto|]. rewrite fold_step2_len; auto.
Qed.
Lemma SHA1_len m : length (SHA1 m) = 20%nat /\ bytes (SHA1 m).
Proof.
  unfold SHA1, out_be. split; [|apply concat_bytes; intro; apply be_bytes_bytes]. rewrite (concat_len _ 4) by (intro; apply be_bytes_length).
  unfold iterate. rewrite (iter_len _ _ _ 5); [reflexivity|reflexivity|]. intros st b L. unfold sha1_compress.
  assert (G : forall l r, length r = 5%nat -> length (fold_left sha1_step l r) = 5%nat).
  { induction l as [|x l IH]; intros r Lr; cbn [fold_left]; auto. apply IH. do 5 (destruct r as [|? r]; [discriminate Lr|]). destruct r; [reflexivity|discriminate Lr]. }
  rewrite add_words_length; [auto|]. rewrite G; auto.
Qed.
Lemma MD5_len m : length (MD5 m) = 16%nat /\ bytes (MD5 m).
Proof.
  unfold MD5. split; [|apply concat_bytes; intro; apply le_bytes_bytes]. rewrite (concat_len _ 4) by (intro; apply le_bytes_length).
  unfold iterate. rewrite (iter_len _ _ _ 4); [reflexivity|reflexivity|]. intros st b L. unfold md5_compress.
  assert (G : forall X l r, length r = 4%nat -> length (fold_left (md5_step X) l r) = 4%nat).
  { intro X. induction l as [|x l IH]; intros r Lr; cbn [fold_left]; auto. apply IH. do 4 (destruct r as [|? r]; [discriminate Lr|]). destruct r; [reflexivity|discriminate Lr]. }
  rewrite add_words_length; [auto|]. rewrite G; auto.
Qed.
Definition small (d : list Z) : Prop := Z.of_nat (length d) < 2 ^ 32.
Lemma sha256_hashes : hashes sha256_itf (fun _ => True) SHA256 32.
Proof. split; [intros; apply sha256_ok; auto|]. split; [apply SHA256_len|]. split; [auto|lia]. Qed.
Lemma sha1_hashes : hashes sha1_itf small SHA1 20.
Proof. split; [intros; apply sha1_ok; auto|]. split; [apply SHA1_len|]. split; [unfold small; intros; lia|lia]. Qed.
Lemma md5_hashes : hashes md5_itf small MD5 16.
Proof. split; [intros; apply md5_ok; auto|]. split; [apply MD5_len|]. split; [unfold small; intros; lia|lia]. Qed.
