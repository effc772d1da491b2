(** Proofs for C96. *)
From Verif Require Import Base BytesSpec Bytes Lists Arc4Model HashModel HashSpec HmacModel HmacSpec Hmac Hmac2 AesModel AesSpec Poly2Spec AesTables Aes Aes2 Aes3 Aes4.

(** * ARC4 *)
Lemma next_index i L : (0 < L)%nat -> (if Nat.eqb (S (i mod L)) L then 0 else S (i mod L))%nat = (S i mod L)%nat.
Proof.
  intros H. pose proof (Nat.mod_upper_bound i L ltac:(lia)) as B. pose proof (Nat.div_mod i L ltac:(lia)) as D.
  destruct (Nat.eqb_spec (S (i mod L)) L) as [E|E].
  - apply Nat.mod_unique with (q := S (i / L)); [exact H|]. nia.
  - apply Nat.mod_unique with (q := (i / L)%nat); [lia|]. lia.
Qed.
Lemma sched_ext key key' : (0 < length key)%nat -> (0 < length key')%nat -> forall n i s j,
  (forall t, (i <= t < i + n)%nat -> nth (t mod length key) key 0 = nth (t mod length key') key' 0) ->
  arc4_sched n i s j (i mod length key) key = arc4_sched n i s j (i mod length key') key'.
Proof.
  intros L L'. induction n as [|n IH]; intros i s j H; [reflexivity|]. cbn [arc4_sched]. rewrite !next_index by assumption. rewrite (H i) by lia. apply IH. intros t T. apply H. lia.
Qed.
Lemma arc4_same key key' : key <> [] -> key' <> [] -> (forall t, (t < 256)%nat -> nth (t mod length key) key 0 = nth (t mod length key') key' 0) ->
  arc4_key_set key = arc4_key_set key'.
Proof.
  intros N N' H. assert (L : (0 < length key)%nat) by (destruct key; [congruence|cbn; lia]). assert (L' : (0 < length key')%nat) by (destruct key'; [congruence|cbn; lia]).
  pose proof (sched_ext key key' L L' 256 0 (map Z.of_nat (seq 0 256)) 0) as S. rewrite !Nat.mod_0_l in S by lia.
  unfold arc4_key_set. destruct key as [|k key]; [congruence|]. destruct key' as [|k' key']; [congruence|]. do 2 f_equal. apply S. intros t T. apply H. lia.
Qed.
Lemma nth_rep (key : list Z) : key <> [] -> forall n t, (t < n * length key)%nat -> nth t (concat (repeat key n)) 0 = nth (t mod length key) key 0.
Proof.
  intros N. assert (L : (0 < length key)%nat) by (destruct key; [congruence|cbn; lia]).
  induction n as [|n IH]; intros t T; [lia|]. cbn [repeat concat]. destruct (Nat.lt_ge_cases t (length key)) as [A|A].
  - rewrite app_nth1, Nat.mod_small by exact A. reflexivity.
  - rewrite app_nth2 by lia. rewrite IH by lia. f_equal. replace t with ((t - length key) + 1 * length key)%nat at 2 by lia. rewrite Nat.mod_add by lia. reflexivity.
Qed.
Lemma rep_len (key : list Z) n : length (concat (repeat key n)) = (n * length key)%nat.
Proof. induction n as [|n IH]; [reflexivity|]. cbn [repeat concat]. rewrite app_length, IH. lia. Qed.
Lemma arc4_repeat key n : key <> [] -> (0 < n)%nat -> arc4_key_set (concat (repeat key n)) = arc4_key_set key.
Proof.
  intros N P. assert (L : (0 < length key)%nat) by (destruct key; [congruence|cbn; lia]).
  apply arc4_same; [|exact N|].
  - intros E. apply (f_equal (@length Z)) in E. rewrite rep_len in E. cbn in E. nia.
  - intros t T. rewrite rep_len. rewrite nth_rep; [|exact N|apply Nat.mod_upper_bound; nia]. f_equal.
    rewrite (Nat.mul_comm n), Nat.mod_mul_r by lia. rewrite Nat.mul_comm, Nat.mod_add by lia. apply Nat.mod_mod. lia.
Qed.
Lemma arc4_long key a b : length key = 256%nat -> arc4_key_set (key ++ a) = arc4_key_set (key ++ b).
Proof.
  intros L. apply arc4_same; [destruct key; discriminate|destruct key; discriminate|]. intros t T. rewrite !app_length, L, !Nat.mod_small by lia. rewrite !app_nth1 by lia. reflexivity.
Qed.

(** * HMAC *)
Lemma pad_zeros v key j : hmac_pad v (key ++ repeat 0 j) = hmac_pad v key.
Proof.
  unfold hmac_pad. apply map_ext. intros i. rewrite app_length, repeat_length.
  destruct (Nat.ltb_spec i (length key)) as [A|A]; destruct (Nat.ltb_spec i (length key + j)) as [B|B]; try lia; [rewrite app_nth1 by exact A; reflexivity|].
  rewrite app_nth2 by lia. rewrite nth_repeat. apply Z.lxor_0_r.
Qed.
Lemma updates_fold {C} (itf : hash_itf C) ds : forall c, fold_left (hmac_update itf) ds c = {| hm_ctx := fold_left (hi_update itf) ds (hm_ctx c); hm_key := hm_key c |}.
Proof. induction ds as [|d ds IH]; intros c; [destruct c; reflexivity|]. cbn [fold_left]. rewrite IH. reflexivity. Qed.
Lemma hmac_zeros {C} (itf : hash_itf C) n key j ds : (length key + j <= 64)%nat -> hmac_run itf n (key ++ repeat 0 j) ds = hmac_run itf n key ds.
Proof.
  intros L. unfold hmac_run, hmac_init. rewrite app_length, repeat_length. destruct (Nat.leb_spec (length key + j) 64); [|lia]. destruct (Nat.leb_spec (length key) 64); [|lia]. cbn [bind].
  rewrite !updates_fold. unfold hmac_digest. cbn [hm_ctx hm_key]. rewrite !pad_zeros. reflexivity.
Qed.
Lemma hmac_long {C} (itf : hash_itf C) key ds : (64 < length key)%nat ->
  let d := hi_digest itf (hi_update itf (hi_init itf) key) in (length d <= 64)%nat -> hmac_run itf (length d) key ds = hmac_run itf (length d) d ds.
Proof.
  intros L d D. unfold hmac_run, hmac_init. fold d. destruct (Nat.leb_spec (length key) 64); [lia|]. destruct (Nat.leb_spec (length d) 64); [|lia].
  destruct (Nat.ltb_spec 64 (length d)); [lia|]. rewrite Nat.ltb_irrefl. cbn [orb]. rewrite firstn_all. reflexivity.
Qed.

(** * AES *)
Lemma nth_firstn_lt (l : list Z) n i : (i < n)%nat -> nth i (firstn n l) 0 = nth i l 0.
Proof. revert l i. induction n as [|n IH]; intros l i H; [lia|]. destruct l as [|x l]; [destruct i; reflexivity|]. destruct i as [|i]; [reflexivity|]. cbn [firstn nth]. apply IH. lia. Qed.
Lemma read_firstn l m o : (o + 3 < m)%nat -> read32le (firstn m l) o = read32le l o.
Proof. intros H. unfold read32le. rewrite !nth_firstn_lt by lia. reflexivity. Qed.
Lemma expand_prefix nk n : forall i rp ks ks', aes_expand n nk i rp ks = Ok ks' -> exists t, ks' = ks ++ t.
Proof.
  induction n as [|n IH]; intros i rp ks ks' H; cbn [aes_expand] in H.
  - injection H as <-. exists []. symmetry. apply app_nil_r.
  - destruct (Nat.eqb (i mod nk) 0).
    + destruct rp as [|c rp]; [discriminate|]. apply IH in H as (t & ->). rewrite <- app_assoc. eexists. reflexivity.
    + apply IH in H as (t & ->). rewrite <- app_assoc. eexists. reflexivity.
Qed.
Definition nk_of (n : nat) : nat := if Nat.leb 32 n then 8%nat else if Nat.leb 24 n then 6%nat else 4%nat.
Lemma size_nk n : aes_size n = (4 * nk_of n)%nat.
Proof. unfold aes_size, nk_of. destruct (Nat.leb 32 n), (Nat.leb 24 n); reflexivity. Qed.
Lemma size_le n : (16 <= n)%nat -> (aes_size n <= n)%nat.
Proof. intros H. unfold aes_size. destruct (Nat.leb_spec 32 n); [lia|]. destruct (Nat.leb_spec 24 n); lia. Qed.
Lemma key_words_of key m nk : (4 * nk <= m)%nat -> map (fun i => read32le key (i * 4)) (seq 0 nk) = map (fun i => read32le (firstn m key) (i * 4)) (seq 0 nk).
Proof. intros H. apply map_ext_in. intros i Hi. apply in_seq in Hi. symmetry. apply read_firstn. lia. Qed.
Lemma aes_key_words key c : (16 <= length key)%nat -> aes_key_set key = Ok c ->
  nr c = (nk_of (length key) + 6)%nat /\ firstn (nk_of (length key)) (keys c) = map (fun i => read32le key (i * 4)) (seq 0 (nk_of (length key))).
Proof.
  intros L E. unfold aes_key_set in E. fold (nk_of (length key)) in E. destruct (Nat.ltb_spec (length key) 16); [lia|].
  destruct (aes_expand _ _ _ _ _) as [ks| | |] eqn:X; try discriminate. cbn [bind] in E. injection E as <-. cbn [nr keys]. split; [reflexivity|].
  apply expand_prefix in X as (t & ->). rewrite firstn_app. rewrite map_length, seq_length, Nat.sub_diag. cbn [firstn]. rewrite app_nil_r.
  apply firstn_all2. rewrite map_length, seq_length. lia.
Qed.
Lemma concat_chunks4 n : forall l : list Z, length l = (4 * n)%nat -> concat (chunks 4 l) = l.
Proof.
  induction n as [|n IH]; intros l L; [destruct l; [reflexivity|discriminate L]|].
  destruct l as [|a [|b [|c [|d r]]]]; try (cbn [length] in L; lia).
  change (a :: b :: c :: d :: r) with ([a; b; c; d] ++ r). rewrite chunks_app by (reflexivity || lia). cbn [concat]. rewrite IH; [reflexivity|]. cbn [length] in L. lia.
Qed.
Lemma aes_same key key' : bytes key -> bytes key' -> (16 <= length key)%nat -> (16 <= length key')%nat ->
  aes_key_set key = aes_key_set key' <-> firstn (aes_size (length key)) key = firstn (aes_size (length key')) key'.
Proof.
  intros Hb Hb' L L'. split; intros E.
  - destruct (key_set_ok key Hb L) as (_ & ks & K & _). destruct (key_set_ok key' Hb' L') as (_ & ks' & K' & _).
    assert (C : aes_key_set key' = Ok {| keys := ks; nr := aes_size (length key) / 4 + 6; dec := false |}) by (rewrite <- E; exact K).
    apply aes_key_words in K as [N W]; [|exact L]. apply aes_key_words in C as [N' W']; [|exact L'].
    assert (Q : nk_of (length key) = nk_of (length key')) by lia. rewrite Q in W. rewrite W in W'.
    apply (f_equal (map B)) in W'. pose proof (size_le _ L) as S. pose proof (size_le _ L') as S'. rewrite size_nk in S, S'. rewrite Q in S.
    rewrite !read_key in W' by assumption. apply (f_equal (@concat Z)) in W'. rewrite !size_nk, Q.
    rewrite !(concat_chunks4 (nk_of (length key'))) in W' by (rewrite firstn_length; lia). exact W'.
  - assert (Q : nk_of (length key) = nk_of (length key')).
    { apply (f_equal (@length Z)) in E. rewrite !firstn_length in E. pose proof (size_le _ L) as S. pose proof (size_le _ L') as S'. rewrite !size_nk in *. lia. }
    unfold aes_key_set. fold (nk_of (length key)) (nk_of (length key')). destruct (Nat.ltb_spec (length key) 16); [lia|]. destruct (Nat.ltb_spec (length key') 16); [lia|].
    rewrite (key_words_of key (aes_size (length key))) by (rewrite size_nk; lia). rewrite (key_words_of key' (aes_size (length key'))) by (rewrite size_nk; lia).
    rewrite E, Q. reflexivity.
Qed.
Lemma hmac_long_sha256 key ds : bytes key -> (64 < length key)%nat -> hmac_run sha256_itf 32 key ds = hmac_run sha256_itf 32 (SHA256 key) ds.
Proof.
  intros Hb L. destruct sha256_hashes as [H _]. specialize (H [key]). cbn [fold_left concat] in H. rewrite app_nil_r in H.
  assert (D : hi_digest sha256_itf (hi_update sha256_itf (hi_init sha256_itf) key) = SHA256 key) by (apply H; repeat constructor; exact Hb).
  pose proof (hmac_long sha256_itf key ds L) as X. cbv zeta in X. rewrite D in X. rewrite (proj1 (SHA256_len key)) in X. apply X. lia.
Qed.
Lemma aes_extra key extra : bytes key -> bytes extra ->
  (length key = 16 /\ length extra < 8 \/ length key = 24 /\ length extra < 8 \/ length key = 32)%nat ->
  aes_key_set (key ++ extra) = aes_key_set key.
Proof.
  intros Hb He H. assert (S : aes_size (length (key ++ extra)) = length key /\ aes_size (length key) = length key).
  { rewrite app_length. unfold aes_size. destruct (Nat.leb_spec 32 (length key + length extra)), (Nat.leb_spec 24 (length key + length extra)), (Nat.leb_spec 32 (length key)), (Nat.leb_spec 24 (length key)); lia. }
  apply aes_same; [apply Forall_app; auto|exact Hb|rewrite app_length; lia|lia|].
  destruct S as [-> ->]. rewrite firstn_app, Nat.sub_diag. cbn [firstn]. apply app_nil_r.
Qed.
