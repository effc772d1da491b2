(** Proofs for C93. *)
From Verif Require Import Base Bits BytesSpec Bytes Lists ModesModel Modes Modes2 ModesToy GcmModel GcmSpec GcmMul Gcm GcmLong GcmUseModel.

(** * Using a context again *)
Lemma step_key E c o c' : gop_step E c o = Ok c' -> g_key c' = g_key c.
Proof.
  destruct o as [iv|a|m|m|]; cbn [gop_step]; intros H.
  - unfold gcm_iv_set in H. destruct (inc_last4 _) as [t| | |]; cbn [bind] in H; try discriminate. injection H as <-. reflexivity.
  - injection H as <-. reflexivity.
  - unfold gcm_encrypt in H. destruct (gcm_operate E (g_ctr c) m) as [[ct o]| | |]; cbn [bind] in H; try discriminate. injection H as <-. reflexivity.
  - unfold gcm_decrypt in H. destruct (gcm_operate E (g_ctr c) m) as [[ct o]| | |]; cbn [bind] in H; try discriminate. injection H as <-. reflexivity.
  - injection H as <-. reflexivity.
Qed.
Lemma run_key E l : forall c c', gop_run E c l = Ok c' -> g_key c' = g_key c.
Proof.
  induction l as [|o l IH]; intros c c' H; cbn [gop_run] in H; [injection H as <-; reflexivity|].
  destruct (gop_step E c o) as [c1| | |] eqn:S; cbn [bind] in H; try discriminate. rewrite (IH _ _ H). eapply step_key. exact S.
Qed.
Lemma again_iv E l c iv : gop_run E (gcm_key_set E) l = Ok c -> gcm_iv_set c iv = gcm_iv_set (gcm_key_set E) iv.
Proof. intros H. apply run_key in H. unfold gcm_iv_set. rewrite H. reflexivity. Qed.

(** * Zeros in front *)
Lemma zeros_tag h a l : forall n, ghash_from h (repeat 0 16) (repeat 0 (16 * n) ++ a ++ l) = ghash_from h (repeat 0 16) (a ++ l).
Proof. intros n. rewrite ghash_from_app by (exists n; rewrite repeat_length; lia). rewrite ghash_zeros. reflexivity. Qed.
Lemma whole_zeros n : whole 16 (repeat 0 (16 * n)).
Proof. exists n. rewrite repeat_length. lia. Qed.
Lemma len_wrap x n : Z.of_nat (16 * n) = 2 ^ 29 -> (8 * Z.of_nat (16 * n + x)) mod 2 ^ 32 = (8 * Z.of_nat x) mod 2 ^ 32.
Proof. intros N. rewrite Nat2Z.inj_add, N. replace (8 * (2 ^ 29 + Z.of_nat x)) with (8 * Z.of_nat x + 1 * 2 ^ 32) by lia. apply Z_mod_plus_full. Qed.

Lemma one_piece (l : list Z) : pieces [l]. Proof. constructor. Qed.

Lemma zeros_aad n enc E iv a m t : Z.of_nat (16 * n) = 2 ^ 29 -> bcipher E -> bytes iv -> bytes a -> bytes m -> (t <= 16)%nat ->
  gcm_session enc E iv [repeat 0 (16 * n) ++ a] [m] t = gcm_session enc E iv [a] [m] t.
Proof.
  intros N HE Bi Ba Bm T.
  assert (Bz : bytes (repeat 0 (16 * n) ++ a)) by (apply bytes_app; split; [apply bytes_repeat0|exact Ba]).
  rewrite !session_ok by (auto using one_piece). cbn [concat]. rewrite !app_nil_r. do 2 f_equal.
  unfold code_tag. do 2 f_equal. rewrite zpad_app by apply whole_zeros. rewrite <- !app_assoc. rewrite zeros_tag. do 3 f_equal. unfold lens. rewrite app_length, repeat_length, len_wrap by exact N. reflexivity.
Qed.

(** Ciphertext without additional data. *)
Lemma zeros_text n E iv c t : Z.of_nat (16 * n) = 2 ^ 29 -> bcipher E -> bytes iv -> bytes c -> (t <= 16)%nat ->
  exists p p' tag, gcm_session false E iv [] [c] t = Ok (p, tag) /\ gcm_session false E iv [] [repeat 0 (16 * n) ++ c] t = Ok (p', tag).
Proof.
  intros N HE Bi Bc T.
  assert (Bz : bytes (repeat 0 (16 * n) ++ c)) by (apply bytes_app; split; [apply bytes_repeat0|exact Bc]).
  do 3 eexists. split; [apply session_ok; auto using one_piece; constructor|]. cbn [concat].
  rewrite session_ok by (auto using one_piece; constructor). cbn [concat]. rewrite !app_nil_r. do 2 f_equal.
  unfold code_tag. do 2 f_equal. change (zpad16 []) with (@nil Z). cbn [app]. rewrite zpad_app by apply whole_zeros. rewrite <- !app_assoc. rewrite zeros_tag. do 2 f_equal. unfold lens. rewrite app_length, repeat_length, len_wrap by exact N. reflexivity.
Qed.

(** IVs. *)
Lemma zeros_iv n enc E iv aads ms t : Z.of_nat (16 * n) = 2 ^ 29 -> bcipher E -> bytes iv -> length iv <> 12%nat -> pieces aads -> pieces ms -> Forall bytes aads -> Forall bytes ms -> (t <= 16)%nat ->
  gcm_session enc E (repeat 0 (16 * n) ++ iv) aads ms t = gcm_session enc E iv aads ms t.
Proof.
  intros N HE Bi L Pa Pm Ba Bm T.
  assert (Bz : bytes (repeat 0 (16 * n) ++ iv)) by (apply bytes_app; split; [apply bytes_repeat0|exact Bi]).
  assert (J : code_j0 E (repeat 0 (16 * n) ++ iv) = code_j0 E iv).
  { unfold code_j0. rewrite app_length, repeat_length. destruct (Nat.eqb_spec (16 * n + length iv) 12); [lia|]. destruct (Nat.eqb_spec (length iv) 12); [contradiction|].
    rewrite zpad_app by apply whole_zeros. rewrite <- app_assoc, zeros_tag. unfold lens. rewrite len_wrap by exact N. reflexivity. }
  rewrite !session_ok by auto. unfold code_tag. rewrite J. reflexivity.
Qed.

(** * The counter comes round *)
Lemma incs_val b : blk b -> forall n, incs n b = firstn 12 b ++ be_bytes 4 (be_val (skipn 12 b) + Z.of_nat n).
Proof.
  intros [L B] n. induction n as [|n IH].
  - cbn [incs Nat.iter nat_rect]. rewrite Z.add_0_r.
    pose proof (be_bytes_val (skipn 12 b) (bytes_skipn 12 b B)) as V. rewrite skipn_length, L in V. change (16 - 12)%nat with 4%nat in V. rewrite V. symmetry. apply firstn_skipn.
  - change (incs (S n) b) with (inc32 (incs n b)). rewrite IH. unfold inc32.
    assert (F : length (firstn 12 b) = 12%nat) by (rewrite firstn_length; lia).
    rewrite firstn_exact, skipn_exact by exact F. f_equal. rewrite be_val_bytes. rewrite <- (be_bytes_mod 4 (_ mod _ + 1)), Zplus_mod_idemp_l, be_bytes_mod. f_equal. lia.
Qed.
Lemma incs_wrap b n : blk b -> Z.of_nat n = 2 ^ 32 -> incs n b = b.
Proof.
  intros H N. rewrite incs_val by exact H. rewrite N. rewrite <- be_bytes_mod. change (256 ^ Z.of_nat 4) with (2 ^ 32).
  replace (be_val (skipn 12 b) + 2 ^ 32) with (be_val (skipn 12 b) + 1 * 2 ^ 32) by lia. rewrite Z_mod_plus_full. change (2 ^ 32) with (256 ^ Z.of_nat 4). rewrite be_bytes_mod.
  destruct H as [L B]. pose proof (be_bytes_val (skipn 12 b) (bytes_skipn 12 b B)) as V. rewrite skipn_length, L in V. change (16 - 12)%nat with 4%nat in V. rewrite V. apply firstn_skipn.
Qed.
Lemma chunk_count k : forall a : list Z, length a = (16 * k)%nat -> length (chunks 16 a) = k.
Proof.
  induction k as [|k IH]; intros a L.
  - replace (16 * 0)%nat with 0%nat in L by lia. apply length_zero_iff_nil in L. subst a. reflexivity.
  - rewrite <- (firstn_skipn 16 a). rewrite chunks_app by (try rewrite firstn_length; lia). cbn [length]. f_equal. apply IH. rewrite skipn_length. lia.
Qed.
Lemma text_wrap n E iv a b t : Z.of_nat n = 2 ^ 32 -> length a = (16 * n)%nat -> bcipher E -> bytes iv -> bytes a -> bytes b -> (t <= 16)%nat ->
  exists o1 o2 tag1 tag2, gcm_session true E iv [] [b] t = Ok (o2, tag1) /\ gcm_session true E iv [] [a ++ b] t = Ok (o1 ++ o2, tag2) /\ length o1 = length a.
Proof.
  intros N L HE Bi Ba Bb T.
  assert (Bab : bytes (a ++ b)) by (apply bytes_app; split; assumption).
  assert (J : blk (inc32 (code_j0 E iv))) by (apply blk_inc32, code_j0_blk; exact Bi).
  do 4 eexists. split; [apply session_ok; auto using one_piece; constructor|]. split.
  - rewrite session_ok by (auto using one_piece; constructor). cbn [concat]. rewrite !app_nil_r.
    rewrite gctr_app by (exists n; lia). rewrite (chunk_count n a L), incs_wrap by assumption. reflexivity.
  - apply gctr_invol; auto.
Qed.
(** Block 2^32 - 1 of a text is hidden by the block that hides the tag. *)
Lemma incs_mask b n : blk b -> Z.of_nat (S n) = 2 ^ 32 -> incs n (inc32 b) = b.
Proof. intros H N. rewrite <- incs_S. apply incs_wrap; assumption. Qed.
Lemma xorl_zeros : forall l, bytes l -> xorl (repeat 0 (length l)) l = l.
Proof.
  induction l as [|x l IH]; intros B; [reflexivity|]. inversion B; subst. cbn [length repeat xorl].
  f_equal. apply IH. assumption.
Qed.
Lemma text_mask n E iv a t : Z.of_nat (S n) = 2 ^ 32 -> length a = (16 * n)%nat -> bcipher E -> bytes iv -> bytes a -> (t <= 16)%nat ->
  exists o mask tag, gcm_session true E iv [] [a ++ repeat 0 16] t = Ok (o ++ mask, tag) /\ length o = length a /\
    gcm_session true E iv [] [] 16 = Ok ([], mask) /\ length mask = 16%nat.
Proof.
  intros N L HE Bi Ba T.
  assert (Bab : bytes (a ++ repeat 0 16)) by (apply bytes_app; split; auto using bytes_repeat0).
  assert (J0 : blk (code_j0 E iv)) by (apply code_j0_blk; exact Bi).
  assert (J : blk (inc32 (code_j0 E iv))) by (apply blk_inc32; exact J0).
  destruct (HE (code_j0 E iv) (proj1 J0) (proj2 J0)) as [ML MB].
  assert (X : xorl (repeat 0 16) (E (code_j0 E iv)) = E (code_j0 E iv)) by (rewrite <- ML; apply xorl_zeros; exact MB).
  exists (gctr E (inc32 (code_j0 E iv)) a), (E (code_j0 E iv)). eexists. split; [|split; [|split]].
  - rewrite session_ok by (auto using one_piece; constructor). cbn [concat]. rewrite !app_nil_r.
    rewrite gctr_app by (exists n; lia). rewrite (chunk_count n a L), incs_mask by assumption.
    rewrite (gctr_short E _ (repeat 0 16)) by (rewrite repeat_length; lia). rewrite X. reflexivity.
  - apply gctr_invol; auto.
  - rewrite session_ok by (auto; constructor). cbn [concat]. change (gctr E (inc32 (code_j0 E iv)) []) with (@nil Z). do 2 f_equal.
    unfold code_tag. change (zpad16 []) with (@nil Z). cbn [app length].
    change (lens (Z.of_nat 0) (Z.of_nat 0)) with (repeat 0 (16 * 1)). rewrite ghash_zeros, X. apply firstn_all2. lia.
  - exact ML.
Qed.

(** * Pieces that are not whole blocks *)
Lemma zpad_le l : (0 < length l <= 16)%nat -> zpad16 l = l ++ repeat 0 (16 - length l).
Proof.
  intros H. destruct (Nat.eq_dec (length l) 16) as [Q|Q]; [|apply zpad_short; lia].
  rewrite zpad_whole by (apply whole_one; exact Q). rewrite Q, Nat.sub_diag. cbn [repeat]. rewrite app_nil_r. reflexivity.
Qed.
Lemma hash_pad key h a k : blk key -> blk h -> bytes a -> (0 < length a)%nat -> (length a + k <= 16)%nat -> gcm_hash h key (a ++ repeat 0 k) = gcm_hash h key a.
Proof.
  intros K H B L S. rewrite !hash_ok by (auto; apply bytes_app; split; auto using bytes_repeat0). f_equal.
  rewrite !zpad_le by (rewrite ?app_length, ?repeat_length; lia). rewrite app_length, repeat_length, <- app_assoc, <- repeat_app. do 2 f_equal. lia.
Qed.
Lemma iv_blks E iv c : bcipher E -> bytes iv -> gcm_iv_set (gcm_key_set E) iv = Ok c -> blk (g_key c) /\ blk (g_hs c).
Proof.
  intros HE Bi H. unfold gcm_iv_set in H. destruct (inc_last4 _) as [t| | |]; cbn [bind] in H; try discriminate. injection H as <-. cbn [g_key g_hs gcm_key_set].
  split; [|apply blk_zero]. destruct (HE (repeat 0 16) eq_refl (bytes_repeat0 16)). split; assumption.
Qed.
Lemma blk_hash key h a : blk key -> blk h -> bytes a -> blk (gcm_hash h key a).
Proof. intros K H B. rewrite hash_ok by assumption. apply blk_ghash; auto. Qed.
Lemma ragged enc E iv a b k ms t : bcipher E -> bytes iv -> bytes a -> bytes b -> (0 < length a)%nat -> (length a + k <= 16)%nat -> (0 < length b)%nat -> (length b + k <= 16)%nat ->
  gcm_session enc E iv [a ++ repeat 0 k; b] ms t = gcm_session enc E iv [a; b ++ repeat 0 k] ms t.
Proof.
  intros HE Bi Ba Bb La Ka Lb Kb. unfold gcm_session. destruct (gcm_iv_set (gcm_key_set E) iv) as [c| | |] eqn:I; cbn [bind]; try reflexivity.
  destruct (iv_blks E iv c HE Bi I) as [K H].
  assert (Q : fold_left gcm_update [a ++ repeat 0 k; b] c = fold_left gcm_update [a; b ++ repeat 0 k] c); [|rewrite Q; reflexivity].
  cbn [fold_left]. unfold gcm_update. cbn [g_iv g_ctr g_hs g_key g_auth g_ciph]. rewrite (hash_pad (g_key c) (g_hs c) a k) by assumption.
  rewrite (hash_pad (g_key c) (gcm_hash (g_hs c) (g_key c) a) b k) by (auto using blk_hash).
  rewrite !app_length, repeat_length. f_equal. rewrite !Zplus_mod_idemp_l. f_equal. lia.
Qed.

(** * Text before additional data *)
Lemma iv_ctr E iv : bcipher E -> bytes iv -> exists c, gcm_iv_set (gcm_key_set E) iv = Ok c /\ blk (g_ctr c) /\ g_auth c = 0 /\ g_ciph c = 0.
Proof.
  intros HE Bi. destruct (HE (repeat 0 16) eq_refl (bytes_repeat0 16)) as [KL KB]. assert (K : blk (E (repeat 0 16))) by (split; assumption).
  unfold gcm_iv_set. cbn [g_key gcm_key_set]. set (j := if Nat.eqb _ _ then _ else _). assert (J : blk j).
  { unfold j. destruct (Nat.eqb_spec (length iv) 12) as [L|L].
    - split; [rewrite app_length, L; reflexivity|]. apply bytes_app. split; [exact Bi|]. repeat constructor; lia.
    - rewrite hash_sizes_ok by (auto using blk_hash, blk_zero). apply blk_ghash; auto using blk_hash, blk_zero. }
  rewrite inc_last4_ok by exact J. cbn [bind]. eexists. split; [reflexivity|]. cbn [g_ctr g_auth g_ciph]. split; [apply blk_inc32; exact J|split; reflexivity].
Qed.
Lemma order_tag E iv x y t : bcipher E -> bytes iv -> length x = length y ->
  gop_tag E [GIv iv; GDecrypt x; GUpdate y] t = gop_tag E [GIv iv; GUpdate x; GDecrypt y] t.
Proof.
  intros HE Bi L. unfold gop_tag. cbn [gop_run gop_step]. destruct (iv_ctr E iv HE Bi) as (c & -> & B & A & C). cbn [bind].
  unfold gcm_decrypt, gcm_update. cbn [g_iv g_ctr g_hs g_key g_auth g_ciph]. rewrite !operate_ok by exact B. cbn [bind g_iv g_ctr g_hs g_key g_auth g_ciph].
  unfold gcm_digest. cbn [g_iv g_ctr g_hs g_key g_auth g_ciph]. rewrite A, C, L. reflexivity.
Qed.

(** * A second digest *)
Lemma again_gcm : exists c t1 t2, gop_run toyE (gcm_key_set toyE) [GIv (repeat 0 12); GUpdate [1]] = Ok c /\
  gcm_digest toyE c 16 = Ok t1 /\ gcm_digest toyE (gcm_digested c) 16 = Ok t2 /\ t1 <> t2.
Proof. do 3 eexists. split; [vm_compute; reflexivity|]. split; [vm_compute; reflexivity|]. split; [vm_compute; reflexivity|]. discriminate. Qed.
Lemma again_cmac : cmac_digest toyE (cmac_digested toyE cmac_init) <> cmac_digest toyE cmac_init.
Proof. vm_compute. discriminate. Qed.

(** * Forms used by the theorems *)
Lemma run_app E l1 : forall c l2, gop_run E c (l1 ++ l2) = bind (gop_run E c l1) (fun c => gop_run E c l2).
Proof.
  induction l1 as [|o l1 IH]; intros c l2; [reflexivity|]. cbn [app gop_run]. destruct (gop_step E c o) as [c1| | |]; cbn [bind]; try reflexivity. apply IH.
Qed.
Lemma again_all E l c iv l' t : gop_run E (gcm_key_set E) l = Ok c -> gop_tag E (l ++ GIv iv :: l') t = gop_tag E (GIv iv :: l') t.
Proof.
  intros H. unfold gop_tag. rewrite run_app, H. cbn [bind gop_run gop_step]. rewrite (again_iv E l c iv H). reflexivity.
Qed.
Lemma sixteen n k : Z.of_nat n = 16 * k -> 0 <= k -> exists m, n = (16 * m)%nat /\ Z.of_nat m = k.
Proof. intros N K. exists (Z.to_nat k). split; lia. Qed.
Lemma run_total E l : bcipher E -> Forall (fun o => match o with GIv x | GUpdate x | GEncrypt x | GDecrypt x => bytes x | GDigest => True end) l ->
  forall c, blk (g_ctr c) -> g_key c = E (repeat 0 16) -> exists c', gop_run E c l = Ok c'.
Proof.
  intros HE. induction l as [|o l IH]; intros F c B K; [eexists; reflexivity|]. inversion F as [|? ? Fo Fl]; subst. cbn [gop_run].
  destruct o as [iv|a|m|m|]; cbn [gop_step].
  - destruct (iv_ctr E iv HE Fo) as (c1 & I & B1 & _). assert (Q : gcm_iv_set c iv = gcm_iv_set (gcm_key_set E) iv) by (unfold gcm_iv_set; rewrite K; reflexivity).
    rewrite Q, I. cbn [bind]. apply IH; auto. pose proof (step_key E (gcm_key_set E) (GIv iv) c1 I) as SK. exact SK.
  - cbn [bind]. apply IH; auto.
  - unfold gcm_encrypt. rewrite operate_ok by exact B. cbn [bind]. apply IH; auto. cbn [g_ctr]. apply blk_incs. exact B.
  - unfold gcm_decrypt. rewrite operate_ok by exact B. cbn [bind]. apply IH; auto. cbn [g_ctr]. apply blk_incs. exact B.
  - cbn [bind]. apply IH; auto.
Qed.
Definition gop_bytes (o : gop) : Prop := match o with GIv x | GUpdate x | GEncrypt x | GDecrypt x => bytes x | GDigest => True end.
Lemma reuse E l iv : bcipher E -> Forall gop_bytes l ->
  exists c, gop_run E (gcm_key_set E) l = Ok c /\ gcm_iv_set c iv = gcm_iv_set (gcm_key_set E) iv /\
    forall l' t, gop_tag E (l ++ GIv iv :: l') t = gop_tag E (GIv iv :: l') t.
Proof.
  intros HE F. destruct (run_total E l HE F (gcm_key_set E) blk_zero eq_refl) as [c H]. exists c. split; [exact H|]. split; [eapply again_iv; exact H|].
  intros l' t. eapply again_all. exact H.
Qed.
Lemma zeros_aad' n enc E iv a m t : Z.of_nat n = 2 ^ 29 -> bcipher E -> bytes iv -> bytes a -> bytes m -> (t <= 16)%nat ->
  gcm_session enc E iv [repeat 0 n ++ a] [m] t = gcm_session enc E iv [a] [m] t.
Proof. intros N. destruct (sixteen n (2 ^ 25)) as (k & -> & _); [rewrite N; reflexivity|lia|]. apply zeros_aad. exact N. Qed.
Lemma zeros_text' n E iv c t : Z.of_nat n = 2 ^ 29 -> bcipher E -> bytes iv -> bytes c -> (t <= 16)%nat ->
  exists p p' tag, gcm_session false E iv [] [c] t = Ok (p, tag) /\ gcm_session false E iv [] [repeat 0 n ++ c] t = Ok (p', tag).
Proof. intros N. destruct (sixteen n (2 ^ 25)) as (k & -> & _); [rewrite N; reflexivity|lia|]. apply zeros_text. exact N. Qed.
Lemma zeros_iv' n enc E iv aads ms t : Z.of_nat n = 2 ^ 29 -> bcipher E -> bytes iv -> length iv <> 12%nat -> pieces aads -> pieces ms -> Forall bytes aads -> Forall bytes ms -> (t <= 16)%nat ->
  gcm_session enc E (repeat 0 n ++ iv) aads ms t = gcm_session enc E iv aads ms t.
Proof. intros N. destruct (sixteen n (2 ^ 25)) as (k & -> & _); [rewrite N; reflexivity|lia|]. apply zeros_iv. exact N. Qed.
Lemma text_wrap' E iv a b t : Z.of_nat (length a) = 2 ^ 36 -> bcipher E -> bytes iv -> bytes a -> bytes b -> (t <= 16)%nat ->
  exists o1 o2 tag1 tag2, gcm_session true E iv [] [b] t = Ok (o2, tag1) /\ gcm_session true E iv [] [a ++ b] t = Ok (o1 ++ o2, tag2) /\ length o1 = length a.
Proof. intros N. destruct (sixteen (length a) (2 ^ 32)) as (k & L & K); [rewrite N; reflexivity|lia|]. apply (text_wrap k); assumption. Qed.
Lemma text_mask' E iv a t : Z.of_nat (length a) = 2 ^ 36 - 16 -> bcipher E -> bytes iv -> bytes a -> (t <= 16)%nat ->
  exists o mask tag, gcm_session true E iv [] [a ++ repeat 0 16] t = Ok (o ++ mask, tag) /\ length o = length a /\
    gcm_session true E iv [] [] 16 = Ok ([], mask) /\ length mask = 16%nat.
Proof.
  intros N. destruct (sixteen (length a) (2 ^ 32 - 1)) as (k & L & K); [rewrite N; reflexivity|lia|]. apply (text_mask k); [|assumption].
  rewrite Nat2Z.inj_succ, K. lia.
Qed.
Lemma long_zeros v : 0 <= v -> exists a : list Z, Z.of_nat (length a) = v /\ bytes a.
Proof. intros H. exists (repeat 0 (Z.to_nat v)). split; [rewrite repeat_length; apply Z2Nat.id; exact H|apply bytes_repeat0]. Qed.
