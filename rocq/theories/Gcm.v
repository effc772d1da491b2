(** GCM: the incremental computation is SP 800-38D's. *)
From Verif Require Import Base Bits BytesSpec Bytes Lists ModesModel Modes Modes2 GcmModel GcmSpec GcmMul.

Definition bcipher (E : list Z -> list Z) : Prop :=
  forall b, length b = 16%nat -> bytes b -> length (E b) = 16%nat /\ bytes (E b).
Definition blk (b : list Z) : Prop := length b = 16%nat /\ bytes b.

(** * Hash *)
Definition ghash_from (h y l : list Z) : list Z := fold_left (fun y x => bmul (xorl y x) h) (chunks 16 l) y.
Lemma blk_zero : blk (repeat 0 16). Proof. split; [reflexivity|apply bytes_repeat0]. Qed.
Lemma blk_bmul x y : blk (bmul x y). Proof. split; [apply gblock_length|apply gblock_bytes]. Qed.
Lemma blk_xorl x y : blk x -> blk y -> blk (xorl x y).
Proof. intros [A B] [C D]. split; [rewrite xorl_length_eq; congruence|apply xorl_bytes; auto]. Qed.
Lemma ghash_from_app h y a b : whole 16 a -> ghash_from h y (a ++ b) = ghash_from h (ghash_from h y a) b.
Proof. intro W. unfold ghash_from. rewrite chunks_whole by (auto; lia). apply fold_left_app. Qed.
Lemma ghash_from_one h y a : length a = 16%nat -> ghash_from h y a = bmul (xorl y a) h.
Proof. intro L. unfold ghash_from. rewrite chunks_short by lia. reflexivity. Qed.
Lemma blk_ghash h l : forall y, blk y -> blk (ghash_from h y l).
Proof.
  intros y Hy. unfold ghash_from. revert y Hy. induction (chunks 16 l) as [|x r IH]; intros y Hy; cbn [fold_left]; auto.
  apply IH. apply blk_bmul.
Qed.
Lemma zpad_whole l : whole 16 l -> zpad16 l = l.
Proof. intros [k K]. unfold zpad16. rewrite K, Nat.mod_mul by lia. apply app_nil_r. Qed.
Lemma zpad_app a b : whole 16 a -> zpad16 (a ++ b) = a ++ zpad16 b.
Proof.
  intros [k K]. unfold zpad16. rewrite app_length, K, <- app_assoc. do 2 f_equal. f_equal. rewrite Nat.add_comm, Nat.mod_add by lia. reflexivity.
Qed.
Lemma zpad_is_whole l : whole 16 (zpad16 l).
Proof.
  unfold whole, zpad16. rewrite app_length, repeat_length. exists (length l / 16 + if Nat.eqb (length l mod 16) 0 then 0 else 1)%nat.
  pose proof (Nat.div_mod (length l) 16 ltac:(lia)). pose proof (Nat.mod_upper_bound (length l) 16 ltac:(lia)).
  destruct (Nat.eqb_spec (length l mod 16) 0) as [E|E].
  - rewrite E. change ((16 - 0) mod 16)%nat with 0%nat. lia.
  - rewrite Nat.mod_small by lia. lia.
Qed.
Lemma zpad_short l : (0 < length l < 16)%nat -> zpad16 l = l ++ repeat 0 (16 - length l).
Proof. intro H. unfold zpad16. rewrite (Nat.mod_small (length l)), Nat.mod_small by lia. reflexivity. Qed.
Lemma zpad_bytes l : bytes l -> bytes (zpad16 l).
Proof. intro H. apply bytes_app. split; auto. apply bytes_repeat0. Qed.
Lemma xor_into_ok h d : length h = 16%nat -> (length d <= 16)%nat -> xor_into h d = xorl h (d ++ repeat 0 (16 - length d)).
Proof.
  intros Hh Hd. unfold xor_into. rewrite <- Hh in *. clear Hh. revert h Hd. induction d as [|x d IH]; intros h Hd.
  - rewrite xorl_nil_r. cbn [app length skipn]. rewrite Nat.sub_0_r, xorl_zeros. reflexivity.
  - destruct h as [|y h]; cbn [length] in *; [lia|]. cbn [xorl app skipn Nat.sub]. rewrite IH by lia. reflexivity.
Qed.
Lemma hash_f_ok key : blk key -> forall data fuel h, bytes data -> blk h -> (length data < fuel)%nat ->
  gcm_hash_f fuel h key data = ghash_from key h (zpad16 data).
Proof.
  intros [Lk Bk]. apply (block_ind 16 (fun data => forall fuel h, bytes data -> blk h -> (length data < fuel)%nat ->
    gcm_hash_f fuel h key data = ghash_from key h (zpad16 data))); [lia| |].
  - intros l Hl fuel h Hb Hh Hf. destruct fuel as [|f]; [lia|]. cbn [gcm_hash_f]. destruct (Nat.leb_spec 16 (length l)); [lia|].
    destruct l as [|b l]; [reflexivity|]. set (d := b :: l) in *. destruct Hh as [Lh Bh].
    assert (0 < length d)%nat by (unfold d; cbn; lia).
    rewrite xor_into_ok by lia. rewrite zpad_short by lia.
    assert (blk (d ++ repeat 0 (16 - length d))).
    { split; [rewrite app_length, repeat_length; lia|]. apply bytes_app. split; auto. apply bytes_repeat0. }
    rewrite ghash_from_one by apply H1. destruct (blk_xorl h _ (conj Lh Bh) H1). apply gf_mul_ok; auto.
  - intros a r La IH fuel h Hb Hh Hf. destruct fuel as [|f]; [lia|]. cbn [gcm_hash_f].
    rewrite app_length, La in *. destruct (Nat.leb_spec 16 (16 + length r)); [|lia].
    rewrite firstn_exact, skipn_exact by auto. apply bytes_app in Hb as [Ba Br].
    rewrite xor_into_ok by (try apply Hh; lia). rewrite La. rewrite Nat.sub_diag. cbn [repeat]. rewrite app_nil_r.
    destruct (blk_xorl h a Hh (conj La Ba)).
    rewrite gf_mul_ok by auto. rewrite IH; auto; [|apply blk_bmul|lia].
    rewrite zpad_app by (apply whole_one; auto). rewrite ghash_from_app by (apply whole_one; auto).
    rewrite (ghash_from_one key h a) by auto. reflexivity.
Qed.
Lemma hash_ok key h data : blk key -> bytes data -> blk h -> gcm_hash h key data = ghash_from key h (zpad16 data).
Proof. intros. apply hash_f_ok; auto; lia. Qed.
Definition lens (a c : Z) : list Z := be_bytes 8 ((8 * a) mod 2 ^ 32) ++ be_bytes 8 ((8 * c) mod 2 ^ 32).
Lemma be8_small v : 0 <= v < 2 ^ 32 -> repeat 0 4 ++ write32be v = be_bytes 8 v.
Proof.
  intro H. rewrite write32be_bytes by auto. apply be_val_inj.
  - apply bytes_app. split; [apply bytes_repeat0|apply be_bytes_bytes].
  - apply be_bytes_bytes.
  - reflexivity.
  - rewrite be_val_repeat0, !be_val_bytes. change (256 ^ Z.of_nat 4) with (2 ^ 32). change (256 ^ Z.of_nat 8) with (2 ^ 64).
    rewrite !Z.mod_small by lia. reflexivity.
Qed.
Lemma lens_len a c : length (lens a c) = 16%nat. Proof. reflexivity. Qed.
Lemma lens_bytes a c : bytes (lens a c). Proof. apply bytes_app. split; apply be_bytes_bytes. Qed.
Lemma hash_sizes_ok key h a c : blk key -> blk h -> gcm_hash_sizes h key a c = ghash_from key h (lens a c).
Proof.
  intros K H. unfold gcm_hash_sizes.
  rewrite (app_assoc (repeat 0 4) (write32be _) (_ ++ _)).
  rewrite !be8_small by (apply Z.mod_pos_bound; lia). fold (lens a c).
  rewrite hash_ok by (auto using lens_bytes). rewrite zpad_whole by (apply whole_one; apply lens_len). reflexivity.
Qed.

(** * Counter mode *)
Lemma inc_last4_ok b : blk b -> inc_last4 b = Ok (inc32 b).
Proof.
  intros [L B]. unfold inc_last4, inc32. rewrite increment_ok by (try apply bytes_skipn; auto; rewrite skipn_length; lia).
  rewrite skipn_length, L. reflexivity.
Qed.
Lemma blk_inc32 b : blk b -> blk (inc32 b).
Proof.
  intros [L B]. unfold inc32. split; [rewrite app_length, firstn_length, be_bytes_length; lia|].
  apply bytes_app. split; [apply bytes_firstn; auto|apply be_bytes_bytes].
Qed.
Definition incs (n : nat) (b : list Z) : list Z := Nat.iter n inc32 b.
Lemma blk_incs n b : blk b -> blk (incs n b).
Proof. intro H. induction n; cbn; auto. apply blk_inc32. auto. Qed.
Lemma incs_S n b : incs (S n) b = incs n (inc32 b).
Proof. unfold incs. induction n as [|n IH]; [reflexivity|]. cbn [Nat.iter nat_rect] in *. unfold Nat.iter in *. cbn [nat_rect] in *. rewrite IH. reflexivity. Qed.
Lemma operate_f_ok E : forall src fuel ctr, blk ctr -> (length src < fuel)%nat ->
  gcm_operate_f fuel E ctr src = Ok (incs (length (chunks 16 src)) ctr, gctr E ctr src).
Proof.
  apply (block_ind 16 (fun src => forall fuel ctr, blk ctr -> (length src < fuel)%nat ->
    gcm_operate_f fuel E ctr src = Ok (incs (length (chunks 16 src)) ctr, gctr E ctr src))); [lia| |].
  - intros l Hl fuel ctr Hc Hf. destruct fuel as [|f]; [lia|]. cbn [gcm_operate_f].
    destruct l as [|b l]; [reflexivity|]. set (d := b :: l) in *. assert (0 < length d)%nat by (unfold d; cbn; lia).
    rewrite inc_last4_ok by auto. cbn [bind].
    rewrite firstn_all2, skipn_all2 by lia. destruct f as [|f]; [unfold d in *; cbn in *; lia|]. cbn [gcm_operate_f bind].
    unfold gctr. rewrite chunks_short by lia. reflexivity.
  - intros a r La IH fuel ctr Hc Hf. destruct fuel as [|f]; [lia|]. rewrite app_length, La in Hf.
    assert (N : a ++ r <> []) by (destruct a; [discriminate|discriminate]).
    cbn [gcm_operate_f]. destruct (a ++ r) as [|x y] eqn:Q; [congruence|]. rewrite <- Q. clear Q x y N.
    rewrite inc_last4_ok by auto. cbn [bind]. rewrite firstn_exact, skipn_exact by auto.
    rewrite IH by (try apply blk_inc32; auto; lia). cbn [bind].
    unfold gctr. rewrite chunks_app by (auto; lia). cbn [gctr_blocks length]. rewrite incs_S. reflexivity.
Qed.
Lemma operate_ok E src ctr : blk ctr -> gcm_operate E ctr src = Ok (incs (length (chunks 16 src)) ctr, gctr E ctr src).
Proof. intro. apply operate_f_ok; auto. Qed.
Lemma gctr_blocks_app E a : forall icb b, gctr_blocks E icb (a ++ b) = gctr_blocks E icb a ++ gctr_blocks E (incs (length a) icb) b.
Proof.
  induction a as [|x a IH]; intros icb b; [reflexivity|].
  cbn [app gctr_blocks length]. rewrite IH, incs_S, app_assoc. reflexivity.
Qed.
Lemma gctr_app E icb a b : whole 16 a -> gctr E icb (a ++ b) = gctr E icb a ++ gctr E (incs (length (chunks 16 a)) icb) b.
Proof. intro W. unfold gctr. rewrite chunks_whole by (auto; lia). apply gctr_blocks_app. Qed.
Lemma gctr_short E icb l : (0 < length l <= 16)%nat -> gctr E icb l = xorl l (E icb).
Proof. intro H. unfold gctr. rewrite chunks_short by lia. cbn [gctr_blocks]. apply app_nil_r. Qed.
Lemma gctr_invol E : bcipher E -> forall m icb, blk icb -> bytes m ->
  length (gctr E icb m) = length m /\ bytes (gctr E icb m) /\ gctr E icb (gctr E icb m) = m.
Proof.
  intro HE. apply (block_ind 16 (fun m => forall icb, blk icb -> bytes m ->
    length (gctr E icb m) = length m /\ bytes (gctr E icb m) /\ gctr E icb (gctr E icb m) = m)); [lia| |].
  - intros l Hl icb Hc Hb. destruct (HE icb (proj1 Hc) (proj2 Hc)) as [EL EB]. destruct l as [|b l]; [cbn; auto|].
    set (d := b :: l) in *. assert (0 < length d)%nat by (unfold d; cbn; lia).
    assert (Lx : length (xorl d (E icb)) = length d) by (rewrite xorl_length; lia).
    rewrite (gctr_short E icb d) by lia. rewrite gctr_short by lia. split; [auto|]. split; [apply xorl_bytes; auto|].
    apply xorl_invol. lia.
  - intros a r La IH icb Hc Hb. destruct (HE icb (proj1 Hc) (proj2 Hc)) as [EL EB]. apply bytes_app in Hb as [Ba Br].
    destruct (IH (inc32 icb) (blk_inc32 _ Hc) Br) as (I1 & I2 & I3).
    assert (Lx : length (xorl a (E icb)) = 16%nat) by (rewrite xorl_length; lia).
    assert (S : forall a, length a = 16%nat -> forall r, gctr E icb (a ++ r) = xorl a (E icb) ++ gctr E (inc32 icb) r).
    { clear - EL. intros a La r. unfold gctr. rewrite chunks_app by (auto; lia). reflexivity. }
    rewrite S by auto. split; [|split].
    + rewrite !app_length. lia.
    + apply bytes_app. split; auto. apply xorl_bytes; auto.
    + rewrite S by auto. rewrite I3. f_equal. apply xorl_invol. lia.
Qed.

(** * Pieces: all but the last one whole blocks *)
Definition pieces (ls : list (list Z)) : Prop := Forall (whole 16) (removelast ls).
Lemma pieces_tail a b r : pieces (a :: b :: r) -> whole 16 a /\ pieces (b :: r).
Proof. unfold pieces. cbn [removelast]. intro H. inversion H; subst. auto. Qed.

(** * The context *)
Record ginv (E : list Z -> list Z) (j : list Z) (c : gcm) : Prop :=
  { gi_iv : g_iv c = j; gi_key : g_key c = E (repeat 0 16); gi_ctr : blk (g_ctr c); gi_hs : blk (g_hs c); gi_j : blk j }.
Lemma update_pieces E j ls : bcipher E -> forall c, ginv E j c -> pieces ls -> Forall bytes ls ->
  let c' := fold_left gcm_update ls c in
  ginv E j c' /\ g_ctr c' = g_ctr c /\ g_ciph c' = g_ciph c /\
  g_auth c' mod 2 ^ 64 = (g_auth c + Z.of_nat (length (concat ls))) mod 2 ^ 64 /\
  g_hs c' = ghash_from (g_key c) (g_hs c) (zpad16 (concat ls)).
Proof.
  intro HE. induction ls as [|l ls IH]; intros c G P B c'.
  - unfold c'. cbn [fold_left concat length]. rewrite Z.add_0_r. auto.
  - unfold c'. clear c'. cbn [fold_left concat]. inversion B as [|x y Bl Bls]; subst.
    destruct (HE (repeat 0 16) eq_refl (bytes_repeat0 16)) as [KL KB].
    assert (Kb : blk (g_key c)) by (rewrite (gi_key _ _ _ G); split; auto).
    assert (H : g_hs (gcm_update c l) = ghash_from (g_key c) (g_hs c) (zpad16 l)).
    { cbn [g_hs gcm_update]. apply hash_ok; auto. apply (gi_hs _ _ _ G). }
    assert (G' : ginv E j (gcm_update c l)).
    { destruct G. constructor; auto. rewrite H. apply blk_ghash. auto. }
    assert (Pl : pieces ls) by (destruct ls; [constructor|apply (pieces_tail l l0 ls P)]).
    destruct (IH _ G' Pl Bls) as (I1 & I2 & I3 & I4 & I5). split; [auto|]. split; [rewrite I2; reflexivity|]. split; [rewrite I3; reflexivity|]. split.
    + rewrite I4. cbn [g_auth gcm_update]. rewrite Zplus_mod_idemp_l, app_length. f_equal. lia.
    + rewrite I5. change (g_key (gcm_update c l)) with (g_key c). rewrite H.
      destruct ls as [|l' ls].
      * cbn [concat]. rewrite app_nil_r. unfold ghash_from at 1. reflexivity.
      * destruct (pieces_tail l l' ls P) as [W _]. rewrite zpad_whole, zpad_app, ghash_from_app by auto. reflexivity.
Qed.
(** encrypt hashes its output, decrypt its input *)
Definition gcm_step (enc : bool) := if enc then gcm_encrypt else gcm_decrypt.
Lemma step_pieces enc E j ls : bcipher E -> forall c, ginv E j c -> pieces ls -> Forall bytes ls ->
  let o := gctr E (g_ctr c) (concat ls) in
  exists c', calls (gcm_step enc E) c ls = Ok (c', o) /\
    ginv E j c' /\ g_auth c' = g_auth c /\
    g_ciph c' mod 2 ^ 64 = (g_ciph c + Z.of_nat (length (concat ls))) mod 2 ^ 64 /\
    g_hs c' = ghash_from (g_key c) (g_hs c) (zpad16 (if enc then o else concat ls)).
Proof.
  intro HE. induction ls as [|l ls IH]; intros c G P B o.
  - exists c. unfold o. cbn [calls concat length]. rewrite Z.add_0_r. destruct enc; repeat split; auto; apply G.
  - unfold o. clear o. cbn [calls concat]. inversion B as [|x y Bl Bls]; subst.
    destruct (HE (repeat 0 16) eq_refl (bytes_repeat0 16)) as [KL KB].
    assert (Kb : blk (g_key c)) by (rewrite (gi_key _ _ _ G); split; auto).
    pose proof (gi_ctr _ _ _ G) as Cb. pose proof (gi_hs _ _ _ G) as Hb.
    destruct (gctr_invol E HE l (g_ctr c) Cb Bl) as (Lo & Bo & _).
    set (h := ghash_from (g_key c) (g_hs c) (zpad16 (if enc then gctr E (g_ctr c) l else l))).
    set (n := length (chunks 16 l)).
    set (c1 := {| g_iv := g_iv c; g_ctr := incs n (g_ctr c); g_hs := h; g_key := g_key c; g_auth := g_auth c;
                  g_ciph := (g_ciph c + Z.of_nat (length l)) mod 2 ^ 64 |}).
    assert (S : gcm_step enc E c l = Ok (c1, gctr E (g_ctr c) l)).
    { unfold gcm_step, c1, h, gcm_encrypt, gcm_decrypt. destruct enc; rewrite operate_ok by auto; cbn [bind]; rewrite hash_ok by auto; reflexivity. }
    rewrite S. cbn [bind].
    assert (G1 : ginv E j c1).
    { destruct G. constructor; auto; unfold c1; cbn [g_ctr g_hs]. { apply blk_incs; auto. } unfold h. apply blk_ghash; auto. }
    assert (Pl : pieces ls) by (destruct ls; [constructor|apply (pieces_tail l l0 ls P)]).
    destruct (IH _ G1 Pl Bls) as (c' & I1 & I2 & I3 & I4 & I5). exists c'. rewrite I1. cbn [bind].
    assert (Ro : gctr E (g_ctr c) (l ++ concat ls) = gctr E (g_ctr c) l ++ gctr E (g_ctr c1) (concat ls)).
    { destruct ls as [|l' ls]; [cbn [concat]; rewrite !app_nil_r; reflexivity|].
      destruct (pieces_tail l l' ls P) as [W _]. apply gctr_app. auto. }
    rewrite Ro. split; [reflexivity|]. split; [auto|]. split; [rewrite I3; reflexivity|]. split.
    + rewrite I4. unfold c1. cbn [g_ciph]. rewrite Zplus_mod_idemp_l, app_length. f_equal. lia.
    + rewrite I5. unfold c1 at 1 2. cbn [g_key g_hs]. unfold h.
      destruct ls as [|l' ls].
      * cbn [concat]. rewrite !app_nil_r. destruct enc; cbn [zpad16 app] ; try rewrite app_nil_r; reflexivity.
      * destruct (pieces_tail l l' ls P) as [W _].
        destruct enc.
        -- assert (W' : whole 16 (gctr E (g_ctr c) l)) by (unfold whole; rewrite Lo; auto).
           rewrite zpad_whole, zpad_app, ghash_from_app by auto. reflexivity.
        -- rewrite zpad_whole, zpad_app, ghash_from_app by auto. reflexivity.
Qed.

(** * A whole session *)
Definition gcm_session (enc : bool) (E : list Z -> list Z) (iv : list Z) (aads msgs : list (list Z)) (t : nat) : res (list Z * list Z) :=
  do c <- gcm_iv_set (gcm_key_set E) iv;
  do ' (c, o) <- calls (if enc then gcm_encrypt E else gcm_decrypt E) (fold_left gcm_update aads c) msgs;
  do tag <- gcm_digest E c t;
  Ok (o, tag).
(** J0 as the code computes it *)
Definition code_j0 (E : list Z -> list Z) (iv : list Z) : list Z :=
  if Nat.eqb (length iv) 12 then iv ++ [0; 0; 0; 1]
  else ghash_from (E (repeat 0 16)) (repeat 0 16) (zpad16 iv ++ lens 0 (Z.of_nat (length iv))).
Definition code_tag (E : list Z -> list Z) (iv a c : list Z) (t : nat) : list Z :=
  firstn t (xorl (ghash_from (E (repeat 0 16)) (repeat 0 16) (zpad16 a ++ zpad16 c ++ lens (Z.of_nat (length a)) (Z.of_nat (length c))))
                 (E (code_j0 E iv))).
Lemma code_j0_blk E iv : bytes iv -> blk (code_j0 E iv).
Proof.
  intros Hb. unfold code_j0. destruct (Nat.eqb_spec (length iv) 12).
  - split; [rewrite app_length; cbn; lia|]. apply bytes_app. split; auto. repeat constructor; unfold byte; lia.
  - apply blk_ghash. apply blk_zero.
Qed.
Lemma mod_8 x : (8 * x) mod 2 ^ 32 = (8 * (x mod 2 ^ 64)) mod 2 ^ 32.
Proof.
  rewrite (Z.div_mod x (2 ^ 64)) at 1 by lia. rewrite Z.mul_add_distr_l.
  replace (8 * (2 ^ 64 * (x / 2 ^ 64))) with ((8 * (2 ^ 32 * (x / 2 ^ 64))) * 2 ^ 32) by ring.
  rewrite Z.add_comm, Z_mod_plus_full. reflexivity.
Qed.
Lemma session_ok enc E iv aads msgs t : bcipher E -> bytes iv -> pieces aads -> pieces msgs -> Forall bytes aads -> Forall bytes msgs -> (t <= 16)%nat ->
  let o := gctr E (inc32 (code_j0 E iv)) (concat msgs) in
  gcm_session enc E iv aads msgs t = Ok (o, code_tag E iv (concat aads) (if enc then o else concat msgs) t).
Proof.
  intros HE Hiv Pa Pm Ba Bm Ht o. unfold gcm_session.
  destruct (HE (repeat 0 16) eq_refl (bytes_repeat0 16)) as [KL KB]. assert (Kb : blk (E (repeat 0 16))) by (split; auto).
  set (j := code_j0 E iv) in *. assert (Jb : blk j) by (apply code_j0_blk; auto).
  assert (S0 : gcm_iv_set (gcm_key_set E) iv = Ok {| g_iv := j; g_ctr := inc32 j; g_hs := repeat 0 16; g_key := E (repeat 0 16); g_auth := 0; g_ciph := 0 |}).
  { unfold gcm_iv_set. cbn [g_key gcm_key_set].
    assert (Q : (if Nat.eqb (length iv) 12 then iv ++ [0; 0; 0; 1] else
      gcm_hash_sizes (gcm_hash (repeat 0 16) (E (repeat 0 16)) iv) (E (repeat 0 16)) 0 (Z.of_nat (length iv))) = j).
    { unfold j, code_j0. destruct (Nat.eqb (length iv) 12); [reflexivity|].
      rewrite hash_ok by (auto using blk_zero). rewrite hash_sizes_ok by (auto using blk_ghash, blk_zero).
      rewrite ghash_from_app by apply zpad_is_whole. reflexivity. }
    rewrite Q. rewrite inc_last4_ok by auto. reflexivity. }
  rewrite S0. cbn [bind]. clear S0. set (c0 := Build_gcm _ _ _ _ _ _).
  assert (G0 : ginv E j c0) by (constructor; unfold c0; cbn [g_iv g_key g_ctr g_hs]; auto using blk_inc32, blk_zero).
  destruct (update_pieces E j aads HE c0 G0 Pa Ba) as (G1 & U1 & U2 & U3 & U4). set (c1 := fold_left gcm_update aads c0) in *. clearbody c1.
  destruct (step_pieces enc E j msgs HE c1 G1 Pm Bm) as (c2 & S1 & G2 & S2 & S3 & S4).
  assert (SE : (if enc then gcm_encrypt E else gcm_decrypt E) = gcm_step enc E) by (destruct enc; reflexivity).
  rewrite SE, S1. cbn [bind]. rewrite U1. change (g_ctr c0) with (inc32 j).
  unfold gcm_digest. destruct (Nat.ltb_spec 16 t); [lia|]. cbn [bind].
  rewrite hash_sizes_ok by (try apply (gi_hs _ _ _ G2); rewrite (gi_key _ _ _ G2); auto).
  rewrite (gi_key _ _ _ G2), (gi_iv _ _ _ G2), S4, (gi_key _ _ _ G1), U4.
  change (g_key c0) with (E (repeat 0 16)). change (g_hs c0) with (repeat 0 16). rewrite U1 in *. change (g_ctr c0) with (inc32 j) in *.
  do 2 f_equal. unfold code_tag. fold j. do 2 f_equal.
  rewrite !ghash_from_app by apply zpad_is_whole. unfold o. f_equal.
  assert (LL : length (if enc then gctr E (inc32 j) (concat msgs) else concat msgs) = length (concat msgs)).
  { destruct enc; auto. apply gctr_invol; auto using blk_inc32. apply bytes_concat; auto. }
  rewrite LL. unfold lens. rewrite mod_8, (mod_8 (g_ciph c2)), S2, U3, S3, U2. unfold c0. cbn [g_auth g_ciph]. rewrite !Z.add_0_l, <- !mod_8. reflexivity.
Qed.

(** Round trip and equal tags, whatever the cut into pieces *)
Theorem gcm_roundtrip E iv aads aads' msgs t : bcipher E -> bytes iv -> pieces aads -> pieces aads' -> pieces msgs ->
  Forall bytes aads -> Forall bytes msgs -> Forall bytes aads' -> concat aads' = concat aads -> (t <= 16)%nat ->
  exists ct tag, gcm_session true E iv aads msgs t = Ok (ct, tag) /\ length ct = length (concat msgs) /\
    forall cts, pieces cts -> concat cts = ct -> gcm_session false E iv aads' cts t = Ok (concat msgs, tag).
Proof.
  intros HE Hiv Pa Pa' Pm Ba Bm Ba' Ea Ht. do 2 eexists. split; [apply session_ok; auto|].
  assert (Jb : blk (inc32 (code_j0 E iv))) by (apply blk_inc32, code_j0_blk; auto).
  destruct (gctr_invol E HE (concat msgs) _ Jb (bytes_concat _ Bm)) as (L & Bc & Inv).
  split; [auto|]. intros cts Pc Ec.
  assert (Bcs : Forall bytes cts).
  { rewrite <- Ec in Bc. clear - Bc. induction cts as [|c r IH]; constructor; cbn [concat] in Bc; apply bytes_app in Bc; tauto. }
  rewrite session_ok by auto. rewrite Ec, Inv, Ea. reflexivity.
Qed.

(** * The standard *)
Lemma ghash_is h l : ghash h l = ghash_from h (repeat 0 16) l. Proof. reflexivity. Qed.
Lemma lens_bits a c : 8 * Z.of_nat (length a) < 2 ^ 32 -> 8 * Z.of_nat (length c) < 2 ^ 32 ->
  lens (Z.of_nat (length a)) (Z.of_nat (length c)) = bits64 a ++ bits64 c.
Proof. intros. unfold lens, bits64. rewrite !Z.mod_small by lia. reflexivity. Qed.
Lemma j0_spec E iv : 8 * Z.of_nat (length iv) < 2 ^ 32 -> code_j0 E iv = gcm_j0 E iv.
Proof.
  intro H. unfold code_j0, gcm_j0. destruct (Nat.eqb (length iv) 12); [reflexivity|].
  rewrite ghash_is. do 2 f_equal. change (lens 0 (Z.of_nat (length iv))) with (lens (Z.of_nat (length (@nil Z))) (Z.of_nat (length iv))).
  rewrite lens_bits by (auto; cbn [length]; lia). reflexivity.
Qed.
Lemma tag_spec E iv a c t : bcipher E -> bytes iv -> 8 * Z.of_nat (length iv) < 2 ^ 32 -> 8 * Z.of_nat (length a) < 2 ^ 32 -> 8 * Z.of_nat (length c) < 2 ^ 32 ->
  code_tag E iv a c t = gcm_tag E iv a c t.
Proof.
  intros HE Hb H1 H2 H3. unfold code_tag, gcm_tag. rewrite j0_spec, lens_bits by auto. rewrite <- ghash_is.
  f_equal. symmetry. apply gctr_short. unfold ghash. fold (ghash_from (E (repeat 0 16)) (repeat 0 16) (zpad16 a ++ zpad16 c ++ bits64 a ++ bits64 c)).
  rewrite (proj1 (blk_ghash _ _ _ blk_zero)). lia.
Qed.
Theorem gcm_standard enc E iv aads msgs t : bcipher E -> bytes iv -> pieces aads -> pieces msgs -> Forall bytes aads -> Forall bytes msgs -> (t <= 16)%nat ->
  8 * Z.of_nat (length iv) < 2 ^ 32 -> 8 * Z.of_nat (length (concat aads)) < 2 ^ 32 -> 8 * Z.of_nat (length (concat msgs)) < 2 ^ 32 ->
  let o := gcm_cipher E iv (concat msgs) in
  gcm_session enc E iv aads msgs t = Ok (o, gcm_tag E iv (concat aads) (if enc then o else concat msgs) t).
Proof.
  intros HE Hiv Pa Pm Ba Bm Ht L1 L2 L3 o. rewrite session_ok by auto. rewrite j0_spec by auto. fold (gcm_cipher E iv (concat msgs)). fold o.
  rewrite tag_spec; auto. destruct enc; auto. unfold o, gcm_cipher.
  assert (Jb : blk (inc32 (gcm_j0 E iv))) by (apply blk_inc32; rewrite <- j0_spec by auto; apply code_j0_blk; auto).
  rewrite (proj1 (gctr_invol E HE (concat msgs) _ Jb (bytes_concat _ Bm))). auto.
Qed.

(** * Beyond 2^29 bytes the length field is cut *)
Lemma bmul_zero h : bmul (repeat 0 16) h = repeat 0 16.
Proof. unfold bmul. change (gpoly (repeat 0 16)) with 0. reflexivity. Qed.
Lemma ghash_zeros h n : ghash_from h (repeat 0 16) (repeat 0 (16 * n)) = repeat 0 16.
Proof.
  induction n as [|n IH]; [reflexivity|]. replace (16 * S n)%nat with (16 + 16 * n)%nat by lia.
  rewrite repeat_app, ghash_from_app by (apply whole_one; reflexivity). rewrite (ghash_from_one h (repeat 0 16) (repeat 0 16)) by reflexivity.
  change (xorl (repeat 0 16) (repeat 0 16)) with (repeat 0 16). rewrite bmul_zero. exact IH.
Qed.
Lemma long_iv n : (1 <= n)%nat -> Z.of_nat (16 * n) = 2 ^ 29 -> forall E, bcipher E ->
  code_j0 E (repeat 0 (16 * n)) = repeat 0 16 /\
  gcm_j0 E (repeat 0 (16 * n)) = bmul (be_bytes 16 (2 ^ 32)) (E (repeat 0 16)).
Proof.
  intros Hn N E HE. assert (W : whole 16 (repeat 0 (16 * n))) by (exists n; rewrite repeat_length; lia).
  unfold code_j0, gcm_j0. rewrite repeat_length. destruct (Nat.eqb_spec (16 * n) 12); [lia|].
  rewrite zpad_whole by auto. rewrite ghash_is, !ghash_from_app, !ghash_zeros by auto. split.
  - unfold lens. rewrite N. change ((8 * 0) mod 2 ^ 32) with 0. change ((8 * 2 ^ 29) mod 2 ^ 32) with 0.
    apply (ghash_zeros (E (repeat 0 16)) 1).
  - unfold bits64. rewrite repeat_length, N. change (repeat 0 8 ++ be_bytes 8 (8 * 2 ^ 29)) with (be_bytes 16 (2 ^ 32)).
    rewrite ghash_from_one by reflexivity. reflexivity.
Qed.
