(** Proofs about CBC. *)
From Verif Require Import Base Bits Lists ModesModel ModesSpec MemxorModel Memxor.

(** * Whole blocks *)
Definition whole (n : nat) (l : list Z) : Prop := Nat.divide n (length l).
Lemma whole_ind n (P : list Z -> Prop) : (0 < n)%nat -> P [] ->
  (forall a r, length a = n -> whole n r -> P r -> P (a ++ r)) -> forall l, whole n l -> P l.
Proof.
  intros Hn H0 H1. apply (block_ind n (fun l => whole n l -> P l)); auto.
  - intros l Hl [k Hk]. destruct l; auto. simpl length in *. destruct k; simpl in *; nia.
  - intros a r Ha IH W. assert (W' : whole n r).
    { unfold whole in *. rewrite app_length, Ha in W. apply (Nat.divide_add_cancel_r n n); auto. exists 1%nat. lia. }
    auto.
Qed.
Lemma whole_app n a r : whole n a -> whole n r -> whole n (a ++ r).
Proof. unfold whole. rewrite app_length. apply Nat.divide_add_r. Qed.
Lemma whole_one n a : length a = n -> whole n a.
Proof. intros <-. exists 1%nat. lia. Qed.
Lemma whole_nil n : whole n [].
Proof. exists 0%nat. reflexivity. Qed.
Lemma whole_ge n l : whole n l -> l <> [] -> (n <= length l)%nat.
Proof. intros [k Hk] H. destruct l; [congruence|]. destruct k; simpl length in *; nia. Qed.
Lemma chunks_whole n a r : (0 < n)%nat -> whole n a -> chunks n (a ++ r) = chunks n a ++ chunks n r.
Proof.
  intros Hn. revert a. apply whole_ind; auto. intros a r' Ha _ IH.
  rewrite <- app_assoc, (chunks_app n a (r' ++ r)), (chunks_app n a r') by auto. rewrite IH. reflexivity.
Qed.

Lemma ecb_nil n f : ecb n f [] = [].
Proof. reflexivity. Qed.
Lemma ecb_cons n f a r : (0 < n)%nat -> length a = n -> ecb n f (a ++ r) = f a ++ ecb n f r.
Proof. intros Hn Ha. unfold ecb. now rewrite chunks_app. Qed.
Lemma ecb_app n f a r : (0 < n)%nat -> whole n a -> ecb n f (a ++ r) = ecb n f a ++ ecb n f r.
Proof. intros. unfold ecb. now rewrite chunks_whole, map_app, concat_app. Qed.
Lemma ecb_length n f l : (0 < n)%nat -> (forall b, length b = n -> length (f b) = n) -> whole n l -> length (ecb n f l) = length l.
Proof.
  intros Hn Hf. revert l. apply whole_ind; auto. intros a r Ha W IH.
  rewrite ecb_cons, !app_length by auto. rewrite Hf by auto. lia.
Qed.
Lemma ecb_inverse n f g l : (0 < n)%nat -> (forall b, length b = n -> length (f b) = n) ->
  (forall b, length b = n -> bytes b -> g (f b) = b) -> whole n l -> bytes l -> ecb n g (ecb n f l) = l.
Proof.
  intros Hn Hf Hg W. revert l W. apply (whole_ind n (fun l => bytes l -> ecb n g (ecb n f l) = l)); auto.
  intros a r Ha W IH Hb. apply Forall_app in Hb. destruct Hb.
  rewrite !ecb_cons; auto. rewrite Hg, IH; auto.
Qed.

(** * Sizes *)
Definition pow2 (n : nat) : Prop := exists k, Z.of_nat n = 2 ^ k /\ 0 <= k.
Lemma pow2_gt n : pow2 n -> (0 < n)%nat.
Proof. intros (k & E & H). pose proof (Z.pow_pos_nonneg 2 k). lia. Qed.
Lemma cbc_size_eq n s : pow2 n -> cbc_size n s = (n * (s / n))%nat.
Proof.
  intros (k & E & Hk). unfold cbc_size.
  replace (Z.of_nat n - 1) with (Z.ones k) by (rewrite Z.ones_equiv; lia).
  change (Z.land (Z.of_nat s) (Z.lnot (Z.ones k))) with (Z.land (Z.of_nat s) (Z.lnot (Z.ones k))).
  rewrite <- Z.ldiff_land, Z.ldiff_ones_r by auto.
  rewrite Z.shiftr_div_pow2, Z.shiftl_mul_pow2 by auto. rewrite <- E, <- Nat2Z.inj_div, <- Nat2Z.inj_mul, Nat2Z.id. lia.
Qed.
Lemma cbc_size_whole n l : pow2 n -> whole n l -> cbc_size n (length l) = length l.
Proof.
  intros P [k E]. rewrite cbc_size_eq by auto. pose proof (pow2_gt n P). rewrite E.
  rewrite Nat.div_mul by lia. lia.
Qed.

(** * Encryption *)
Lemma enc_f_ok E n : (0 < n)%nat -> (forall b, length b = n -> length (E b) = n) ->
  forall l, whole n l -> forall fuel ctr extra, length ctr = n -> (length l <= fuel)%nat ->
  cbc_enc_f fuel E n ctr (l ++ extra) (length l) =
    Ok (last (cbc_spec E ctr (chunks n l)) ctr, concat (cbc_spec E ctr (chunks n l))).
Proof.
  intros Hn HE. apply (whole_ind n (fun l => forall fuel ctr extra, length ctr = n -> (length l <= fuel)%nat ->
  cbc_enc_f fuel E n ctr (l ++ extra) (length l) =
    Ok (last (cbc_spec E ctr (chunks n l)) ctr, concat (cbc_spec E ctr (chunks n l))))); auto.
  - intros [|f] ctr extra Hc Hf; reflexivity.
  - intros a r Ha W IH fuel ctr extra Hc Hf. rewrite chunks_app by auto. cbn [cbc_spec].
    rewrite app_length, Ha in *. destruct fuel; [lia|]. cbn [cbc_enc_f].
    destruct (Nat.eqb_spec (n + length r) 0); [lia|]. destruct (Nat.ltb_spec (n + length r) n); [lia|].
    rewrite <- app_assoc, firstn_exact, skipn_exact by auto.
    replace (n + length r - n)%nat with (length r) by lia.
    rewrite (xorl_comm ctr a).
    assert (Lc : length (E (xorl a ctr)) = n). { apply HE. rewrite xorl_length. lia. }
    rewrite IH by (auto; lia). cbn [bind concat]. do 2 f_equal.
    destruct (cbc_spec E (E (xorl a ctr)) (chunks n r)) eqn:Q; [reflexivity|].
    change (last (l :: l0) (E (xorl a ctr)) = last (l :: l0) ctr). apply last_default. discriminate.
Qed.
Lemma spec_len E n : (0 < n)%nat -> (forall b, length b = n -> length (E b) = n) ->
  forall l, whole n l -> forall iv, length iv = n ->
  length (concat (cbc_spec E iv (chunks n l))) = length l /\ length (last (cbc_spec E iv (chunks n l)) iv) = n.
Proof.
  intros Hn HE. apply (whole_ind n (fun l => forall iv, length iv = n ->
    length (concat (cbc_spec E iv (chunks n l))) = length l /\ length (last (cbc_spec E iv (chunks n l)) iv) = n)); auto.
  intros a r Ha W IH iv Hi. rewrite chunks_app by auto. cbn [cbc_spec concat].
  assert (Lc : length (E (xorl a iv)) = n). { apply HE. rewrite xorl_length. lia. }
  destruct (IH _ Lc) as [L1 L2]. split. { rewrite !app_length. lia. }
  destruct (cbc_spec E (E (xorl a iv)) (chunks n r)) eqn:Q; [exact Lc|].
  change (length (last (l :: l0) iv) = n). rewrite (last_default _ iv (E (xorl a iv))) by discriminate. exact L2.
Qed.
Lemma cbc_encrypt_ok E c l : pow2 (cbc_len c) -> length (cbc_ctr c) = cbc_len c ->
  (forall b, length b = cbc_len c -> length (E b) = cbc_len c) ->
  let m := firstn (cbc_len c * (length l / cbc_len c)) l in
  let cs := cbc_spec E (cbc_ctr c) (chunks (cbc_len c) m) in
  cbc_encrypt E c l = Ok ({| cbc_ctr := last cs (cbc_ctr c); cbc_len := cbc_len c |}, concat cs).
Proof.
  intros P L HE m cs. pose proof (pow2_gt _ P). unfold cbc_encrypt. rewrite cbc_size_eq by auto.
  set (s := (cbc_len c * (length l / cbc_len c))%nat) in *.
  assert (Hs : (s <= length l)%nat). { unfold s. apply Nat.mul_div_le. lia. }
  assert (Lm : length m = s). { unfold m. rewrite firstn_length. lia. }
  rewrite <- (firstn_skipn s l) at 1. fold m. rewrite <- Lm.
  rewrite enc_f_ok; auto. exists (length l / cbc_len c)%nat. rewrite Lm. unfold s. lia.
Qed.

(** * Decryption *)
Fixpoint cbc_dec_spec (D : list Z -> list Z) (prev : list Z) (cs : list (list Z)) : list Z :=
  match cs with
  | [] => []
  | c :: r => xorl (D c) prev ++ cbc_dec_spec D c r
  end.
Lemma dec_spec_app D a : forall prev b, cbc_dec_spec D prev (a ++ b) = cbc_dec_spec D prev a ++ cbc_dec_spec D (last a prev) b.
Proof.
  induction a; intros prev b; [reflexivity|]. cbn [app cbc_dec_spec]. rewrite IHa, <- app_assoc. do 2 f_equal.
  f_equal. destruct a0; [reflexivity|]. change (last (l :: a0) a = last (l :: a0) prev). apply last_default. discriminate.
Qed.
Lemma piece_ok D n : (0 < n)%nat -> (forall b, length b = n -> length (D b) = n) ->
  forall l, whole n l -> forall ctr extra, length ctr = n -> l <> [] ->
  cbc_dec_piece D n ctr (l ++ extra) (length l) = (last (chunks n l) ctr, cbc_dec_spec D ctr (chunks n l)).
Proof.
  intros Hn HD. apply (whole_ind n (fun l => forall ctr extra, length ctr = n -> l <> [] ->
    cbc_dec_piece D n ctr (l ++ extra) (length l) = (last (chunks n l) ctr, cbc_dec_spec D ctr (chunks n l)))); auto.
  { congruence. }
  intros a r Ha W IH ctr extra Hc _. rewrite chunks_app by auto. cbn [cbc_dec_spec].
  unfold cbc_dec_piece in *. rewrite firstn_exact by auto. rewrite ecb_cons by auto.
  rewrite (firstn_exact (D a)), (skipn_exact (D a)) by auto. rewrite app_length, Ha.
  replace (n + length r - n)%nat with (length r) by lia.
  destruct r as [|x r].
  - cbn [chunks chunks_aux length skipn app firstn]. rewrite app_nil_r.
    rewrite ecb_nil. rewrite firstn_exact by auto. reflexivity.
  - assert (R : x :: r <> []) by discriminate. specialize (IH a extra Ha R).
    rewrite firstn_exact in IH by auto.
    pose proof (whole_ge n (x :: r) W R) as Lr.
    set (r' := x :: r) in *. clearbody r'. injection IH as I1 I2.
    assert (LB : length (ecb n D r') = length r') by (apply ecb_length; auto).
    assert (C1 : chunks n r' <> []). { intros Q. destruct r'; [congruence|]. discriminate Q. }
    f_equal.
    + rewrite <- app_assoc. rewrite skipn_app, Ha. rewrite (skipn_all2 a) by lia. cbn [app].
      rewrite I1. destruct (chunks n r') eqn:Q; [congruence|]. cbn [last]. apply (last_default (l :: l0)). discriminate.
    + f_equal. rewrite <- I2. rewrite <- app_assoc.
      rewrite <- (firstn_skipn n (ecb n D r')) at 1.
      rewrite firstn_app, Ha, (firstn_all2 a) by lia.
      rewrite xorl_app by (rewrite firstn_length; lia). reflexivity.
Qed.
Lemma inplace_ok D n bs : (0 < n)%nat -> (forall b, length b = n -> length (D b) = n) -> (0 < bs)%nat -> Nat.divide n bs ->
  forall fuel l, whole n l -> forall ctr extra, length ctr = n -> l <> [] -> (length l <= fuel)%nat ->
  cbc_dec_inplace fuel D n ctr (l ++ extra) (length l) bs = Ok (last (chunks n l) ctr, cbc_dec_spec D ctr (chunks n l)).
Proof.
  intros Hn HD Hb Db. induction fuel; intros l W ctr extra Hc Hl Hf.
  { destruct l; simpl in *; [congruence|lia]. }
  cbn [cbc_dec_inplace]. destruct (Nat.ltb_spec bs (length l)).
  - set (a := firstn bs l). set (r := skipn bs l).
    assert (El : l = a ++ r) by (symmetry; apply firstn_skipn).
    assert (La : length a = bs) by (unfold a; rewrite firstn_length; lia).
    assert (Lr : length r = (length l - bs)%nat) by (unfold r; apply skipn_length).
    assert (Wa : whole n a) by (unfold whole; rewrite La; auto).
    assert (Wr : whole n r). { unfold whole. rewrite Lr. apply Nat.divide_sub_r; auto. }
    assert (Na : a <> []). { intros Q. rewrite Q in La. simpl in La. lia. }
    assert (Nr : r <> []). { intros Q. rewrite Q in Lr. simpl in Lr. lia. }
    clearbody a r. subst l. rewrite <- app_assoc. rewrite <- La at 1.
    rewrite piece_ok by auto. rewrite app_length, La in *. replace (bs + length r - bs)%nat with (length r) by lia.
    rewrite skipn_exact by auto.
    assert (NC : chunks n a <> []). { intros Q. destruct a; [congruence|]. discriminate Q. }
    rewrite IHfuel; auto; try lia.
    + cbn [bind]. rewrite chunks_whole by auto. rewrite dec_spec_app. do 2 f_equal.
      symmetry. apply last_app2.
    + assert (G : Forall (fun b => length b = n) (chunks n a)).
      { clear - Hn Wa. revert a Wa. apply whole_ind; auto. { constructor. } intros a r Ha _ IH. rewrite chunks_app by auto. constructor; auto. }
      apply (last_Forall (fun b => length b = n)); auto.
  - rewrite piece_ok; auto.
Qed.
Lemma cbc_decrypt_ok D ip mem c l : pow2 (cbc_len c) -> (cbc_len c <= 16)%nat -> length (cbc_ctr c) = cbc_len c ->
  (forall b, length b = cbc_len c -> length (D b) = cbc_len c) -> whole (cbc_len c) l -> l <> [] ->
  cbc_decrypt D ip mem c l = Ok ({| cbc_ctr := last (chunks (cbc_len c) l) (cbc_ctr c); cbc_len := cbc_len c |},
                                 cbc_dec_spec D (cbc_ctr c) (chunks (cbc_len c) l)).
Proof.
  intros P P16 L HD W N. pose proof (pow2_gt _ P) as Hn. unfold cbc_decrypt. rewrite cbc_size_whole by auto.
  pose proof (whole_ge _ _ W N) as G. destruct (Nat.ltb_spec (length l) (cbc_len c)); [lia|].
  assert (D16 : Nat.divide (cbc_len c) 16 /\ Nat.divide (cbc_len c) 512).
  { destruct P as (k & E & Hk). assert (k <= 4). { apply (Z.pow_le_mono_r_iff 2); try lia. }
    assert (C : k = 0 \/ k = 1 \/ k = 2 \/ k = 3 \/ k = 4) by lia.
    destruct C as [->|[->|[->|[->| ->]]]].
    - split; [exists 16%nat|exists 512%nat]; lia.
    - split; [exists 8%nat|exists 256%nat]; lia.
    - split; [exists 4%nat|exists 128%nat]; lia.
    - split; [exists 2%nat|exists 64%nat]; lia.
    - split; [exists 1%nat|exists 32%nat]; lia. }
  destruct D16 as [D16 D512].
  assert (A1 : forall bs, (0 < bs)%nat -> Nat.divide (cbc_len c) bs ->
     cbc_dec_inplace (S (length l)) D (cbc_len c) (cbc_ctr c) l (length l) bs =
     Ok (last (chunks (cbc_len c) l) (cbc_ctr c), cbc_dec_spec D (cbc_ctr c) (chunks (cbc_len c) l))).
  { intros bs Hb Db. pose proof (inplace_ok D (cbc_len c) bs Hn HD Hb Db (S (length l)) l W (cbc_ctr c) [] L N) as Q.
    rewrite app_nil_r in Q. apply Q. lia. }
  destruct ip; [destruct mem|].
  - rewrite A1; auto; try lia.
    destruct (Nat.min_spec (length l) 512) as [[_ ->]|[_ ->]]; auto.
  - rewrite A1; auto; lia.
  - pose proof (piece_ok D (cbc_len c) Hn HD l W (cbc_ctr c) [] L N) as Q. rewrite app_nil_r in Q. rewrite Q. reflexivity.
Qed.

(** * Round trip *)
Definition cipher (n : nat) (E D : list Z -> list Z) : Prop :=
  (forall b, length b = n -> length (E b) = n) /\
  (forall b, length b = n -> bytes b -> bytes (E b)) /\
  (forall b, length b = n -> length (D b) = n) /\
  (forall b, length b = n -> bytes b -> D (E b) = b).
Lemma dec_enc E D n : (0 < n)%nat -> cipher n E D -> forall l, whole n l -> bytes l ->
  forall iv, length iv = n -> bytes iv ->
  let cs := cbc_spec E iv (chunks n l) in
  cbc_dec_spec D iv cs = l /\ chunks n (concat cs) = cs /\ bytes (concat cs).
Proof.
  intros Hn (HE & HB & HD & HI).
  apply (whole_ind n (fun l => bytes l -> forall iv, length iv = n -> bytes iv ->
    let cs := cbc_spec E iv (chunks n l) in
    cbc_dec_spec D iv cs = l /\ chunks n (concat cs) = cs /\ bytes (concat cs))); auto.
  intros a r Ha W IH Hb iv Hi Bi. cbn zeta. rewrite chunks_app by auto. cbn [cbc_spec concat cbc_dec_spec].
  apply Forall_app in Hb. destruct Hb as [Ba Br].
  assert (Lx : length (xorl a iv) = n) by (rewrite xorl_length; lia).
  assert (Bx : bytes (xorl a iv)) by (apply xorl_bytes; auto).
  destruct (IH Br (E (xorl a iv))) as (I1 & I2 & I3); auto.
  rewrite HI by auto. rewrite xorl_invol by lia. split; [|split].
  - f_equal. exact I1.
  - rewrite chunks_app by auto. f_equal. exact I2.
  - apply Forall_app. split; [|exact I3]. apply HB; auto.
Qed.

Lemma iv_set_len iv : (length iv <= 16)%nat -> cbc_iv_set iv = {| cbc_ctr := iv; cbc_len := length iv |}.
Proof. intros H. unfold cbc_iv_set. rewrite Nat.min_r by auto. now rewrite firstn_all. Qed.

Lemma cbc_roundtrip E D iv m ip mem : pow2 (length iv) -> (length iv <= 16)%nat -> cipher (length iv) E D ->
  bytes iv -> bytes m -> whole (length iv) m -> m <> [] ->
  exists c e, cbc_encrypt E (cbc_iv_set iv) m = Ok (c, e) /\ length e = length m /\
    cbc_decrypt D ip mem (cbc_iv_set iv) e = Ok (c, m).
Proof.
  intros P P16 C Bi Bm W N. pose proof (pow2_gt _ P) as Hn. rewrite iv_set_len by auto.
  pose proof C as (HE & HB & HD & HI).
  set (c0 := {| cbc_ctr := iv; cbc_len := length iv |}).
  pose proof (cbc_encrypt_ok E c0 m P eq_refl HE) as Q. cbn [cbc_len cbc_ctr c0] in Q.
  assert (F : firstn (length iv * (length m / length iv)) m = m).
  { apply firstn_all2. destruct W as [k ->]. rewrite Nat.div_mul by lia. lia. }
  rewrite F in Q. eexists. eexists. split; [exact Q|].
  destruct (dec_enc E D (length iv) Hn C m W Bm iv eq_refl Bi) as (I1 & I2 & I3).
  destruct (spec_len E (length iv) Hn HE m W iv eq_refl) as [L1 L2].
  split; [exact L1|]. rewrite cbc_decrypt_ok; auto.
  - cbn [cbc_len cbc_ctr c0]. rewrite I2, I1. reflexivity.
  - unfold whole. cbn [cbc_len c0]. rewrite L1. exact W.
  - intros Z. rewrite Z in L1. destruct m; [congruence|discriminate].
Qed.

(** * Pieces *)
Fixpoint calls {C} (f : C -> list Z -> res (C * list Z)) (c : C) (ls : list (list Z)) : res (C * list Z) :=
  match ls with
  | [] => Ok (c, [])
  | l :: r => do ' (c, o) <- f c l; do ' (c, os) <- calls f c r; Ok (c, o ++ os)
  end.
Lemma spec_app E a : forall iv b, cbc_spec E iv (a ++ b) = cbc_spec E iv a ++ cbc_spec E (last (cbc_spec E iv a) iv) b.
Proof.
  induction a; intros iv b; [reflexivity|]. cbn [app cbc_spec]. rewrite IHa. f_equal. f_equal. f_equal.
  destruct (cbc_spec E (E (xorl a iv)) a0) eqn:Q; [reflexivity|]. cbn [last]. apply (last_default (l :: l0)). discriminate.
Qed.
Lemma cbc_enc_calls E ls : forall c, pow2 (cbc_len c) -> length (cbc_ctr c) = cbc_len c ->
  (forall b, length b = cbc_len c -> length (E b) = cbc_len c) -> Forall (whole (cbc_len c)) ls ->
  calls (cbc_encrypt E) c ls = cbc_encrypt E c (concat ls).
Proof.
  assert (F : forall n m, (0 < n)%nat -> whole n m -> firstn (n * (length m / n)) m = m).
  { intros n m Hn [k Hk]. apply firstn_all2. rewrite Hk, Nat.div_mul by lia. lia. }
  induction ls as [|l ls IH]; intros c P L HE W.
  { cbn [concat calls]. rewrite cbc_encrypt_ok by auto. cbn [length]. rewrite Nat.div_0_l by (pose proof (pow2_gt _ P); lia).
    rewrite Nat.mul_0_r. destruct c. reflexivity. }
  pose proof (pow2_gt _ P) as Hn. inversion W; subst.
  cbn [concat calls]. rewrite cbc_encrypt_ok by auto. rewrite F by auto. cbn [bind].
  rewrite IH; cbn [cbc_len cbc_ctr]; auto.
  - rewrite cbc_encrypt_ok; cbn [cbc_len cbc_ctr]; auto.
    + assert (Wc : whole (cbc_len c) (concat ls)).
      { clear - H2. induction H2; [apply whole_nil|]. cbn [concat]. now apply whole_app. }
      rewrite F by auto. cbn [bind].
      rewrite cbc_encrypt_ok by auto. rewrite F by (auto using whole_app).
      rewrite chunks_whole by auto. rewrite spec_app, concat_app. rewrite last_app2. reflexivity.
    + apply spec_len; auto.
  - apply spec_len; auto.
Qed.
Lemma cbc_dec_calls D ip mem ls : forall c, pow2 (cbc_len c) -> (cbc_len c <= 16)%nat -> length (cbc_ctr c) = cbc_len c ->
  (forall b, length b = cbc_len c -> length (D b) = cbc_len c) -> Forall (fun l => whole (cbc_len c) l /\ l <> []) ls -> ls <> [] ->
  calls (cbc_decrypt D ip mem) c ls = cbc_decrypt D ip mem c (concat ls).
Proof.
  induction ls as [|l ls IH]; intros c P P16 L HE W N; [congruence|].
  pose proof (pow2_gt _ P) as Hn. inversion W as [|x y [Wl Nl] Wls]; subst.
  assert (G : Forall (fun b => length b = cbc_len c) (chunks (cbc_len c) l)).
  { clear - Hn Wl. revert l Wl. apply whole_ind; auto. { constructor. } intros a r Ha _ IH. rewrite chunks_app by auto. constructor; auto. }
  assert (GL : length (last (chunks (cbc_len c) l) (cbc_ctr c)) = cbc_len c).
  { apply (last_Forall (fun b => length b = cbc_len c)); auto. }
  cbn [concat calls]. rewrite cbc_decrypt_ok by auto. cbn [bind].
  destruct ls as [|l2 ls].
  - cbn [calls bind concat]. rewrite !app_nil_r. rewrite cbc_decrypt_ok by auto. reflexivity.
  - rewrite IH; cbn [cbc_len cbc_ctr]; auto; [|discriminate].
    assert (Wc : whole (cbc_len c) (concat (l2 :: ls))).
    { clear - Wls. induction Wls as [|x y [? ?]]; [apply whole_nil|]. cbn [concat]. now apply whole_app. }
    assert (Nc : concat (l2 :: ls) <> []).
    { inversion Wls as [|x y [? N2]]; subst. cbn [concat]. destruct l2; [congruence|]. discriminate. }
    rewrite cbc_decrypt_ok; cbn [cbc_len cbc_ctr]; auto. cbn [bind].
    rewrite cbc_decrypt_ok; auto.
    + rewrite chunks_whole by auto. rewrite dec_spec_app, last_app2. reflexivity.
    + now apply whole_app.
    + destruct l; [congruence|discriminate].
Qed.
Lemma cbc_dec_empty D ip mem c : (0 < cbc_len c)%nat -> cbc_decrypt D ip mem c [] = UB.
Proof.
  intros H. unfold cbc_decrypt. cbn [length]. unfold cbc_size. change (Z.of_nat 0) with 0. rewrite Z.land_0_l.
  change (Z.to_nat 0) with O. destruct (Nat.ltb_spec 0 (cbc_len c)); [reflexivity|lia].
Qed.

(** The overlapping XOR of the in-place variant (src/crypt/cbc.c:98, 111): the
    buffer of [bs] bytes at [buf] lies apart from the data at [S]; destination
    S+n, sources buf+n and S. *)
Lemma cbc_overlap m S buf n L t : (0 < n)%nat -> disj buf S (Z.of_nat (n + L)) ->
  disj t (buf + Z.of_nat n) (Z.of_nat L) -> disj t S (Z.of_nat L) -> disj t (S + Z.of_nat n) (Z.of_nat L) ->
  exists m', memxor2 (Some t) m (S + Z.of_nat n) (buf + Z.of_nat n) S L = Ok m' /\
    forall i, 0 <= i < Z.of_nat L -> m' (S + Z.of_nat n + i) = Z.lxor (m (buf + Z.of_nat n + i)) (m (S + i)).
Proof.
  intros Hn D T1 T2 T3. destruct (memxor2_ok m (S + Z.of_nat n) (buf + Z.of_nat n) S L t) as (m' & E & F); auto.
  { unfold straddles, disj in *. lia. }
  exists m'. split; [exact E|]. intros i Hi. rewrite F.
  - unfold inb. destruct (Z.leb_spec (S + Z.of_nat n) (S + Z.of_nat n + i)); [|lia].
    destruct (Z.ltb_spec (S + Z.of_nat n + i) (S + Z.of_nat n + Z.of_nat L)); [|lia]. cbn [andb].
    f_equal; f_equal; lia.
  - unfold inb, disj in *. destruct (Z.leb_spec t (S + Z.of_nat n + i)); auto. cbn [andb].
    destruct (Z.ltb_spec (S + Z.of_nat n + i) (t + Z.of_nat L)); auto. lia.
Qed.
