(** Proofs for PropRsaForge.v: which signatures and ciphertexts RSA accepts. *)
From Coq Require Import Znumtheory Zpow_facts.
From Verif Require Import Base Lists BytesSpec Bytes MpiModel MpiMulModel MpiDivModel MpiAlgModel MpiIOModel MpiSpec MpiDigits MpiCanon MpiDiv MpiAlg MpiAlg2 MpiIO MpiTextSpec MpiRand PkModel PkSpec NumTh Pk Rsa.

Ltac Zify.zify_post_hook ::= idtac.

Definition plain (n : Z) (sg : list Z) (k : Z) : list Z := be_bytes (Z.to_nat (mlen n)) (be_val sg ^ k mod n).
Lemma block_any n e d pad sg sign : rsa_valid n e d -> bytes sg -> Z.of_nat (length sg) = mlen n ->
  rsa_decrypt_block (rkey n e d pad) sg sign = match pad with PNone => Ok (plain n sg (k2 e d sign)) | _ => padding_del (plain n sg (k2 e d sign)) sign end.
Proof.
  intros V BS LS. destruct (rsa_valid_gt n e d V) as (Hn & He & Hd).
  unfold rsa_decrypt_block, rkey. cbn [rsa_n rsa_e rsa_d rsa_pad]. fold (mlen n). rewrite LS, Z.eqb_refl. cbn [negb]. rewrite load_bin_ofZ by auto.
  replace (if sign then ofZ e else ofZ d) with (ofZ (k2 e d sign)) by (destruct sign; reflexivity).
  rewrite (mod_exp_ofZ _ (k2 e d sign) n) by (unfold k2; destruct sign; lia). cbn [bind].
  pose proof (Z.mod_pos_bound (be_val sg ^ k2 e d sign) n ltac:(lia)) as M. rewrite store_ofZ; [reflexivity|apply M|apply cb_le; lia].
Qed.
Lemma gen_one n e d pad sg sign : 0 < mlen n -> Z.of_nat (length sg) = mlen n ->
  rsa_decrypt_gen (rkey n e d pad) sg sign = do o <- rsa_decrypt_block (rkey n e d pad) sg sign; Ok (firstn (length o) (overlay [] (Z.to_nat (mlen n)) o)).
Proof.
  intros M L. unfold rsa_decrypt_gen. destruct sg as [|x ct]; [cbn in L; lia|]. set (l := x :: ct) in *. change (length l) with (Datatypes.S (length ct)) at 1. cbn [rsa_dec_loop]. unfold l at 1. fold l.
  change (rsa_n (rkey n e d pad)) with (ofZ n). fold (mlen n). replace (Z.to_nat (mlen n)) with (length l) by lia. rewrite Nat.ltb_irrefl, firstn_all, skipn_all.
  destruct (rsa_decrypt_block (rkey n e d pad) l sign) as [o| | |]; cbn [bind]; try reflexivity. rewrite dec_loop_nil. reflexivity.
Qed.
Lemma plain_len n sg k : length (plain n sg k) = Z.to_nat (mlen n).
Proof. apply be_bytes_length. Qed.
Lemma del_len sign l o : padding_del l sign = Ok o -> (length o <= length l)%nat.
Proof.
  intro E. destruct (del_inv _ _ _ E) as (ps & -> & _). unfold pkcs_block. cbn [length]. rewrite app_length. cbn [length]. lia.
Qed.

(** * Padded: exactly the roots of a block *)
Lemma root_block n e d sg m k : rsa_valid n e d -> bytes sg -> Z.of_nat (length sg) = mlen n -> bytes m ->
  Z.of_nat (length (pkcs_block 1 (repeat 255 k) m)) = mlen n -> be_val sg ^ e mod n = be_val (pkcs_block 1 (repeat 255 k) m) -> rsa_decrypt_block (rkey n e d PV15) sg true = Ok m.
Proof.
  intros V BS LS Hm L E. destruct (rsa_valid_gt n e d V) as (Hn & He & Hd). destruct (mlen_pow n ltac:(lia)) as (_ & _ & M0).
  assert (BP : bytes (repeat 255 k)) by (apply Forall_forall; intros y Hy; apply repeat_spec in Hy; subst; unfold byte; lia).
  destruct (block_val n 1 (repeat 255 k) m ltac:(lia) ltac:(unfold byte; lia) BP Hm L) as [_ BB].
  assert (P : plain n sg e = pkcs_block 1 (repeat 255 k) m).
  { unfold plain. rewrite E. replace (Z.to_nat (mlen n)) with (length (pkcs_block 1 (repeat 255 k) m)) by lia. apply be_bytes_val. exact BB. }
  rewrite (block_any n e d PV15 sg true V BS LS). cbn [k2]. rewrite P. apply (del_ok true).
  - apply Forall_forall. intros y Hy. apply repeat_spec in Hy. lia.
  - intros _. apply Forall_forall. intros y Hy. apply repeat_spec in Hy. exact Hy.
Qed.
Lemma root_verifies n e d sg m k : rsa_valid n e d -> bytes sg -> Z.of_nat (length sg) = mlen n -> bytes m ->
  Z.of_nat (length (pkcs_block 1 (repeat 255 k) m)) = mlen n -> be_val sg ^ e mod n = be_val (pkcs_block 1 (repeat 255 k) m) -> rsa_verify (rkey n e d PV15) sg m = Ok 0.
Proof.
  intros V BS LS Hm L E. assert (D := root_block n e d sg m k V BS LS Hm L E). destruct (rsa_valid_gt n e d V) as (Hn & He & Hd). destruct (mlen_pow n ltac:(lia)) as (_ & _ & M0).
  unfold rsa_verify. rewrite gen_one by (auto; lia). rewrite D. cbn [bind]. change (rsa_pad (rkey n e d PV15)) with PV15. cbv iota.
  rewrite overlay_nil by (unfold pkcs_block in L; cbn [length] in L; rewrite app_length in L; cbn [length] in L; lia).
  rewrite map_length, Nat.eqb_refl. cbn [negb]. rewrite memcmp_map. reflexivity.
Qed.
Lemma verify_iff n e d sg m : rsa_valid n e d -> bytes sg -> Z.of_nat (length sg) = mlen n -> bytes m ->
  rsa_verify (rkey n e d PV15) sg m = Ok 0 <->
  exists k, Z.of_nat (length (pkcs_block 1 (repeat 255 k) m)) = mlen n /\ be_val sg ^ e mod n = be_val (pkcs_block 1 (repeat 255 k) m).
Proof.
  intros V BS LS Hm. split; [apply rsa_verify_sound; assumption|]. intros (k & L & E). exact (root_verifies n e d sg m k V BS LS Hm L E).
Qed.
(** any number of padding bytes will do, none as well *)
Lemma short_pad n e d m k : rsa_valid n e d -> bytes m -> Z.of_nat (length m) + Z.of_nat k = mlen n - 3 ->
  exists sg, bytes sg /\ Z.of_nat (length sg) = mlen n /\ be_val sg = be_val (pkcs_block 1 (repeat 255 k) m) ^ d mod n /\ rsa_verify (rkey n e d PV15) sg m = Ok 0.
Proof.
  intros V Hm L. destruct (rsa_valid_gt n e d V) as (Hn & He & Hd). destruct (mlen_pow n ltac:(lia)) as (_ & MU & M0).
  assert (LP : Z.of_nat (length (pkcs_block 1 (repeat 255 k) m)) = mlen n) by (unfold pkcs_block; cbn [length]; rewrite app_length, repeat_length; cbn [length]; lia).
  assert (BP : bytes (repeat 255 k)) by (apply Forall_forall; intros y Hy; apply repeat_spec in Hy; subst; unfold byte; lia).
  destruct (block_val n 1 (repeat 255 k) m ltac:(lia) ltac:(unfold byte; lia) BP Hm LP) as [BV _].
  set (v := be_val (pkcs_block 1 (repeat 255 k) m)) in *. assert (Hv := Z.mod_pos_bound (v ^ d) n ltac:(lia)).
  exists (be_bytes (Z.to_nat (mlen n)) (v ^ d mod n)). assert (E : be_val (be_bytes (Z.to_nat (mlen n)) (v ^ d mod n)) = v ^ d mod n) by (apply be_val_store; [lia|apply cb_le; lia]).
  split; [apply be_bytes_bytes|]. split; [rewrite be_bytes_length; lia|]. split; [exact E|].
  apply (root_verifies n e d _ m k); auto; [apply be_bytes_bytes|rewrite be_bytes_length; lia|]. rewrite E. fold v. apply (k_pow n e d true v V BV).
Qed.

(** * Two forms *)
Lemma twin n e d pad sg : rsa_valid n e d -> bytes sg -> Z.of_nat (length sg) = mlen n -> be_val sg + n < 256 ^ mlen n ->
  let sg' := be_bytes (Z.to_nat (mlen n)) (be_val sg + n) in
  sg' <> sg /\ length sg' = length sg /\ (forall m, rsa_verify (rkey n e d pad) sg' m = rsa_verify (rkey n e d pad) sg m) /\ rsa_decrypt (rkey n e d pad) sg' = rsa_decrypt (rkey n e d pad) sg.
Proof.
  intros V BS LS H sg'. destruct (rsa_valid_gt n e d V) as (Hn & He & Hd). destruct (mlen_pow n ltac:(lia)) as (_ & MU & M0). destruct (be_val_bound _ BS) as [P0 _].
  assert (E : be_val sg' = be_val sg + n) by (unfold sg'; rewrite be_val_bytes, Z2Nat.id by lia; apply Z.mod_small; lia).
  assert (L' : Z.of_nat (length sg') = mlen n) by (unfold sg'; rewrite be_bytes_length; lia). assert (B' : bytes sg') by apply be_bytes_bytes. clearbody sg'.
  assert (D : forall sign, rsa_decrypt_gen (rkey n e d pad) sg' sign = rsa_decrypt_gen (rkey n e d pad) sg sign).
  { intro sign. rewrite !gen_one by auto. rewrite !(block_any n e d pad) by auto. replace (plain n sg' (k2 e d sign)) with (plain n sg (k2 e d sign)); [reflexivity|].
    unfold plain. rewrite E. f_equal. rewrite (Zpower_mod (be_val sg)), (Zpower_mod (be_val sg + n)) by lia.
    replace ((be_val sg + n) mod n) with (be_val sg mod n); [reflexivity|]. rewrite <- (Z_mod_plus_full (be_val sg) 1 n), Z.mul_1_l. reflexivity. }
  split; [intros ->; lia|]. split; [lia|]. split; [intro m; unfold rsa_verify; rewrite D; reflexivity|]. unfold rsa_decrypt. apply D.
Qed.

(** * Without padding *)
Lemma none_exist n e d sg : rsa_valid n e d -> bytes sg -> Z.of_nat (length sg) = mlen n -> rsa_verify (rkey n e d PNone) sg (plain n sg e) = Ok 0.
Proof.
  intros V BS LS. destruct (rsa_valid_gt n e d V) as (Hn & He & Hd). destruct (mlen_pow n ltac:(lia)) as (_ & _ & M0).
  unfold rsa_verify. rewrite gen_one by auto. rewrite (block_any n e d PNone) by auto. cbn [bind k2]. rewrite !overlay_nil by (rewrite plain_len; lia).
  change (rsa_pad (rkey n e d PNone)) with PNone. cbv iota. rewrite map_length, Nat.ltb_irrefl, memcmp_map. reflexivity.
Qed.

(** two blocks *)
Lemma dec_step f c x inp sign buf n o w : Z.to_nat (count_bytes (rsa_n c)) = w -> (w <= length (x :: inp))%nat -> rsa_decrypt_block c (firstn w (x :: inp)) sign = Ok o ->
  rsa_dec_loop (Datatypes.S f) c (x :: inp) sign buf n = rsa_dec_loop f c (skipn w (x :: inp)) sign (overlay buf (n + w) o) (n + length o).
Proof. intros W L E. cbn [rsa_dec_loop]. rewrite W. rewrite (proj2 (Nat.ltb_ge _ _)) by exact L. rewrite E. reflexivity. Qed.
Lemma gen_two n e d pad a b sign o1 o2 : 0 < mlen n -> Z.of_nat (length a) = mlen n -> Z.of_nat (length b) = mlen n ->
  rsa_decrypt_block (rkey n e d pad) a sign = Ok o1 -> rsa_decrypt_block (rkey n e d pad) b sign = Ok o2 -> (length o1 <= Z.to_nat (mlen n))%nat ->
  rsa_decrypt_gen (rkey n e d pad) (a ++ b) sign =
  Ok (firstn (length o1 + length o2) (overlay (overlay [] (Z.to_nat (mlen n)) o1) (length o1 + Z.to_nat (mlen n)) o2)).
Proof.
  intros M La Lb Ea Eb L1. destruct a as [|x a]; [cbn in La; lia|]. destruct b as [|y b]; [cbn in Lb; lia|].
  assert (K : Z.to_nat (count_bytes (rsa_n (rkey n e d pad))) = Z.to_nat (mlen n)) by reflexivity.
  remember (Z.to_nat (mlen n)) as w eqn:W.
  assert (Wa : w = length (x :: a)) by lia. assert (Wb : w = length (y :: b)) by lia.
  assert (Fa : firstn w ((x :: a) ++ y :: b) = x :: a) by (rewrite Wa, firstn_app, firstn_all, Nat.sub_diag, firstn_O, app_nil_r; reflexivity).
  assert (Sa : skipn w ((x :: a) ++ y :: b) = y :: b) by (rewrite Wa, skipn_app, skipn_all, Nat.sub_diag; reflexivity).
  assert (Fb : firstn w (y :: b) = y :: b) by (rewrite Wb; apply firstn_all).
  assert (Sb : skipn w (y :: b) = []) by (rewrite Wb; apply skipn_all).
  assert (F : length ((x :: a) ++ y :: b) = Datatypes.S (Datatypes.S (length a + length b))) by (rewrite app_length; cbn [length]; lia).
  unfold rsa_decrypt_gen. rewrite F. cbn [app] in *.
  rewrite (dec_step _ _ x (a ++ y :: b) sign [] 0 o1 w K) by (rewrite ?Fa; try exact Ea; cbn [length] in *; rewrite app_length; lia). rewrite Sa.
  rewrite (dec_step _ _ y b sign _ _ o2 w K) by (rewrite ?Fb; try exact Eb; lia). rewrite Sb, dec_loop_nil. reflexivity.
Qed.

Lemma memcmp_app o r m : (length m <= length o)%nat -> memcmp_eq (map Some o ++ r) m = memcmp_eq (map Some o) m.
Proof.
  revert m. induction o as [|x o IH]; intros [|y m] H; try reflexivity; [destruct r; reflexivity|cbn [length] in H; lia|]. cbn [map app memcmp_eq]. destruct (y =? x); [|reflexivity]. apply IH. cbn [length] in H. lia.
Qed.
Lemma memcmp_none t r x m : memcmp_eq (map Some t ++ None :: r) (t ++ x :: m) = UB.
Proof. induction t as [|y t IH]; [reflexivity|]. cbn [map app memcmp_eq]. rewrite Z.eqb_refl. exact IH. Qed.
Lemma none_prepend n e d a sg m : rsa_valid n e d -> bytes a -> bytes sg -> Z.of_nat (length a) = mlen n -> Z.of_nat (length sg) = mlen n -> Z.of_nat (length m) <= mlen n ->
  rsa_verify (rkey n e d PNone) (a ++ sg) m = rsa_verify (rkey n e d PNone) sg m.
Proof.
  intros V Ba BS La LS Lm. destruct (rsa_valid_gt n e d V) as (Hn & He & Hd). destruct (mlen_pow n ltac:(lia)) as (_ & _ & M0).
  unfold rsa_verify. rewrite (gen_two n e d PNone a sg true (plain n a e) (plain n sg e)) by (auto; try (rewrite plain_len; lia); apply (block_any n e d PNone); auto).
  rewrite gen_one by auto. rewrite (block_any n e d PNone) by auto. cbn [bind k2]. rewrite (overlay_nil _ (plain n sg e)) by (rewrite plain_len; lia).
  change (rsa_pad (rkey n e d PNone)) with PNone. cbv iota.
  assert (O : exists r, firstn (length (plain n a e) + length (plain n sg e)) (overlay (overlay [] (Z.to_nat (mlen n)) (plain n a e)) (length (plain n a e) + Z.to_nat (mlen n)) (plain n sg e)) = map Some (plain n sg e) ++ r).
  { unfold overlay at 1. rewrite firstn_app. rewrite (firstn_all2 (map Some (plain n sg e))) by (rewrite map_length; lia). eexists. reflexivity. }
  destruct O as [r O]. rewrite O. clear O.
  rewrite app_length, !map_length, !plain_len. rewrite !(proj2 (Nat.ltb_ge _ _)) by lia. rewrite memcmp_app by (rewrite plain_len; lia). reflexivity.
Qed.
Lemma two_out w m1 m2 : (length m2 <= length m1 <= w)%nat ->
  firstn (length m1 + length m2) (overlay (overlay [] w m1) (length m1 + w) m2) = map Some (m2 ++ skipn (length m2) m1) ++ repeat None (length m2).
Proof.
  intro H. assert (O1 : overlay [] w m1 = map Some m1 ++ repeat None (w - length m1)).
  { unfold overlay. rewrite firstn_nil. cbn [app length]. rewrite Nat.sub_0_r. f_equal. replace w with (length m1 + (w - length m1))%nat at 1 by lia. rewrite repeat_app, skipn_app, repeat_length, Nat.sub_diag.
    rewrite skipn_all2 by (rewrite repeat_length; lia). reflexivity. }
  assert (L1 : length (overlay [] w m1) = w) by (rewrite O1, app_length, map_length, repeat_length; lia).
  unfold overlay at 1. rewrite L1, (firstn_all2 (overlay [] w m1)) by lia. replace (length m1 + w - w)%nat with (length m1) by lia. rewrite O1, <- app_assoc, <- repeat_app.
  rewrite skipn_app, map_length. replace (length m2 - length m1)%nat with 0%nat by lia. cbn [skipn]. rewrite skipn_map, app_assoc, <- map_app.
  rewrite firstn_app, map_length, app_length, skipn_length. rewrite firstn_all2 by (rewrite map_length, app_length, skipn_length; lia). f_equal.
  replace (length m1 + length m2 - (length m2 + (length m1 - length m2)))%nat with (length m2) by lia.
  replace (w - length m1 + length m1)%nat with (length m2 + (w - length m2))%nat by lia. rewrite repeat_app, firstn_app, repeat_length, Nat.sub_diag, firstn_O, app_nil_r.
  apply firstn_all2. rewrite repeat_length. lia.
Qed.
Lemma mixed n e d sg1 sg2 m1 m2 x : rsa_valid n e d -> bytes sg1 -> bytes sg2 -> Z.of_nat (length sg1) = mlen n -> Z.of_nat (length sg2) = mlen n -> bytes m1 -> bytes m2 ->
  rsa_verify (rkey n e d PV15) sg1 m1 = Ok 0 -> rsa_verify (rkey n e d PV15) sg2 m2 = Ok 0 -> (0 < length m2 <= length m1)%nat -> length x = length m2 ->
  rsa_verify (rkey n e d PV15) (sg1 ++ sg2) (m2 ++ skipn (length m2) m1 ++ x) = UB.
Proof.
  intros V B1 B2 L1 L2 H1 H2 V1 V2 L X. destruct (rsa_valid_gt n e d V) as (Hn & He & Hd). destruct (mlen_pow n ltac:(lia)) as (_ & _ & M0).
  destruct (rsa_verify_sound n e d sg1 m1 V B1 L1 H1 V1) as (k1' & K1 & E1). destruct (rsa_verify_sound n e d sg2 m2 V B2 L2 H2 V2) as (k2' & K2 & E2).
  assert (D1 := root_block n e d sg1 m1 k1' V B1 L1 H1 K1 E1). assert (D2 := root_block n e d sg2 m2 k2' V B2 L2 H2 K2 E2).
  assert (W1 : (length m1 <= Z.to_nat (mlen n))%nat) by (unfold pkcs_block in K1; cbn [length] in K1; rewrite app_length in K1; cbn [length] in K1; lia).
  unfold rsa_verify. rewrite (gen_two n e d PV15 sg1 sg2 true m1 m2) by auto. cbn [bind]. rewrite two_out by lia. change (rsa_pad (rkey n e d PV15)) with PV15. cbv iota.
  rewrite !app_length, map_length, repeat_length, !app_length. rewrite skipn_length, X.
  replace (length m2 + (length m1 - length m2) + length m2 =? length m2 + (length m1 - length m2 + length m2))%nat with true by (symmetry; apply Nat.eqb_eq; lia). cbn [negb].
  destruct m2 as [|y m2]; [cbn in L; lia|]. destruct x as [|z x]; [discriminate X|]. cbn [length repeat]. rewrite app_assoc. rewrite memcmp_none. reflexivity.
Qed.
