(** RSA in memory, put together with the value-level theorems on keys. *)
From Verif Require Import Base Lists BytesSpec Bytes MpiModel MpiSpec MpiDigits MpiCanon MpiIOModel MpiIO MpiAlgModel MpiAlg MpiAlg2 Pk PkModel PkSpec Rsa Rsa2 MemModel MemSpec MemEcpSpec MemBin MemPkModel MemPkSpec MemFair MemRsa.

Lemma scan_sound sign l : sound (padding_scan sign l).
Proof.
  induction l as [|c l IH]; [split; discriminate|]. cbn [padding_scan]. destruct (c =? 0); [split; discriminate|]. destruct (sign && negb (c =? 255))%bool; [split; discriminate|exact IH].
Qed.
Lemma del_sound l sign : (1 < length l)%nat -> sound (padding_del l sign).
Proof.
  destruct l as [|a [|b r]]; cbn [length]; try lia. intros _. cbn [padding_del]. destruct (_ || _)%bool; [split; discriminate|apply scan_sound].
Qed.
Lemma memcmp_sound o l : length o = length l -> sound (memcmp_eq (map Some o) l).
Proof.
  revert o. induction l as [|x l IH]; intros [|y o] E; try discriminate E; [split; discriminate|]. cbn [map memcmp_eq]. destruct (x =? y); [apply IH; injection E; auto|split; discriminate].
Qed.
Lemma verify_sound n e d sg m : rsa_valid n e d -> 1 < rsa_len n -> bytes sg -> Z.of_nat (length sg) = rsa_len n -> sound (rsa_verify (rkey n e d PV15) sg m).
Proof.
  intros V HL BS LS. destruct (rsa_valid_gt n e d V) as (Hn & He & Hd). rewrite <- (valid_len n e d V) in *. destruct (mlen_pow n ltac:(lia)) as (_ & MU & M0).
  assert (N0 : sg <> []) by (intros ->; cbn in LS; lia). unfold rsa_verify.
  assert (DB : rsa_decrypt_block (rkey n e d PV15) sg true = padding_del (be_bytes (Z.to_nat (mlen n)) (be_val sg ^ e mod n)) true).
  { unfold rsa_decrypt_block, rkey. cbn [rsa_n rsa_e rsa_d rsa_pad]. fold (mlen n). rewrite LS, Z.eqb_refl. cbn [negb]. rewrite load_bin_ofZ by auto.
    rewrite (mod_exp_ofZ _ e n) by lia. cbn [bind]. pose proof (Z.mod_pos_bound (be_val sg ^ e) n ltac:(lia)) as M. rewrite store_ofZ; [reflexivity|apply M|apply cb_le; lia]. }
  set (v := be_val sg ^ e mod n) in *. assert (SD : sound (padding_del (be_bytes (Z.to_nat (mlen n)) v) true)) by (apply del_sound; rewrite be_bytes_length; lia).
  destruct (padding_del (be_bytes (Z.to_nat (mlen n)) v) true) as [o|rc| |] eqn:PD; [| |destruct SD; congruence|destruct SD; congruence].
  - destruct (del_inv _ _ _ PD) as (ps & EB & _).
    assert (LO : (length o <= length sg)%nat). { apply (f_equal (@length Z)) in EB. rewrite be_bytes_length in EB. unfold pkcs_block in EB. cbn [length] in EB. rewrite app_length in EB. cbn [length] in EB. lia. }
    rewrite (dec_one (rkey n e d PV15) true sg o N0 LS LO DB). cbn [bind]. change (rsa_pad (rkey n e d PV15)) with PV15. cbv iota. rewrite map_length.
    destruct (Nat.eqb_spec (length o) (length m)) as [LE|]; [|split; discriminate]. cbn [negb]. destruct (memcmp_sound o m LE) as (U & F).
    destruct (memcmp_eq (map Some o) m) as [[]| | |]; try congruence; split; discriminate.
  - unfold rsa_decrypt_gen. destruct sg as [|x ct]; [congruence|]. set (l := x :: ct) in *. change (length l) with (S (length ct)) at 1. cbn [rsa_dec_loop]. unfold l at 1. fold l.
    change (rsa_n (rkey n e d PV15)) with (ofZ n). fold (mlen n). replace (Z.to_nat (mlen n)) with (length l) by lia. rewrite Nat.ltb_irrefl, firstn_all, DB. split; discriminate.
Qed.

Lemma bind_ok {A C} (m : res A) (f : A -> res C) c : bind m f = Ok c -> exists a, m = Ok a /\ f a = Ok c.
Proof. destruct m; try discriminate. cbn [bind]. eauto. Qed.
Lemma store_bytes x len b : store_bin x len true = Ok b -> bytes b.
Proof.
  unfold store_bin. destruct (_ <? _); [discriminate|]. intro E. apply ok_inj in E. subst b. apply Forall_app. split.
  - apply Forall_forall. intros y Hy. apply repeat_spec in Hy. subst. red. lia.
  - apply Forall_forall. intros y Hy. apply in_map_iff in Hy. destruct Hy as (j & <- & _). unfold byte_at. red. change 255 with (Z.ones 8). rewrite Z.land_ones by lia. change (2 ^ 8) with 256. apply Z.mod_pos_bound. lia.
Qed.
Lemma block_bytes c m sign rnd b : rsa_encrypt_block c m sign rnd = Ok b -> bytes b.
Proof. unfold rsa_encrypt_block. intro E. apply bind_ok in E. destruct E as (buf & _ & E). apply bind_ok in E. destruct E as (x & _ & E). exact (store_bytes _ _ _ E). Qed.
Lemma loop_bytes c sign rnd fuel : forall block inp i b, rsa_enc_loop fuel c block inp sign i rnd = Ok b -> bytes b.
Proof.
  induction fuel as [|fuel IH]; intros block [|x inp] i b E; cbn [rsa_enc_loop] in E; try discriminate E; try (apply ok_inj in E; subst b; constructor).
  apply bind_ok in E. destruct E as (o & EO & E). apply bind_ok in E. destruct E as (r & ER & E). apply ok_inj in E. subst b.
  apply Forall_app. split; [exact (block_bytes _ _ _ _ _ EO)|exact (IH _ _ _ _ ER)].
Qed.
Lemma enc_bytes c m sign rnd b : rsa_encrypt_gen c m sign rnd = Ok b -> bytes b.
Proof. unfold rsa_encrypt_gen. destruct m; [discriminate|]. apply loop_bytes. Qed.

Lemma ok_sound {A} (v : res A) a : v = Ok a -> sound v. Proof. intros ->. split; discriminate. Qed.
Lemma unless_weak {A} (m : cmd A) e s (P Q : A -> st -> Prop) : unless_refused m e s P -> (forall a s', P a s' -> Q a s') -> unless_refused m e s Q.
Proof. unfold unless_refused. destruct (m e s) as [(a, s')| | |]; auto. Qed.

(** A message survives encryption and decryption, wherever memory runs out. *)
Theorem roundtrip_mem N E D e1 s1 n1 c1 e2 s2 n2 c2 m rnd : rsa_valid N E D -> rsa_len N < 2 ^ 64 ->
  calm n1 s1 -> (c1 + 2 < n1)%nat -> holding s1 c1 [N; E; D] -> calm n2 s2 -> (c2 + 2 < n2)%nat -> holding s2 c2 [N; E; D] ->
  bytes m -> (0 < length m)%nat -> Z.of_nat (length m) <= rsa_len N - 11 -> (forall i, rnd_ok (rnd i)) ->
  exists ct, Z.of_nat (length ct) = rsa_len N /\
    unless_refused (rsa_encrypt_m n1 c1 PV15 m rnd) e1 s1 (returns e1 n1 (Err (-1)) (Ok ct) s1) /\
    unless_refused (rsa_decrypt_m n2 c2 PV15 ct) e2 s2 (returns e2 n2 (Err (-1)) (Ok (map Some m)) s2).
Proof.
  intros V HL C1 L1 H1 C2 L2 H2 Bm Pm Lm R. destruct (rsa_valid_gt N E D V) as (Hn & He & Hd). rewrite <- (valid_len N E D V) in *.
  destruct (rsa_roundtrip N E D m rnd V HL Bm Pm Lm (R O)) as (ct & A & LC & DC). exists ct. split; [exact LC|]. split.
  - unfold rsa_encrypt in A. rewrite <- A. apply encrypt_fair; auto; try lia; [intros i j; apply R|eapply ok_sound; exact A].
  - unfold rsa_decrypt in DC. rewrite <- DC. assert (BC : bytes ct) by (eapply enc_bytes; exact A). apply decrypt_fair; auto; try lia. eapply ok_sound; exact DC.
Qed.

(** A signature is accepted unless memory runs out, ... *)
Theorem sign_verify_mem N E D e1 s1 n1 c1 e2 s2 n2 c2 m : rsa_valid N E D -> rsa_len N < 2 ^ 64 ->
  calm n1 s1 -> (c1 + 2 < n1)%nat -> holding s1 c1 [N; E; D] -> calm n2 s2 -> (c2 + 2 < n2)%nat -> holding s2 c2 [N; E; D] ->
  bytes m -> (0 < length m)%nat -> Z.of_nat (length m) <= rsa_len N - 11 ->
  exists sg, Z.of_nat (length sg) = rsa_len N /\
    unless_refused (rsa_sign_m n1 c1 PV15 m) e1 s1 (returns e1 n1 (Err (-1)) (Ok sg) s1) /\
    unless_refused (rsa_verify_m n2 c2 PV15 sg m) e2 s2 (returns e2 n2 (Err (-1)) (Ok 0) s2).
Proof.
  intros V HL C1 L1 H1 C2 L2 H2 Bm Pm Lm. destruct (rsa_valid_gt N E D V) as (Hn & He & Hd). rewrite <- (valid_len N E D V) in *.
  destruct (rsa_sign_verify N E D m V HL Bm Pm Lm) as (sg & A & LC & DC). exists sg. split; [exact LC|]. unfold rsa_sign in A. split.
  - rewrite <- A. apply encrypt_fair; auto; try lia; [intros i j; constructor|eapply ok_sound; exact A].
  - rewrite <- DC. assert (BC : bytes sg) by (eapply enc_bytes; exact A). apply verify_fair; auto; try lia. eapply ok_sound; exact DC.
Qed.
(** ... and, memory or not, nothing else than an e-th root of the padded message is. *)
Theorem accept_mem N E D e s n c sg m s' : rsa_valid N E D -> 1 < rsa_len N -> calm n s -> (c + 2 < n)%nat -> holding s c [N; E; D] ->
  bytes sg -> Z.of_nat (length sg) = rsa_len N -> bytes m ->
  rsa_verify_m n c PV15 sg m e s = Ok (Ok 0, s') ->
  exists k, Z.of_nat (length (pkcs_block 1 (repeat 255 k) m)) = rsa_len N /\ be_val sg ^ E mod N = be_val (pkcs_block 1 (repeat 255 k) m).
Proof.
  intros V HL C L H BS LS Bm R. destruct (rsa_valid_gt N E D V) as (Hn & He & Hd).
  pose proof (verify_fair N E D ltac:(lia) ltac:(lia) ltac:(lia) e s n c PV15 sg m C L H BS (verify_sound N E D sg m V HL BS LS)) as F.
  unfold unless_refused in F. rewrite R in F. destruct F as (_ & _ & [F|(F & _)]); [|discriminate F].
  rewrite <- (valid_len N E D V) in *. apply (rsa_verify_sound N E D sg m V BS LS Bm). symmetry. exact F.
Qed.
