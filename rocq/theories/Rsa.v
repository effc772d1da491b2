(** Proofs about RSA. *)
From Coq Require Import Znumtheory.
From Verif Require Import Base Lists BytesSpec Bytes MpiModel MpiMulModel MpiDivModel MpiAlgModel MpiIOModel MpiSpec MpiDigits MpiCanon MpiDiv MpiAlg MpiAlg2 MpiIO MpiTextSpec MpiRand PkModel PkSpec NumTh Pk.

Ltac Zify.zify_post_hook ::= idtac.

Definition mlen (n : Z) : Z := count_bytes (ofZ n).

Lemma rsa_valid_gt n e d : rsa_valid n e d -> 1 < n /\ 0 < e /\ 0 < d.
Proof. intros (p & q & P & Q & _ & -> & He & Hd & _). pose proof (prime_ge_2 p P). pose proof (prime_ge_2 q Q). repeat split; nia. Qed.
Lemma rsa_pow n e d m : rsa_valid n e d -> (m ^ e mod n) ^ d mod n = m mod n.
Proof.
  intros V. destruct (rsa_valid_gt n e d V) as (Hn & _). destruct V as (p & q & P & Q & N & -> & He & Hd & D).
  rewrite pow_mod by lia. apply rsa_identity; auto.
Qed.
Lemma rsa_valid_sym n e d : rsa_valid n e d -> rsa_valid n d e.
Proof. intros (p & q & P & Q & N & -> & He & Hd & D). exists p, q. rewrite (Z.mul_comm d e). auto 10. Qed.

Lemma nozero_len l : length (nozero l) = length l.
Proof. apply map_length. Qed.
Lemma nozero_ok l : bytes l -> bytes (nozero l) /\ Forall (fun b => b <> 0) (nozero l).
Proof.
  intro H. induction H as [|b l Hb H [IH1 IH2]]; [split; constructor|]. cbn. split; constructor; auto.
  - destruct (b =? 0); auto. unfold byte. lia.
  - destruct (Z.eqb_spec b 0); lia.
Qed.

Lemma scan_ok sign ps m : Forall (fun b => b <> 0) ps -> (sign = true -> Forall (fun b => b = 255) ps) -> padding_scan sign (ps ++ 0 :: m) = Ok m.
Proof.
  intros H. induction H as [|b ps Hb H IH]; intro S; [reflexivity|]. cbn [app padding_scan]. replace (b =? 0) with false by lia.
  destruct sign.
  - specialize (S eq_refl). inversion S; subst. cbn. apply IH. auto.
  - cbn. apply IH. discriminate.
Qed.
(** The other way round: what an accepted block looks like. *)
Lemma scan_inv sign l m : padding_scan sign l = Ok m -> exists ps, l = ps ++ 0 :: m /\ Forall (fun b => b <> 0) ps /\ (sign = true -> ps = repeat 255 (length ps)).
Proof.
  revert m. induction l as [|c l IH]; intros m E; [discriminate|]. cbn [padding_scan] in E. destruct (Z.eqb_spec c 0) as [->|N].
  - inversion E; subst. exists []. repeat split; auto.
  - destruct (sign && negb (c =? 255))%bool eqn:C; [discriminate|]. destruct (IH m E) as (ps & -> & F & S). exists (c :: ps). split; [reflexivity|]. split; [constructor; auto|].
    intro T. subst sign. cbn in *. f_equal; [lia|auto].
Qed.

Definition btype (sign : bool) : Z := if sign then 1 else 2.
Lemma del_ok sign ps m : Forall (fun b => b <> 0) ps -> (sign = true -> Forall (fun b => b = 255) ps) -> padding_del (pkcs_block (btype sign) ps m) sign = Ok m.
Proof. intros H S. unfold padding_del, pkcs_block. unfold btype at 1. rewrite Z.eqb_refl. destruct sign; cbn [negb orb Z.eqb btype]; apply scan_ok; auto. Qed.
Lemma del_inv sign l m : padding_del l sign = Ok m -> exists ps, l = pkcs_block (btype sign) ps m /\ Forall (fun b => b <> 0) ps /\ (sign = true -> ps = repeat 255 (length ps)).
Proof.
  destruct l as [|a [|b r]]; try discriminate; cbn [padding_del]; [destruct (a =? 0); discriminate|].
  destruct (Z.eqb_spec a 0) as [->|]; [|discriminate]. fold (btype sign). destruct (Z.eqb_spec b (btype sign)) as [->|]; [|discriminate]. cbn [negb orb].
  intro E. destruct (scan_inv _ _ _ E) as (ps & -> & F & S). exists ps. auto.
Qed.

Lemma add_ok L m sign rnd : 11 <= L < 2 ^ 64 -> Z.of_nat (length m) <= L - 11 -> rnd_ok rnd ->
  exists ps, padding_add L m PV15 sign rnd = Ok (pkcs_block (btype sign) ps m) /\ bytes ps /\ Z.of_nat (length ps) = L - 3 - Z.of_nat (length m) /\
    Forall (fun b => b <> 0) ps /\ (sign = true -> Forall (fun b => b = 255) ps).
Proof.
  intros HL Hm R. unfold padding_add. rewrite (Z.mod_small (L - 11)) by lia. replace (L - 11 <? Z.of_nat (length m)) with false by lia.
  replace (L - 3 <? Z.of_nat (length m)) with false by lia. set (j := Z.to_nat (L - 3 - Z.of_nat (length m))). destruct sign.
  - exists (repeat 255 j). split; [reflexivity|]. split; [apply Forall_forall; intros x Hx; apply repeat_spec in Hx; subst; unfold byte; lia|].
    rewrite repeat_length. split; [lia|]. split; [apply Forall_forall; intros x Hx; apply repeat_spec in Hx; lia|]. intros _. apply Forall_forall. intros x Hx. apply repeat_spec in Hx. auto.
  - destruct (R j) as [B1 B2]. destruct (nozero_ok _ B1). exists (nozero (rnd j)). split; [reflexivity|]. split; [auto|]. rewrite nozero_len. split; [lia|]. split; [auto|discriminate].
Qed.

Lemma mlen_pow n : 0 < n -> 256 ^ (mlen n - 1) <= n /\ n < 256 ^ mlen n /\ 0 < mlen n.
Proof.
  intro H. destruct (canon_ofZ n) as [W _]. pose proof (count_bytes_mval _ W) as C. destruct (ofZ_ok n) as [_ E]. rewrite E in C. fold (mlen n) in C.
  pose proof (cb_nonneg n) as N. fold (mlen n) in N. rewrite Z.abs_eq in C by lia. destruct C as [[A B']|C]; [|lia].
  assert (0 < mlen n). { destruct (Z.eq_dec (mlen n) 0) as [Z0|]; [|lia]. rewrite Z0 in B'. cbn in B'. lia. }
  rewrite !Z.pow_mul_r in * by lia. auto.
Qed.
Lemma block_val n bt ps m : 0 < n -> byte bt -> bytes ps -> bytes m -> Z.of_nat (length (pkcs_block bt ps m)) = mlen n ->
  0 <= be_val (pkcs_block bt ps m) < n /\ bytes (pkcs_block bt ps m).
Proof.
  intros Hn Hb Hp Hm L. assert (BB : bytes (bt :: ps ++ 0 :: m)). { constructor; auto. apply Forall_app. split; auto. constructor; auto. unfold byte. lia. }
  split; [|constructor; auto; unfold byte; lia]. unfold pkcs_block in *. cbn [length] in L. rewrite be_val_cons, Z.mul_0_l, Z.add_0_l.
  destruct (be_val_bound _ BB) as [P1 P2]. split; [auto|]. destruct (mlen_pow n Hn) as [Q _]. eapply Z.lt_le_trans; [exact P2|].
  replace (Z.of_nat (length (bt :: ps ++ 0 :: m))) with (mlen n - 1) by (cbn [length] in *; lia). exact Q.
Qed.

Definition k1 (e d : Z) (sign : bool) : Z := if sign then d else e.
Definition k2 (e d : Z) (sign : bool) : Z := if sign then e else d.

Lemma enc_block_pad n e d sign buf m rnd pad : rsa_valid n e d -> bytes buf ->
  (match pad with PNone => Ok (m ++ repeat 0 (Z.to_nat (mlen n) - length m)) | _ => padding_add (mlen n) m pad sign rnd end) = Ok buf ->
  rsa_encrypt_block (rkey n e d pad) m sign rnd = Ok (be_bytes (Z.to_nat (mlen n)) (be_val buf ^ k1 e d sign mod n)).
Proof.
  intros V BB E. destruct (rsa_valid_gt n e d V) as (Hn & He & Hd). unfold rsa_encrypt_block, rkey. cbn [rsa_n rsa_e rsa_d rsa_pad]. fold (mlen n).
  match goal with |- bind ?x _ = _ => replace x with (Ok buf) by (destruct pad; auto) end. cbn [bind].
  rewrite load_bin_ofZ by auto. replace (if sign then ofZ d else ofZ e) with (ofZ (k1 e d sign)) by (destruct sign; reflexivity).
  rewrite (mod_exp_ofZ _ (k1 e d sign) n) by (unfold k1; destruct sign; lia). cbn [bind].
  pose proof (Z.mod_pos_bound (be_val buf ^ k1 e d sign) n ltac:(lia)) as M. apply store_ofZ; [apply M|]. apply cb_le. lia.
Qed.
Lemma dec_block_pad n e d sign v pad : rsa_valid n e d -> 0 <= v < n ->
  rsa_decrypt_block (rkey n e d pad) (be_bytes (Z.to_nat (mlen n)) v) sign =
  match pad with PNone => Ok (be_bytes (Z.to_nat (mlen n)) (v ^ k2 e d sign mod n)) | _ => padding_del (be_bytes (Z.to_nat (mlen n)) (v ^ k2 e d sign mod n)) sign end.
Proof.
  intros V Hv. destruct (rsa_valid_gt n e d V) as (Hn & He & Hd). unfold rsa_decrypt_block, rkey. cbn [rsa_n rsa_e rsa_d rsa_pad]. fold (mlen n).
  pose proof (cb_nonneg n) as N. fold (mlen n) in N. rewrite be_bytes_length, Z2Nat.id, Z.eqb_refl by lia. cbn [negb].
  rewrite load_bin_ofZ by apply be_bytes_bytes. rewrite be_val_store; [|lia|apply cb_le; lia].
  replace (if sign then ofZ e else ofZ d) with (ofZ (k2 e d sign)) by (destruct sign; reflexivity).
  rewrite (mod_exp_ofZ _ (k2 e d sign) n) by (unfold k2; destruct sign; lia). cbn [bind].
  pose proof (Z.mod_pos_bound (v ^ k2 e d sign) n ltac:(lia)) as M. rewrite store_ofZ; [reflexivity|apply M|apply cb_le; lia].
Qed.
Lemma k_pow n e d sign v : rsa_valid n e d -> 0 <= v < n -> (v ^ k1 e d sign mod n) ^ k2 e d sign mod n = v.
Proof.
  intros V Hv. transitivity (v mod n); [|apply Z.mod_small; auto]. destruct sign; cbn [k1 k2]; apply rsa_pow; auto. apply rsa_valid_sym; auto.
Qed.

(** One padded block, both directions. *)
Lemma block_round n e d sign m rnd : rsa_valid n e d -> 11 <= mlen n < 2 ^ 64 -> bytes m -> Z.of_nat (length m) <= mlen n - 11 -> rnd_ok rnd ->
  exists ct, rsa_encrypt_block (rkey n e d PV15) m sign rnd = Ok ct /\ Z.of_nat (length ct) = mlen n /\ bytes ct /\
    rsa_decrypt_block (rkey n e d PV15) ct sign = Ok m.
Proof.
  intros V HL Hm L R. destruct (rsa_valid_gt n e d V) as (Hn & He & Hd). destruct (add_ok (mlen n) m sign rnd HL L R) as (ps & A & B1 & B2 & B3 & B4).
  assert (LP : Z.of_nat (length (pkcs_block (btype sign) ps m)) = mlen n). { unfold pkcs_block. cbn [length]. rewrite app_length. cbn [length]. lia. }
  destruct (block_val n (btype sign) ps m ltac:(lia) ltac:(unfold byte, btype; destruct sign; lia) B1 Hm LP) as [V1 V2].
  eexists. split; [apply (enc_block_pad n e d sign _ m rnd PV15 V V2 A)|]. split; [rewrite be_bytes_length; lia|]. split; [apply be_bytes_bytes|].
  rewrite dec_block_pad; [|auto|apply Z.mod_pos_bound; lia]. rewrite k_pow by auto.
  assert (E : be_bytes (Z.to_nat (mlen n)) (be_val (pkcs_block (btype sign) ps m)) = pkcs_block (btype sign) ps m).
  { replace (Z.to_nat (mlen n)) with (length (pkcs_block (btype sign) ps m)) by lia. apply be_bytes_val. auto. }
  rewrite E. apply del_ok; auto.
Qed.

(** A single block through the public calls. *)
Lemma enc_one n e d sign m rnd ct : 11 <= mlen n < 2 ^ 64 -> m <> [] -> Z.of_nat (length m) <= mlen n - 11 ->
  rsa_encrypt_block (rkey n e d PV15) m sign (rnd O) = Ok ct -> rsa_encrypt_gen (rkey n e d PV15) m sign rnd = Ok ct.
Proof.
  intros HL N L E. unfold rsa_encrypt_gen. change (rsa_n (rkey n e d PV15)) with (ofZ n). change (rsa_pad (rkey n e d PV15)) with PV15. fold (mlen n). cbv iota zeta.
  rewrite (Z.mod_small (mlen n - 11)) by lia. destruct m as [|x m]; [congruence|]. set (l := x :: m) in *. change (length l) with (S (length m)). cbn [rsa_enc_loop]. unfold l at 1. fold l.
  set (b := if Z.of_nat (length l) <? mlen n - 11 then Z.of_nat (length l) else mlen n - 11).
  assert (Hb : b = Z.of_nat (length l)) by (unfold b; destruct (Z.ltb_spec (Z.of_nat (length l)) (mlen n - 11)); lia). rewrite Hb, Nat2Z.id, firstn_all, skipn_all, E. cbn [bind].
  destruct (length m); cbn [rsa_enc_loop bind]; rewrite app_nil_r; reflexivity.
Qed.
Lemma overlay_nil siz o : (length o <= siz)%nat -> firstn (length o) (overlay [] siz o) = map Some o.
Proof. intro H. unfold overlay. rewrite firstn_app, map_length, Nat.sub_diag, firstn_O, app_nil_r. apply firstn_all2. rewrite map_length. lia. Qed.
Lemma dec_loop_nil f c sign buf n : rsa_dec_loop f c [] sign buf n = Ok (buf, n).
Proof. destruct f; reflexivity. Qed.
Lemma dec_one c sign ct o : ct <> [] -> Z.of_nat (length ct) = count_bytes (rsa_n c) -> (length o <= length ct)%nat ->
  rsa_decrypt_block c ct sign = Ok o -> rsa_decrypt_gen c ct sign = Ok (map Some o).
Proof.
  intros N L Lo E. unfold rsa_decrypt_gen. destruct ct as [|x ct]; [congruence|]. set (l := x :: ct) in *. change (length l) with (S (length ct)) at 1. cbn [rsa_dec_loop]. unfold l at 1. fold l.
  replace (Z.to_nat (count_bytes (rsa_n c))) with (length l) by lia. rewrite Nat.ltb_irrefl, firstn_all, skipn_all, E. cbn [bind]. rewrite dec_loop_nil. cbn [bind].
  rewrite Nat.add_0_l, overlay_nil by lia. reflexivity.
Qed.
Lemma dec_one_err c sign ct : ct <> [] -> Z.of_nat (length ct) = count_bytes (rsa_n c) -> rsa_decrypt_block c ct sign = Err (-1) -> rsa_decrypt_gen c ct sign = Err (-1).
Proof.
  intros N L E. unfold rsa_decrypt_gen. destruct ct as [|x ct]; [congruence|]. set (l := x :: ct) in *. change (length l) with (S (length ct)) at 1. cbn [rsa_dec_loop]. unfold l at 1. fold l.
  replace (Z.to_nat (count_bytes (rsa_n c))) with (length l) by lia. rewrite Nat.ltb_irrefl, firstn_all, E. reflexivity.
Qed.

Theorem rsa_roundtrip n e d m rnd : rsa_valid n e d -> mlen n < 2 ^ 64 -> bytes m -> (0 < length m)%nat -> Z.of_nat (length m) <= mlen n - 11 -> rnd_ok (rnd O) ->
  exists ct, rsa_encrypt (rkey n e d PV15) m rnd = Ok ct /\ Z.of_nat (length ct) = mlen n /\ rsa_decrypt (rkey n e d PV15) ct = Ok (map Some m).
Proof.
  intros V HL Hm M0 L R. destruct (block_round n e d false m (rnd O) V ltac:(lia) Hm L R) as (ct & E & LC & BC & D).
  exists ct. split; [apply enc_one; auto; [lia|intros ->; cbn in M0; lia]|]. split; [auto|]. apply dec_one; auto; [intros ->; cbn in LC; lia|lia].
Qed.

Lemma memcmp_map l : memcmp_eq (map Some l) l = Ok true.
Proof. induction l as [|x l IH]; [reflexivity|]. cbn. rewrite Z.eqb_refl. exact IH. Qed.
Lemma memcmp_true o l : length o = length l -> memcmp_eq (map Some o) l = Ok true -> o = l.
Proof.
  revert l. induction o as [|x o IH]; intros [|y l] L E; try discriminate; [reflexivity|]. cbn in *. destruct (Z.eqb_spec y x) as [->|]; [|discriminate]. f_equal. apply IH; auto.
Qed.
Theorem rsa_sign_verify n e d m : rsa_valid n e d -> mlen n < 2 ^ 64 -> bytes m -> (0 < length m)%nat -> Z.of_nat (length m) <= mlen n - 11 ->
  exists sg, rsa_sign (rkey n e d PV15) m = Ok sg /\ Z.of_nat (length sg) = mlen n /\ rsa_verify (rkey n e d PV15) sg m = Ok 0.
Proof.
  intros V HL Hm M0 L. assert (R : rnd_ok (fun j => repeat 0 j)). { intro j. rewrite repeat_length. split; auto. apply bytes_repeat0. }
  destruct (block_round n e d true m _ V ltac:(lia) Hm L R) as (ct & E & LC & BC & D).
  assert (E' : rsa_encrypt_block (rkey n e d PV15) m true (fun _ => []) = Ok ct) by exact E.
  exists ct. split; [apply (enc_one n e d true m (fun _ _ => [])); auto; [lia|intros ->; cbn in M0; lia]|]. split; [auto|].
  unfold rsa_verify. rewrite (dec_one _ true ct m); auto; [|intros ->; cbn in LC; lia|lia]. cbn [bind]. change (rsa_pad (rkey n e d PV15)) with PV15. cbv iota.
  rewrite map_length, Nat.eqb_refl. cbn [negb]. rewrite memcmp_map. reflexivity.
Qed.

(** An accepted one-block signature is the e-th root of the block holding m. *)
Theorem rsa_verify_sound n e d sg m : rsa_valid n e d -> bytes sg -> Z.of_nat (length sg) = mlen n -> bytes m ->
  rsa_verify (rkey n e d PV15) sg m = Ok 0 ->
  exists k, Z.of_nat (length (pkcs_block 1 (repeat 255 k) m)) = mlen n /\ be_val sg ^ e mod n = be_val (pkcs_block 1 (repeat 255 k) m).
Proof.
  intros V BS LS Hm. destruct (rsa_valid_gt n e d V) as (Hn & He & Hd). destruct (mlen_pow n ltac:(lia)) as (_ & MU & M0).
  assert (N0 : sg <> []) by (intros ->; cbn in LS; lia). unfold rsa_verify.
  assert (DB : rsa_decrypt_block (rkey n e d PV15) sg true = padding_del (be_bytes (Z.to_nat (mlen n)) (be_val sg ^ e mod n)) true).
  { unfold rsa_decrypt_block, rkey. cbn [rsa_n rsa_e rsa_d rsa_pad]. fold (mlen n). rewrite LS, Z.eqb_refl. cbn [negb]. rewrite load_bin_ofZ by auto.
    rewrite (mod_exp_ofZ _ e n) by lia. cbn [bind]. pose proof (Z.mod_pos_bound (be_val sg ^ e) n ltac:(lia)) as M. rewrite store_ofZ; [reflexivity|apply M|apply cb_le; lia]. }
  set (v := be_val sg ^ e mod n) in *. assert (Hv : 0 <= v < n) by (apply Z.mod_pos_bound; lia).
  destruct (padding_del (be_bytes (Z.to_nat (mlen n)) v) true) as [o|rc| |] eqn:PD.
  - destruct (del_inv _ _ _ PD) as (ps & EB & F & S). specialize (S eq_refl).
    assert (LO : (length o <= length sg)%nat). { apply (f_equal (@length Z)) in EB. rewrite be_bytes_length in EB. unfold pkcs_block in EB. cbn [length] in EB. rewrite app_length in EB. cbn [length] in EB. lia. }
    rewrite (dec_one (rkey n e d PV15) true sg o N0 LS LO DB). cbn [bind]. change (rsa_pad (rkey n e d PV15)) with PV15. cbv iota. rewrite map_length.
    destruct (Nat.eqb_spec (length o) (length m)) as [LE|]; [|discriminate]. cbn [negb]. destruct (memcmp_eq (map Some o) m) as [[]| | |] eqn:MC; try discriminate. intros _.
    apply memcmp_true in MC; auto. subst o. exists (length ps). change (btype true) with 1 in EB. rewrite S in EB. rewrite <- EB. rewrite be_bytes_length. split; [lia|].
    symmetry. apply be_val_store; [lia|apply cb_le; lia].
  - unfold rsa_decrypt_gen. destruct sg as [|x ct]; [congruence|]. set (l := x :: ct) in *. change (length l) with (S (length ct)) at 1. cbn [rsa_dec_loop]. unfold l at 1. fold l.
    change (rsa_n (rkey n e d PV15)) with (ofZ n). fold (mlen n). replace (Z.to_nat (mlen n)) with (length l) by lia. rewrite Nat.ltb_irrefl, firstn_all, DB. discriminate.
  - unfold rsa_decrypt_gen. destruct sg as [|x ct]; [congruence|]. set (l := x :: ct) in *. change (length l) with (S (length ct)) at 1. cbn [rsa_dec_loop]. unfold l at 1. fold l.
    change (rsa_n (rkey n e d PV15)) with (ofZ n). fold (mlen n). replace (Z.to_nat (mlen n)) with (length l) by lia. rewrite Nat.ltb_irrefl, firstn_all, DB. discriminate.
  - unfold rsa_decrypt_gen. destruct sg as [|x ct]; [congruence|]. set (l := x :: ct) in *. change (length l) with (S (length ct)) at 1. cbn [rsa_dec_loop]. unfold l at 1. fold l.
    change (rsa_n (rkey n e d PV15)) with (ofZ n). fold (mlen n). replace (Z.to_nat (mlen n)) with (length l) by lia. rewrite Nat.ltb_irrefl, firstn_all, DB. discriminate.
Qed.

Lemma be_val_head l l' : bytes l -> bytes l' -> length l = length l' -> be_val l = be_val l' -> l = l'.
Proof. intros. apply be_val_inj; auto. Qed.
Lemma block_inj k k' m m' : repeat 255 k ++ 0 :: m = repeat 255 k' ++ 0 :: m' -> m = m'.
Proof.
  revert k'. induction k as [|k IH]; intros [|k'] E; cbn in E; try discriminate; inversion E; auto. eapply IH; eauto.
Qed.
Theorem rsa_one_message n e d sg m m' : rsa_valid n e d -> bytes sg -> Z.of_nat (length sg) = mlen n -> bytes m -> bytes m' ->
  rsa_verify (rkey n e d PV15) sg m = Ok 0 -> rsa_verify (rkey n e d PV15) sg m' = Ok 0 -> m = m'.
Proof.
  intros V BS LS Hm Hm' E E'. destruct (rsa_verify_sound n e d sg m V BS LS Hm E) as (k & L & Q). destruct (rsa_verify_sound n e d sg m' V BS LS Hm' E') as (k' & L' & Q').
  assert (BB : forall j x, bytes x -> bytes (pkcs_block 1 (repeat 255 j) x)).
  { intros j x Hx. repeat (constructor; [unfold byte; lia|]). apply Forall_app. split; [apply Forall_forall; intros y Hy; apply repeat_spec in Hy; subst; unfold byte; lia|constructor; [unfold byte; lia|auto]]. }
  assert (EQ : pkcs_block 1 (repeat 255 k) m = pkcs_block 1 (repeat 255 k') m') by (apply be_val_inj; auto; lia).
  inversion EQ. eapply block_inj; eauto.
Qed.
