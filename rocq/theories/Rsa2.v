(** Proofs about RSA on messages of several blocks and without padding. *)
From Coq Require Import Znumtheory.
From Verif Require Import Base Lists BytesSpec Bytes MpiModel MpiMulModel MpiDivModel MpiAlgModel MpiIOModel MpiSpec MpiDigits MpiCanon MpiDiv MpiAlg MpiAlg2 MpiIO MpiTextSpec MpiRand PkModel PkSpec NumTh Pk Rsa.

Ltac Zify.zify_post_hook ::= idtac.

Lemma chunks_step n l : (0 < n)%nat -> l <> [] -> chunks n l = firstn n l :: chunks n (skipn n l).
Proof.
  intros Hn Hl. destruct (le_lt_dec n (length l)) as [H|H].
  - rewrite <- (firstn_skipn n l) at 1. rewrite chunks_app; auto. rewrite firstn_length. lia.
  - rewrite chunks_short; auto; [|destruct l; [congruence|cbn in *; lia]]. rewrite firstn_all2, skipn_all2 by lia. reflexivity.
Qed.
Lemma concat_chunks n l : (0 < n)%nat -> concat (chunks n l) = l.
Proof.
  intro Hn. remember (length l) as k eqn:K. revert l K. induction k as [k IH] using lt_wf_ind. intros l K. destruct l as [|x l]; [reflexivity|].
  rewrite chunks_step by (auto; discriminate). cbn [concat]. rewrite (IH (length (skipn n (x :: l)))); [apply firstn_skipn| |reflexivity]. rewrite skipn_length. cbn [length] in *. lia.
Qed.

(** A block and the message piece it carries. *)
Definition carries (n e d : Z) (sign : bool) (ct x : list Z) : Prop :=
  Z.of_nat (length ct) = mlen n /\ rsa_decrypt_block (rkey n e d PV15) ct sign = Ok x /\ Z.of_nat (length x) <= mlen n - 11.

Lemma enc_loop_ok n e d sign rnd : rsa_valid n e d -> 11 < mlen n < 2 ^ 64 -> (sign = false -> forall i, rnd_ok (rnd i)) ->
  forall f i m, (length m <= f)%nat -> bytes m ->
  exists cts, rsa_enc_loop f (rkey n e d PV15) (mlen n - 11) m sign i rnd = Ok (concat cts) /\ Forall2 (carries n e d sign) cts (chunks (Z.to_nat (mlen n - 11)) m).
Proof.
  intros V HL R. set (b := mlen n - 11). assert (Hb : 0 < b) by (unfold b; lia).
  induction f as [|f IH]; intros i m Hf Hm.
  { destruct m; [|cbn in Hf; lia]. exists []. split; [reflexivity|constructor]. }
  destruct m as [|x0 m0]; [exists []; split; [reflexivity|constructor]|]. set (m := x0 :: m0) in *. assert (N0 : m <> []) by discriminate.
  assert (LM : (0 < length m)%nat) by (cbn; lia).
  cbn [rsa_enc_loop]. unfold m at 1. cbv iota. fold m. rewrite (chunks_step (Z.to_nat b) m) by (auto; lia).
  set (b' := if Z.of_nat (length m) <? b then Z.of_nat (length m) else b).
  assert (E1 : firstn (Z.to_nat b') m = firstn (Z.to_nat b) m). { unfold b'. destruct (Z.ltb_spec (Z.of_nat (length m)) b); auto. rewrite !firstn_all2 by lia. reflexivity. }
  assert (E2 : skipn (Z.to_nat b') m = skipn (Z.to_nat b) m). { unfold b'. destruct (Z.ltb_spec (Z.of_nat (length m)) b); auto. rewrite !skipn_all2 by lia. reflexivity. }
  assert (E3 : skipn (Z.to_nat b) m = [] \/ b' = b). { unfold b'. destruct (Z.ltb_spec (Z.of_nat (length m)) b); auto. left. apply skipn_all2. lia. }
  rewrite E1, E2. assert (FL : (length (firstn (Z.to_nat b) m) <= Z.to_nat b)%nat) by (rewrite firstn_length; lia).
  assert (BR : exists ct, rsa_encrypt_block (rkey n e d PV15) (firstn (Z.to_nat b) m) sign (rnd i) = Ok ct /\ carries n e d sign ct (firstn (Z.to_nat b) m)).
  { destruct sign.
    - destruct (block_round n e d true (firstn (Z.to_nat b) m) (fun j => repeat 0 j) V ltac:(lia) (bytes_firstn _ _ Hm) ltac:(fold b; lia)) as (ct & A1 & A2 & A3 & A4);
        [intro j; split; [apply bytes_repeat0|apply repeat_length]|].
      exists ct. split; [exact A1|]. split; [auto|]. split; [auto|]. fold b. lia.
    - destruct (block_round n e d false (firstn (Z.to_nat b) m) (rnd i) V ltac:(lia) (bytes_firstn _ _ Hm) ltac:(fold b; lia) (R eq_refl i)) as (ct & A1 & A2 & A3 & A4).
      exists ct. split; [exact A1|]. split; [auto|]. split; [auto|]. fold b. lia. }
  destruct BR as (ct & B1 & B2). rewrite B1. cbn [bind].
  assert (LS : (length (skipn (Z.to_nat b) m) <= f)%nat) by (rewrite skipn_length; lia).
  destruct (IH (S i) (skipn (Z.to_nat b) m) LS (bytes_skipn _ _ Hm)) as (cts & C1 & C2).
  exists (ct :: cts). split; [|constructor; auto]. replace (rsa_enc_loop f (rkey n e d PV15) b' (skipn (Z.to_nat b) m) sign (S i) rnd) with (Ok (concat cts)).
  - reflexivity.
  - destruct E3 as [E3|E3]; [|rewrite E3; auto]. rewrite E3 in *. destruct f; exact (eq_sym C1).
Qed.

Lemma overlay_form w k siz o : (length w + k <= siz)%nat -> (length o <= siz)%nat ->
  exists k', overlay (map Some w ++ repeat None k) siz o = map Some (o ++ skipn (length o) w) ++ repeat None k' /\ length (overlay (map Some w ++ repeat None k) siz o) = siz.
Proof.
  intros H Ho. set (buf := map Some w ++ repeat None k). assert (LB : length buf = (length w + k)%nat) by (unfold buf; rewrite app_length, map_length, repeat_length; reflexivity).
  unfold overlay. rewrite (firstn_all2 buf) by lia. unfold buf at 1 3. rewrite <- !app_assoc, <- repeat_app. set (z := (k + (siz - length buf))%nat).
  exists (z - (length o - length w))%nat. rewrite skipn_app, map_length, skipn_map, map_app, <- !app_assoc.
  assert (SR : forall a c, skipn a (repeat (@None Z) c) = repeat None (c - a)).
  { intros a c. revert a. induction c as [|c IHc]; intros [|a]; cbn; auto. }
  rewrite SR. split; [reflexivity|]. rewrite !app_length, !map_length, skipn_length, repeat_length. unfold z. lia.
Qed.

Lemma some_none_inj (a b : list Z) p q : map Some a ++ repeat None p = map Some b ++ repeat None q -> a = b.
Proof.
  revert b. induction a as [|x a IH]; intros [|y b] E; cbn in E; auto.
  - destruct p; cbn in E; discriminate.
  - destruct q; cbn in E; discriminate.
  - inversion E. f_equal. auto.
Qed.

Lemma dec_loop_ok n e d sign cts xs : 11 < mlen n -> Forall2 (carries n e d sign) cts xs ->
  forall f w k outlen, (length cts <= f)%nat -> Z.of_nat (length w) <= mlen n - 11 -> (length w + k <= outlen + Z.to_nat (mlen n))%nat -> (outlen <= length w + k)%nat ->
  exists w' k', rsa_dec_loop f (rkey n e d PV15) (concat cts) sign (map Some w ++ repeat None k) outlen = Ok (map Some w' ++ repeat None k', (outlen + length (concat xs))%nat) /\
    Z.of_nat (length w') <= mlen n - 11 /\ (outlen + length (concat xs) <= length w' + k')%nat /\
    (xs <> [] -> firstn (length (last xs [])) w' = last xs []).
Proof.
  intros HL F. induction F as [|ct x cts xs (C1 & C2 & C3) F IH]; intros f w k outlen Hf Hw H1 H2.
  { exists w, k. cbn [concat length]. rewrite dec_loop_nil, Nat.add_0_r. split; [reflexivity|]. split; [auto|]. split; [auto|]. congruence. }
  destruct f as [|f]; [cbn in Hf; lia|]. cbn [concat rsa_dec_loop]. destruct ct as [|c0 ct0]; [cbn in C1; lia|]. set (ct := c0 :: ct0) in *. change ((ct ++ concat cts)) with (c0 :: ct0 ++ concat cts) at 1. cbv iota.
  change (rsa_n (rkey n e d PV15)) with (ofZ n). fold (mlen n). replace (Nat.ltb (length (ct ++ concat cts)) (Z.to_nat (mlen n))) with false by (symmetry; apply Nat.ltb_ge; rewrite app_length; lia).
  replace (Z.to_nat (mlen n)) with (length ct) by lia. rewrite firstn_exact, skipn_exact by reflexivity. rewrite C2. cbn [bind].
  destruct (overlay_form w k (outlen + length ct) x ltac:(lia) ltac:(lia)) as (k1 & O1 & O2). rewrite O1 in *.
  rewrite app_length, map_length, repeat_length in O2.
  destruct (IH f (x ++ skipn (length x) w) k1 (outlen + length x)%nat) as (w' & k' & A1 & A2 & A3 & A4).
  - cbn in Hf. lia.
  - rewrite app_length, skipn_length. lia.
  - lia.
  - lia.
  - exists w', k'. rewrite A1, app_length. split; [f_equal; f_equal; lia|]. split; [auto|]. split; [lia|]. intros _.
    destruct xs as [|y ys]; [|exact (A4 ltac:(discriminate))]. cbn [last].
    inversion F; subst. cbn [concat] in A1. rewrite dec_loop_nil in A1. inversion A1 as [[E E']].
    apply some_none_inj in E. subst w'. apply firstn_exact. reflexivity.
Qed.

Lemma forall2_len (A B : Type) (R : A -> B -> Prop) l l' : Forall2 R l l' -> length l = length l'.
Proof. intro F. induction F; cbn; auto. Qed.
Lemma carries_len n e d sign cts xs : 11 < mlen n -> Forall2 (carries n e d sign) cts xs -> (length cts <= length (concat cts))%nat.
Proof. intros H F. induction F as [|ct x cts xs (C & _) F IH]; cbn; [lia|]. rewrite app_length. lia. Qed.

(** Decrypting what was encrypted from a longer message: the right length, every
    block written at the start, the rest never written. *)
Lemma decrypt_multi n e d sign cts m : 11 < mlen n < 2 ^ 64 -> m <> [] -> Forall2 (carries n e d sign) cts (chunks (Z.to_nat (mlen n - 11)) m) ->
  exists out, rsa_decrypt_gen (rkey n e d PV15) (concat cts) sign = Ok out /\ length out = length m /\
    (exists w, skipn (Z.to_nat (mlen n - 11)) out = repeat None (length m - Z.to_nat (mlen n - 11)) /\ firstn (length (last (chunks (Z.to_nat (mlen n - 11)) m) [])) out = map Some w
       /\ w = last (chunks (Z.to_nat (mlen n - 11)) m) []).
Proof.
  intros HL N F. assert (Hb : (0 < Z.to_nat (mlen n - 11))%nat) by lia. set (b := Z.to_nat (mlen n - 11)) in *.
  pose proof (concat_chunks b m Hb) as CC. pose proof (carries_len n e d sign _ _ ltac:(lia) F) as CL.
  assert (NX : chunks b m <> []) by (intro E; rewrite E in CC; cbn in CC; congruence).
  assert (NC : concat cts <> []). { intro E. rewrite E in CL. cbn in CL. apply forall2_len in F. destruct cts; [|cbn in CL; lia]. destruct (chunks b m); [congruence|discriminate]. }
  destruct (dec_loop_ok n e d sign cts _ ltac:(lia) F (length (concat cts)) [] O O CL) as (w & k & A1 & A2 & A3 & A4); [cbn; lia|cbn; lia|cbn; lia|]. rewrite CC in *. cbn [map repeat app] in A1.
  unfold rsa_decrypt_gen. destruct (concat cts) as [|c0 r0] eqn:EC; [congruence|]. rewrite A1. cbn [bind]. rewrite Nat.add_0_l in *.
  set (buf := map Some w ++ repeat None k) in *. assert (LB : length buf = (length w + k)%nat) by (unfold buf; rewrite app_length, map_length, repeat_length; reflexivity).
  exists (firstn (length m) buf). split; [reflexivity|]. split; [rewrite firstn_length; lia|]. exists (last (chunks b m) []). specialize (A4 NX).
  assert (LX : (length (last (chunks b m) []) <= length w)%nat). { rewrite <- A4. rewrite firstn_length. lia. }
  assert (LM : (length (last (chunks b m) []) <= length m)%nat). { rewrite <- CC at 2. clear - NX. induction (chunks b m) as [|y ys IH]; [congruence|]. cbn [concat]. rewrite app_length. destruct ys; [cbn; lia|]. cbn [last]. specialize (IH ltac:(discriminate)). cbn [last concat] in *. lia. }
  assert (SR : forall a c, skipn a (repeat (@None Z) c) = repeat None (c - a)). { intros a c. revert a. induction c as [|c IHc]; intros [|a]; cbn; auto. }
  assert (FR : forall a c, firstn a (repeat (@None Z) c) = repeat None (Nat.min a c)). { intros a c. revert a. induction c as [|c IHc]; intros [|a]; cbn; auto. f_equal. auto. }
  split; [|split; [|reflexivity]].
  - assert (SK : forall (l : list (option Z)) a c, skipn a (firstn c l) = firstn (c - a) (skipn a l)). { intros. apply skipn_firstn_comm. }
    rewrite SK. unfold buf. rewrite skipn_app, map_length, (skipn_all2 (map Some w)) by (rewrite map_length; lia). cbn [app]. rewrite SR, FR. f_equal. lia.
  - rewrite firstn_firstn, Nat.min_l by lia. unfold buf. rewrite firstn_app, map_length. replace (length (last (chunks b m) []) - length w)%nat with O by lia. rewrite firstn_O, app_nil_r, firstn_map, A4. reflexivity.
Qed.

Lemma enc_gen_multi n e d sign rnd m : rsa_valid n e d -> 11 < mlen n < 2 ^ 64 -> (sign = false -> forall i, rnd_ok (rnd i)) -> bytes m -> m <> [] ->
  exists cts, rsa_encrypt_gen (rkey n e d PV15) m sign rnd = Ok (concat cts) /\ Forall2 (carries n e d sign) cts (chunks (Z.to_nat (mlen n - 11)) m).
Proof.
  intros V HL R Hm N. destruct (enc_loop_ok n e d sign rnd V HL R (length m) O m (le_n _) Hm) as (cts & A & B'). exists cts. split; [|auto].
  unfold rsa_encrypt_gen. change (rsa_n (rkey n e d PV15)) with (ofZ n). change (rsa_pad (rkey n e d PV15)) with PV15. fold (mlen n). cbv iota zeta.
  rewrite (Z.mod_small (mlen n - 11)) by lia. destruct m; [congruence|]. exact A.
Qed.

Theorem rsa_encrypt_blocks n e d rnd m : rsa_valid n e d -> 11 < mlen n < 2 ^ 64 -> (forall i, rnd_ok (rnd i)) -> bytes m -> m <> [] ->
  exists cts, rsa_encrypt (rkey n e d PV15) m rnd = Ok (concat cts) /\
    Forall2 (fun ct x => Z.of_nat (length ct) = mlen n /\ rsa_decrypt (rkey n e d PV15) ct = Ok (map Some x)) cts (chunks (Z.to_nat (mlen n - 11)) m).
Proof.
  intros V HL R Hm N. destruct (enc_gen_multi n e d false rnd m V HL ltac:(auto) Hm N) as (cts & A & F). exists cts. split; [exact A|].
  clear - F HL. induction F as [|ct x cts xs (C1 & C2 & C3) F IH]; constructor; auto. split; [auto|]. apply dec_one; auto; [intros ->; cbn in C1; lia|lia].
Qed.

Theorem rsa_multi n e d rnd m : rsa_valid n e d -> 11 < mlen n < 2 ^ 64 -> (forall i, rnd_ok (rnd i)) -> bytes m -> mlen n - 11 < Z.of_nat (length m) ->
  exists ct out, rsa_encrypt (rkey n e d PV15) m rnd = Ok ct /\ rsa_decrypt (rkey n e d PV15) ct = Ok out /\ length out = length m /\
    skipn (Z.to_nat (mlen n - 11)) out = repeat None (length m - Z.to_nat (mlen n - 11)) /\ out <> map Some m.
Proof.
  intros V HL R Hm L. assert (N : m <> []) by (intros ->; cbn in L; lia). destruct (enc_gen_multi n e d false rnd m V HL ltac:(auto) Hm N) as (cts & A & F).
  destruct (decrypt_multi n e d false cts m HL N F) as (out & D & LO & w & S & _). exists (concat cts), out. split; [exact A|]. split; [exact D|]. split; [auto|]. split; [auto|].
  intros ->. rewrite skipn_map in S. destruct (skipn (Z.to_nat (mlen n - 11)) m) as [|y ys] eqn:SE.
  - apply (f_equal (@length Z)) in SE. rewrite skipn_length in SE. cbn in SE. lia.
  - destruct (length m - Z.to_nat (mlen n - 11))%nat; cbn in S; discriminate.
Qed.

Lemma memcmp_none o l b : length o = length l -> (b < length l)%nat -> nth b o (Some 0) = None -> memcmp_eq o l <> Ok true.
Proof.
  revert l b. induction o as [|x o IH]; intros [|y l] b L Hb Hn; cbn in *; try lia. destruct x as [x|]; [|discriminate]. destruct (y =? x); [|discriminate].
  destruct b; [discriminate|]. eapply IH; eauto. lia.
Qed.
Theorem rsa_sign_multi n e d m : rsa_valid n e d -> 11 < mlen n < 2 ^ 64 -> bytes m -> mlen n - 11 < Z.of_nat (length m) ->
  exists sg, rsa_sign (rkey n e d PV15) m = Ok sg /\ rsa_verify (rkey n e d PV15) sg m <> Ok 0.
Proof.
  intros V HL Hm L. assert (N : m <> []) by (intros ->; cbn in L; lia). destruct (enc_gen_multi n e d true (fun _ _ => []) m V HL ltac:(discriminate) Hm N) as (cts & A & F).
  destruct (decrypt_multi n e d true cts m HL N F) as (out & D & LO & w & S & _). exists (concat cts). split; [exact A|]. unfold rsa_verify. rewrite D. cbn [bind].
  change (rsa_pad (rkey n e d PV15)) with PV15. cbv iota. rewrite LO, Nat.eqb_refl. cbn [negb].
  assert (M : memcmp_eq out m <> Ok true).
  { apply (memcmp_none out m (Z.to_nat (mlen n - 11))); [auto|lia|]. rewrite <- (Nat.add_0_r (Z.to_nat (mlen n - 11))).
    rewrite <- (firstn_skipn (Z.to_nat (mlen n - 11)) out), app_nth2; rewrite firstn_length, Nat.min_l by lia; [|lia]. replace (Z.to_nat (mlen n - 11) + 0 - Z.to_nat (mlen n - 11))%nat with O by lia.
    rewrite S. destruct (length m - Z.to_nat (mlen n - 11))%nat eqn:Q; [lia|reflexivity]. }
  destruct (memcmp_eq out m) as [[]| | |]; cbn [bind]; congruence.
Qed.

(** Without padding. *)
Lemma none_gen n e d sign m rnd : rsa_valid n e d -> bytes m -> (0 < length m)%nat -> Z.of_nat (length m) <= mlen n ->
  be_val (m ++ repeat 0 (Z.to_nat (mlen n) - length m)) < n ->
  exists ct, rsa_encrypt_gen (rkey n e d PNone) m sign rnd = Ok ct /\ Z.of_nat (length ct) = mlen n /\
    rsa_decrypt_gen (rkey n e d PNone) ct sign = Ok (map Some (m ++ repeat 0 (Z.to_nat (mlen n) - length m))).
Proof.
  intros V Hm M0 L LT. set (buf := m ++ repeat 0 (Z.to_nat (mlen n) - length m)) in *. destruct (rsa_valid_gt n e d V) as (Hn & He & Hd).
  assert (BB : bytes buf) by (apply Forall_app; split; auto; apply bytes_repeat0). assert (LB : length buf = Z.to_nat (mlen n)) by (unfold buf; rewrite app_length, repeat_length; lia).
  destruct (be_val_bound buf BB) as [V0 _].
  pose proof (enc_block_pad n e d sign buf m (rnd O) PNone V BB eq_refl) as EB. set (ct := be_bytes (Z.to_nat (mlen n)) (be_val buf ^ k1 e d sign mod n)) in *.
  assert (LC : length ct = Z.to_nat (mlen n)) by apply be_bytes_length. destruct (mlen_pow n ltac:(lia)) as (_ & _ & ML).
  exists ct. split; [|split; [lia|]].
  - unfold rsa_encrypt_gen. change (rsa_n (rkey n e d PNone)) with (ofZ n). change (rsa_pad (rkey n e d PNone)) with PNone. fold (mlen n). cbv iota zeta.
    destruct m as [|x m]; [cbn in M0; lia|]. set (l := x :: m) in *. change (length l) with (S (length m)). cbn [rsa_enc_loop]. unfold l at 1. cbv iota. fold l.
    set (b := if Z.of_nat (length l) <? mlen n then Z.of_nat (length l) else mlen n).
    assert (Hb : b = Z.of_nat (length l)) by (unfold b; destruct (Z.ltb_spec (Z.of_nat (length l)) (mlen n)); lia). rewrite Hb, Nat2Z.id, firstn_all, skipn_all, EB. cbn [bind].
    destruct (length m); cbn [rsa_enc_loop bind]; rewrite app_nil_r; reflexivity.
  - apply dec_one; [intro Q; rewrite Q in LC; cbn in LC; lia|change (Z.of_nat (length ct) = mlen n); lia|lia|].
    unfold ct. rewrite dec_block_pad; [|auto|apply Z.mod_pos_bound; lia]. rewrite k_pow by auto. f_equal. rewrite <- LB. apply be_bytes_val. auto.
Qed.
Lemma memcmp_prefix l x : memcmp_eq (map Some (l ++ x)) l = Ok true.
Proof. induction l as [|y l IH]; [destruct x; reflexivity|]. cbn. rewrite Z.eqb_refl. exact IH. Qed.
Theorem rsa_none_prefix n e d m k : rsa_valid n e d -> bytes m -> (0 < length m)%nat -> Z.of_nat (length m) <= mlen n ->
  be_val (m ++ repeat 0 (Z.to_nat (mlen n) - length m)) < n ->
  exists sg, rsa_sign (rkey n e d PNone) m = Ok sg /\ rsa_verify (rkey n e d PNone) sg (firstn k m) = Ok 0.
Proof.
  intros V Hm M0 L LT. destruct (none_gen n e d true m (fun _ _ => []) V Hm M0 L LT) as (ct & A & B' & C). exists ct. split; [exact A|]. unfold rsa_verify. rewrite C. cbn [bind].
  change (rsa_pad (rkey n e d PNone)) with PNone. cbv iota. replace (Nat.ltb _ _) with false; [|symmetry; apply Nat.ltb_ge; rewrite map_length, app_length, firstn_length; lia].
  rewrite <- (firstn_skipn k m) at 1. rewrite <- app_assoc, memcmp_prefix. reflexivity.
Qed.
(** Moduli shorter than 11 bytes: padding_add's size check wraps round. *)
Theorem rsa_short n e d m rnd : rsa_valid n e d -> mlen n < 11 -> (0 < length m)%nat -> mlen n - 3 < Z.of_nat (length m) < 2 ^ 63 ->
  rsa_encrypt (rkey n e d PV15) m rnd = UB.
Proof.
  intros V HL M0 L. destruct (rsa_valid_gt n e d V) as (Hn & He & Hd). destruct (mlen_pow n ltac:(lia)) as (_ & _ & ML). unfold rsa_encrypt, rsa_encrypt_gen.
  change (rsa_n (rkey n e d PV15)) with (ofZ n). change (rsa_pad (rkey n e d PV15)) with PV15. fold (mlen n). cbv iota zeta.
  assert (E : (mlen n - 11) mod 2 ^ 64 = mlen n - 11 + 2 ^ 64). { symmetry. apply Z.mod_unique with (q := -1); lia. }
  destruct m as [|x m]; [cbn in M0; lia|]. set (l := x :: m) in *. change (length l) with (S (length m)). cbn [rsa_enc_loop]. unfold l at 1. cbv iota. fold l. rewrite E.
  replace (Z.of_nat (length l) <? mlen n - 11 + 2 ^ 64) with true by lia. rewrite Nat2Z.id, firstn_all. unfold rsa_encrypt_block.
  change (rsa_n (rkey n e d PV15)) with (ofZ n). change (rsa_pad (rkey n e d PV15)) with PV15. fold (mlen n). cbv iota zeta. unfold padding_add. rewrite E.
  replace (mlen n - 11 + 2 ^ 64 <? Z.of_nat (length l)) with false by lia. replace (mlen n - 3 <? Z.of_nat (length l)) with true by lia. reflexivity.
Qed.
(** A modulus of exactly 11 bytes: encryption makes no progress. *)
Theorem rsa_eleven n e d m rnd : rsa_valid n e d -> mlen n = 11 -> bytes m -> m <> [] -> (forall i, rnd_ok (rnd i)) -> rsa_encrypt (rkey n e d PV15) m rnd = Fuel.
Proof.
  intros V HL Hm N R. unfold rsa_encrypt, rsa_encrypt_gen. change (rsa_n (rkey n e d PV15)) with (ofZ n). change (rsa_pad (rkey n e d PV15)) with PV15. fold (mlen n). cbv iota zeta.
  rewrite HL. change ((11 - 11) mod 2 ^ 64) with 0. destruct m as [|x0 m0]; [congruence|]. set (m := x0 :: m0) in *.
  assert (G : forall f i, rsa_enc_loop f (rkey n e d PV15) 0 m false i rnd = Fuel); [|unfold m at 1; cbv iota; fold m; apply G].
  induction f as [|f IH]; intro i; [reflexivity|]. cbn [rsa_enc_loop]. unfold m at 1. cbv iota. fold m.
  replace (Z.of_nat (length m) <? 0) with false by lia. change (Z.to_nat 0) with O. rewrite firstn_O, skipn_O.
  destruct (block_round n e d false [] (rnd i) V ltac:(rewrite HL; lia) (Forall_nil _) ltac:(cbn; lia) (R i)) as (ct & A & _). rewrite A. cbn [bind]. rewrite IH. reflexivity.
Qed.

Lemma mlen_len n : 0 < n -> mlen n = rsa_len n.
Proof.
  intro H. destruct (mlen_pow n H) as (A & B' & C). unfold rsa_len. set (k := mlen n) in *. change 256 with (2 ^ 8) in *. rewrite <- !Z.pow_mul_r in * by lia.
  assert (L1 : 8 * (k - 1) <= Z.log2 n) by (apply Z.log2_le_pow2; lia). assert (L2 : Z.log2 n < 8 * k) by (apply Z.log2_lt_pow2; lia).
  replace (Z.log2 n / 8) with (k - 1); [lia|]. apply Z.div_unique with (r := Z.log2 n - 8 * (k - 1)); lia.
Qed.
Lemma prime_pos p : prime p -> 0 < p.
Proof. intro P. pose proof (prime_ge_2 p P). lia. Qed.
Lemma valid_len n e d : rsa_valid n e d -> mlen n = rsa_len n.
Proof. intro V. apply mlen_len. destruct (rsa_valid_gt n e d V). lia. Qed.

(** Two values of s with the same residue modulo q are accepted alike. *)
Theorem dsa_malleable p q g pvt y m r s s' : 1 < p -> 1 < q -> bytes m -> s mod q = s' mod q ->
  dsa_verify {| dsa_p := ofZ p; dsa_q := ofZ q; dsa_g := ofZ g; dsa_pvt := pvt; dsa_pub := ofZ y |} (ofZ r) (ofZ s) m =
  dsa_verify {| dsa_p := ofZ p; dsa_q := ofZ q; dsa_g := ofZ g; dsa_pvt := pvt; dsa_pub := ofZ y |} (ofZ r) (ofZ s') m.
Proof.
  intros Hp Hq Hm E. assert (G : Z.gcd s q = Z.gcd s' q) by (rewrite !(Z.gcd_comm _ q), <- (Z.gcd_mod s q), <- (Z.gcd_mod s' q) by lia; rewrite E; reflexivity).
  destruct (Z.eq_dec (Z.gcd s q) 1) as [G1|N].
  - destruct (dsa_verify_form p q g pvt y m r s Hp Hq Hm G1) as (w & Hw & W & ->). destruct (dsa_verify_form p q g pvt y m r s' Hp Hq Hm ltac:(congruence)) as (w' & Hw' & W' & ->).
    replace w' with w; [reflexivity|]. rewrite <- (Z.mod_small w q Hw), <- (Z.mod_small w' q Hw').
    transitivity ((s' * w' * w) mod q); [rewrite <- (Z.mul_mod_idemp_l (s' * w') w), W', Z.mul_1_l by lia; reflexivity|].
    transitivity ((s * w * w') mod q); [|rewrite <- (Z.mul_mod_idemp_l (s * w) w'), W, Z.mul_1_l by lia; reflexivity].
    replace (s' * w' * w) with (s' * (w * w')) by ring. rewrite <- Z.mul_assoc, <- (Z.mul_mod_idemp_l s'), <- (Z.mul_mod_idemp_l s), E by lia. reflexivity.
  - rewrite !dsa_verify_err; auto; lia || congruence.
Qed.
