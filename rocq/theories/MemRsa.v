(** Memory-level RSA, whatever allocations are refused. *)
From Verif Require Import Base Lists BytesSpec Bytes Bits MpiModel MpiSpec MpiDigits MpiMulModel MpiCanon MpiDivModel MpiDiv MpiAlgModel MpiAlg MpiAlg2 MpiIOModel MpiIO MpiTextSpec MpiRand Pk PkModel PkSpec MemModel MemMulModel MemDivModel MemAlgModel MemSpec Mem MemOps MemShift MemLeaf MemMul MemSim MemToom MemMulSafe MemDiv MemDivSafe MemLoc MemGcd MemExp MemAlgSpec MemAlgSafe MemInv MemEcpModel MemEcpSpec MemEcp MemEcpMul MemBin MemEcdsa MemEcpFail MemPkModel MemPkSpec MemFair.
Ltac Zify.zify_post_hook ::= idtac.

(** the value-level routine ends in a result or in an error *)
Definition sound {A} (v : res A) : Prop := v <> UB /\ v <> Fuel.
Lemma sound_bind {A C} (m : res A) (f : A -> res C) : sound (bind m f) -> sound m.
Proof. unfold sound, bind. destruct m; intros (U & F); split; try discriminate; auto. Qed.

Lemma padding_bytes len inp pad sign rnd buf : bytes inp -> (forall j, bytes (rnd j)) -> padding_add len inp pad sign rnd = Ok buf -> bytes buf.
Proof.
  intros Hi Hr. unfold padding_add. destruct (_ <? _); [discriminate|]. assert (B0 : forall x, 0 <= x < 256 -> bytes [x]) by (intros x Hx; constructor; [exact Hx|constructor]).
  destruct pad; try discriminate; destruct (_ <? _); try discriminate; intro E; apply ok_inj in E; subst buf; destruct sign.
  all: constructor; [red; lia|]; constructor; [red; lia|]; apply Forall_app; split; [|constructor; [red; lia|exact Hi]].
  all: try (apply Forall_forall; intros x Hx; apply repeat_spec in Hx; subst x; red; lia).
  all: unfold nozero; apply Forall_forall; intros x Hx; apply in_map_iff in Hx; destruct Hx as (y & <- & Hy); destruct (y =? 0); [red; lia|].
  all: specialize (Hr (Z.to_nat (len - 3 - Z.of_nat (length inp)))); unfold bytes in Hr; rewrite Forall_forall in Hr; apply Hr; exact Hy.
Qed.

Lemma fair_lift {A} t (v : res A) e s (Q : res A -> st -> Prop) : sound v -> Q v s -> fair t (lift v) e s Q.
Proof. intros (U & F) H. destruct v; try congruence; exact H. Qed.
Lemma returns_from {T} e n (bad v : T) s0 s r s' : untouched n s0 s -> (tick s0 <= tick s)%nat -> returns e n bad v s r s' -> returns e n bad v s0 r s'.
Proof.
  intros (_ & F) L ((C' & F') & T' & D). split; [split; [exact C'|intros x Hx; rewrite F', F; auto]|]. split; [lia|]. destruct D as [->|(-> & S)]; [left; auto|right; split; auto; eapply starved_left; eauto].
Qed.
Lemma unless_from {A} (m : cmd A) e n s0 s (bad v : A) : untouched n s0 s -> (tick s0 <= tick s)%nat -> unless_refused m e s (returns e n bad v s) ->
  fair (tick s0) m e s (returns e n bad v s0).
Proof. intros U L F. eapply fair_mono; [apply unless_fair; [exact L|exact F]|]. intros r s'. apply returns_from; auto. Qed.
Lemma untouched_refl n s : calm n s -> untouched n s s.
Proof. intro C. split; auto. Qed.
Lemma fair_room {T} e n s (f : cmd (res T)) w : calm n s -> unless_refused f e (next s) (returns e n (Err (-1)) w (next s)) ->
  unless_refused (room f) e s (returns e n (Err (-1)) w s).
Proof.
  intros C F. apply fair_unless. unfold room. apply fair_bind, fair_wp. apply wp_alloc; intro G.
  - apply (unless_from f e n s (next s)); [split; [exact C|reflexivity]|cbn [next tick]; lia|exact F].
  - apply fair_ret. split; [split; [exact C|reflexivity]|]. split; [cbn [next tick]; lia|]. right. split; auto. exists (tick s). split; [cbn [next tick]; lia|exact G].
Qed.
Lemma fair_onward {A T} e n s (m : cmd (res A)) (f : A -> cmd (res T)) v w : sound v -> unless_refused m e s (returns e n (Err (-1)) v s) ->
  (forall a s', v = Ok a -> untouched n s s' -> unless_refused (f a) e s' (returns e n (Err (-1)) (w a) s')) ->
  unless_refused (onward m f) e s (returns e n (Err (-1)) (bind v w) s).
Proof.
  intros (NU & NF) W F. apply fair_unless. unfold onward. apply fair_bind. eapply fair_mono; [exact W|]. intros r s' (U & T' & D). destruct D as [->|(-> & S)].
  - destruct v as [a|c| |]; try congruence.
    + cbn [bind]. apply unless_from; [exact U|exact T'|]. apply F; auto.
    + apply fair_ret. cbn [bind]. split; auto.
  - apply fair_ret. split; auto.
Qed.

Section KEY.
Variables (N E D : Z).
Hypothesis (HN : 1 < N) (HE : 0 <= E) (HD : 0 <= D).

Definition bufof (pad : padding) (inp : list Z) (sign : bool) (rnd : nat -> list Z) : res (list Z) :=
  match pad with PNone => Ok (inp ++ repeat 0 (Z.to_nat (count_bytes (ofZ N)) - length inp)) | _ => padding_add (count_bytes (ofZ N)) inp pad sign rnd end.
Lemma enc_block_eq pad inp sign rnd : rsa_encrypt_block (rkey N E D pad) inp sign rnd =
  do buf <- bufof pad inp sign rnd; do x <- mod_exp (load_bin false buf) (if sign then ofZ D else ofZ E) (ofZ N); store_bin x (count_bytes (ofZ N)) true.
Proof. destruct pad, sign; reflexivity. Qed.
Lemma bufof_bytes pad inp sign rnd buf : bytes inp -> (forall j, bytes (rnd j)) -> bufof pad inp sign rnd = Ok buf -> bytes buf.
Proof.
  intros Hi Hr. destruct pad; cbn [bufof]; [|apply padding_bytes; auto..]. intro X. apply ok_inj in X. subst buf. apply Forall_app. split; [exact Hi|].
  apply Forall_forall. intros x Hx. apply repeat_spec in Hx. subst x. split; lia.
Qed.
Lemma store_sound x len : sound (store_bin x len true).
Proof. unfold store_bin. destruct (_ <? _); split; discriminate. Qed.

Lemma enc_block_fair e s n c pad inp sign rnd : calm n s -> (c + 2 < n)%nat -> holding s c [N; E; D] -> bytes inp -> (forall j, bytes (rnd j)) ->
  sound (rsa_encrypt_block (rkey N E D pad) inp sign rnd) ->
  unless_refused (rsa_enc_block_m n c pad inp sign rnd) e s (returns e n (Err (-1)) (rsa_encrypt_block (rkey N E D pad) inp sign rnd) s).
Proof.
  intros C Lc (Hn & He & Hd & _) Bi Br SD. apply fair_unless. unfold rsa_enc_block_m. eapply fair_peek; [exact Hn|]. cbv zeta. apply fair_unless.
  apply fair_room; [exact C|]. set (t := next s). assert (Ct : calm n t) by exact C.
  assert (Hn' : has t c (ofZ N)) by exact Hn. assert (He' : has t (S c) (ofZ E)) by exact He. assert (Hd' : has t (S (S c)) (ofZ D)) by exact Hd. clearbody t. clear Hn He Hd C s.
  rewrite enc_block_eq in *. fold (bufof pad inp sign rnd). apply fair_unless. apply fair_init; [exact Ct|]. cbn [repeat]. intros s1 K. apply fair_closing.
  unfold onward. apply fair_bind. apply fair_lift; [eapply sound_bind; exact SD|]. destruct (bufof pad inp sign rnd) as [buf|err| |] eqn:EB; try (destruct SD as (F1 & F2); cbn [bind] in *; congruence).
  2:{ apply fair_ret. exact (vloc_left e n [mzero; mzero] t s1 (Err (-1)) (Err err) K). }
  assert (BB : bytes buf) by (eapply bufof_bytes; eauto). cbn [bind] in *. rewrite load_bin_ofZ in * by exact BB.
  set (x := be_val buf). set (kk := if sign then D else E). assert (Hk : 0 <= kk) by (unfold kk; destruct sign; auto).
  assert (EX : mod_exp (ofZ x) (if sign then ofZ D else ofZ E) (ofZ N) = Ok (ofZ (x ^ kk mod N))) by (unfold kk; destruct sign; apply mod_exp_ofZ; auto).
  rewrite EX. cbn [bind].
  eapply (fair_need e n [mzero; mzero] t s1 1); [exact K|cbn; lia|apply Nat.le_refl|apply fair_unless, fair_wp; apply (load_bin_after e s1 _ (n + 1) mzero buf); [exact (proj1 K)|cbn; lia|vval K|reflexivity|exact BB]|].
  cbn [upd]. clear K. intros s2 K. fold x in K. change 2%nat with (length [mzero; ofZ x]).
  eapply (fair_need e n [mzero; ofZ x] t s2 0); [exact K|cbn; lia|apply Nat.le_refl| |].
  { rewrite Nat.add_0_r. cbn [length]. apply (exp_fair e s2 (n + 2) n (n + 1) _ (Some c) x kk (Some N)); [exact (proj1 K)|lia|lia|destruct sign; lia|vuse K|vval K| |split; [lia|split; [vval K|lia]]|exact Hk|left; intro F; injection F; lia].
    unfold kk. destruct sign; [replace (c + 2)%nat with (S (S c)) by lia|replace (c + 1)%nat with (S c) by lia]; vval K. }
  cbn [upd power]. clear K. intros s3 K. eapply fair_peek; [vval K|]. apply fair_lift; [apply store_sound|]. exact (vloc_left e n _ t s3 (Err (-1)) _ K).
Qed.

Lemma dec_block_eq pad inp sign : rsa_decrypt_block (rkey N E D pad) inp sign =
  if negb (Z.of_nat (length inp) =? count_bytes (ofZ N)) then Err (-1) else
  do m <- mod_exp (load_bin false inp) (if sign then ofZ E else ofZ D) (ofZ N); do buf <- store_bin m (count_bytes (ofZ N)) true;
  match pad with PNone => Ok buf | _ => padding_del buf sign end.
Proof. destruct pad, sign; reflexivity. Qed.
Lemma dec_block_fair e s n c pad inp sign : calm n s -> (c + 2 < n)%nat -> holding s c [N; E; D] -> bytes inp ->
  sound (rsa_decrypt_block (rkey N E D pad) inp sign) ->
  unless_refused (rsa_dec_block_m n c pad inp sign) e s (returns e n (Err (-1)) (rsa_decrypt_block (rkey N E D pad) inp sign) s).
Proof.
  intros C Lc (Hn & He & Hd & _) Bi SD. rewrite dec_block_eq in *. apply fair_unless. unfold rsa_dec_block_m. eapply fair_peek; [exact Hn|]. cbv zeta.
  destruct (negb _); [apply fair_ret; split; [apply untouched_refl; auto|auto]|]. apply fair_unless.
  apply fair_room; [exact C|]. set (t := next s). assert (Ct : calm n t) by exact C.
  assert (Hn' : has t c (ofZ N)) by exact Hn. assert (He' : has t (S c) (ofZ E)) by exact He. assert (Hd' : has t (S (S c)) (ofZ D)) by exact Hd. clearbody t. clear Hn He Hd C s.
  apply fair_unless. apply fair_init; [exact Ct|]. cbn [repeat]. intros s1 K. apply fair_closing.
  rewrite load_bin_ofZ in * by exact Bi.
  set (x := be_val inp) in *. set (kk := if sign then E else D). assert (Hk : 0 <= kk) by (unfold kk; destruct sign; auto).
  assert (EX : mod_exp (ofZ x) (if sign then ofZ E else ofZ D) (ofZ N) = Ok (ofZ (x ^ kk mod N))) by (unfold kk; destruct sign; apply mod_exp_ofZ; auto).
  rewrite EX in *. cbn [bind] in *.
  eapply (fair_need e n [mzero; mzero] t s1 0); [exact K|cbn; lia|apply Nat.le_refl|rewrite Nat.add_0_r; apply fair_unless, fair_wp; apply (load_bin_after e s1 _ n mzero inp); [exact (proj1 K)|cbn; lia|vval K|reflexivity|exact Bi]|].
  cbn [upd]. clear K. intros s2 K. fold x in K. change 2%nat with (length [ofZ x; mzero]).
  eapply (fair_need e n [ofZ x; mzero] t s2 1); [exact K|cbn; lia|apply Nat.le_refl| |].
  { cbn [length]. apply (exp_fair e s2 (n + 2) (n + 1) n _ (Some c) x kk (Some N)); [exact (proj1 K)|lia|lia|destruct sign; lia|vuse K|vval K| |split; [lia|split; [vval K|lia]]|exact Hk|left; intro F; injection F; lia].
    unfold kk. destruct sign; [replace (c + 1)%nat with (S c) by lia|replace (c + 2)%nat with (S (S c)) by lia]; vval K. }
  cbn [upd power]. clear K. intros s3 K. eapply fair_peek; [vval K|]. unfold onward. apply fair_bind. apply fair_lift; [apply store_sound|].
  destruct (store_bin _ _ true) as [buf|err| |] eqn:ES; cbn [bind] in *; try (destruct SD as (F1 & F2); congruence).
  - apply fair_lift; [exact SD|]. exact (vloc_left e n _ t s3 (Err (-1)) _ K).
  - apply fair_ret. exact (vloc_left e n _ t s3 (Err (-1)) _ K).
Qed.

Lemma holding_kept n s s' c l : untouched n s s' -> (c + length l <= n)%nat -> holding s c l -> holding s' c l.
Proof.
  intros (_ & F). revert c. induction l as [|v l IH]; intros c L H; [exact I|]. cbn [length] in L. destruct H as (H1 & H2). split; [eapply has_same; [apply F; lia|exact H1]|apply IH; [lia|exact H2]].
Qed.
Lemma sound_then {A C} (m : res A) (f : A -> res C) a : sound (bind m f) -> m = Ok a -> sound (f a).
Proof. intros S ->. exact S. Qed.
Lemma bytes_skip k l : bytes l -> bytes (skipn k l).
Proof. intro H. apply Forall_forall. intros x Hx. unfold bytes in H. rewrite Forall_forall in H. apply H. rewrite <- (firstn_skipn k l). apply in_or_app. auto. Qed.

Lemma enc_loop_fair e n c pad sign rnd : (c + 2 < n)%nat -> (forall i j, bytes (rnd i j)) -> forall fuel block inp i s, calm n s -> holding s c [N; E; D] -> bytes inp ->
  sound (rsa_enc_loop fuel (rkey N E D pad) block inp sign i rnd) ->
  unless_refused (rsa_enc_loop_m fuel n c pad block inp sign i rnd) e s (returns e n (Err (-1)) (rsa_enc_loop fuel (rkey N E D pad) block inp sign i rnd) s).
Proof.
  intros Lc Br. induction fuel as [|f IH]; intros block inp i s C H Bi SD.
  - destruct inp as [|x l]; [|destruct SD as (_ & F); cbn in F; congruence]. split; [apply untouched_refl; auto|auto].
  - destruct inp as [|x l]; [split; [apply untouched_refl; auto|auto]|]. cbn [rsa_enc_loop rsa_enc_loop_m] in *. set (inp := x :: l) in *. cbv zeta in *.
    set (b := if Z.of_nat (length inp) <? block then Z.of_nat (length inp) else block) in *.
    apply fair_room; [exact C|]. apply fair_onward; [eapply sound_bind; exact SD|apply enc_block_fair; [exact C|exact Lc|exact H|apply bytes_firstn; exact Bi|apply Br|eapply sound_bind; exact SD]|].
    intros o s1 EO U. pose proof (sound_then _ _ _ SD EO) as SD'. cbn beta in SD'.
    apply fair_onward; [eapply sound_bind; exact SD'|apply IH; [exact (proj1 U)|eapply holding_kept; [exact U|cbn [length]; lia|exact H]|apply bytes_skip; exact Bi|eapply sound_bind; exact SD']|].
    intros r s2 ER U2. split; [apply untouched_refl; exact (proj1 U2)|auto].
Qed.
Theorem encrypt_fair e s n c pad inp sign rnd : calm n s -> (c + 2 < n)%nat -> holding s c [N; E; D] -> bytes inp -> (forall i j, bytes (rnd i j)) ->
  sound (rsa_encrypt_gen (rkey N E D pad) inp sign rnd) ->
  unless_refused (rsa_encrypt_gen_m n c pad inp sign rnd) e s (returns e n (Err (-1)) (rsa_encrypt_gen (rkey N E D pad) inp sign rnd) s).
Proof.
  intros C Lc H Bi Br SD. unfold rsa_encrypt_gen_m, rsa_encrypt_gen in *. apply fair_unless. eapply fair_peek; [apply H|]. cbv zeta.
  change (rsa_n (rkey N E D pad)) with (ofZ N) in *. change (rsa_pad (rkey N E D pad)) with pad in *. cbv zeta in SD.
  destruct inp as [|x l]; [destruct SD; congruence|]. apply fair_unless. apply enc_loop_fair; auto.
Qed.
Lemma dec_loop_fair e n c pad sign : (c + 2 < n)%nat -> forall fuel inp buf outlen s, calm n s -> holding s c [N; E; D] -> bytes inp ->
  sound (rsa_dec_loop fuel (rkey N E D pad) inp sign buf outlen) ->
  unless_refused (rsa_dec_loop_m fuel n c pad inp sign buf outlen) e s (returns e n (Err (-1)) (rsa_dec_loop fuel (rkey N E D pad) inp sign buf outlen) s).
Proof.
  intros Lc. induction fuel as [|f IH]; intros inp buf outlen s C H Bi SD.
  - destruct inp as [|x l]; [|destruct SD as (_ & F); cbn in F; congruence]. split; [apply untouched_refl; auto|auto].
  - destruct inp as [|x l]; [split; [apply untouched_refl; auto|auto]|]. cbn [rsa_dec_loop rsa_dec_loop_m] in *. set (inp := x :: l) in *.
    apply fair_unless. eapply fair_peek; [apply H|]. apply fair_unless. change (rsa_n (rkey N E D pad)) with (ofZ N) in *. cbv zeta in *.
    destruct (Nat.ltb _ _); [split; [apply untouched_refl; auto|auto]|].
    apply fair_room; [exact C|]. apply fair_onward; [eapply sound_bind; exact SD|apply dec_block_fair; [exact C|exact Lc|exact H|apply bytes_firstn; exact Bi|eapply sound_bind; exact SD]|].
    intros o s1 EO U. pose proof (sound_then _ _ _ SD EO) as SD'. cbn beta in SD'.
    apply IH; [exact (proj1 U)|eapply holding_kept; [exact U|cbn [length]; lia|exact H]|apply bytes_skip; exact Bi|exact SD'].
Qed.
Theorem decrypt_fair e s n c pad inp sign : calm n s -> (c + 2 < n)%nat -> holding s c [N; E; D] -> bytes inp ->
  sound (rsa_decrypt_gen (rkey N E D pad) inp sign) ->
  unless_refused (rsa_decrypt_gen_m n c pad inp sign) e s (returns e n (Err (-1)) (rsa_decrypt_gen (rkey N E D pad) inp sign) s).
Proof.
  intros C Lc H Bi SD. unfold rsa_decrypt_gen_m, rsa_decrypt_gen in *. destruct inp as [|x l]; [destruct SD; congruence|]. set (inp := x :: l) in *.
  assert (X : forall v : res (list (option Z) * nat), (do ' (buf, k) <- v; Ok (firstn k buf)) = bind v (fun b => Ok (firstn (snd b) (fst b)))) by (intros [[b k]|cc| |]; reflexivity).
  rewrite X in *. apply fair_onward; [eapply sound_bind; exact SD|apply dec_loop_fair; auto; eapply sound_bind; exact SD|].
  intros [b k] s1 EO U. split; [apply untouched_refl; exact (proj1 U)|auto].
Qed.
Theorem verify_fair e s n c pad sg inp : calm n s -> (c + 2 < n)%nat -> holding s c [N; E; D] -> bytes sg ->
  sound (rsa_verify (rkey N E D pad) sg inp) ->
  unless_refused (rsa_verify_m n c pad sg inp) e s (returns e n (Err (-1)) (rsa_verify (rkey N E D pad) sg inp) s).
Proof.
  intros C Lc H Bi SD. unfold rsa_verify_m, rsa_verify in *. change (rsa_pad (rkey N E D pad)) with pad in *.
  apply fair_onward; [eapply sound_bind; exact SD|apply decrypt_fair; auto; eapply sound_bind; exact SD|].
  intros out s1 EO U. pose proof (sound_then _ _ _ SD EO) as SD'. cbn beta in SD'. destruct (match pad with PNone => _ | _ => _ end).
  - split; [apply untouched_refl; exact (proj1 U)|auto].
  - apply fair_onward; [eapply sound_bind; exact SD'| |].
    + apply fair_unless. apply fair_lift; [eapply sound_bind; exact SD'|]. split; [apply untouched_refl; exact (proj1 U)|auto].
    + intros b s2 EB U2. destruct b; (split; [apply untouched_refl; exact (proj1 U2)|auto]).
Qed.
End KEY.
