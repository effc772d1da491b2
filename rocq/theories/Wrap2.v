(** The wrapping functions against RFC 3394. *)
From Verif Require Import Base Lists BytesSpec Bytes Modes ModesModel ModesSpec AesModel AesSpec Aes4 Aes5 Rsa2 WrapModel WrapSpec Wrap.

Definition t8 (t : Z) : Z := t mod 256.
Lemma enc1 k c b : keyed k c -> dec c = false -> length b = 16%nat -> bytes b -> aes_encrypt c b = (c, fips_cipher k b).
Proof.
  intros K D L H. rewrite (call_enc k) by auto. cbn [fips_op]. rewrite cut16_id by (exists 1%nat; lia). unfold ecb. rewrite chunks_short by lia. cbn [map concat]. rewrite app_nil_r. reflexivity.
Qed.
Lemma dec1 k c b : keyed k c -> length b = 16%nat -> bytes b -> exists c', aes_decrypt c b = (c', fips_inv_cipher k b) /\ keyed k c'.
Proof.
  intros K L H. destruct (call_dec k c b K H) as (c' & E & K' & _). exists c'. split; auto. rewrite E. cbn [fips_op]. rewrite cut16_id by (exists 1%nat; lia). unfold ecb. rewrite chunks_short by lia. cbn [map concat]. rewrite app_nil_r. reflexivity.
Qed.
Definition mstep n (st : aes * list Z * list Z) (p : nat * nat) := wrap_step n (fst p) st (snd p).
Definition mun n (st : aes * list Z * list Z * option (list Z)) (p : nat * nat) := unwrap_step n (fst p) st (snd p).

Lemma iv_blk8 : blk8 iv.
Proof. split; [reflexivity|]. apply Forall_forall. intros x Hx. apply repeat_spec in Hx. subst. unfold byte. lia. Qed.

Section Run.
Variables (key : list Z).
Hypotheses (Hk : bytes key) (Lk : (16 <= length key)%nat).
Let k := firstn (aes_size (length key)) key.
Let E := fips_cipher k.
Let D := fips_inv_cipher k.
Lemma EL b : length b = 16%nat -> length (E b) = 16%nat. Proof. apply (aes_cipher key Hk Lk). Qed.
Lemma EB b : length b = 16%nat -> bytes b -> bytes (E b). Proof. apply (aes_cipher key Hk Lk). Qed.
Lemma DL b : length b = 16%nat -> length (D b) = 16%nat. Proof. apply (aes_cipher key Hk Lk). Qed.
Lemma DE b : length b = 16%nat -> bytes b -> D (E b) = b. Proof. apply (aes_cipher key Hk Lk). Qed.
Lemma DB b : length b = 16%nat -> bytes b -> bytes (D b). Proof. apply (aes_cipher_onto key Hk Lk). Qed.
Lemma ED b : length b = 16%nat -> bytes b -> E (D b) = b. Proof. apply (aes_cipher_onto key Hk Lk). Qed.

Lemma wrap_run c n tl ps : keyed k c -> dec c = false -> forall st, Forall (okp n) ps -> wf n st ->
  fold_left (mstep n) ps (c, fst st, concat (snd st) ++ tl) =
  let st' := fold_left (step t8 E n) ps st in (c, fst st', concat (snd st') ++ tl).
Proof.
  intros K Dc. induction ps as [|p ps IH]; intros st Hp W; [reflexivity|]. inversion Hp; subst. cbn [fold_left].
  pose proof (step_wf t8 E n EL EB st p W H1) as W'. specialize (IH _ H2 W'). cbv zeta in *. rewrite <- IH. f_equal.
  destruct st as [a R]. destruct W as (Ha & HR & L). cbn [fst snd] in *. destruct p as [i j]. unfold okp in H1. cbn [fst snd] in *.
  unfold mstep, wrap_step, step. cbn [fst snd]. rewrite get_blk by (auto; lia).
  destruct (join16 _ _ Ha (blk8_nth R (j - 1) HR ltac:(lia))) as [J1 J2]. rewrite (enc1 k) by auto. fold E.
  destruct (split16 _ (EL _ J1) (EB _ J1 J2)) as [S1 S2]. rewrite xor7_ok by auto. rewrite put_blk by (auto; lia). reflexivity.
Qed.
Lemma unwrap_run n tl ps : forall c st b, keyed k c -> Forall (okp n) ps -> wf n st ->
  let st' := fold_left (unstep t8 D n) ps st in
  exists c' b', fold_left (mun n) ps (c, fst st, concat (snd st) ++ tl, b) = (c', fst st', concat (snd st') ++ tl, b') /\ keyed k c' /\
    (ps = [] \/ exists x, b' = Some x /\ firstn 8 x = fst st').
Proof.
  induction ps as [|p ps IH] using rev_ind; intros c st b K Hp W; cbv zeta; [exists c, b; auto|].
  apply Forall_app in Hp as [Hps Hp]. inversion Hp as [|? ? H1 _]; subst. destruct (IH c st b K Hps W) as (c1 & b1 & E1 & K1 & _). rewrite !fold_left_app. cbn [fold_left].
  rewrite E1. pose proof (unfold_wf t8 D n DL DB ps st Hps W) as W1. set (st1 := fold_left (unstep t8 D n) ps st) in *. clearbody st1.
  destruct st1 as [a R]. destruct W1 as (Ha & HR & L). cbn [fst snd] in *. destruct p as [i j]. unfold okp in H1. cbn [fst snd] in *.
  unfold mun, unwrap_step. cbn [fst snd]. rewrite get_blk by (auto; lia). rewrite xor7_ok by auto.
  destruct (join16 _ _ (blk8_xor _ (tstep n (i, j) mod 256) Ha) (blk8_nth R (j - 1) HR ltac:(lia))) as [J1 J2].
  destruct (dec1 k c1 _ K1 J1 J2) as (c' & Ec & K'). rewrite Ec. fold D. rewrite put_blk by (auto; lia).
  eexists. eexists. split; [reflexivity|]. split; [exact K'|]. right. eexists. split; reflexivity.
Qed.

(** ** The functions *)
Lemma div8 p tl : whole 8 p -> (length tl < 8)%nat -> (length (p ++ tl) / 8)%nat = (length p / 8)%nat /\ (length p = 8 * (length p / 8))%nat.
Proof. intros [q Hq] Ht. rewrite app_length, Hq. replace (q * 8 + length tl)%nat with (length tl + q * 8)%nat by lia. rewrite !Nat.div_add, Nat.div_mul, Nat.div_small by lia. lia. Qed.
Lemma wrap_ok p tl : whole 8 p -> bytes p -> (length tl < 8)%nat -> cry_aes_wrap (p ++ tl) key = Ok (wrap8 E p ++ tl).
Proof.
  intros Wp Hp Ht. destruct (key_set_keyed key Hk Lk) as (c & Ec & Dc & K). fold k in K. destruct (div8 p tl Wp Ht) as [Ld Lp]. destruct (chunks8 p Wp Hp) as [CF CL].
  unfold cry_aes_wrap. rewrite Ec. cbn [bind]. rewrite Ld. set (n := (length p / 8)%nat) in *.
  change (fold_left (fun st i => fold_left (wrap_step n i) (seq 1 n) st) (seq 0 6) (c, repeat 166 8, p ++ tl)) with
    (fold_left (fun a x => fold_left (fun a y => mstep n a (x, y)) (seq 1 n) a) (seq 0 6) (c, iv, p ++ tl)).
  rewrite <- fold_prod. fold (steps n). rewrite <- (concat_chunks 8 p) at 1 by lia.
  pose proof (wrap_run c n tl (steps n) K Dc (iv, chunks 8 p) (steps_ok n) (conj iv_blk8 (conj CF CL))) as Er. cbv zeta in Er. cbn [fst snd] in Er. rewrite Er.
  unfold wrap8, wrap_with. fold n. rewrite <- app_assoc. reflexivity.
Qed.
Lemma unwrap_ok a p tl : length a = 8%nat -> bytes a -> whole 8 p -> bytes p -> (0 < length p)%nat -> (length tl < 8)%nat ->
  cry_aes_unwrap (a ++ p ++ tl) key = Ok (match unwrap8 D (a ++ p) with Some q => (0, q ++ tl) | None => (-1, repeat 0 (length (p ++ tl))) end).
Proof.
  intros La Ha Wp Hp Lp0 Ht. destruct (key_set_keyed key Hk Lk) as (c & Ec & Dc & K). fold k in K. destruct (div8 p tl Wp Ht) as [Ld Lp]. destruct (chunks8 p Wp Hp) as [CF CL].
  unfold cry_aes_unwrap. replace (Nat.ltb (length (a ++ p ++ tl)) 8) with false by (symmetry; apply Nat.ltb_ge; rewrite app_length; lia).
  rewrite Ec. cbn [bind]. replace (length (a ++ p ++ tl) - 8)%nat with (length (p ++ tl)) by (rewrite (app_length a); lia). rewrite Ld. set (n := (length p / 8)%nat) in *.
  rewrite firstn_exact, skipn_exact by auto.
  change (fold_left (fun st i => fold_left (unwrap_step n i) (rev (seq 1 n)) st) (rev (seq 0 6)) (c, a, p ++ tl, None)) with
    (fold_left (fun a x => fold_left (fun a y => mun n a (x, y)) (rev (seq 1 n)) a) (rev (seq 0 6)) (c, a, p ++ tl, None)).
  rewrite <- fold_prod_rev. fold (steps n). rewrite <- (concat_chunks 8 p) at 1 by lia.
  destruct (unwrap_run n tl (rev (steps n)) c (a, chunks 8 p) None K) as (c' & b' & Er & _ & Hb); [apply Forall_rev, steps_ok|split; [split; auto|auto]|]. cbn [fst snd] in Er.
  rewrite Er. unfold unwrap8, unwrap_with. replace (length (a ++ p) / 8 - 1)%nat with n.
  2:{ rewrite app_length, La. replace (8 + length p)%nat with (length p + 1 * 8)%nat by lia. rewrite Nat.div_add by lia. fold n. lia. }
  rewrite firstn_exact, skipn_exact by auto. fold t8. change (fun t : Z => t mod 256) with t8.
  assert (W : wf n (fold_left (unstep t8 D n) (rev (steps n)) (a, chunks 8 p))) by (apply unfold_wf; [exact DL|exact DB|apply Forall_rev, steps_ok|split; [split; auto|auto]]).
  set (st := fold_left (unstep t8 D n) (rev (steps n)) (a, chunks 8 p)) in *. destruct Hb as [Hb|(x & Ex & Hx)].
  - exfalso. assert (n <> 0)%nat by lia. apply (f_equal (@length _)) in Hb. rewrite rev_length in Hb. unfold steps in Hb. rewrite prod_length, !seq_length in Hb. cbn [length] in Hb. lia.
  - rewrite Ex, Hx. destruct W as ((L8 & _) & _). destruct (list_eq_dec Z.eq_dec (fst st) iv) as [->|Ne]; [reflexivity|].
    destruct (forallb (Z.eqb 166) (fst st)) eqn:F; [|reflexivity]. exfalso. apply Ne. rewrite forallb_forall in F. apply (list_eq 0); [auto|]. intros i Hi. transitivity 166; [|rewrite L8 in Hi; do 8 (destruct i as [|i]; [reflexivity|]); lia].
    symmetry. apply Z.eqb_eq. apply F. apply nth_In. exact Hi.
Qed.
Lemma wrap8_form p : whole 8 p -> bytes p -> exists a q, wrap8 E p = a ++ q /\ blk8 a /\ length q = length p /\ bytes q.
Proof.
  intros Wp Hp. destruct (chunks8 p Wp Hp) as [CF CL]. destruct (div8 p [] Wp ltac:(cbn; lia)) as [_ Lp]. unfold wrap8, wrap_with. set (n := (length p / 8)%nat) in *.
  assert (W : wf n (fold_left (step t8 E n) (steps n) (iv, chunks 8 p))) by (apply fold_wf; [exact EL|exact EB|apply steps_ok|split; [apply iv_blk8|auto]]).
  change (fun t : Z => t mod 256) with t8. set (st := fold_left _ _ _) in *. exists (fst st), (concat (snd st)). destruct W as (Wa & WR & WL). split; auto. split; auto.
  destruct (concat8 _ WR) as (_ & L & B). split; auto. lia.
Qed.
Lemma unwrap_wrap8 p : whole 8 p -> bytes p -> unwrap8 D (wrap8 E p) = Some p.
Proof.
  intros Wp Hp. destruct (chunks8 p Wp Hp) as [CF CL]. destruct (div8 p [] Wp ltac:(cbn; lia)) as [_ Lp]. unfold wrap8, wrap_with, unwrap8, unwrap_with. set (n := (length p / 8)%nat) in *.
  assert (W0 : wf n (iv, chunks 8 p)) by (split; [apply iv_blk8|auto]).
  assert (W : wf n (fold_left (step t8 E n) (steps n) (iv, chunks 8 p))) by (apply fold_wf; [exact EL|exact EB|apply steps_ok|auto]).
  pose proof (undo t8 E D n EL EB DL DB DE ED (steps n) _ (steps_ok n) W0) as U.
  change (fun t : Z => t mod 256) with t8. set (st := fold_left (step t8 E n) _ _) in *. destruct W as ((La & Ha) & WR & WL). destruct (concat8 _ WR) as (C1 & C2 & C3).
  replace (length (fst st ++ concat (snd st)) / 8 - 1)%nat with n.
  2:{ rewrite app_length, La, C2, WL. replace (8 + 8 * n)%nat with ((1 + n) * 8)%nat by lia. rewrite Nat.div_mul by lia. lia. }
  rewrite firstn_exact, skipn_exact by auto. rewrite C1. rewrite <- surjective_pairing, U. cbn [fst snd]. destruct (list_eq_dec Z.eq_dec iv iv); [|congruence]. rewrite concat_chunks by lia. reflexivity.
Qed.
Lemma wrap_unwrap8 a p q : blk8 a -> whole 8 p -> bytes p -> unwrap8 D (a ++ p) = Some q -> whole 8 q /\ bytes q /\ length q = length p /\ wrap8 E q = a ++ p.
Proof.
  intros Ha Wp Hp. destruct (chunks8 p Wp Hp) as [CF CL]. destruct (div8 p [] Wp ltac:(cbn; lia)) as [_ Lp]. unfold wrap8, wrap_with, unwrap8, unwrap_with. set (n := (length p / 8)%nat) in *.
  replace (length (a ++ p) / 8 - 1)%nat with n.
  2:{ destruct Ha. rewrite app_length, H. replace (8 + length p)%nat with (length p + 1 * 8)%nat by lia. rewrite Nat.div_add by lia. fold n. lia. }
  rewrite firstn_exact, skipn_exact by apply Ha. change (fun t : Z => t mod 256) with t8.
  assert (W0 : wf n (a, chunks 8 p)) by (split; auto).
  assert (W : wf n (fold_left (unstep t8 D n) (rev (steps n)) (a, chunks 8 p))) by (apply unfold_wf; [exact DL|exact DB|apply Forall_rev, steps_ok|auto]).
  pose proof (redo t8 E D n EL EB DL DB DE ED (steps n) _ (steps_ok n) W0) as U.
  set (st := fold_left (unstep t8 D n) _ _) in *. destruct W as (Wa & WR & WL). destruct (concat8 _ WR) as (C1 & C2 & C3).
  destruct (list_eq_dec Z.eq_dec (fst st) iv) as [Ei|]; [|discriminate]. intro Q. injection Q as <-.
  split; [exists n; lia|]. split; auto. split; [lia|]. rewrite C2, WL. replace (8 * n / 8)%nat with n by (rewrite Nat.mul_comm, Nat.div_mul; lia).
  rewrite C1, <- Ei, <- surjective_pairing, U. cbn [fst snd]. rewrite concat_chunks by lia. reflexivity.
Qed.
End Run.
(** * Up to 42 blocks the counter fits in a byte *)
Lemma fold_ext {A B} (P : B -> Prop) (f g : A -> B -> A) l : Forall P l -> (forall a b, P b -> f a b = g a b) -> forall a, fold_left f l a = fold_left g l a.
Proof. intros F H. induction F as [|b l Hb F IH]; intro a; [reflexivity|]. cbn [fold_left]. rewrite H by auto. apply IH. Qed.
Lemma t_small n : (n <= 42)%nat -> Forall (fun p => tstep n p mod 256 = tstep n p) (steps n).
Proof.
  intro H. apply Forall_forall. intros [j i] Hp. unfold steps in Hp. apply in_prod_iff in Hp as [Hj Hi]. apply in_seq in Hj, Hi. apply Z.mod_small. unfold tstep. cbn [fst snd].
  assert (n * j <= 42 * 5)%nat by (apply Nat.mul_le_mono; lia). assert (n * j + i <= 42 * j + 42)%nat by nia. nia.
Qed.
Lemma wrap8_rfc E p : (length p <= 8 * 42)%nat -> wrap8 E p = rfc_wrap E p.
Proof.
  intro H. assert (Hn : (length p / 8 <= 42)%nat) by (apply Nat.div_le_upper_bound; lia). unfold wrap8, rfc_wrap, wrap_with. set (n := (length p / 8)%nat) in *.
  rewrite (fold_ext _ (step (fun t => t mod 256) E n) (step (fun t => t) E n) (steps n) (t_small n Hn)); [reflexivity|]. intros a b Hb. unfold step. rewrite Hb. reflexivity.
Qed.
Lemma unwrap8_rfc D c : (length c <= 8 * 43)%nat -> unwrap8 D c = rfc_unwrap D c.
Proof.
  intro H. assert (Hn : (length c / 8 - 1 <= 42)%nat) by (assert (length c / 8 <= 43)%nat by (apply Nat.div_le_upper_bound; lia); lia). unfold unwrap8, rfc_unwrap, unwrap_with. set (n := (length c / 8 - 1)%nat) in *.
  rewrite (fold_ext _ (unstep (fun t => t mod 256) D n) (unstep (fun t => t) D n) (rev (steps n)) (Forall_rev (t_small n Hn))); [reflexivity|]. intros a b Hb. unfold unstep. rewrite Hb. reflexivity.
Qed.
(** * The statements *)
Lemma cut8 w : (16 <= length w)%nat -> exists a p tl, w = a ++ p ++ tl /\ length a = 8%nat /\ whole 8 p /\ (0 < length p)%nat /\ (length tl < 8)%nat.
Proof.
  intro L. set (q := ((length w - 8) / 8)%nat). pose proof (Nat.div_mod (length w - 8) 8 ltac:(lia)) as Dm. pose proof (Nat.mod_upper_bound (length w - 8) 8 ltac:(lia)) as Mb. fold q in Dm.
  assert (Q1 : (1 <= q)%nat) by (apply Nat.div_le_lower_bound; lia).
  exists (firstn 8 w), (firstn (8 * q) (skipn 8 w)), (skipn (8 * q) (skipn 8 w)). rewrite !firstn_skipn, firstn_length, firstn_length, !skipn_length.
  split; auto. split; [lia|]. split; [exists q; rewrite firstn_length, skipn_length; lia|]. split; lia.
Qed.
Lemma unwrap_short w key : (length w < 16)%nat -> bytes key -> (16 <= length key)%nat -> cry_aes_unwrap w key = UB.
Proof.
  intros L Hk Lk. unfold cry_aes_unwrap. destruct (Nat.ltb_spec (length w) 8); [reflexivity|]. destruct (key_set_keyed key Hk Lk) as (c & Ec & _). rewrite Ec. cbn [bind].
  rewrite (Nat.div_small (length w - 8) 8) by lia. reflexivity.
Qed.
Lemma wrap_roundtrip key l : bytes key -> (16 <= length key)%nat -> bytes l -> (8 <= length l)%nat ->
  exists w, cry_aes_wrap l key = Ok w /\ length w = (length l + 8)%nat /\ bytes w /\ cry_aes_unwrap w key = Ok (0, l).
Proof.
  intros Hk Lk Hl L. destruct (cut8 (repeat 0 8 ++ l)) as (a & p & tl & E & La & Wp & Lp & Lt); [rewrite app_length, repeat_length; lia|].
  assert (El : l = p ++ tl) by (apply (f_equal (skipn 8)) in E; rewrite !skipn_exact in E by auto; exact E). subst l. apply Forall_app in Hl as [Hp Ht].
  eexists. split; [apply wrap_ok; auto|]. destruct (wrap8_form key Hk Lk p Wp Hp) as (a' & q & Ew & [La' Ha'] & Lq & Hq).
  assert (Wq : whole 8 q) by (destruct Wp as [m Em]; exists m; lia). rewrite Ew, <- app_assoc, !app_length. split; [lia|]. split; [repeat (apply Forall_app; split; auto)|].
  rewrite unwrap_ok by (auto; lia). rewrite <- Ew, unwrap_wrap8 by auto. reflexivity.
Qed.
Lemma unwrap_sound key w x : bytes key -> (16 <= length key)%nat -> bytes w -> cry_aes_unwrap w key = Ok (0, x) -> cry_aes_wrap x key = Ok w.
Proof.
  intros Hk Lk Hw. destruct (Nat.ltb_spec (length w) 16); [rewrite unwrap_short by auto; discriminate|]. destruct (cut8 w) as (a & p & tl & -> & La & Wp & Lp & Lt); [lia|].
  apply Forall_app in Hw as [Ha Hw]. apply Forall_app in Hw as [Hp Ht]. rewrite unwrap_ok by auto. set (k := firstn _ key). destruct (unwrap8 (fips_inv_cipher k) (a ++ p)) as [q|] eqn:U; [|discriminate].
  intro Q. injection Q as <-. destruct (wrap_unwrap8 key Hk Lk a p q (conj La Ha) Wp Hp U) as (Wq & Hq & _ & Ew). rewrite wrap_ok by auto. fold k. fold k in Ew. rewrite Ew, <- app_assoc. reflexivity.
Qed.
Lemma unwrap_total key w : bytes key -> (16 <= length key)%nat -> bytes w -> (16 <= length w)%nat ->
  exists rc x, cry_aes_unwrap w key = Ok (rc, x) /\ length x = (length w - 8)%nat /\ (rc = 0 \/ rc = -1 /\ x = repeat 0 (length w - 8)).
Proof.
  intros Hk Lk Hw L. destruct (cut8 w L) as (a & p & tl & -> & La & Wp & Lp & Lt). apply Forall_app in Hw as [Ha Hw]. apply Forall_app in Hw as [Hp Ht].
  rewrite unwrap_ok by auto. set (k := firstn _ key). replace (length (a ++ p ++ tl) - 8)%nat with (length (p ++ tl)) by (rewrite (app_length a); lia).
  destruct (unwrap8 (fips_inv_cipher k) (a ++ p)) as [q|] eqn:U.
  - destruct (wrap_unwrap8 key Hk Lk a p q (conj La Ha) Wp Hp U) as (_ & _ & Lq & _). do 2 eexists. split; [reflexivity|]. rewrite !app_length, Lq. auto.
  - do 2 eexists. split; [reflexivity|]. rewrite repeat_length. auto.
Qed.
Lemma wrap_rfc key p : bytes key -> (16 <= length key)%nat -> bytes p -> (length p mod 8 = 0)%nat -> (length p <= 8 * 42)%nat ->
  cry_aes_wrap p key = Ok (rfc_wrap (fips_cipher (firstn (aes_size (length key)) key)) p).
Proof.
  intros Hk Lk Hp Wp L. assert (W : whole 8 p) by (exists (length p / 8)%nat; pose proof (Nat.div_mod (length p) 8 ltac:(lia)); lia).
  rewrite <- (app_nil_r p) at 1. rewrite wrap_ok by (auto; cbn; lia). rewrite app_nil_r, wrap8_rfc by auto. reflexivity.
Qed.
Lemma wrap_exact key p tl : bytes key -> (16 <= length key)%nat -> bytes p -> (length p mod 8 = 0)%nat -> (length tl < 8)%nat ->
  cry_aes_wrap (p ++ tl) key = Ok (wrap8 (fips_cipher (firstn (aes_size (length key)) key)) p ++ tl).
Proof.
  intros Hk Lk Hp Wp L. assert (W : whole 8 p) by (exists (length p / 8)%nat; pose proof (Nat.div_mod (length p) 8 ltac:(lia)); lia). apply wrap_ok; auto.
Qed.
Lemma unwrap_rfc key w : bytes key -> (16 <= length key)%nat -> bytes w -> (length w mod 8 = 0)%nat -> (16 <= length w <= 8 * 43)%nat ->
  cry_aes_unwrap w key = Ok (match rfc_unwrap (fips_inv_cipher (firstn (aes_size (length key)) key)) w with Some q => (0, q) | None => (-1, repeat 0 (length w - 8)) end).
Proof.
  intros Hk Lk Hw Ww L. assert (Em : length w = (8 * (length w / 8))%nat) by (pose proof (Nat.div_mod (length w) 8 ltac:(lia)); lia). set (q := (length w / 8)%nat) in *.
  assert (Q2 : (2 <= q)%nat) by lia.
  rewrite <- unwrap8_rfc by lia. assert (Ew : w = firstn 8 w ++ skipn 8 w) by (symmetry; apply firstn_skipn). revert Ew. set (a := firstn 8 w). set (p := skipn 8 w).
  assert (La : length a = 8%nat) by (unfold a; rewrite firstn_length; lia). assert (Lp : length p = (8 * (q - 1))%nat) by (unfold p; rewrite skipn_length; lia).
  assert (Ha : bytes a) by (apply bytes_firstn; auto). assert (Hp : bytes p) by (apply bytes_skipn; auto). intro Ew. clearbody a p. subst w.
  rewrite <- (app_nil_r p) at 1. rewrite unwrap_ok; auto.
  - rewrite app_nil_r. replace (length (a ++ p) - 8)%nat with (length p) by (rewrite app_length; lia). destruct (unwrap8 _ _); [rewrite app_nil_r|]; reflexivity.
  - exists (q - 1)%nat. lia.
  - lia.
  - cbn. lia.
Qed.
(** ** Beyond: the same cipher given by the model, for a cheaper computation *)
Lemma wrap_with_ext tv E E' p : (forall b, length b = 16%nat -> bytes b -> E b = E' b) -> (forall b, length b = 16%nat -> length (E b) = 16%nat) -> (forall b, length b = 16%nat -> bytes b -> bytes (E b)) ->
  whole 8 p -> bytes p -> wrap_with tv E p = wrap_with tv E' p.
Proof.
  intros X EL EB Wp Hp. destruct (chunks8 p Wp Hp) as [CF CL]. unfold wrap_with. set (n := (length p / 8)%nat) in *.
  assert (G : forall ps st, Forall (okp n) ps -> wf n st -> fold_left (step tv E n) ps st = fold_left (step tv E' n) ps st).
  { induction ps as [|q ps IH]; intros st F W; [reflexivity|]. inversion F; subst. cbn [fold_left]. rewrite IH by (auto using step_wf). f_equal.
    destruct W as (Ha & HR & L). unfold okp in H1. destruct (join16 _ _ Ha (blk8_nth (snd st) (snd q - 1) HR ltac:(lia))) as [J1 J2]. unfold step. rewrite X by auto. reflexivity. }
  rewrite G; [reflexivity|apply steps_ok|split; [apply iv_blk8|auto]].
Qed.
Definition key0 : list Z := repeat 0 16.
Definition data0 : list Z := repeat 0 (8 * 43).
Definition aes0 : aes := match aes_key_set key0 with Ok c => c | _ => {| keys := []; nr := 0; dec := false |} end.
Lemma bytes_zero n : bytes (repeat 0 n).
Proof. apply Forall_forall. intros x Hx. apply repeat_spec in Hx. subst. unfold byte. lia. Qed.
Lemma whole_data0 : whole 8 data0.
Proof. exists 43%nat. reflexivity. Qed.
Lemma key_set_enc key c b : bytes key -> length key = 16%nat -> aes_key_set key = Ok c -> length b = 16%nat -> bytes b -> fips_cipher key b = snd (aes_encrypt c b).
Proof.
  intros Hk Lk Ec L H. destruct (key_set_keyed key Hk ltac:(lia)) as (c' & Ec' & Dc & K). rewrite Ec in Ec'. injection Ec' as <-.
  rewrite Lk in K. change (aes_size 16) with 16%nat in K. rewrite <- Lk, firstn_all in K.
  rewrite (enc1 key c b K Dc L H). reflexivity.
Qed.
Lemma aes0_eq : aes_key_set key0 = Ok aes0.
Proof. vm_compute. reflexivity. Qed.
Lemma aes0_ext b : length b = 16%nat -> bytes b -> fips_cipher key0 b = snd (aes_encrypt aes0 b).
Proof. exact (key_set_enc key0 aes0 b (bytes_zero 16) eq_refl aes0_eq). Qed.
Lemma beyond_42 : cry_aes_wrap data0 key0 <> Ok (rfc_wrap (fips_cipher key0) data0).
Proof.
  unfold rfc_wrap. rewrite (wrap_with_ext _ _ _ data0 aes0_ext); [| | |exact whole_data0|apply bytes_zero].
  - intro H. apply (f_equal (fun r => match r with Ok l => nth 0 l 0 | _ => 0 end)) in H. revert H. vm_compute. discriminate.
  - apply (aes_cipher key0 (bytes_zero _)). cbn. lia.
  - apply (aes_cipher key0 (bytes_zero _)). cbn. lia.
Qed.
