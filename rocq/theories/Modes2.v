(** Proofs about CFB and CTR. *)
From Verif Require Import Base Bits Lists BytesSpec Bytes ModesModel ModesSpec Modes.
Ltac Zify.zify_post_hook ::= idtac.

(** * CFB, full blocks *)
Lemma cfb_f_ok E n : (0 < n)%nat -> (forall b, length b = n -> length (E b) = n) ->
  forall l fuel v after, length v = n -> (length l < fuel)%nat -> (n <= length after)%nat ->
  exists v', cfb_crypt_f fuel E n v l after = Ok (v', concat (cfb_spec E v (chunks n l))) /\
    (whole n l -> v' = last (cfb_spec E v (chunks n l)) v).
Proof.
  intros Hn HE. apply (block_ind n (fun l => forall fuel v after, length v = n -> (length l < fuel)%nat -> (n <= length after)%nat ->
    exists v', cfb_crypt_f fuel E n v l after = Ok (v', concat (cfb_spec E v (chunks n l))) /\
    (whole n l -> v' = last (cfb_spec E v (chunks n l)) v))); auto.
  - intros l Hl fuel v after Hv Hf Ha. destruct fuel; [lia|]. cbn [cfb_crypt_f].
    destruct (Nat.leb_spec n (length l)); [lia|]. destruct l as [|x l].
    { exists v. split; auto. }
    destruct (Nat.ltb_spec (length after) (n - length (x :: l))); [lia|].
    eexists. split.
    + rewrite chunks_short by (simpl in *; lia). cbn [cfb_spec concat]. rewrite app_nil_r. reflexivity.
    + intros W. apply whole_ge in W; [lia|discriminate].
  - intros a r Ha IH fuel v after Hv Hf Hl. destruct fuel; [lia|]. cbn [cfb_crypt_f].
    rewrite app_length in *. destruct (Nat.leb_spec n (length a + length r)); [|lia].
    rewrite firstn_exact, skipn_exact by auto. set (o := xorl a (E v)).
    assert (Lo : length o = n) by (unfold o; rewrite xorl_length, HE; lia).
    destruct (IH fuel o after) as (v' & Q & W'); auto; try lia. rewrite Q. cbn [bind].
    exists v'. rewrite chunks_app by auto. cbn [cfb_spec]. fold o. split; [reflexivity|].
    intros W. assert (Wr : whole n r).
    { unfold whole in *. rewrite app_length, Ha in W. apply (Nat.divide_add_cancel_r n n); auto. exists 1%nat. lia. }
    rewrite (W' Wr). destruct (cfb_spec E o (chunks n r)) eqn:X; [reflexivity|].
    change (last (l :: l0) o = last (l :: l0) v). apply last_default. discriminate.
Qed.
Lemma cfb_encrypt_spec E iv m after : (0 < length iv <= 16)%nat -> (forall b, length b = length iv -> length (E b) = length iv) ->
  (length iv <= length after)%nat ->
  exists c, cfb_crypt E (cfb_iv_set iv) m after = Ok (c, concat (cfb_spec E iv (chunks (length iv) m))).
Proof.
  intros Hn HE Ha. unfold cfb_iv_set. rewrite Nat.min_r, firstn_all by lia. unfold cfb_crypt. cbn [cfb_len cfb_v].
  destruct (cfb_f_ok E (length iv)) with (l := m) (fuel := S (length m)) (v := iv) (after := after) as (v' & Q & _); auto; try lia.
  rewrite Q. cbn [bind]. eexists. reflexivity.
Qed.
Lemma cfb_one_block E iv m after after' : (0 < length iv <= 16)%nat -> (forall b, length b = length iv -> length (E b) = length iv) ->
  (length iv <= length after)%nat -> (length iv <= length after')%nat -> (length m <= length iv)%nat ->
  exists c e c', cfb_crypt E (cfb_iv_set iv) m after = Ok (c, e) /\ cfb_crypt E (cfb_iv_set iv) e after' = Ok (c', m).
Proof.
  intros Hn HE Ha Ha' Hm.
  destruct (cfb_encrypt_spec E iv m after Hn HE Ha) as (c & Q).
  destruct m as [|x m].
  { exists c. eexists. destruct (cfb_encrypt_spec E iv [] after' Hn HE Ha') as (c' & Q').
    exists c'. split; [exact Q|]. exact Q'. }
  rewrite chunks_short in Q by (simpl in *; lia). cbn [cfb_spec concat] in Q. rewrite app_nil_r in Q.
  set (e := xorl (x :: m) (E iv)) in *.
  assert (Le : length e = length (x :: m)). { unfold e. rewrite xorl_length, HE by auto. lia. }
  destruct (cfb_encrypt_spec E iv e after' Hn HE Ha') as (c' & Q').
  rewrite chunks_short in Q' by (try rewrite Le; simpl in *; lia). cbn [cfb_spec concat] in Q'. rewrite app_nil_r in Q'.
  exists c, e, c'. split; [exact Q|]. rewrite Q'. do 2 f_equal. apply xorl_invol. rewrite HE; auto.
Qed.

(** * CFB, 8-bit segments *)
Fixpoint cfb8_dec_spec (E : list Z -> list Z) (reg : list Z) (cs : list Z) : list Z :=
  match cs with
  | [] => []
  | c :: r => Z.lxor c (nth 0 (E reg) 0) :: cfb8_dec_spec E (skipn 1 reg ++ [c]) r
  end.
Lemma cfb8_dec_enc_spec E m : forall reg, cfb8_dec_spec E reg (cfb8_spec E reg m) = m.
Proof.
  induction m; intros reg; [reflexivity|]. cbn [cfb8_spec cfb8_dec_spec]. rewrite IHm. f_equal.
  rewrite Z.lxor_assoc, Z.lxor_nilpotent, Z.lxor_0_r. reflexivity.
Qed.
(** register after a ciphertext *)
Definition shift_in (n : nat) (reg cs : list Z) : list Z := skipn (length cs) (reg ++ cs).
Lemma shift_in_cons n (reg : list Z) c cs : (0 < length reg)%nat -> shift_in n reg (c :: cs) = shift_in n (skipn 1 reg ++ [c]) cs.
Proof.
  intros H. unfold shift_in. cbn [length]. rewrite <- app_assoc. cbn [app]. destruct reg; [simpl in H; lia|]. reflexivity.
Qed.
Lemma skipn_S_tl {A} k (l : list A) : skipn (S k) l = skipn 1 (skipn k l).
Proof. rewrite skipn_skipn. f_equal. lia. Qed.
Lemma reg_step n (buf : list Z) pos c : length buf = (2 * n)%nat -> (pos < n)%nat ->
  firstn n (skipn (S pos) (upd buf (pos + n) c)) = skipn 1 (firstn n (skipn pos buf)) ++ [c].
Proof.
  intros L Hp. apply (list_eq 0).
  - rewrite firstn_length, skipn_length, upd_length, app_length, skipn_length, firstn_length, skipn_length. simpl length. lia.
  - intros i Hi. rewrite firstn_length, skipn_length, upd_length in Hi.
    assert (F : forall (l : list Z) k m, (k < m)%nat -> nth k (firstn m l) 0 = nth k l 0).
    { clear. intros l k m. revert l k. induction m; intros [|x l] [|k] H; simpl; auto; try lia. apply IHm. lia. }
    assert (K : forall (l : list Z) k m, nth k (skipn m l) 0 = nth (m + k) l 0).
    { clear. intros l k m. revert l. induction m; intros [|x l]; simpl; auto; destruct k; auto. }
    rewrite F, K by lia.
    destruct (Nat.eq_dec i (n - 1)) as [->|N].
    + rewrite app_nth2 by (rewrite skipn_length, firstn_length, skipn_length; lia).
      rewrite skipn_length, firstn_length, skipn_length. replace (n - 1 - (Nat.min n (length buf - pos) - 1))%nat with 0%nat by lia.
      replace (S pos + (n - 1))%nat with (pos + n)%nat by lia. cbn [nth]. rewrite nth_upd_same by lia. reflexivity.
    + rewrite app_nth1 by (rewrite skipn_length, firstn_length, skipn_length; lia).
      rewrite K, F, K by lia. rewrite nth_upd_other by lia. f_equal. lia.
Qed.
Lemma cfb8_enc_ok E n : (0 < n)%nat -> forall l buf pos, length buf = (2 * n)%nat -> (pos <= n)%nat ->
  exists b p, cfb8_enc_f E n buf pos l = (b, p, cfb8_spec E (firstn n (skipn pos buf)) l) /\
    firstn n (skipn p b) = shift_in n (firstn n (skipn pos buf)) (cfb8_spec E (firstn n (skipn pos buf)) l) /\ length (firstn n (skipn p b)) = n.
Proof.
  intros Hn. induction l as [|x l IH]; intros buf pos L Hp.
  { exists buf, pos. split; [reflexivity|]. cbn [cfb8_spec]. unfold shift_in. cbn [length skipn].
    rewrite app_nil_r. split; auto. rewrite firstn_length, skipn_length. lia. }
  cbn [cfb8_enc_f].
  assert (S1 : forall buf pos, length buf = (2 * n)%nat -> (pos < n)%nat ->
    exists b p, (let v := E (firstn n (skipn pos buf)) in
                 let c := Z.lxor x (nth 0 v 0) in
                 let '(b, p, o) := cfb8_enc_f E n (upd buf (pos + n) c) (S pos) l in (b, p, c :: o)) =
                (b, p, cfb8_spec E (firstn n (skipn pos buf)) (x :: l)) /\
     firstn n (skipn p b) = shift_in n (firstn n (skipn pos buf)) (cfb8_spec E (firstn n (skipn pos buf)) (x :: l)) /\ length (firstn n (skipn p b)) = n).
  { clear buf pos L Hp. intros buf pos L Hp. cbn zeta.
    set (c := Z.lxor x (nth 0 (E (firstn n (skipn pos buf))) 0)).
    destruct (IH (upd buf (pos + n) c) (S pos)) as (b & p & Q & S1 & S2). { now rewrite upd_length. } { lia. }
    rewrite Q. exists b, p. rewrite reg_step in * by auto. cbn [cfb8_spec]. fold c. split; [reflexivity|]. split; [|exact S2].
    rewrite shift_in_cons; auto. rewrite firstn_length, skipn_length. lia. }
  destruct (Nat.eqb_spec pos n) as [->|N].
  - assert (Lb : length (skipn n buf ++ skipn n buf) = (2 * n)%nat) by (rewrite app_length, !skipn_length; lia).
    destruct (S1 (skipn n buf ++ skipn n buf) O Lb Hn) as (b & p & Q & S2). cbn [skipn] in Q, S2.
    rewrite firstn_exact in Q, S2 by (rewrite skipn_length; lia).
    exists b, p. rewrite (firstn_all2 (n := n) (skipn n buf)) by (rewrite skipn_length; lia).
    assert (FF : firstn n (skipn 0 (skipn n buf ++ skipn n buf)) = skipn n buf) by (cbn [skipn]; apply firstn_exact; rewrite skipn_length; lia).
    rewrite FF. split; [exact Q|]. exact S2.
  - apply S1; auto. lia.
Qed.
Lemma cfb8_encrypt_ok E junk iv m : (0 < length iv <= 16)%nat ->
  let c := cfb8_spec E iv m in
  cfb8_encrypt E junk (cfb_iv_set iv) m = ({| cfb_v := shift_in (length iv) iv c; cfb_len := length iv |}, c).
Proof.
  intros Hn c. unfold cfb_iv_set. rewrite Nat.min_r, firstn_all by lia. unfold cfb8_encrypt. cbn [cfb_len cfb_v].
  set (buf := iv ++ _).
  assert (Lb : length buf = (2 * length iv)%nat).
  { unfold buf. rewrite app_length, firstn_length, app_length, repeat_length. lia. }
  assert (Fb : firstn (length iv) (skipn 0 buf) = iv). { cbn [skipn]. unfold buf. now apply firstn_exact. }
  destruct (cfb8_enc_ok E (length iv) ltac:(lia) m buf O Lb ltac:(lia)) as (b & p & Q & S1 & _).
  rewrite Fb in *. rewrite Q. fold c in S1. rewrite S1. reflexivity.
Qed.

(** decryption of at most one window *)
Lemma dec_spec_keys E l : forall reg, (length l <= length reg)%nat ->
  cfb8_dec_spec E reg l = xorl l (map (fun k => nth 0 (E (firstn (length reg) (skipn k (reg ++ l)))) 0) (seq 0 (length l))).
Proof.
  induction l as [|c l IH]; intros reg H; [reflexivity|]. cbn [cfb8_dec_spec length seq map].
  cbn [xorl]. f_equal.
  - cbn [skipn]. rewrite firstn_exact by auto. reflexivity.
  - simpl length in H. rewrite IH by (rewrite app_length, skipn_length; simpl length; lia). f_equal.
    rewrite <- seq_shift, map_map. apply map_ext_in. intros k Hk. apply in_seq in Hk.
    do 2 f_equal. rewrite app_length, skipn_length. simpl length. replace (length reg - 1 + 1)%nat with (length reg) by lia.
    f_equal. destruct reg as [|r reg]; [simpl in H; lia|]. cbn [skipn app]. rewrite <- app_assoc. reflexivity.
Qed.
Lemma dec_spec_app E a : forall reg b, (0 < length reg)%nat ->
  cfb8_dec_spec E reg (a ++ b) = cfb8_dec_spec E reg a ++ cfb8_dec_spec E (shift_in (length reg) reg a) b.
Proof.
  induction a; intros reg b H. { unfold shift_in. cbn [length skipn app cfb8_dec_spec]. now rewrite app_nil_r. }
  cbn [app cfb8_dec_spec]. rewrite IHa by (rewrite app_length, skipn_length; simpl; lia). cbn [app]. f_equal. f_equal.
  f_equal. rewrite shift_in_cons by auto. reflexivity.
Qed.
Lemma cfb8_dec_f_ok E n : (0 < n)%nat -> forall fuel l reg up i, length reg = n -> length up = n ->
  firstn (Nat.min n (length l)) up = firstn n l -> (length l <= fuel)%nat ->
  exists b j, cfb8_dec_f fuel E n (reg ++ up) i l = Ok (b, j, cfb8_dec_spec E reg l) /\
    (l = [] -> b = reg ++ up /\ j = i) /\
    (l <> [] -> whole n l -> firstn n (skipn j b) = shift_in n reg l).
Proof.
  intros Hn. induction fuel; intros l reg up i Lr Lu Hu Hf.
  { destruct l; [|simpl in Hf; lia]. exists (reg ++ up), i. split; [reflexivity|]. split; [auto|congruence]. }
  destruct l as [|x l]. { exists (reg ++ up), i. split; [reflexivity|]. split; [auto|congruence]. }
  set (L := x :: l) in *. assert (NL : L <> []) by discriminate. assert (PL : (0 < length L)%nat) by (simpl; lia).
  assert (Eq : cfb8_dec_f (S fuel) E n (reg ++ up) i L =
    let i := Nat.min n (length L) in
          let o := xorl (firstn i L) (cfb8_keys E n (reg ++ up) i) in
          let src := skipn i L in
          let buf := cfb8_fill n (skipn n (reg ++ up) ++ skipn n (reg ++ up)) src in
          do ' (b, i, r) <- cfb8_dec_f fuel E n buf i src;
          Ok (b, i, o ++ r)) by reflexivity.
  clearbody L. rewrite Eq. clear Eq x l. cbn zeta. set (k := Nat.min n (length L)) in *.
  rewrite skipn_exact by auto.
  assert (Fk : firstn k L = firstn n L).
  { unfold k. destruct (Nat.min_spec n (length L)) as [[_ ->]|[G ->]]; auto. rewrite firstn_all, firstn_all2; auto. }
  assert (O1 : xorl (firstn k L) (cfb8_keys E n (reg ++ up) k) = cfb8_dec_spec E reg (firstn k L)).
  { rewrite dec_spec_keys by (rewrite firstn_length; lia). f_equal. unfold cfb8_keys.
    rewrite firstn_length. replace (Nat.min k (length L)) with k by (unfold k; lia).
    apply map_ext_in. intros j Hj. apply in_seq in Hj. do 2 f_equal. rewrite Lr.
    rewrite Fk, <- Hu. rewrite <- (firstn_skipn k up) at 1.
    rewrite app_assoc. rewrite (skipn_app j (reg ++ firstn k up)), (firstn_app n (skipn j (reg ++ firstn k up))).
    set (q := (n - length _)%nat). assert (Q0 : q = O).
    { unfold q. rewrite skipn_length, app_length, firstn_length. lia. }
    rewrite Q0. cbn [firstn]. rewrite app_nil_r. reflexivity. }
  rewrite O1.
  set (src := skipn k L) in *.
  assert (ES : L = firstn k L ++ src) by (symmetry; apply firstn_skipn).
  assert (CS : src = [] \/ src <> []) by (destruct src; [left; reflexivity|right; discriminate]).
  destruct CS as [Es|NS].
  - (* last window *)
    rewrite Es in *. rewrite app_nil_r in ES. set (buf := cfb8_fill _ _ _).
    assert (D0 : cfb8_dec_f fuel E n buf k [] = Ok (buf, k, [])) by (destruct fuel; reflexivity).
    rewrite D0. cbn [bind]. exists buf, k. rewrite <- ES, app_nil_r. split; [reflexivity|]. split; [congruence|].
    intros _ W. assert (Kn : k = n /\ length L = n).
    { pose proof (whole_ge n L W NL). assert (length L = length (firstn k L)) by congruence. rewrite firstn_length in *. unfold k in *. lia. }
    destruct Kn as [Kn KL]. unfold buf, cfb8_fill. rewrite firstn_nil. cbn [length app]. rewrite Nat.add_0_r, firstn_skipn.
    rewrite Kn, skipn_exact by auto. rewrite firstn_all2 by lia.
    unfold shift_in. rewrite KL, skipn_exact by auto. rewrite Kn in Hu.
    rewrite !firstn_all2 in Hu by lia. exact Hu.
  -
    assert (LS : (0 < length src)%nat) by (destruct src; [congruence|simpl; lia]).
    assert (Kn : k = n). { unfold src in LS. rewrite skipn_length in LS. unfold k in *. lia. }
    unfold cfb8_fill. rewrite firstn_exact by auto.
    assert (Ru : up = firstn k L). { rewrite Fk, <- Hu. symmetry. apply firstn_all2. lia. }
    set (up2 := firstn n src ++ skipn (n + length (firstn n src)) (up ++ up)).
    assert (Lu2 : length up2 = n).
    { unfold up2. rewrite app_length, skipn_length, app_length, Lu, firstn_length. lia. }
    destruct (IHfuel src up up2 k) as (b & j & Q & _ & SH); auto.
    { unfold up2. rewrite firstn_app, firstn_firstn, firstn_length.
      replace (Nat.min (Nat.min n (length src)) n) with (Nat.min n (length src)) by lia.
      rewrite Nat.sub_diag. cbn [firstn]. rewrite app_nil_r.
      destruct (Nat.min_spec n (length src)) as [[_ ->]|[G ->]]; auto. rewrite firstn_all, firstn_all2; auto. }
    { unfold src. rewrite skipn_length. lia. }
    rewrite Q. cbn [bind]. exists b, j.
    assert (SI : shift_in n reg (firstn k L) = up).
    { unfold shift_in. rewrite <- Ru, Lu. apply skipn_exact. lia. }
    split; [|split; [congruence|]].
    + do 2 f_equal. rewrite ES at 2. rewrite dec_spec_app by lia. rewrite Lr, SI. reflexivity.
    + intros _ W. rewrite SH; auto.
      * unfold shift_in. rewrite ES. rewrite <- Ru. rewrite app_length, Lu.
        rewrite <- (skipn_skipn (length src) n), (skipn_exact reg (up ++ src) n) by auto. reflexivity.
      * unfold whole in *. unfold src. rewrite skipn_length, Kn. apply Nat.divide_sub_r; auto. exists 1%nat. lia.
Qed.
Lemma fill_upper n v junk src : length v = n -> exists up, cfb8_fill n (v ++ firstn n (junk ++ repeat 0 n)) src = v ++ up /\
  length up = n /\ firstn (Nat.min n (length src)) up = firstn n src.
Proof.
  intros L. unfold cfb8_fill. rewrite firstn_exact by auto. eexists. split; [reflexivity|].
  assert (LJ : length (firstn n (junk ++ repeat 0 n)) = n).
  { rewrite firstn_length, app_length, repeat_length. lia. }
  split.
  - rewrite app_length, skipn_length, app_length, LJ, firstn_length. lia.
  - rewrite firstn_app, firstn_firstn, firstn_length. rewrite Nat.sub_diag. cbn [firstn]. rewrite app_nil_r.
    replace (Nat.min (Nat.min n (length src)) n) with (Nat.min n (length src)) by lia.
    destruct (Nat.min_spec n (length src)) as [[_ ->]|[G ->]]; auto. rewrite firstn_all, firstn_all2; auto.
Qed.
Lemma cfb8_decrypt_ok E junk iv cs : (0 < length iv <= 16)%nat ->
  exists c, cfb8_decrypt E junk (cfb_iv_set iv) cs = Ok (c, cfb8_dec_spec E iv cs) /\ cfb_len c = length iv /\
    (whole (length iv) cs -> cfb_v c = shift_in (length iv) iv cs).
Proof.
  intros Hn. unfold cfb_iv_set. rewrite Nat.min_r, firstn_all by lia. unfold cfb8_decrypt. cbn [cfb_len cfb_v].
  destruct (fill_upper (length iv) iv junk cs eq_refl) as (up & E1 & Lu & Hu). rewrite E1.
  destruct (cfb8_dec_f_ok E (length iv) ltac:(lia) (S (length cs)) cs iv up O) as (b & j & Q & Q0 & Q1); auto.
  rewrite Q. cbn [bind]. eexists. split; [reflexivity|]. split; [reflexivity|]. cbn [cfb_v]. intros W.
  destruct cs as [|x cs].
  - destruct (Q0 eq_refl) as [-> ->]. cbn [skipn]. unfold shift_in. cbn [length skipn]. rewrite firstn_exact by auto. now rewrite app_nil_r.
  - apply Q1; auto. discriminate.
Qed.
Lemma cfb8_roundtrip E j1 j2 iv m : (0 < length iv <= 16)%nat ->
  exists c e c', cfb8_encrypt E j1 (cfb_iv_set iv) m = (c, e) /\ length e = length m /\
    cfb8_decrypt E j2 (cfb_iv_set iv) e = Ok (c', m) /\ (whole (length iv) m -> c' = c).
Proof.
  intros Hn. rewrite cfb8_encrypt_ok by auto.
  destruct (cfb8_decrypt_ok E j2 iv (cfb8_spec E iv m) Hn) as (c' & Q & LC & SC).
  eexists. eexists. exists c'. split; [reflexivity|].
  assert (Le : length (cfb8_spec E iv m) = length m).
  { generalize iv. clear. induction m; intros iv; simpl; auto. }
  split; [exact Le|]. rewrite Q, cfb8_dec_enc_spec. split; [reflexivity|].
  intros W. destruct c' as [v n]. cbn [cfb_v cfb_len] in *. rewrite SC by (unfold whole; rewrite Le; exact W). now subst n.
Qed.

(** * Counters *)
Lemma inc_rest_val l : bytes l -> le_val (inc_rest l) = (le_val l + 1) mod 256 ^ Z.of_nat (length l) /\ bytes (inc_rest l) /\ length (inc_rest l) = length l.
Proof.
  induction l as [|b l IH]; intros H.
  { simpl length. change (256 ^ Z.of_nat 0) with 1. rewrite Z.mod_1_r. repeat split; constructor. }
  inversion H as [|? ? Hb Hl]; subst. destruct (IH Hl) as (I1 & I2 & I3). cbn [inc_rest].
  pose proof (le_val_bound l Hl) as LB. pose proof (pow256_pos (length l)) as PP. unfold byte in Hb.
  cbn [length]. rewrite pow256_S.
  destruct (Z.eqb_spec ((b + 1) mod 256) 0) as [E|E].
  - assert (b = 255). { destruct (Z.eq_dec b 255); auto. rewrite Z.mod_small in E; lia. }
    subst b. cbn [le_val length]. rewrite I1. split; [|split].
    + change ((255 + 1) mod 256) with 0. rewrite Z.add_0_l.
      replace (255 + 256 * le_val l + 1) with (256 * (le_val l + 1)) by lia.
      rewrite Z.mul_mod_distr_l by lia. reflexivity.
    + constructor; auto. unfold byte. change ((255 + 1) mod 256) with 0. lia.
    + lia.
  - assert (b + 1 < 256). { destruct (Z.eq_dec b 255); [subst; exfalso; apply E; reflexivity|lia]. }
    rewrite Z.mod_small by lia. cbn [le_val length]. split; [|split]; auto.
    + rewrite Z.mod_small; lia.
    + constructor; auto. unfold byte. lia.
Qed.
Lemma increment_ok l : bytes l -> (2 <= length l)%nat -> increment_be l = Ok (be_bytes (length l) (be_val l + 1)).
Proof.
  intros H L. rewrite be_val_le. unfold increment_be, be_bytes.
  pose proof (bytes_rev l H) as R. rewrite <- (rev_length l). set (r := rev l) in *.
  assert (Lr : (2 <= length r)%nat) by (unfold r; rewrite rev_length; auto). clearbody r.
  destruct (inc_rest_val r R) as (V & B & LL).
  destruct r as [|b [|b2 r]]; [simpl in Lr; lia|simpl in Lr; lia|].
  assert (G : inc_rest (b :: b2 :: r) = le_bytes (length (b :: b2 :: r)) (le_val (b :: b2 :: r) + 1)).
  { rewrite <- (le_bytes_val (inc_rest (b :: b2 :: r)) B), V, LL.
    assert (X : forall n v, le_bytes n (v mod 256 ^ Z.of_nat n) = le_bytes n v).
    { clear. intros n v. rewrite <- (le_bytes_val (le_bytes n v) (le_bytes_bytes n v)).
      rewrite le_bytes_length, le_val_bytes. reflexivity. }
    apply X. }
  rewrite <- G. cbn [inc_rest]. destruct ((b + 1) mod 256 =? 0); reflexivity.
Qed.
Lemma be_bytes_mod n v : be_bytes n (v mod 256 ^ Z.of_nat n) = be_bytes n v.
Proof.
  rewrite <- (be_bytes_val (be_bytes n v) (be_bytes_bytes n v)). rewrite be_bytes_length, be_val_bytes. reflexivity.
Qed.
Lemma increment_bytes n t : (2 <= n)%nat -> increment_be (be_bytes n t) = Ok (be_bytes n (t + 1)).
Proof.
  intros H. rewrite increment_ok by (rewrite ?be_bytes_length; auto using be_bytes_bytes).
  rewrite be_bytes_length, be_val_bytes. rewrite <- (be_bytes_mod n (t mod _ + 1)), Zplus_mod_idemp_l, be_bytes_mod. reflexivity.
Qed.
Definition counters (n : nat) (t : Z) (k : nat) : list (list Z) := map (fun i => be_bytes n (t + Z.of_nat i)) (seq 0 k).
Lemma counters_S n t k : counters n t (S k) = be_bytes n t :: counters n (t + 1) k.
Proof.
  unfold counters. cbn [seq map]. rewrite Z.add_0_r. f_equal. rewrite <- seq_shift, map_map. apply map_ext. intros i. f_equal. lia.
Qed.
Lemma ctr_blocks_ok n : (2 <= n)%nat -> forall k t, ctr_blocks k (be_bytes n t) = Ok (be_bytes n (t + Z.of_nat k), concat (counters n t k)).
Proof.
  intros Hn. induction k; intros t. { cbn [ctr_blocks]. rewrite Z.add_0_r. reflexivity. }
  cbn [ctr_blocks]. rewrite increment_bytes by auto. cbn [bind]. rewrite IHk. cbn [bind]. rewrite counters_S. cbn [concat].
  do 3 f_equal. lia.
Qed.
Lemma ecb_counters E n k : (0 < n)%nat -> forall t, ecb n E (concat (counters n t k)) = ctr_stream E n t k.
Proof.
  intros Hn. induction k; intros t; [reflexivity|]. rewrite counters_S. cbn [concat].
  rewrite ecb_cons by (auto; apply be_bytes_length). rewrite IHk.
  unfold ctr_stream. cbn [seq map concat]. rewrite Z.add_0_r. f_equal. rewrite <- seq_shift, map_map.
  f_equal. apply map_ext. intros i. do 2 f_equal. lia.
Qed.
Lemma stream_length E n t k : (forall b, length b = n -> length (E b) = n) -> length (ctr_stream E n t k) = (k * n)%nat.
Proof.
  intros HE. unfold ctr_stream. generalize 0%nat as s. induction k; intros s; [reflexivity|]. cbn [seq map concat].
  rewrite app_length, IHk, HE by apply be_bytes_length. lia.
Qed.
Lemma stream_app E n t a b : ctr_stream E n t (a + b) = ctr_stream E n t a ++ ctr_stream E n (t + Z.of_nat a) b.
Proof.
  unfold ctr_stream. rewrite seq_app, map_app, concat_app. f_equal. f_equal.
  replace (0 + a)%nat with (a + 0)%nat by lia.
  assert (S : forall b s, seq (a + s) b = map (fun i => (a + i)%nat) (seq s b)).
  { clear. induction b; intros s; [reflexivity|]. cbn [seq map]. f_equal. rewrite <- IHb. f_equal. lia. }
  rewrite S, map_map. apply map_ext. intros i. do 2 f_equal. lia.
Qed.
(** number of blocks touched by [l] bytes *)
Definition nblocks (n l : nat) : nat := ((l + n - 1) / n)%nat.
Lemma nblocks_add n k l : (0 < n)%nat -> nblocks n (k * n + l) = (k + nblocks n l)%nat.
Proof.
  intros Hn. unfold nblocks. destruct (Nat.eq_dec l 0) as [->|N].
  - rewrite Nat.add_0_r. replace (k * n + n - 1)%nat with (k * n + (n - 1))%nat by lia.
    rewrite Nat.div_add_l by lia. replace (0 + n - 1)%nat with (n - 1)%nat by lia. reflexivity.
  - replace (k * n + l + n - 1)%nat with (k * n + (l + n - 1))%nat by lia. rewrite Nat.div_add_l by lia. reflexivity.
Qed.
Lemma nblocks_small n l : (0 < l <= n)%nat -> nblocks n l = 1%nat.
Proof. intros H. unfold nblocks. symmetry. apply (Nat.div_unique _ _ 1 (l - 1)); lia. Qed.
Lemma nblocks_0 n : (0 < n)%nat -> nblocks n 0 = O.
Proof. intros H. unfold nblocks. apply Nat.div_small. lia. Qed.
Lemma nblocks_le n l : (0 < n)%nat -> (l <= nblocks n l * n)%nat.
Proof.
  intros Hn. unfold nblocks. pose proof (Nat.div_mod (l + n - 1) n ltac:(lia)). pose proof (Nat.mod_upper_bound (l + n - 1) n ltac:(lia)). nia.
Qed.

Definition ctr_result E n t (m : list Z) : list Z * list Z :=
  (be_bytes n (t + Z.of_nat (nblocks n (length m))), xorl m (ctr_stream E n t (nblocks n (length m)))).

Lemma xorl_stream_app E n t a b k1 k2 : (forall b, length b = n -> length (E b) = n) -> length a = (k1 * n)%nat ->
  xorl (a ++ b) (ctr_stream E n t (k1 + k2)) = xorl a (ctr_stream E n t k1) ++ xorl b (ctr_stream E n (t + Z.of_nat k1) k2).
Proof. intros HE La. rewrite stream_app, xorl_app; auto. now rewrite stream_length. Qed.

Lemma ctr_apart_ok E n t m : (2 <= n)%nat -> (forall b, length b = n -> length (E b) = n) ->
  ctr_apart E n (be_bytes n t) m = Ok (ctr_result E n t m).
Proof.
  intros Hn HE. unfold ctr_apart. rewrite ctr_blocks_ok by auto. cbn [bind]. rewrite ecb_counters by lia.
  set (k := (length m / n)%nat).
  pose proof (Nat.div_mod (length m) n ltac:(lia)) as DM. fold k in DM. pose proof (Nat.mod_upper_bound (length m) n ltac:(lia)) as MB.
  assert (Em : m = firstn (k * n) m ++ skipn (k * n) m) by (symmetry; apply firstn_skipn).
  assert (L1 : length (firstn (k * n) m) = (k * n)%nat) by (rewrite firstn_length; lia).
  set (a := firstn (k * n) m) in *. set (r := skipn (k * n) m) in *.
  assert (Lr : length r = (length m mod n)%nat) by (unfold r; rewrite skipn_length; lia).
  assert (NB : nblocks n (length m) = (k + nblocks n (length r))%nat).
  { rewrite Em, app_length, L1. apply nblocks_add. lia. }
  unfold ctr_result. rewrite NB.
  clearbody a r k. subst m.
  destruct r as [|x r].
  - cbn [length]. rewrite nblocks_0 by lia. rewrite Nat.add_0_r, app_nil_r. f_equal. f_equal. apply xorl_comm.
  - rewrite nblocks_small by (rewrite Lr in *; simpl length in *; lia). rewrite increment_bytes by auto. cbn [bind].
    rewrite xorl_stream_app by auto. f_equal. f_equal. { f_equal. lia. }
    rewrite (xorl_comm a). f_equal. f_equal. unfold ctr_stream. cbn [seq map concat]. rewrite Z.add_0_r. now rewrite app_nil_r.
Qed.
Lemma ctr_inplace_ok E n : (2 <= n)%nat -> (forall b, length b = n -> length (E b) = n) ->
  forall fuel m t junk, (n = 16%nat \/ (length m < 64 /\ nblocks n (length m) * n <= 64)%nat) -> (length m <= fuel)%nat ->
  ctr_inplace fuel E junk n (be_bytes n t) m = Ok (ctr_result E n t m).
Proof.
  intros Hn HE. induction fuel; intros m t junk C Hf.
  { destruct m; [|simpl in Hf; lia]. cbn [ctr_inplace length]. cbn [Nat.leb].
    unfold ctr_result. cbn [length]. rewrite nblocks_0 by lia. rewrite Z.add_0_r. reflexivity. }
  cbn [ctr_inplace]. destruct (Nat.leb_spec 64 (length m)) as [H|H].
  - assert (N16 : n = 16%nat) by lia. clear C. subst n. rewrite ctr_blocks_ok by auto. cbn [bind].
    change (firstn (64 - 4 * 16) junk) with (@nil Z). rewrite app_nil_r, ecb_counters by lia.
    rewrite IHfuel; [|auto|rewrite skipn_length; lia]. unfold ctr_result. cbn [bind].
    assert (Em : m = firstn 64 m ++ skipn 64 m) by (symmetry; apply firstn_skipn).
    assert (L1 : length (firstn 64 m) = 64%nat) by (rewrite firstn_length; lia).
    set (a := firstn 64 m) in *. set (r := skipn 64 m) in *. clearbody a r. subst m.
    rewrite app_length, L1. change 64%nat with (4 * 16)%nat. rewrite nblocks_add by lia.
    rewrite xorl_stream_app by (auto; lia). do 3 f_equal. lia.
  - destruct m as [|x m].
    { unfold ctr_result. cbn [length]. rewrite nblocks_0 by lia. rewrite Z.add_0_r. reflexivity. }
    fold (nblocks n (length (x :: m))).
    destruct (Nat.ltb_spec 64 (nblocks n (length (x :: m)) * n)) as [B|_].
    { exfalso. destruct C as [->|[_ C]]; [|lia]. clear - B H.
      assert (nblocks 16 (length (x :: m)) < 5)%nat; [|lia]. unfold nblocks. apply Nat.div_lt_upper_bound; lia. }
    rewrite ctr_blocks_ok by auto. cbn [bind]. rewrite ecb_counters by lia. reflexivity.
Qed.
Lemma ctr_ok E ip junk n t m : (2 <= n)%nat -> (forall b, length b = n -> length (E b) = n) ->
  (ip = false \/ n = 16%nat \/ (length m < 64 /\ nblocks n (length m) * n <= 64)%nat) ->
  ctr_encrypt E ip junk {| ctr_v := be_bytes n t; ctr_len := n |} m =
    Ok ({| ctr_v := be_bytes n (t + Z.of_nat (nblocks n (length m))); ctr_len := n |}, xorl m (ctr_stream E n t (nblocks n (length m)))).
Proof.
  intros Hn HE C. unfold ctr_encrypt. cbn [ctr_len ctr_v]. destruct (Nat.eqb_spec n 0); [lia|].
  destruct ip.
  - rewrite ctr_inplace_ok; auto. destruct C; [discriminate|auto].
  - rewrite ctr_apart_ok by auto. reflexivity.
Qed.
Lemma ctr_iv iv : bytes iv -> (length iv <= 16)%nat -> ctr_iv_set iv = {| ctr_v := be_bytes (length iv) (be_val iv); ctr_len := length iv |}.
Proof. intros B L. unfold ctr_iv_set. rewrite Nat.min_r by auto. now rewrite firstn_all, be_bytes_val. Qed.
Lemma ctr_spec_ok E ip junk iv m : (2 <= length iv <= 16)%nat -> bytes iv -> (forall b, length b = length iv -> length (E b) = length iv) ->
  (ip = false \/ length iv = 16%nat \/ (length m < 64 /\ nblocks (length iv) (length m) * length iv <= 64)%nat) ->
  exists c, ctr_encrypt E ip junk (ctr_iv_set iv) m = Ok (c, xorl m (ctr_stream E (length iv) (be_val iv) (nblocks (length iv) (length m)))).
Proof. intros L B HE C. rewrite ctr_iv by (auto; lia). eexists. apply ctr_ok; auto; lia. Qed.
Lemma ctr_involution E ip1 j1 ip2 j2 iv m : (2 <= length iv <= 16)%nat -> bytes iv -> (forall b, length b = length iv -> length (E b) = length iv) ->
  (ip1 = false \/ length iv = 16%nat \/ (length m < 64 /\ nblocks (length iv) (length m) * length iv <= 64)%nat) -> (ip2 = false \/ length iv = 16%nat \/ (length m < 64 /\ nblocks (length iv) (length m) * length iv <= 64)%nat) ->
  exists c e, ctr_encrypt E ip1 j1 (ctr_iv_set iv) m = Ok (c, e) /\ length e = length m /\ ctr_encrypt E ip2 j2 (ctr_iv_set iv) e = Ok (c, m).
Proof.
  intros L B HE C1 C2. rewrite ctr_iv by (auto; lia). eexists. eexists. split; [apply ctr_ok; auto; lia|].
  assert (Le : length (xorl m (ctr_stream E (length iv) (be_val iv) (nblocks (length iv) (length m)))) = length m).
  { rewrite xorl_length, stream_length by auto. pose proof (nblocks_le (length iv) (length m) ltac:(lia)). lia. }
  split; [exact Le|]. rewrite ctr_ok by (rewrite ?Le; auto; lia). rewrite Le. do 2 f_equal. apply xorl_invol.
  rewrite stream_length by auto. apply nblocks_le. lia.
Qed.
Lemma ctr_calls E ip junk n : (2 <= n)%nat -> (forall b, length b = n -> length (E b) = n) ->
  (ip = false \/ n = 16%nat) ->
  forall ls t l, Forall (whole n) ls ->
  calls (ctr_encrypt E ip junk) {| ctr_v := be_bytes n t; ctr_len := n |} (ls ++ [l]) =
  ctr_encrypt E ip junk {| ctr_v := be_bytes n t; ctr_len := n |} (concat ls ++ l).
Proof.
  intros Hn HE C. assert (C' : forall m : list Z, ip = false \/ n = 16%nat \/ (length m < 64 /\ nblocks n (length m) * n <= 64)%nat) by tauto.
  induction ls as [|a ls IH]; intros t l W.
  { cbn [calls app concat]. rewrite ctr_ok by auto. cbn [bind]. now rewrite app_nil_r. }
  inversion W as [|? ? Wa Wl]; subst. cbn [calls app concat]. rewrite ctr_ok by auto. cbn [bind]. rewrite IH by auto.
  destruct Wa as [k Hk]. assert (N : nblocks n (length a) = k).
  { rewrite Hk. rewrite <- (Nat.add_0_r (k * n)), nblocks_add, nblocks_0 by lia. lia. }
  rewrite !ctr_ok by auto. cbn [bind]. rewrite N, <- app_assoc, (app_length a), Hk, nblocks_add by lia.
  rewrite xorl_stream_app by auto. do 4 f_equal. lia.
Qed.
Lemma ctr_pieces E ip junk iv ls l : (2 <= length iv <= 16)%nat -> bytes iv -> (forall b, length b = length iv -> length (E b) = length iv) ->
  (ip = false \/ length iv = 16%nat) -> Forall (whole (length iv)) ls ->
  calls (ctr_encrypt E ip junk) (ctr_iv_set iv) (ls ++ [l]) = ctr_encrypt E ip junk (ctr_iv_set iv) (concat ls ++ l).
Proof. intros L B HE C W. rewrite ctr_iv by (auto; lia). apply ctr_calls; auto. lia. Qed.

Lemma ctr_overflow E junk iv m : (length iv = 13)%nat -> (53 <= length m < 64)%nat -> ctr_encrypt E true junk (ctr_iv_set iv) m = UB.
Proof.
  intros Hi Hm. unfold ctr_encrypt, ctr_iv_set. cbn [ctr_len ctr_v]. rewrite Hi. change (Nat.min 16 13) with 13%nat. cbn [Nat.eqb].
  cbn [ctr_inplace]. destruct (Nat.leb_spec 64 (length m)); [lia|]. destruct m as [|x m]; [simpl in Hm; lia|].
  replace (Nat.div (length (x :: m) + 13 - 1) 13) with 5%nat; [reflexivity|].
  apply (Nat.div_unique _ _ 5 (length (x :: m) + 12 - 65)); lia.
Qed.
