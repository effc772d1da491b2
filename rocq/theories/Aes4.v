(** Contexts, messages and histories of calls. *)
From Verif Require Import Base Bits BytesSpec Bytes Lists Poly2Spec AesTables AesModel AesSpec ModesModel Modes Gcm Aes Aes2 Aes3.
Local Opaque gmul sbox inv_sbox.

(** the number of key bytes used *)
Definition aes_size (n : nat) : nat := if Nat.leb 32 n then 32 else if Nat.leb 24 n then 24 else 16.
Lemma read32le_shift a b c d r i : read32le (a :: b :: c :: d :: r) (S i * 4) = read32le r (i * 4).
Proof. unfold read32le. replace (S i * 4)%nat with (S (S (S (S (i * 4))))) by lia. reflexivity. Qed.
Lemma read_key n : forall key, bytes key -> (4 * n <= length key)%nat ->
  map B (map (fun i => read32le key (i * 4)) (seq 0 n)) = chunks 4 (firstn (4 * n) key).
Proof.
  induction n as [|n IH]; intros key Hb L; [reflexivity|].
  destruct key as [|a [|b [|c [|d r]]]]; try (cbn [length] in L; lia).
  replace (4 * S n)%nat with (S (S (S (S (4 * n))))) by lia. cbn [firstn].
  change (a :: b :: c :: d :: firstn (4 * n) r) with ([a; b; c; d] ++ firstn (4 * n) r). rewrite chunks_app by (reflexivity || lia).
  cbn [seq]. rewrite map_cons, map_cons. f_equal.
  - rewrite B_read by auto. reflexivity.
  - rewrite <- seq_shift. rewrite <- IH.
    + f_equal. rewrite map_map. apply map_ext. intro i. apply read32le_shift.
    + unbytes. auto.
    + cbn [length] in L. lia.
Qed.
Lemma read_words n : forall key, bytes key -> Forall word (map (fun i => read32le key (i * 4)) (seq 0 n)).
Proof.
  intros key Hb. apply Forall_forall. intros x Hx. apply in_map_iff in Hx as (i & <- & _).
  assert (G : forall i, byte (nth i key 0)) by (intro k; apply Forall_nth_d; auto; unfold byte; lia).
  unfold read32le. rewrite lor4 by auto. apply word_of_bytes; auto.
Qed.
Lemma chunks_S4 m : forall ks, length ks = (4 * m)%nat -> chunks 16 (concat (map B ks)) = map S4 (quads ks).
Proof.
  induction m as [|m IH]; intros ks L; [destruct ks; [reflexivity|discriminate L]|].
  destruct ks as [|a [|b [|c [|d r]]]]; try (cbn [length] in L; lia).
  cbn [map concat quads]. rewrite <- (IH r) by (cbn [length] in L; lia).
  rewrite <- (chunks_app 16 (B a ++ B b ++ B c ++ B d)) by (reflexivity || lia). rewrite <- !app_assoc. reflexivity.
Qed.
Lemma key_set_ok key : bytes key -> (16 <= length key)%nat -> let n := aes_size (length key) in let r := (n / 4 + 6)%nat in
  In r [10; 12; 14]%nat /\ exists ks, aes_key_set key = Ok {| keys := ks; nr := r; dec := false |} /\
    length ks = (4 * (r + 1))%nat /\ map (rkey ks) (seq 0 (r + 1)) = round_keys (firstn n key).
Proof.
  intros Hb L n r.
  assert (Hn : (n <= length key)%nat /\ In (n / 4)%nat [4; 6; 8]%nat /\ (n = 4 * (n / 4))%nat).
  { unfold n, aes_size. destruct (Nat.leb_spec 32 (length key)); [|destruct (Nat.leb_spec 24 (length key))]; (split; [lia|]); split; vm_compute; tauto. }
  destruct Hn as (Hn1 & Hn2 & Hn3). split; [unfold r; destruct Hn2 as [<-|[<-|[<-|[]]]]; vm_compute; tauto|].
  assert (Rpos : (1 <= n / 4)%nat) by (destruct Hn2 as [<-|[<-|[<-|[]]]]; lia).
  destruct (expand_ok (n / 4) Hn2 (4 * (r + 1) - n / 4) (n / 4) (map (fun i => read32le key (i * 4)) (seq 0 (n / 4)))) as (ks & K1 & K2 & K3 & K4).
  { rewrite map_length, seq_length. auto. } { lia. } { unfold r. lia. } { apply read_words. auto. }
  exists ks. replace ((n / 4 + n / 4 - 1) / (n / 4) - 1)%nat with 0%nat in K1 by (destruct Hn2 as [<-|[<-|[<-|[]]]]; reflexivity).
  cbn [skipn] in K1.
  assert (LK : length ks = (4 * (r + 1))%nat) by (rewrite K3; unfold r; lia).
  split; [|split; auto].
  - unfold aes_key_set. replace (length key <? 16)%nat with false by (symmetry; apply Nat.ltb_ge; auto).
    replace (if (32 <=? length key)%nat then 8%nat else if (24 <=? length key)%nat then 6%nat else 4%nat) with (n / 4)%nat
      by (unfold n, aes_size; destruct (32 <=? length key)%nat, (24 <=? length key)%nat; reflexivity).
    fold r. rewrite K1. reflexivity.
  - rewrite rkeys_quads by auto. unfold round_keys, key_expansion. rewrite firstn_length_le by auto. rewrite Hn3 at 3.
    rewrite <- read_key by (auto; lia). replace (4 * (n / 4 + 6 + 1) - n / 4)%nat with (4 * (r + 1) - n / 4)%nat by (unfold r; lia).
    rewrite <- K4. symmetry. apply (chunks_S4 (r + 1)). auto.
Qed.

(** * One block *)
Lemma seq_split n : (1 <= n)%nat -> seq 0 (n + 1) = 0%nat :: seq 1 (n - 1) ++ [n].
Proof. intro. replace (n + 1)%nat with (S (S (n - 1))) by lia. rewrite seq_S. cbn [seq app]. f_equal. f_equal. f_equal. lia. Qed.
Lemma enc_block ks n k src : (1 <= n)%nat -> map (rkey ks) (seq 0 (n + 1)) = round_keys k -> st src -> aes_block fround ffinal n ks src = fips_cipher k src.
Proof.
  intros Hn E Hs. rewrite fwd_block by auto. unfold fips_cipher. rewrite <- E. rewrite Nat.add_1_r. reflexivity.
Qed.
Lemma dec_block ks n k src : In n [10; 12; 14]%nat -> length ks = (4 * (n + 1))%nat -> map (rkey ks) (seq 0 (n + 1)) = round_keys k -> st src ->
  aes_block rround rfinal n (aes_key_invert n ks) src = fips_inv_cipher k src.
Proof.
  intros Hn L E Hs. assert (N1 : (1 <= n)%nat) by (destruct Hn as [<-|[<-|[<-|[]]]]; lia).
  unfold fips_inv_cipher. rewrite <- E. rewrite seq_split by auto. cbn [map rev]. rewrite map_app, rev_app_distr. cbn [map rev app].
  apply (inv_block ks); auto.
  - rewrite key_invert_ok by auto. rewrite inverted_rkeys by auto. reflexivity.
  - rewrite map_length, seq_length. reflexivity.
  - apply Forall_forall. intros x Hx. apply in_map_iff in Hx as (i & <- & _). apply st_rkey.
  - rewrite seq_split by auto. cbn [map]. rewrite map_app. reflexivity.
Qed.
Lemma fips_inverse ks n k src : (1 <= n)%nat -> map (rkey ks) (seq 0 (n + 1)) = round_keys k -> st src -> fips_inv_cipher k (fips_cipher k src) = src.
Proof.
  intros Hn E Hs. unfold fips_inv_cipher, fips_cipher. rewrite <- E. rewrite seq_split by auto. cbn [map rev]. rewrite map_app, rev_app_distr. cbn [map rev app].
  apply inv_rounds_rounds; auto using st_rkey.
  apply Forall_forall. intros x Hx. apply in_map_iff in Hx as (i & <- & _). apply st_rkey.
Qed.
Lemma st_fips ks n k src : (1 <= n)%nat -> map (rkey ks) (seq 0 (n + 1)) = round_keys k -> st src -> st (fips_cipher k src).
Proof.
  intros Hn E Hs. unfold fips_cipher. rewrite <- E. rewrite seq_split by auto. cbn [map]. rewrite map_app. cbn [map].
  rewrite rounds_snoc. apply st_xorl; [|apply st_rkey]. apply st_shift, st_sub, st_erounds.
  - apply Forall_forall. intros x Hx. apply in_map_iff in Hx as (i & <- & _). apply st_rkey.
  - apply st_xorl; auto using st_rkey.
Qed.
Lemma st_fips_inv ks n k src : (1 <= n)%nat -> map (rkey ks) (seq 0 (n + 1)) = round_keys k -> st src -> st (fips_inv_cipher k src).
Proof.
  intros Hn E Hs. unfold fips_inv_cipher. rewrite <- E. rewrite seq_split by auto. cbn [map rev]. rewrite map_app, rev_app_distr. cbn [map rev app].
  rewrite inv_rounds_snoc. apply st_xorl; [|apply st_rkey]. apply st_inv_sub, st_inv_shift, st_drounds.
  - apply Forall_rev. apply Forall_forall. intros x Hx. apply in_map_iff in Hx as (i & <- & _). apply st_rkey.
  - apply st_xorl; auto using st_rkey.
Qed.

(** * Messages *)
Lemma chunks_st l : whole 16 l -> bytes l -> Forall st (chunks 16 l).
Proof.
  intro W. revert l W. apply (whole_ind 16 (fun l => bytes l -> Forall st (chunks 16 l))); [lia|constructor|].
  intros a r La Wr IH Hb. apply Forall_app in Hb as [Ha Hr]. rewrite chunks_app by (auto; lia). constructor; [split; auto|auto].
Qed.
(** the whole blocks of a message *)
Definition cut16 (l : list Z) : list Z := firstn (16 * (length l / 16)) l.
Lemma cut16_whole l : whole 16 (cut16 l).
Proof.
  exists (length l / 16)%nat. unfold cut16. rewrite firstn_length_le; [lia|]. pose proof (Nat.div_mod (length l) 16 ltac:(lia)). lia.
Qed.
Lemma cut16_id l : whole 16 l -> cut16 l = l.
Proof. intros [k E]. unfold cut16. rewrite E, Nat.div_mul by lia. replace (16 * k)%nat with (k * 16)%nat by lia. rewrite <- E. apply firstn_all. Qed.
Lemma whole_blocks_ext f g l : bytes l -> (forall b, st b -> f b = g b) -> whole_blocks f l = ecb 16 g (cut16 l).
Proof.
  intros Hb H. unfold whole_blocks, ecb. fold (cut16 l). f_equal. apply map_ext_in. intros b Hx. apply H.
  apply (proj1 (Forall_forall _ _) (chunks_st (cut16 l) (cut16_whole l) (bytes_firstn _ _ Hb)) b Hx).
Qed.
Inductive op := Enc (l : list Z) | Dec (l : list Z).
Definition op_data (o : op) : list Z := match o with Enc l => l | Dec l => l end.
(** what the standard says a call returns *)
Definition fips_op (k : list Z) (o : op) : list Z :=
  match o with Enc l => ecb 16 (fips_cipher k) (cut16 l) | Dec l => ecb 16 (fips_inv_cipher k) (cut16 l) end.
Definition aes_call (c : aes) (o : op) : aes * list Z :=
  match o with Enc l => aes_encrypt c l | Dec l => aes_decrypt c l end.
Fixpoint aes_calls (c : aes) (os : list op) : list (list Z) :=
  match os with
  | [] => []
  | o :: os => let '(c, r) := aes_call c o in r :: aes_calls c os
  end.
(** the state of a context keyed with [k] *)
Definition keyed (k : list Z) (c : aes) : Prop := exists ks,
  In (nr c) [10; 12; 14]%nat /\ length ks = (4 * (nr c + 1))%nat /\ map (rkey ks) (seq 0 (nr c + 1)) = round_keys k /\
  keys c = if dec c then aes_key_invert (nr c) ks else ks.
Lemma key_set_keyed key : bytes key -> (16 <= length key)%nat -> exists c, aes_key_set key = Ok c /\ dec c = false /\ keyed (firstn (aes_size (length key)) key) c.
Proof.
  intros Hb L. destruct (key_set_ok key Hb L) as (Hr & ks & E & Lk & R).
  eexists. split; [exact E|]. split; [reflexivity|]. exists ks. cbn [nr keys dec]. auto.
Qed.
Lemma call_enc k c l : keyed k c -> dec c = false -> bytes l -> aes_encrypt c l = (c, fips_op k (Enc l)).
Proof.
  intros (ks & Hn & Lk & R & Ek) D Hb. assert (N1 : (1 <= nr c)%nat) by (destruct Hn as [<-|[<-|[<-|[]]]]; lia).
  unfold aes_encrypt. rewrite D in *. f_equal. cbn [fips_op]. apply whole_blocks_ext; auto. intros b Hbk. rewrite Ek. apply enc_block; auto.
Qed.
Lemma call_dec k c l : keyed k c -> bytes l -> exists c', aes_decrypt c l = (c', fips_op k (Dec l)) /\ keyed k c' /\ dec c' = true.
Proof.
  intros (ks & Hn & Lk & R & Ek) Hb. assert (N1 : (1 <= nr c)%nat) by (destruct Hn as [<-|[<-|[<-|[]]]]; lia).
  unfold aes_decrypt. destruct (dec c) eqn:D.
  - exists c. split; [|split; auto; exists ks; rewrite D; auto]. f_equal. cbn [fips_op]. apply whole_blocks_ext; auto. intros b Hbk. rewrite Ek. apply dec_block; auto.
  - eexists. split; [f_equal|split; [exists ks; cbn [nr keys dec]; rewrite Ek; auto|reflexivity]].
    cbn [fips_op nr keys]. apply whole_blocks_ext; auto. intros b Hbk. rewrite Ek. apply dec_block; auto.
Qed.
Lemma calls_dec k ds : forall c, keyed k c -> Forall bytes ds -> aes_calls c (map Dec ds) = map (fun l => fips_op k (Dec l)) ds.
Proof.
  induction ds as [|l ds IH]; intros c Hc Hb; [reflexivity|]. inversion Hb; subst. cbn [map aes_calls aes_call].
  destruct (call_dec k c l Hc) as (c' & E & Hc' & _); auto. rewrite E, IH; auto.
Qed.
Lemma calls_ok k es ds c : keyed k c -> dec c = false -> Forall bytes es -> Forall bytes ds ->
  aes_calls c (map Enc es ++ map Dec ds) = map (fips_op k) (map Enc es ++ map Dec ds).
Proof.
  intros Hc D He Hd. induction es as [|l es IH]; cbn [map app].
  - rewrite (calls_dec k) by auto. rewrite map_map. reflexivity.
  - inversion He; subst. cbn [aes_calls aes_call]. rewrite (call_enc k) by auto. rewrite IH by auto. reflexivity.
Qed.

(** * The statements *)
Lemma aes_fips key es ds : bytes key -> (16 <= length key)%nat -> Forall bytes es -> Forall bytes ds ->
  exists c, aes_key_set key = Ok c /\
    aes_calls c (map Enc es ++ map Dec ds) = map (fips_op (firstn (aes_size (length key)) key)) (map Enc es ++ map Dec ds).
Proof.
  intros Hk L He Hd. destruct (key_set_keyed key Hk L) as (c & E & D & K). exists c. split; auto. apply calls_ok; auto.
Qed.
Definition len16 (s : list Z) : Prop := length s = 16%nat.
Lemma len_mix k1 k2 k3 k4 s : len16 s -> len16 (concat (map (mix_column k1 k2 k3 k4) (chunks 4 s))).
Proof. unfold len16. intro L. list16 s L. reflexivity. Qed.
Lemma len_erounds m : forall s, Forall len16 m -> len16 s -> len16 (erounds m s).
Proof.
  induction m as [|k m IH]; intros s Hm Hs; [auto|]. inversion Hm; subst. cbn [erounds fold_left]. apply IH; auto.
  assert (Q : len16 (mix_columns (shift_rows (sub_bytes s)))) by (apply len_mix; reflexivity).
  unfold len16, add_round_key in *. rewrite xorl_length_eq; congruence.
Qed.
Lemma len_drounds m : forall s, Forall len16 m -> len16 s -> len16 (drounds m s).
Proof.
  induction m as [|k m IH]; intros s Hm Hs; [auto|]. inversion Hm; subst. cbn [drounds fold_left]. apply IH; auto.
  apply len_mix. unfold len16, add_round_key in *. assert (Q : length (inv_sub_bytes (inv_shift_rows s)) = 16%nat) by reflexivity.
  rewrite xorl_length_eq; congruence.
Qed.
Lemma aes_cipher key : bytes key -> (16 <= length key)%nat -> let k := firstn (aes_size (length key)) key in
  cipher 16 (fips_cipher k) (fips_inv_cipher k).
Proof.
  intros Hk L k. destruct (key_set_ok key Hk L) as (Hn & ks & E & Lk & R). cbv zeta in *. fold k in R. revert Hn Lk R. set (r := (_ / 4 + 6)%nat). intros Hn Lk R.
  assert (N1 : (1 <= r)%nat) by (destruct Hn as [<-|[<-|[<-|[]]]]; lia).
  split; [|split; [|split]].
  - intros b Lb. unfold fips_cipher. rewrite <- R, seq_split by auto. cbn [map]. rewrite map_app. cbn [map]. rewrite rounds_snoc.
    unfold add_round_key. rewrite xorl_length_eq; reflexivity.
  - intros b Lb Hb. apply (st_fips ks r); auto. split; auto.
  - intros b Lb. unfold fips_inv_cipher. rewrite <- R, seq_split by auto. cbn [map rev]. rewrite map_app, rev_app_distr. cbn [map rev app].
    rewrite inv_rounds_snoc. unfold add_round_key. rewrite xorl_length_eq; reflexivity.
  - intros b Lb Hb. apply (fips_inverse ks r); auto. split; auto.
Qed.
Lemma aes_roundtrip key l : bytes key -> (16 <= length key)%nat -> bytes l -> whole 16 l ->
  exists c c', aes_key_set key = Ok c /\ let e := snd (aes_encrypt c l) in
    fst (aes_encrypt c l) = c /\ length e = length l /\ aes_decrypt c e = (c', l).
Proof.
  intros Hk L Hl W. destruct (key_set_keyed key Hk L) as (c & E & D & K). destruct (aes_cipher key Hk L) as (C1 & C2 & C3 & C4). set (k := firstn _ _) in *.
  pose proof (call_enc k c l K D Hl) as Ee. cbn [fips_op] in Ee. rewrite cut16_id in Ee by auto.
  assert (Le : length (ecb 16 (fips_cipher k) l) = length l) by (apply ecb_length; auto; lia).
  assert (Be : bytes (ecb 16 (fips_cipher k) l)).
  { unfold ecb. apply bytes_concat. apply Forall_forall. intros x Hx. apply in_map_iff in Hx as (b & <- & Hb).
    destruct (proj1 (Forall_forall _ _) (chunks_st l W Hl) b Hb). apply C2; auto. }
  assert (We : whole 16 (ecb 16 (fips_cipher k) l)) by (unfold whole; rewrite Le; exact W).
  destruct (call_dec k c _ K Be) as (c' & Ed & _). exists c, c'. split; auto. cbv zeta. rewrite Ee. cbn [fst snd]. split; auto. split; auto.
  rewrite Ed. f_equal. cbn [fips_op]. rewrite cut16_id by auto. apply ecb_inverse; auto; lia.
Qed.
Lemma aes_one_turn key es ds : bytes key -> (16 <= length key)%nat -> Forall bytes es -> Forall bytes ds ->
  exists c, aes_key_set key = Ok c /\
    aes_calls c (map Enc es ++ map Dec ds) = concat (map (fun o => aes_calls c [o]) (map Enc es ++ map Dec ds)).
Proof.
  intros Hk L He Hd. destruct (key_set_keyed key Hk L) as (c & E & D & K). exists c. split; auto. rewrite (calls_ok _ _ _ _ K D He Hd).
  rewrite !map_app, !concat_app, !map_map. f_equal.
  - clear - He K D. induction He as [|l es Hl He IH]; [reflexivity|]. cbn [map concat aes_calls aes_call].
    rewrite (call_enc _ _ _ K D Hl). cbn [app]. f_equal. exact IH.
  - clear - Hd K. induction Hd as [|l es Hl He IH]; [reflexivity|]. cbn [map concat aes_calls aes_call].
    destruct (call_dec _ _ _ K Hl) as (c' & E & _). rewrite E. cbn [app]. f_equal. exact IH.
Qed.
