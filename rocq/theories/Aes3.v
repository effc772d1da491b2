(** Key schedule, whole blocks and the relation to FIPS 197. *)
From Verif Require Import Base Bits BytesSpec Bytes Lists Poly2Spec Poly2 GcmMul AesTables AesModel AesSpec Aes Aes2.
Local Opaque gmul sbox inv_sbox.

Lemma B_length w : length (B w) = 4%nat. Proof. reflexivity. Qed.
Lemma B_bytes w : bytes (B w). Proof. apply le_bytes_bytes. Qed.
Lemma st_B a b c d : st (B a ++ B b ++ B c ++ B d).
Proof. split; [reflexivity|]. rewrite !bytes_app. auto using B_bytes. Qed.
Lemma st_S4 w : st (S4 w).
Proof. destruct w as [[[a b] c] d]. apply st_B. Qed.
Definition rkey (ks : list Z) (i : nat) : list Z :=
  B (nth (4 * i) ks 0) ++ B (nth (4 * i + 1) ks 0) ++ B (nth (4 * i + 2) ks 0) ++ B (nth (4 * i + 3) ks 0).
Lemma st_rkey ks i : st (rkey ks i). Proof. apply st_B. Qed.
Lemma S4_lxor a b c d a' b' c' d' :
  S4 (Z.lxor a a', Z.lxor b b', Z.lxor c c', Z.lxor d d') = xorl (S4 (a, b, c, d)) (B a' ++ B b' ++ B c' ++ B d').
Proof. unfold S4. rewrite !B_lxor. rewrite !xorl_app by reflexivity. reflexivity. Qed.

Lemma aes_rounds_ok r F ks : (forall a b c d, S4 (r a b c d) = F (S4 (a, b, c, d))) -> forall n i w,
  S4 (aes_rounds r n i ks w) = fold_left (fun s k => xorl (F s) k) (map (rkey ks) (seq i n)) (S4 w).
Proof.
  intro R. induction n as [|n IH]; intros i w; [reflexivity|]. destruct w as [[[w0 w1] w2] w3].
  cbn [aes_rounds]. specialize (R w0 w1 w2 w3). destruct (r w0 w1 w2 w3) as [[[t0 t1] t2] t3].
  rewrite IH, S4_lxor, R. cbn [seq map fold_left]. rewrite Nat.add_1_r. reflexivity.
Qed.
Lemma read_blocks s : st s -> B (read32le s 0) ++ B (read32le s 4) ++ B (read32le s 8) ++ B (read32le s 12) = s.
Proof.
  intros [L Hb]. rewrite !B_read by auto. list16 s L. reflexivity.
Qed.
Lemma aes_block_ok r f F G ks n src : (forall a b c d, S4 (r a b c d) = F (S4 (a, b, c, d))) -> (forall a b c d, S4 (f a b c d) = G (S4 (a, b, c, d))) -> st src ->
  aes_block r f n ks src = xorl (G (fold_left (fun s k => xorl (F s) k) (map (rkey ks) (seq 1 (n - 1))) (xorl src (rkey ks 0)))) (rkey ks n).
Proof.
  intros R RF Hs. unfold aes_block.
  set (w := (_, _, _, _)). set (w' := aes_rounds r (n - 1) 1 ks w).
  pose proof (aes_rounds_ok f G ks RF 1 n w') as E. destruct (aes_rounds f 1 n ks w') as [[[a b] c] d].
  rewrite !write32le_B. change (B a ++ B b ++ B c ++ B d) with (S4 (a, b, c, d)). rewrite E. cbn [seq map fold_left].
  unfold w'. rewrite (aes_rounds_ok r F ks R). unfold w. rewrite S4_lxor. unfold S4. rewrite read_blocks by auto. reflexivity.
Qed.
Lemma fwd_block ks n src : (1 <= n)%nat -> st src ->
  aes_block fround ffinal n ks src = rounds (map (rkey ks) (seq 1 n)) (add_round_key (rkey ks 0) src).
Proof.
  intros Hn Hs. rewrite (aes_block_ok fround ffinal (fun s => mix_columns (shift_rows (sub_bytes s))) (fun s => shift_rows (sub_bytes s)) ks n src fround_ok ffinal_ok Hs).
  replace (seq 1 n) with (seq 1 (n - 1) ++ [n]).
  2:{ replace n with (S (n - 1)) at 3 by lia. rewrite seq_S. f_equal. f_equal. lia. }
  rewrite map_app. cbn [map]. rewrite rounds_snoc. reflexivity.
Qed.

(** decryption with the inverted schedule *)
Lemma dec_fold m : forall s, Forall st m -> st s ->
  fold_left (fun s k => xorl (inv_mix_columns (inv_sub_bytes (inv_shift_rows s))) k) (map inv_mix_columns m) s = drounds m s.
Proof.
  induction m as [|k m IH]; intros s Hm Hs; [reflexivity|]. inversion Hm; subst. cbn [map fold_left drounds].
  assert (Sx : st (inv_sub_bytes (inv_shift_rows s))) by (apply st_inv_sub, st_inv_shift; auto).
  rewrite <- inv_mix_xorl by (try apply Sx; match goal with Q : st k |- _ => apply Q end).
  apply IH; auto. apply st_inv_mix, st_xorl; auto.
Qed.
Lemma inv_block ks ks' n k0 m kl src : map (rkey ks') (seq 0 (n + 1)) = kl :: map inv_mix_columns (rev m) ++ [k0] ->
  length m = (n - 1)%nat -> (1 <= n)%nat -> Forall st m -> st src ->
  map (rkey ks) (seq 0 (n + 1)) = k0 :: m ++ [kl] ->
  aes_block rround rfinal n ks' src = inv_rounds (rev m ++ [k0]) (add_round_key kl src).
Proof.
  intros E L Hn Hm Hs E0. rewrite (aes_block_ok rround rfinal (fun s => inv_mix_columns (inv_sub_bytes (inv_shift_rows s))) (fun s => inv_sub_bytes (inv_shift_rows s)) ks' n src rround_ok rfinal_ok Hs).
  replace (seq 0 (n + 1)) with (0%nat :: seq 1 (n - 1) ++ [n]) in E.
  2:{ replace (n + 1)%nat with (S (S (n - 1))) by lia. rewrite seq_S. cbn [seq app]. f_equal. f_equal. f_equal. lia. }
  cbn [map] in E. rewrite map_app in E. injection E as Ea Eb.
  apply app_inj_tail in Eb as [Eb Ec]. rewrite Eb, Ec, Ea.
  rewrite dec_fold.
  - rewrite inv_rounds_snoc. reflexivity.
  - apply Forall_rev. auto.
  - apply st_xorl; auto. rewrite <- Ea. apply st_rkey.
Qed.

(** * Inverting the schedule *)
Definition swap' (l : list Z) (i j : nat) : list Z := upd (upd l i (nth j l 0)) j (nth i l 0).
Lemma swap_eq l i j : i <> j -> (i < length l)%nat -> (j < length l)%nat -> swap l i j = swap' l i j.
Proof.
  intros N Hi Hj. unfold swap, swap'. set (li := nth i l 0). set (lj := nth j l 0).
  set (l1 := upd l i (Z.lxor li lj)).
  assert (E1 : nth i l1 0 = Z.lxor li lj) by (unfold l1; rewrite nth_upd by auto; rewrite Nat.eqb_refl; reflexivity).
  assert (E2 : nth j l1 0 = lj) by (unfold l1; rewrite nth_upd by auto; rewrite (proj2 (Nat.eqb_neq j i)) by auto; reflexivity).
  rewrite E1, E2. replace (Z.lxor lj (Z.lxor li lj)) with li.
  2:{ rewrite (Z.lxor_comm li lj), <- Z.lxor_assoc, Z.lxor_nilpotent, Z.lxor_0_l. reflexivity. }
  assert (L1 : length l1 = length l) by apply upd_length.
  set (l2 := upd l1 j li). assert (L2 : length l2 = length l) by (unfold l2; rewrite upd_length; auto).
  assert (E3 : nth i l2 0 = Z.lxor li lj) by (unfold l2; rewrite nth_upd by lia; rewrite (proj2 (Nat.eqb_neq i j)) by auto; auto).
  assert (E4 : nth j l2 0 = li) by (unfold l2; rewrite nth_upd by lia; rewrite Nat.eqb_refl; reflexivity).
  rewrite E3, E4. replace (Z.lxor (Z.lxor li lj) li) with lj.
  2:{ rewrite (Z.lxor_comm (Z.lxor li lj) li), <- Z.lxor_assoc, Z.lxor_nilpotent, Z.lxor_0_l. reflexivity. }
  apply (list_eq 0); [rewrite !upd_length; auto; unfold l2; rewrite upd_length; auto|]. intros k _.
  rewrite (nth_upd _ l2) by lia. rewrite (nth_upd _ (upd l i lj)) by (rewrite upd_length; lia). rewrite (nth_upd _ l) by lia.
  unfold l2. rewrite (nth_upd _ l1) by lia. unfold l1. rewrite (nth_upd _ l) by lia.
  destruct (Nat.eqb_spec k i), (Nat.eqb_spec k j); subst; try congruence.
Qed.
Lemma swap'_length l i j : length (swap' l i j) = length l.
Proof. unfold swap'. rewrite !upd_length. reflexivity. Qed.
Lemma swap_length l i j : length (swap l i j) = length l.
Proof. unfold swap. rewrite !upd_length. reflexivity. Qed.
Fixpoint aes_swaps' (fuel : nat) (l : list Z) (i j : nat) : list Z :=
  match fuel with
  | O => l
  | S f => if Nat.ltb i j
           then aes_swaps' f (fold_left (fun l k => swap' l (i + k) (j + k)) [0; 1; 2; 3]%nat l) (i + 4) (j - 4)
           else l
  end.
Lemma aes_swaps_eq fuel : forall l a b, (4 * b + 3 < length l)%nat -> aes_swaps fuel l (4 * a) (4 * b) = aes_swaps' fuel l (4 * a) (4 * b).
Proof.
  induction fuel as [|f IH]; intros l a b Hb; [reflexivity|]. cbn [aes_swaps aes_swaps'].
  destruct (Nat.ltb_spec (4 * a) (4 * b)) as [H|H]; [|reflexivity]. cbn [fold_left].
  rewrite !swap_eq by (rewrite ?swap_length, ?swap'_length; lia).
  replace (4 * a + 4)%nat with (4 * (a + 1))%nat by lia. replace (4 * b - 4)%nat with (4 * (b - 1))%nat by lia.
  apply IH. rewrite !swap'_length. lia.
Qed.
(** for every function in place of [aes_mix] *)
Definition key_invert' (mix : Z -> Z) (nr : nat) (ks : list Z) : list Z :=
  let ks := aes_swaps' (4 * nr) ks 0 (4 * nr) in
  fold_left (fun ks i => upd ks i (mix (nth i ks 0))) (seq 4 (4 * nr - 4)) ks.
Definition inverted (mix : Z -> Z) (nr : nat) (ks : list Z) : list Z :=
  map (fun k => nth (4 * nr + k) ks 0) [0; 1; 2; 3]%nat ++
  concat (map (fun i => map (fun k => mix (nth (4 * (nr - i) + k) ks 0)) [0; 1; 2; 3]%nat) (seq 1 (nr - 1))) ++
  map (fun k => nth k ks 0) [0; 1; 2; 3]%nat.
Ltac destr_all ks L := repeat (destruct ks as [|? ks]; [try discriminate L|try discriminate L]).
Lemma key_invert_10 mix ks : length ks = 44%nat -> key_invert' mix 10 ks = inverted mix 10 ks.
Proof. intro L. destr_all ks L. vm_compute. reflexivity. Qed.
Lemma key_invert_12 mix ks : length ks = 52%nat -> key_invert' mix 12 ks = inverted mix 12 ks.
Proof. intro L. destr_all ks L. vm_compute. reflexivity. Qed.
Lemma key_invert_14 mix ks : length ks = 60%nat -> key_invert' mix 14 ks = inverted mix 14 ks.
Proof. intro L. destr_all ks L. vm_compute. reflexivity. Qed.
Lemma key_invert_ok n ks : In n [10; 12; 14]%nat -> length ks = (4 * (n + 1))%nat -> aes_key_invert n ks = inverted aes_mix n ks.
Proof.
  intros Hn L. unfold aes_key_invert. 
  assert (E : aes_swaps (4 * n) ks 0 (4 * n) = aes_swaps' (4 * n) ks 0 (4 * n)) by (apply (aes_swaps_eq (4 * n) ks 0 n); lia).
  rewrite E. fold (key_invert' aes_mix n ks).
  destruct Hn as [<-|[<-|[<-|[]]]]; [apply key_invert_10|apply key_invert_12|apply key_invert_14]; auto.
Qed.
Lemma rkey_inv_mix ks i : inv_mix_columns (rkey ks i) =
  B (aes_mix (nth (4 * i) ks 0)) ++ B (aes_mix (nth (4 * i + 1) ks 0)) ++ B (aes_mix (nth (4 * i + 2) ks 0)) ++ B (aes_mix (nth (4 * i + 3) ks 0)).
Proof. unfold rkey, inv_mix_columns. rewrite !B_mix, !B_I. cbn [app]. rewrite mix16. reflexivity. Qed.
(** reading a list of quadruples of words *)
Fixpoint quads {A} (ws : list A) : list (A * A * A * A) :=
  match ws with
  | a :: b :: c :: d :: r => (a, b, c, d) :: quads r
  | _ => []
  end.
Lemma rkeys_quads m : forall ks, length ks = (4 * m)%nat -> map (rkey ks) (seq 0 m) = map S4 (quads ks).
Proof.
  induction m as [|m IH]; intros ks L; [destruct ks; [reflexivity|discriminate L]|].
  destruct ks as [|a [|b [|c [|d r]]]]; try (cbn [length] in L; lia). cbn [quads map seq].
  f_equal. rewrite <- seq_shift, map_map. rewrite <- IH by (cbn [length] in L; lia). apply map_ext. intro i. unfold rkey.
  replace (4 * S i)%nat with (S (S (S (S (4 * i))))) by lia. reflexivity.
Qed.
Lemma quads_app {A} m : forall (x y : list A), length x = (4 * m)%nat -> quads (x ++ y) = quads x ++ quads y.
Proof.
  induction m as [|m IH]; intros x y L; [destruct x; [reflexivity|discriminate L]|].
  destruct x as [|a [|b [|c [|d r]]]]; try (cbn [length] in L; lia). cbn [quads app]. f_equal. apply IH. cbn [length] in L. lia.
Qed.
Lemma inverted_rkeys n ks : (1 <= n)%nat -> map (rkey (inverted aes_mix n ks)) (seq 0 (n + 1)) =
  rkey ks n :: map inv_mix_columns (rev (map (rkey ks) (seq 1 (n - 1)))) ++ [rkey ks 0].
Proof.
  intro Hn.
  assert (Lc : forall l : list nat, length (concat (map (fun i => map (fun k => aes_mix (nth (4 * (n - i) + k) ks 0)) [0; 1; 2; 3]%nat) l)) = (4 * length l)%nat).
  { induction l as [|x l IH]; [reflexivity|]. rewrite map_cons, concat_cons, app_length, IH, map_length. cbn [length]. lia. }
  rewrite rkeys_quads.
  2:{ unfold inverted. rewrite !app_length, !map_length, Lc, seq_length. cbn [length]. lia. }
  unfold inverted. rewrite (quads_app 1) by reflexivity.
  rewrite (quads_app (n - 1)) by (rewrite Lc, seq_length; reflexivity).
  set (M := concat _). rewrite !map_app. cbn [map quads app]. f_equal; [unfold S4, rkey; rewrite Nat.add_0_r; reflexivity|]. f_equal.
  unfold M.
  rewrite <- map_rev, map_map.
  replace (rev (seq 1 (n - 1))) with (map (fun i => (n - i)%nat) (seq 1 (n - 1))).
  2:{ apply (list_eq 0%nat); [rewrite rev_length, map_length; reflexivity|]. intros i Hi. rewrite map_length, seq_length in Hi.
      rewrite rev_nth by (rewrite seq_length; auto). rewrite seq_length, seq_nth by lia.
      rewrite (nth_indep _ _ ((fun i => (n - i)%nat) 0%nat)) by (rewrite map_length, seq_length; auto). rewrite map_nth, seq_nth by auto. lia. }
  rewrite map_map. generalize (seq 1 (n - 1)). induction l as [|i l IH]; [reflexivity|].
  rewrite !(map_cons _ i l), concat_cons, (quads_app 1), map_app by reflexivity. rewrite IH. cbn [map quads app]. f_equal. rewrite rkey_inv_mix. rewrite Nat.add_0_r. reflexivity.
Qed.

(** * Key expansion *)
Definition word (w : Z) : Prop := 0 <= w < 2 ^ 32.
Lemma word_split w : word w -> w = I0 w + 256 * I1 w + 65536 * I2 w + 16777216 * I3 w.
Proof.
  intro H. pose proof (le_val_bytes 4 w) as E. change (256 ^ Z.of_nat 4) with (2 ^ 32) in E. unfold word in H. rewrite Z.mod_small in E by auto.
  change (le_bytes 4 w) with (B w) in E. rewrite B_I in E. cbn [le_val] in E. lia.
Qed.
Lemma word_of_bytes a b c d : byte a -> byte b -> byte c -> byte d -> word (a + 256 * b + 65536 * c + 16777216 * d).
Proof. unfold byte, word. lia. Qed.
Lemma B_rot w : word w -> B (rotl32 w 24) = rot_word (B w).
Proof.
  intro H. unfold rotl32. rewrite Z.shiftl_mul_pow2, Z.shiftr_div_pow2 by lia. change (32 - 24) with 8.
  destruct (I_byte w) as (A & C & D & E). rewrite (B_I w). cbn [rot_word]. pose proof (word_split w H) as W.
  revert A C D E W. generalize (I0 w) (I1 w) (I2 w) (I3 w). intros a b c d A C D E W. rewrite W. clear W. unfold byte in *.
  assert (E1 : ((a + 256 * b + 65536 * c + 16777216 * d) * 2 ^ 24) mod 2 ^ 32 = a * 2 ^ 24).
  { symmetry. apply (Z.mod_unique _ _ (b + 256 * c + 65536 * d)); lia. }
  assert (E2 : (a + 256 * b + 65536 * c + 16777216 * d) / 2 ^ 8 = b + 256 * c + 65536 * d).
  { symmetry. apply (Z.div_unique _ _ _ a); lia. }
  rewrite E1, E2. rewrite lor_shifted_small by lia.
  replace (a * 2 ^ 24 + (b + 256 * c + 65536 * d)) with (b + 256 * c + 65536 * d + 16777216 * a) by lia. apply B_bytes4; auto.
Qed.
Lemma final_word t a b c d : (forall x, byte x -> byte (tab t x)) -> word (aes_final t a b c d).
Proof.
  intro H. unfold aes_final. destruct (I_byte a) as (A & _). destruct (I_byte b) as (_ & C & _). destruct (I_byte c) as (_ & _ & D & _). destruct (I_byte d) as (_ & _ & _ & E).
  assert (X : Z.lor (Z.lor (Z.lor (tab t (I0 a)) (Z.shiftl (tab t (I1 b)) 8)) (Z.shiftl (tab t (I2 c)) 16)) (Z.shiftl (tab t (I3 d)) 24) =
    tab t (I0 a) + 256 * tab t (I1 b) + 65536 * tab t (I2 c) + 16777216 * tab t (I3 d)).
  { rewrite <- lor4 by auto. apply Z.bits_inj'. intros i Hi. rewrite !Z.lor_spec.
    destruct (Z.testbit (tab t (I0 a)) i), (Z.testbit (Z.shiftl (tab t (I1 b)) 8) i), (Z.testbit (Z.shiftl (tab t (I2 c)) 16) i), (Z.testbit (Z.shiftl (tab t (I3 d)) 24) i); reflexivity. }
  rewrite X. apply word_of_bytes; auto.
Qed.
Lemma word_lxor a b : word a -> word b -> word (Z.lxor a b).
Proof. unfold word. intros. apply lxor_bound; lia. Qed.
Lemma B_sbox w : B (aes_sbox w) = sub_word (B w).
Proof.
  unfold aes_sbox. rewrite B_final by apply fs_byte. destruct (I_byte w) as (? & ? & ? & ?). rewrite !sbox_tab by assumption. rewrite B_I. reflexivity.
Qed.
Lemma rcon_ok k : (k < 10)%nat -> B (nth k aes_rcon 0) = rcon (k + 1) /\ word (nth k aes_rcon 0).
Proof.
  intro H. split.
  - apply leqb_eq. assert (C : forallb (fun k => leqb (B (nth k aes_rcon 0)) (rcon (k + 1))) (seq 0 10) = true) by (vm_compute; reflexivity).
    pose proof (proj1 (forallb_forall _ _) C k) as G. apply G. apply in_seq. lia.
  - assert (C : forallb (fun k => (0 <=? nth k aes_rcon 0) && (nth k aes_rcon 0 <? 2 ^ 32)) (seq 0 10) = true) by (vm_compute; reflexivity).
    pose proof (proj1 (forallb_forall _ _) C k) as G. cbv beta in G. specialize (G ltac:(apply in_seq; lia)). unfold word. lia.
Qed.
Lemma nth_B ks i : (i < length ks)%nat -> nth i (map B ks) [] = B (nth i ks 0).
Proof. intro H. rewrite (nth_indep _ _ (B 0)) by (rewrite map_length; auto). apply map_nth. Qed.
Lemma nat_iter_S_r {A} n (f : A -> A) x : Nat.iter (S n) f x = Nat.iter n f (f x).
Proof. induction n as [|n IH]; [reflexivity|]. change (f (Nat.iter (S n) f x) = f (Nat.iter n f (f x))). rewrite IH. reflexivity. Qed.
Lemma skipn_cons_nth {A} (d : A) k : forall l, (k < length l)%nat -> skipn k l = nth k l d :: skipn (S k) l.
Proof. induction k as [|k IH]; intros [|x l] H; cbn [length] in H; try lia; [reflexivity|]. cbn [skipn nth]. rewrite IH by lia. reflexivity. Qed.
Lemma expand_ok nk : In nk [4; 6; 8]%nat -> forall n i ks, length ks = i -> (nk <= i)%nat -> (i + n <= 4 * (nk + 7))%nat -> Forall word ks ->
  exists ks', aes_expand n nk i (skipn ((i + nk - 1) / nk - 1) aes_rcon) ks = Ok ks' /\ Forall word ks' /\ length ks' = (i + n)%nat /\
    map B ks' = Nat.iter n (fun ws => ws ++ [next_word nk ws]) (map B ks).
Proof.
  intro Hnk. assert (K : (4 <= nk <= 8)%nat) by (destruct Hnk as [<-|[<-|[<-|[]]]]; lia).
  induction n as [|n IH]; intros i ks L Hi Hn W.
  - exists ks. cbn [aes_expand Nat.iter nat_rect]. repeat split; auto. lia.
  - rewrite nat_iter_S_r. cbn [aes_expand].
    assert (Wn : forall k, word (nth k ks 0)) by (intro; apply Forall_nth_d; auto; unfold word; lia).
    set (w := nth (i - nk) ks 0). set (t := nth (i - 1) ks 0).
    assert (Ww : word w) by apply Wn. assert (Wt : word t) by apply Wn.
    pose proof (Nat.div_mod i nk ltac:(lia)) as DM. pose proof (Nat.mod_upper_bound i nk ltac:(lia)) as MB.
    destruct (Nat.eqb_spec (i mod nk) 0) as [E|E].
    + assert (Q : ((i + nk - 1) / nk = i / nk)%nat).
      { symmetry. apply (Nat.div_unique _ _ _ (nk - 1)); lia. }
      assert (Q' : ((i + 1 + nk - 1) / nk = i / nk + 1)%nat).
      { symmetry. apply (Nat.div_unique _ _ _ 0); lia. }
      assert (Qb : (1 <= i / nk <= 10)%nat).
      { split; [apply Nat.div_le_lower_bound; lia|]. destruct Hnk as [<-|[<-|[<-|[]]]]; lia. }
      rewrite Q. rewrite (skipn_cons_nth 0) by (cbn [aes_rcon length]; lia).
      destruct (rcon_ok (i / nk - 1) ltac:(lia)) as [R1 R2].
      destruct (IH (i + 1)%nat (ks ++ [Z.lxor w (Z.lxor (aes_sbox (rotl32 t 24)) (nth (i / nk - 1) aes_rcon 0))])) as (ks' & K1 & K2 & K3 & K4).
      { rewrite app_length. cbn [length]. lia. } { lia. } { lia. }
      { apply Forall_app. split; auto. constructor; [|constructor]. repeat apply word_lxor; auto. apply final_word, fs_byte. }
      exists ks'. rewrite Q' in K1. replace (S (i / nk - 1))%nat with (i / nk + 1 - 1)%nat by lia. refine (conj K1 (conj K2 (conj _ _))); [lia|].
      rewrite K4. f_equal. rewrite map_app. f_equal. cbn [map]. f_equal. unfold next_word. rewrite map_length, L, E. cbn [Nat.eqb].
      rewrite !B_lxor, B_sbox, B_rot, R1 by auto. rewrite !nth_B by lia. fold w t. replace (i / nk - 1 + 1)%nat with (i / nk)%nat by lia. reflexivity.
    + assert (Q' : ((i + 1 + nk - 1) / nk = (i + nk - 1) / nk)%nat).
      { transitivity (i / nk + 1)%nat; [symmetry; apply (Nat.div_unique _ _ _ (i mod nk)); lia|].
        apply (Nat.div_unique _ _ _ (i mod nk - 1)); lia. }
      set (t' := if (nk =? 8)%nat && (i mod nk =? 4)%nat then aes_sbox t else t).
      assert (Wt' : word t') by (unfold t'; destruct (_ && _)%bool; auto; apply final_word, fs_byte).
      destruct (IH (i + 1)%nat (ks ++ [Z.lxor w t'])) as (ks' & K1 & K2 & K3 & K4).
      { rewrite app_length. cbn [length]. lia. } { lia. } { lia. }
      { apply Forall_app. split; auto. constructor; [|constructor]. apply word_lxor; auto. }
      exists ks'. rewrite Q' in K1. refine (conj K1 (conj K2 (conj _ _))); [lia|].
      rewrite K4. f_equal. rewrite map_app. f_equal. cbn [map]. f_equal. unfold next_word. rewrite map_length, L.
      rewrite (proj2 (Nat.eqb_neq _ _) E). rewrite B_lxor, !nth_B by lia. fold w t. f_equal. unfold t'.
      replace (6 <? nk)%nat with (nk =? 8)%nat by (destruct Hnk as [<-|[<-|[<-|[]]]]; reflexivity).
      destruct (_ && _)%bool; [apply B_sbox|reflexivity].
Qed.
