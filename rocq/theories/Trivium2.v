(** Trivium: bytes, set-up and calls. *)
From Verif Require Import Base Bits BytesSpec Bytes Lists HashModel HashBase TriviumModel TriviumSpec Trivium.

Lemma tb_divmod a b n : 0 <= n -> 0 <= a < 256 -> Z.testbit (a + 256 * b) n = if n <? 8 then Z.testbit a n else Z.testbit b (n - 8).
Proof.
  intros Hn Ha. destruct (Z.ltb_spec n 8) as [H|H].
  - rewrite <- (Z.mod_pow2_bits_low (a + 256 * b) 8 n) by lia. change (2 ^ 8) with 256. rewrite Z.mul_comm, Z_mod_plus_full, Z.mod_small by lia. reflexivity.
  - assert (E : b = (a + 256 * b) / 2 ^ 8) by (change (2 ^ 8) with 256; rewrite Z.mul_comm, Z.div_add, Z.div_small by lia; lia).
    rewrite E at 2. rewrite Z.div_pow2_bits by lia. f_equal. lia.
Qed.
Lemma div8 p : (p < 8)%nat \/ exists q, p = (q + 8)%nat /\ (p / 8 = S (q / 8))%nat /\ (p mod 8 = q mod 8)%nat.
Proof.
  destruct (Nat.lt_ge_cases p 8) as [H|H]; [left; auto|right]. exists (p - 8)%nat. split; [lia|].
  replace p with ((p - 8) + 1 * 8)%nat at 1 3 by lia. rewrite Nat.div_add, Nat.mod_add by lia. split; [lia|reflexivity].
Qed.
Lemma le_val_bit l : forall p, bytes l -> Z.testbit (le_val l) (Z.of_nat p) = Z.testbit (nth (p / 8) l 0) (Z.of_nat (p mod 8)).
Proof.
  induction l as [|b l IH]; intros p Hb.
  - cbn [le_val]. destruct (p / 8)%nat; cbn [nth]; rewrite !Z.testbit_0_l; reflexivity.
  - inversion Hb; subst. cbn [le_val]. rewrite tb_divmod by (unfold byte in *; lia). destruct (div8 p) as [H|(q & -> & E1 & E2)].
    + rewrite Nat.div_small, Nat.mod_small by auto. destruct (Z.ltb_spec (Z.of_nat p) 8); [reflexivity|lia].
    + rewrite E1, E2. destruct (Z.ltb_spec (Z.of_nat (q + 8)) 8); [lia|]. cbn [nth]. rewrite <- IH by auto. f_equal. lia.
Qed.
Lemma lsb_cons b l : lsb_bits (b :: l) = map (fun j => Z.odd (b / 2 ^ j)) [0; 1; 2; 3; 4; 5; 6; 7] ++ lsb_bits l.
Proof. reflexivity. Qed.
Lemma lsb_app a b : lsb_bits (a ++ b) = lsb_bits a ++ lsb_bits b.
Proof. unfold lsb_bits. rewrite map_app, concat_app. reflexivity. Qed.
Lemma lsb_len l : length (lsb_bits l) = (8 * length l)%nat.
Proof. induction l as [|b l IH]; [reflexivity|]. rewrite lsb_cons, app_length, IH. cbn [map length]. lia. Qed.
Lemma lsb_zeros n : lsb_bits (repeat 0 n) = repeat false (8 * n).
Proof.
  induction n as [|n IH]; [reflexivity|]. change (repeat 0 (S n)) with (0 :: repeat 0 n). rewrite lsb_cons, IH.
  replace (8 * S n)%nat with (8 + 8 * n)%nat by lia. rewrite repeat_app. reflexivity.
Qed.
Lemma nth_lsb l : forall p, nth p (lsb_bits l) false = Z.testbit (nth (p / 8) l 0) (Z.of_nat (p mod 8)).
Proof.
  induction l as [|b l IH]; intro p.
  - unfold lsb_bits. cbn [map concat]. destruct p; destruct (_ / 8)%nat; cbn [nth]; rewrite Z.testbit_0_l; reflexivity.
  - rewrite lsb_cons. destruct (div8 p) as [H|(q & -> & E1 & E2)].
    + rewrite app_nth1 by (cbn [map length]; lia). rewrite Nat.div_small, Nat.mod_small by auto.
      assert (O : forall j, 0 <= j -> Z.odd (b / 2 ^ j) = Z.testbit b j) by (intros j Hj; rewrite Z.testbit_odd, Z.shiftr_div_pow2 by auto; reflexivity).
      cbn [map]. rewrite !O by lia. do 8 (destruct p as [|p]; [reflexivity|]). lia.
    + rewrite app_nth2 by (cbn [map length]; lia). cbn [map length]. rewrite E1, E2. cbn [nth]. rewrite <- IH. f_equal. lia.
Qed.
(** ** words of a byte string *)
Lemma load_wrd s : bytes s -> length s = 40%nat -> Forall wrd (tri_load s) /\ length (tri_load s) = 10%nat.
Proof.
  intros Hb L. split; [|reflexivity]. apply Forall_forall. intros x Hx. apply in_map_iff in Hx. destruct Hx as (i & <- & Hi). apply in_seq in Hi.
  rewrite read_le_ok by (auto; lia). unfold wrd. pose proof (le_val_bound (firstn 4 (skipn (4 * i) s)) ltac:(apply bytes_firstn, bytes_skipn; auto)) as B.
  rewrite firstn_length, skipn_length, L in B. rewrite Nat.min_l in B by lia. exact B.
Qed.
Lemma load_wb s p : bytes s -> length s = 40%nat -> (p < 320)%nat -> wb (tri_load s) p = nth p (lsb_bits s) false.
Proof.
  intros Hb L Hp. unfold wb, tri_load. assert (Hq : (p / 32 < 10)%nat) by (apply Nat.div_lt_upper_bound; lia).
  set (g := fun i => read_le 4 s (4 * i)). rewrite (nth_indep _ 0 (g 0%nat)) by (rewrite map_length, seq_length; auto). rewrite map_nth, seq_nth by auto. unfold g. cbn [Nat.add].
  rewrite read_le_ok by (auto; lia). rewrite le_val_bit by (apply bytes_firstn, bytes_skipn; auto). rewrite nth_lsb.
  pose proof (Nat.div_mod p 32 ltac:(lia)) as D. pose proof (Nat.mod_upper_bound p 32 ltac:(lia)) as M. set (q := (p / 32)%nat) in *. set (r := (p mod 32)%nat) in *.
  assert (Hr : (r / 8 < 4)%nat) by (apply Nat.div_lt_upper_bound; lia).
  rewrite nth_firstn_lt by auto. rewrite nth_skipn_add. rewrite D.
  replace (32 * q + r)%nat with (r + (4 * q) * 8)%nat by lia. rewrite Nat.div_add, Nat.mod_add by lia. do 2 f_equal. lia.
Qed.
Lemma store_len w : length w = 10%nat -> length (tri_store w) = 40%nat.
Proof. intro L. destruct (list10 w L) as (? & ? & ? & ? & ? & ? & ? & ? & ? & ? & ->). reflexivity. Qed.
Lemma store_bytes w : bytes (tri_store w).
Proof. unfold tri_store. induction w as [|x w IH]; [constructor|]. cbn [map concat]. apply Forall_app. split; [rewrite write_le_ok; apply le_bytes_bytes|exact IH]. Qed.
Lemma load_store w : length w = 10%nat -> Forall wrd w -> tri_load (tri_store w) = w.
Proof.
  intros L W. assert (S : forall i, (i < 10)%nat -> firstn 4 (skipn (4 * i) (tri_store w)) = write_le 4 (nth i w 0)).
  { destruct (list10 w L) as (? & ? & ? & ? & ? & ? & ? & ? & ? & ? & ->). intros i Hi. do 10 (destruct i as [|i]; [reflexivity|]). lia. }
  apply (list_eq 0); [unfold tri_load; rewrite map_length, seq_length; auto|]. intros i Hi. unfold tri_load in *. rewrite map_length, seq_length in Hi.
  set (g := fun i => read_le 4 (tri_store w) (4 * i)). rewrite (nth_indep _ 0 (g 0%nat)) by (rewrite map_length, seq_length; auto). rewrite map_nth, seq_nth by auto. unfold g. cbn [Nat.add].
  rewrite read_le_ok by (try apply store_bytes; rewrite store_len by auto; lia). rewrite S by auto. rewrite write_le_ok, le_val_bytes. apply Z.mod_small. change (256 ^ Z.of_nat 4) with (2 ^ 32).
  apply (Forall_nth_d wrd); auto. unfold wrd. lia.
Qed.

(** ** key stream words *)
Lemma horner x n : forall k, (k <= n)%nat -> 0 <= x < 2 ^ Z.of_nat n ->
  fold_left (fun v i => 2 * v + (if Z.testbit x (Z.of_nat n - 1 - Z.of_nat i) then 1 else 0)) (seq 0 k) 0 = x / 2 ^ (Z.of_nat n - Z.of_nat k).
Proof.
  induction k as [|k IH]; intros Hk Hx.
  - cbn [seq fold_left]. rewrite Z.div_small; [reflexivity|]. replace (Z.of_nat n - Z.of_nat 0) with (Z.of_nat n) by lia. lia.
  - rewrite seq_S, fold_left_app, IH by (auto; lia). cbn [Nat.add fold_left]. set (m := Z.of_nat n - 1 - Z.of_nat k).
    replace (Z.of_nat n - Z.of_nat k) with (m + 1) by (unfold m; lia). replace (Z.of_nat n - Z.of_nat (S k)) with m by (unfold m; lia). assert (Hm : 0 <= m) by (unfold m; lia).
    rewrite Z.pow_add_r by lia. change (2 ^ 1) with 2. rewrite <- Z.div_div by (try apply Z.pow_nonzero; lia).
    pose proof (Z.div_mod (x / 2 ^ m) 2 ltac:(lia)) as D. rewrite Zmod_odd in D. rewrite Z.testbit_odd, Z.shiftr_div_pow2 by auto. destruct (Z.odd _); lia.
Qed.
Lemma zword_ok z k x : wrd x -> (forall i, (i < 32)%nat -> Z.testbit x (31 - Z.of_nat i) = z (32 * k + i)%nat) -> zword z k = x.
Proof.
  intros W H. unfold zword. rewrite <- (Z.div_1_r x). change 1 with (2 ^ (Z.of_nat 32 - Z.of_nat 32)) at 2. rewrite <- (horner x 32 32) by (auto; exact W).
  set (l := seq 0 32). assert (Hl : forall i, In i l -> (i < 32)%nat) by (intros i Hi; apply in_seq in Hi; lia). clearbody l.
  assert (G : forall v, fold_left (fun v i => 2 * v + (if z (32 * k + i)%nat then 1 else 0)) l v =
     fold_left (fun v i => 2 * v + (if Z.testbit x (Z.of_nat 32 - 1 - Z.of_nat i) then 1 else 0)) l v); [|apply G].
  induction l as [|i l IH]; intro v; [reflexivity|]. cbn [fold_left]. rewrite <- H by (apply Hl; left; reflexivity).
  change (31 - Z.of_nat i) with (Z.of_nat 32 - 1 - Z.of_nat i). apply IH. intros j Hj. apply Hl. right. auto.
Qed.
Lemma zbytes_ok z k : zbytes z k = le_bytes 4 (zword z k).
Proof.
  apply (list_eq 0); [reflexivity|]. intros i Hi. change (length (zbytes z k)) with 4%nat in Hi. rewrite le_bytes_nth by exact Hi. unfold zbytes.
  do 4 (destruct i as [|i]; [reflexivity|]). lia.
Qed.
Lemma lxor_mod a b : Z.lxor a b mod 256 = Z.lxor (a mod 256) (b mod 256).
Proof.
  change 256 with (2 ^ 8). apply Z.bits_inj'. intros i Hi. rewrite Z.lxor_spec. destruct (Z.lt_ge_cases i 8).
  - rewrite !Z.mod_pow2_bits_low, Z.lxor_spec by lia. reflexivity.
  - rewrite !Z.mod_pow2_bits_high by lia. reflexivity.
Qed.
Lemma lxor_div a b : Z.lxor a b / 256 = Z.lxor (a / 256) (b / 256).
Proof. change 256 with (2 ^ 8). rewrite <- !Z.shiftr_div_pow2 by lia. apply Z.shiftr_lxor. Qed.
Lemma le_bytes_lxor n : forall a b, le_bytes n (Z.lxor a b) = xorl (le_bytes n a) (le_bytes n b).
Proof. induction n as [|n IH]; intros a b; [reflexivity|]. cbn [le_bytes]. rewrite lxor_mod, lxor_div, IH. reflexivity. Qed.
Lemma word_xor src o z : bytes src -> (o + 4 <= length src)%nat ->
  write_le 4 (Z.lxor (read_le 4 src o) z) = xorl (firstn 4 (skipn o src)) (le_bytes 4 z).
Proof.
  intros Hb L. rewrite write_le_ok, le_bytes_lxor, read_le_ok by auto. f_equal.
  assert (L4 : length (firstn 4 (skipn o src)) = 4%nat) by (rewrite firstn_length, skipn_length; lia). rewrite <- L4 at 1. apply le_bytes_val. apply bytes_firstn, bytes_skipn. auto.
Qed.
(** ** calls *)
Lemma stream_S z k n : stream z k (S n) = zbytes z k ++ stream z (S k) n. Proof. reflexivity. Qed.
Lemma stream_len z n : forall k, length (stream z k n) = (4 * n)%nat.
Proof. induction n as [|n IH]; intro k; [reflexivity|]. rewrite stream_S, app_length, IH. change (length (zbytes z k)) with 4%nat. lia. Qed.
Lemma stream_app z a : forall k b, stream z k (a + b) = stream z k a ++ stream z (k + a) b.
Proof. intros k b. unfold stream. rewrite seq_app, map_app, concat_app. reflexivity. Qed.
Section Calls.
Variable z : nat -> bool.
Variable W : nat -> list Z.
Hypothesis HW : forall k, length (W k) = 10%nat /\ Forall wrd (W k).
Hypothesis HS : forall k, tri_step (W k) = (zword z k, W (S k)).
Lemma tri_words_ok n : forall k src i, bytes src -> (4 * (i + n) <= length src)%nat ->
  tri_words n (W k) src i = (xorl (firstn (4 * n) (skipn (4 * i) src)) (stream z k n), W (k + n)%nat).
Proof.
  induction n as [|n IH]; intros k src i Hb L.
  - cbn [tri_words]. rewrite Nat.add_0_r. reflexivity.
  - cbn [tri_words]. rewrite HS. rewrite IH by (auto; lia). rewrite word_xor by (auto; lia). rewrite <- zbytes_ok, stream_S.
    replace (S k + n)%nat with (k + S n)%nat by lia. f_equal. rewrite <- xorl_app by (rewrite firstn_length, skipn_length; change (length (zbytes z k)) with 4%nat; lia). f_equal.
    replace (4 * S n)%nat with (4 + 4 * n)%nat by lia. replace (4 * S i)%nat with (4 * i + 4)%nat by lia.
    rewrite <- skipn_skipn. set (r := skipn (4 * i) src). rewrite <- (firstn_skipn 4 r) at 3. rewrite firstn_app.
    assert (L4 : length (firstn 4 r) = 4%nat) by (unfold r; rewrite firstn_length, skipn_length; lia).
    rewrite L4. replace (4 + 4 * n - 4)%nat with (4 * n)%nat by lia. rewrite (firstn_all2 (firstn 4 r)) by lia. reflexivity.
Qed.
Lemma tri_crypt_ok c src k : bytes src -> tri_load (tri_s c) = W k -> let n := ((length src + 3) / 4)%nat in
  fst (tri_crypt c src) = xorl src (stream z k n) /\ tri_load (tri_s (snd (tri_crypt c src))) = W (k + n)%nat /\ tri_key (snd (tri_crypt c src)) = tri_key c.
Proof.
  intros Hb Hc n. unfold tri_crypt. rewrite Hc. pose proof (Nat.div_mod (length src) 4 ltac:(lia)) as D. pose proof (Nat.mod_upper_bound (length src) 4 ltac:(lia)) as M.
  set (q := (length src / 4)%nat) in *. set (r := (length src mod 4)%nat) in *. rewrite tri_words_ok by (auto; lia). change (skipn (4 * 0) src) with src.
  replace (q * 4)%nat with (4 * q)%nat by lia. destruct (Nat.ltb_spec (4 * q) (length src)) as [H|H].
  - assert (En : n = (q + 1)%nat) by (unfold n; symmetry; apply (Nat.div_unique _ 4 _ (r - 1)); lia). rewrite En. rewrite HS. cbn [fst snd tri_s tri_key].
    split; [|split; [|reflexivity]].
    + rewrite stream_app. rewrite <- (firstn_skipn (4 * q) src) at 3. rewrite xorl_app by (rewrite stream_len, firstn_length; lia). f_equal.
      assert (E1 : stream z (k + q) 1 = le_bytes 4 (zword z (k + q))) by (rewrite <- zbytes_ok; unfold stream; cbn [seq map concat]; apply app_nil_r). rewrite E1.
      apply (list_eq 0); [rewrite map_length, seq_length, xorl_length, skipn_length, le_bytes_length; lia|]. intros j Hj. rewrite map_length, seq_length in Hj.
      set (g := fun j => Z.lxor _ _). rewrite (nth_indep _ 0 (g 0%nat)) by (rewrite map_length, seq_length; auto). rewrite map_nth, seq_nth by auto. unfold g. cbn [Nat.add].
      rewrite nth_xorl by (rewrite ?skipn_length, ?le_bytes_length; lia). rewrite nth_skipn_add, le_bytes_nth by lia. f_equal.
      rewrite Z.shiftr_div_pow2 by lia. change 255 with (Z.ones 8). rewrite Z.land_ones by lia. change (2 ^ 8) with 256. rewrite Z.pow_mul_r by lia. reflexivity.
    + rewrite load_store by apply HW. f_equal. lia.
  - assert (En : n = q) by (unfold n; symmetry; apply (Nat.div_unique _ 4 _ 3); lia). rewrite En. cbn [fst snd tri_s tri_key].
    split; [|split; [|reflexivity]].
    + rewrite app_nil_r, firstn_all2 by lia. reflexivity.
    + apply load_store; apply HW.
Qed.
Lemma tri_calls_ok ms : forall c k, Forall bytes ms -> tri_load (tri_s c) = W k -> tri_calls c ms = trivium_calls z k ms.
Proof.
  induction ms as [|m ms IH]; intros c k Hb Hc; [reflexivity|]. inversion Hb; subst. cbn [tri_calls trivium_calls]. destruct (tri_crypt_ok c m k) as (A & B & _); auto.
  destruct (tri_crypt c m) as [o c']. cbn [fst snd] in *. rewrite A. f_equal. apply IH; auto.
Qed.
End Calls.

(** ** set-up *)
Definition Fs (s : list Z) : fst3 := {| ra := fun p => nth p (lsb_bits s) false; rb := fun p => nth (96 + p) (lsb_bits s) false; rc := fun p => nth (192 + p) (lsb_bits s) false |}.
Lemma Rw_load s : bytes s -> length s = 40%nat -> Rw (tri_load s) (Fs s).
Proof.
  intros Hb L. destruct (load_wrd s Hb L) as [A B]. split; [auto|]. split; [auto|]. cbn [Fs ra rb rc]. repeat split; intros p Hp; apply load_wb; auto; lia.
Qed.
Definition state0 (key iv rest : list Z) : list Z := key ++ [0; 0] ++ iv ++ [0; 0] ++ repeat 0 13 ++ [0x70] ++ rest.
Lemma Rl_setup key iv rest : length key = 10%nat -> length iv = 10%nat -> length rest = 2%nat -> Rl (setup key iv) (Fs (state0 key iv rest)).
Proof.
  intros Lk Li Lr. unfold state0, setup. 
  assert (E : lsb_bits (key ++ [0; 0] ++ iv ++ [0; 0] ++ repeat 0 13 ++ [0x70] ++ rest) =
     (lsb_bits key ++ repeat false 16) ++ (lsb_bits iv ++ repeat false 16) ++ (repeat false 108 ++ [true; true; true]) ++ false :: lsb_bits rest).
  { rewrite !lsb_app. change [0; 0] with (repeat 0 2). rewrite !lsb_zeros. change (lsb_bits [0x70]) with (repeat false 4 ++ [true; true; true; false]).
    change (repeat false 108) with (repeat false (8 * 13) ++ repeat false 4). rewrite <- !app_assoc. reflexivity. }
  unfold Fs. rewrite E. clear E. pose proof (lsb_len key) as K. pose proof (lsb_len iv) as V. rewrite Lk in K. rewrite Li in V.
  set (kb := lsb_bits key) in *. set (vb := lsb_bits iv) in *. set (C := repeat false 108 ++ [true; true; true]). assert (LC : length C = 111%nat) by reflexivity.
  set (z13 := repeat false 13). set (z4 := repeat false 4). set (z16 := repeat false 16).
  assert (L13 : length z13 = 13%nat) by reflexivity. assert (L4 : length z4 = 4%nat) by reflexivity. assert (L16 : length z16 = 16%nat) by reflexivity.
  assert (N13 : forall p, nth p z13 false = false) by (intro; apply nth_repeat). assert (N4 : forall p, nth p z4 false = false) by (intro; apply nth_repeat). assert (N16 : forall p, nth p z16 false = false) by (intro; apply nth_repeat).
  clearbody kb vb C z13 z4 z16. unfold Rl. cbn [ra rb rc].
  split; [rewrite !app_length; lia|]. split; [|split]; intros p Hp.
  - rewrite !(app_nth1 (_ ++ _)) by (rewrite app_length; lia). destruct (Nat.lt_ge_cases p 80).
    + rewrite !app_nth1 by lia. reflexivity.
    + rewrite !app_nth2 by lia. rewrite N13, N16. reflexivity.
  - rewrite !(app_nth2 (kb ++ _)) by (rewrite app_length; lia). rewrite !app_length, K, L13, L16. rewrite !(app_nth1 (vb ++ _)) by (rewrite app_length; lia).
    replace (93 + p - (8 * 10 + 13))%nat with p by lia. replace (96 + p - (8 * 10 + 16))%nat with p by lia. destruct (Nat.lt_ge_cases p 80).
    + rewrite !app_nth1 by lia. reflexivity.
    + rewrite !app_nth2 by lia. rewrite N4, N16. reflexivity.
  - rewrite !(app_nth2 (kb ++ _)) by (rewrite app_length; lia). rewrite !(app_nth2 (vb ++ _)) by (rewrite !app_length; lia). rewrite !app_length, K, V, L13, L16, L4.
    rewrite (app_nth1 C) by lia. reflexivity.
Qed.
Definition padded (n : nat) (l : list Z) : list Z := firstn n l ++ repeat 0 (n - length l).
Lemma padded_len n l : length (padded n l) = n. Proof. unfold padded. rewrite app_length, firstn_length, repeat_length. lia. Qed.
Lemma padded_bytes n l : bytes l -> bytes (padded n l). Proof. intro H. apply Forall_app. split; [apply bytes_firstn; auto|apply bytes_repeat0]. Qed.
Lemma padded_same n l : length l = n -> padded n l = l. Proof. intros <-. unfold padded. rewrite firstn_all, Nat.sub_diag. apply app_nil_r. Qed.
Definition tri_ok (c : tri) : Prop := length (tri_key c) = 10%nat /\ bytes (tri_key c) /\ length (tri_s c) = 40%nat /\ bytes (tri_s c).
Definition Wn (s : list Z) (k : nat) : list Z := Nat.iter k (fun w => snd (tri_step w)) (tri_load s).
Lemma iter_add {A} (f : A -> A) a b x : Nat.iter a f (Nat.iter b f x) = Nat.iter (a + b) f x.
Proof. induction a as [|a IH]; [reflexivity|]. change (f (Nat.iter a f (Nat.iter b f x)) = f (Nat.iter (a + b) f x)). rewrite IH. reflexivity. Qed.
Lemma Wn_S s k : Wn s (S k) = snd (tri_step (Wn s k)). Proof. reflexivity. Qed.
Lemma Wn_ok s k : bytes s -> length s = 40%nat -> Rw (Wn s k) (Nat.iter (32 * k) estep (Fs s)).
Proof.
  intros Hb L. induction k as [|k IH]; [apply Rw_load; auto|]. change (Wn s (S k)) with (snd (tri_step (Wn s k))).
  destruct (tri_step_ok _ _ IH) as (_ & Q & _). rewrite iter_add in Q. replace (32 * S k)%nat with (32 + 32 * k)%nat by lia. exact Q.
Qed.
Lemma Wn_z key iv rest k : length key = 10%nat -> length iv = 10%nat -> length rest = 2%nat -> bytes (state0 key iv rest) ->
  tri_step (Wn (state0 key iv rest) (36 + k)) = (zword (zbit key iv) k, Wn (state0 key iv rest) (36 + S k)).
Proof.
  intros Lk Li Lr Hb. assert (L : length (state0 key iv rest) = 40%nat) by (unfold state0; rewrite !app_length, repeat_length; cbn [length]; lia).
  pose proof (Wn_ok _ (36 + k) Hb L) as R. destruct (tri_step_ok _ _ R) as (A & _ & B).
  rewrite (surjective_pairing (tri_step _)). refine (f_equal2 pair _ _).
  - symmetry. apply zword_ok; [exact A|]. intros i Hi. rewrite B by auto. rewrite <- Zo_n by auto. rewrite iter_add. unfold zbit.
    destruct (after_ok (36 * 32 + (32 * k + i)) _ _ (Rl_setup key iv rest Lk Li Lr)) as [_ Q]. rewrite Q. replace (36 * 32 + (32 * k + i))%nat with (i + 32 * (36 + k))%nat by lia. reflexivity.
  - replace (36 + S k)%nat with (S (36 + k)) by lia. rewrite Wn_S. reflexivity.
Qed.
Lemma iv_set_state c iv : tri_ok c -> tri_iv_set c iv = {| tri_key := tri_key c; tri_s := tri_store (Wn (state0 (tri_key c) (padded 10 iv) (skipn 38 (tri_s c))) 36) |}.
Proof.
  intros (Lk & _). unfold tri_iv_set, Wn. do 4 apply f_equal. unfold state0, padded. rewrite firstn_all2 by lia. do 2 f_equal.
  replace (firstn (Nat.min (length iv) 10) iv) with (firstn 10 iv) by (rewrite Nat.min_comm, <- (firstn_firstn iv), firstn_all; reflexivity).
  rewrite <- app_assoc. f_equal. replace (12 - Nat.min (length iv) 10)%nat with ((10 - length iv) + 2)%nat by lia. rewrite repeat_app, <- app_assoc. reflexivity.
Qed.
Lemma trivium_ok c iv ms : tri_ok c -> bytes iv -> Forall bytes ms ->
  tri_calls (tri_iv_set c iv) ms = trivium_calls (zbit (tri_key c) (padded 10 iv)) 0 ms.
Proof.
  intros Hc Hi Hm. rewrite iv_set_state by auto. destruct Hc as (Lk & Bk & Ls & Bs). set (rest := skipn 38 (tri_s c)).
  assert (Lr : length rest = 2%nat) by (unfold rest; rewrite skipn_length; lia). assert (Br : bytes rest) by (apply bytes_skipn; auto).
  pose proof (padded_len 10 iv) as Lv. pose proof (padded_bytes 10 iv Hi) as Bv. set (v := padded 10 iv) in *. clearbody v rest.
  set (s := state0 (tri_key c) v rest).
  assert (Hb : bytes s).
  { unfold s, state0. repeat (apply Forall_app; split); auto; try apply bytes_repeat0; repeat (apply Forall_cons; [unfold byte; lia|]); constructor. }
  assert (L : length s = 40%nat) by (unfold s, state0; rewrite !app_length, repeat_length; cbn [length]; lia).
  apply (tri_calls_ok (zbit (tri_key c) v) (fun k => Wn s (36 + k))); auto.
  - intro k. destruct (Wn_ok s (36 + k) Hb L) as (A & B & _). split; auto.
  - intro k. apply Wn_z; auto.
  - cbn [tri_s]. destruct (Wn_ok s 36 Hb L) as (A & B & _). rewrite load_store by auto. reflexivity.
Qed.
Lemma tri_key_set_ok c key : bytes key -> tri_ok c -> tri_ok (tri_key_set c key) /\ tri_key (tri_key_set c key) = padded 10 key.
Proof.
  intros Hb (A & B & C & D). assert (E : tri_key (tri_key_set c key) = padded 10 key).
  { unfold tri_key_set, padded. cbn [tri_key]. replace (firstn (Nat.min (length key) 10) key) with (firstn 10 key) by (rewrite Nat.min_comm, <- (firstn_firstn key), firstn_all; reflexivity). do 2 f_equal. lia. }
  split; [|exact E]. split; [rewrite E; apply padded_len|]. split; [rewrite E; apply padded_bytes; auto|]. split; auto.
Qed.
Lemma tri_init_ok : tri_ok tri_init.
Proof. split; [reflexivity|]. split; [apply bytes_repeat0|]. split; [reflexivity|apply bytes_repeat0]. Qed.
(** ** any history of a context *)
Inductive tri_op := TKey (key : list Z) | TIv (iv : list Z) | TCrypt (m : list Z).
Definition op_bytes (o : tri_op) : Prop := match o with TKey l | TIv l | TCrypt l => bytes l end.
Definition tri_do (c : tri) (o : tri_op) : tri := match o with TKey k => tri_key_set c k | TIv v => tri_iv_set c v | TCrypt m => snd (tri_crypt c m) end.
Lemma step_shape w : length w = 10%nat -> length (snd (tri_step w)) = 10%nat.
Proof. intro L. destruct (list10 w L) as (? & ? & ? & ? & ? & ? & ? & ? & ? & ? & ->). reflexivity. Qed.
Lemma words_shape n : forall w src i, length w = 10%nat -> length (snd (tri_words n w src i)) = 10%nat.
Proof.
  induction n as [|n IH]; intros w src i L; [exact L|]. cbn [tri_words]. pose proof (step_shape w L) as Q. destruct (tri_step w) as [z w']. cbn [snd] in Q.
  specialize (IH w' src (S i) Q). destruct (tri_words n w' src (S i)). exact IH.
Qed.
Lemma crypt_shape c m : tri_ok c -> tri_ok (snd (tri_crypt c m)).
Proof.
  intros (A & B & C & D). unfold tri_crypt. pose proof (words_shape (length m / 4) (tri_load (tri_s c)) m 0 eq_refl) as Q.
  destruct (tri_words _ _ _ _) as [o w]. cbn [snd] in Q. pose proof (step_shape w Q) as Q'.
  destruct (Nat.ltb _ _); [destruct (tri_step w) as [z w']|]; cbn [snd] in *; (split; [auto|]; split; [auto|]; split; [apply store_len; auto|apply store_bytes]).
Qed.
Lemma iv_shape c v : tri_ok c -> tri_ok (tri_iv_set c v).
Proof.
  intros (A & B & C & D). unfold tri_iv_set. split; [auto|]. split; [auto|]. split; [|apply store_bytes]. apply store_len.
  set (w := tri_load _). assert (L : length w = 10%nat) by reflexivity. clearbody w. generalize 36%nat. intro n. induction n as [|n IH]; [exact L|]. apply step_shape. exact IH.
Qed.
Lemma history_ok ops : forall c, tri_ok c -> Forall op_bytes ops -> tri_ok (fold_left tri_do ops c).
Proof.
  induction ops as [|o ops IH]; intros c Hc Ho; [exact Hc|]. inversion Ho; subst. cbn [fold_left]. apply IH; auto.
  destruct o; cbn [tri_do op_bytes] in *; [apply tri_key_set_ok; auto|apply iv_shape; auto|apply crypt_shape; auto].
Qed.
Lemma trivium_history ops key iv ms : Forall op_bytes ops -> bytes key -> bytes iv -> Forall bytes ms ->
  tri_calls (tri_iv_set (tri_key_set (fold_left tri_do ops tri_init) key) iv) ms = trivium_calls (zbit (padded 10 key) (padded 10 iv)) 0 ms.
Proof.
  intros Ho Hk Hi Hm. destruct (tri_key_set_ok (fold_left tri_do ops tri_init) key Hk (history_ok ops _ tri_init_ok Ho)) as [A B]. rewrite trivium_ok by auto. rewrite B. reflexivity.
Qed.
Lemma trivium_history10 ops key iv ms : Forall op_bytes ops -> bytes key -> length key = 10%nat -> bytes iv -> length iv = 10%nat -> Forall bytes ms ->
  tri_calls (tri_iv_set (tri_key_set (fold_left tri_do ops tri_init) key) iv) ms = trivium_calls (zbit key iv) 0 ms.
Proof. intros Ho Hk Lk Hi Li Hm. rewrite trivium_history by auto. rewrite !padded_same by auto. reflexivity. Qed.
(** ** round trip *)
Lemma calls_invol z ms : forall k, trivium_calls z k (trivium_calls z k ms) = ms.
Proof.
  induction ms as [|m ms IH]; intro k; [reflexivity|]. cbn [trivium_calls]. assert (Ls : (length m <= 4 * ((length m + 3) / 4))%nat).
  { pose proof (Nat.div_mod (length m + 3) 4 ltac:(lia)). pose proof (Nat.mod_upper_bound (length m + 3) 4 ltac:(lia)). lia. }
  assert (Lx : length (xorl m (stream z k ((length m + 3) / 4))) = length m) by (rewrite xorl_length, stream_len; lia).
  rewrite Lx, xorl_invol by (rewrite stream_len; lia). rewrite IH. reflexivity.
Qed.
Lemma zbytes_bytes z k : bytes (zbytes z k). Proof. rewrite zbytes_ok. apply le_bytes_bytes. Qed.
Lemma stream_bytes z n : forall k, bytes (stream z k n).
Proof. induction n as [|n IH]; intro k; [constructor|]. rewrite stream_S. apply Forall_app. split; [apply zbytes_bytes|apply IH]. Qed.
Lemma calls_bytes z ms : forall k, Forall bytes ms -> Forall bytes (trivium_calls z k ms).
Proof. induction ms as [|m ms IH]; intros k H; [constructor|]. inversion H; subst. cbn [trivium_calls]. constructor; [apply xorl_bytes; auto; apply stream_bytes|apply IH; auto]. Qed.
Lemma trivium_roundtrip ops ops' key iv ms : Forall op_bytes ops -> Forall op_bytes ops' -> bytes key -> bytes iv -> Forall bytes ms ->
  let start o := tri_iv_set (tri_key_set (fold_left tri_do o tri_init) key) iv in
  tri_calls (start ops') (tri_calls (start ops) ms) = ms.
Proof. intros Ho Ho' Hk Hi Hm start. unfold start. rewrite !trivium_history; auto; [apply calls_invol|rewrite trivium_history by auto; apply calls_bytes; auto]. Qed.
(** ** cutting at multiples of four *)
Lemma calls_cut z a b k : (length a mod 4 = 0)%nat -> concat (trivium_calls z k [a; b]) = concat (trivium_calls z k [a ++ b]).
Proof.
  intro H. cbn [trivium_calls concat]. rewrite !app_nil_r. pose proof (Nat.div_mod (length a) 4 ltac:(lia)) as D. set (q := (length a / 4)%nat) in *.
  assert (E1 : ((length a + 3) / 4)%nat = q) by (symmetry; apply (Nat.div_unique _ 4 _ 3); lia).
  assert (E2 : ((length (a ++ b) + 3) / 4)%nat = (q + (length b + 3) / 4)%nat).
  { rewrite app_length. replace (length a + length b + 3)%nat with ((length b + 3) + q * 4)%nat by lia. rewrite Nat.div_add by lia. lia. }
  rewrite E1, E2, stream_app, xorl_app by (rewrite stream_len; lia). reflexivity.
Qed.
Lemma trivium_cut ops key iv a b : Forall op_bytes ops -> bytes key -> bytes iv -> bytes a -> bytes b -> (length a mod 4 = 0)%nat ->
  let start := tri_iv_set (tri_key_set (fold_left tri_do ops tri_init) key) iv in
  concat (tri_calls start [a; b]) = concat (tri_calls start [a ++ b]).
Proof.
  intros Ho Hk Hi Ha Hb H start. unfold start. rewrite !trivium_history; auto; [apply calls_cut; auto|].
  constructor; [apply Forall_app; auto|constructor].
Qed.
