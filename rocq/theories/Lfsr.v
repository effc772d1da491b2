(** Proofs about LFSR113. *)
From Verif Require Import Base Lists BytesSpec Bytes Bits PrngModel PrngSpec Trivium Trivium2 Prng.

(** * One component *)
Lemma bits32 z i : 0 <= z < 2 ^ 32 -> 32 <= i -> Z.testbit z i = false.
Proof.
  intros H Hi. destruct (Z.eq_dec z 0) as [->|]; [apply Z.bits_0|]. apply Z.bits_above_log2; [lia|]. apply Z.log2_lt_pow2; [lia|].
  assert (2 ^ 32 <= 2 ^ i) by (apply Z.pow_le_mono_r; lia). lia.
Qed.
Lemma comp_bits k q s z i : 0 <= z < 2 ^ 32 -> 0 < k -> 0 <= q < 32 -> 0 < s -> k + s < 32 -> 0 <= i ->
  Z.testbit (lfsr_comp k q s z) i =
    xorb ((i <? 32) && (k + s <=? i) && Z.testbit z (i - s)) (xorb ((i + (32 - k - s) <? 32) && Z.testbit z (i + (32 - k - s) - q)) (Z.testbit z (i + (32 - k - s)))).
Proof.
  intros Hz Hk Hq Hs Hks Hi. unfold lfsr_comp. rewrite Z.lxor_spec. f_equal.
  - rewrite <- Z.land_ones, Z.land_spec by lia. rewrite Z.shiftl_spec by lia.
    replace (2 ^ 32 - 2 ^ k) with (Z.shiftl (Z.ones (32 - k)) k) by (rewrite Z.shiftl_mul_pow2, Z.ones_equiv by lia; replace (2 ^ 32) with (2 ^ (32 - k) * 2 ^ k) by (rewrite <- Z.pow_add_r by lia; f_equal; lia); lia).
    rewrite Z.land_spec. rewrite Z.testbit_ones_nonneg by lia. destruct (Z.ltb_spec (i - s) 0).
    + rewrite !(Z.testbit_neg_r _ (i - s)) by lia. rewrite !andb_false_r. reflexivity.
    + rewrite Z.shiftl_spec by lia. destruct (Z.ltb_spec (i - s) k).
      * rewrite (Z.testbit_neg_r _ (i - s - k)) by lia. destruct (Z.leb_spec (k + s) i); [lia|]. rewrite !andb_false_r. reflexivity.
      * rewrite Z.testbit_ones_nonneg by lia. destruct (Z.leb_spec (k + s) i); [|lia]. destruct (Z.ltb_spec i 32).
        -- destruct (Z.ltb_spec (i - s - k) (32 - k)); [|lia]. rewrite !andb_true_r. reflexivity.
        -- rewrite !andb_false_r. reflexivity.
  - rewrite Z.shiftr_spec, Z.lxor_spec by lia. f_equal. rewrite <- Z.land_ones, Z.land_spec, Z.testbit_ones_nonneg by lia. rewrite Z.shiftl_spec by lia.
    apply andb_comm.
Qed.
Lemma comp_word k q s z : 0 <= z < 2 ^ 32 -> 0 < k -> 0 <= q < 32 -> 0 < s -> k + s < 32 -> 0 <= lfsr_comp k q s z < 2 ^ 32.
Proof.
  intros Hz Hk Hq Hs Hks. assert (N : 0 <= lfsr_comp k q s z).
  { unfold lfsr_comp. apply Z.lxor_nonneg. split; intros _; [apply Z.shiftr_nonneg, Z.lxor_nonneg; split; intros _; [lia|apply Z.mod_pos_bound; lia]|apply Z.mod_pos_bound; lia]. }
  split; auto. destruct (Z.eq_dec (lfsr_comp k q s z) 0) as [->|]; [lia|]. apply Z.log2_lt_pow2; [lia|]. destruct (Z.ltb_spec (Z.log2 (lfsr_comp k q s z)) 32); auto. exfalso.
  pose proof (Z.bit_log2 (lfsr_comp k q s z) ltac:(lia)) as B. rewrite comp_bits in B by lia. destruct (Z.ltb_spec (Z.log2 (lfsr_comp k q s z)) 32); [lia|].
  destruct (Z.ltb_spec (Z.log2 (lfsr_comp k q s z) + (32 - k - s)) 32); [lia|]. cbn [andb] in B. rewrite (bits32 z) in B by lia. discriminate.
Qed.
Lemma high_zero z k : 0 <= z < 2 ^ 32 -> 0 <= k -> (z < 2 ^ k <-> forall i, k <= i < 32 -> Z.testbit z i = false).
Proof.
  intros Hz Hk. split.
  - intros H i Hi. destruct (Z.eq_dec z 0) as [->|]; [apply Z.bits_0|]. apply Z.bits_above_log2; [lia|]. apply Z.log2_lt_pow2; [lia|]. assert (2 ^ k <= 2 ^ i) by (apply Z.pow_le_mono_r; lia). lia.
  - intro H. destruct (Z.eq_dec z 0) as [->|]; [apply Z.pow_pos_nonneg; lia|]. apply Z.log2_lt_pow2; [lia|]. destruct (Z.ltb_spec (Z.log2 z) k); auto. exfalso.
    pose proof (Z.bit_log2 z ltac:(lia)) as B. assert (Z.log2 z < 32) by (apply Z.log2_lt_pow2; lia). rewrite H in B by lia. discriminate.
Qed.
(** a good component stays good *)
Lemma comp_good k q s z : 2 ^ k <= z < 2 ^ 32 -> 0 < k -> 0 < q < 32 -> 0 < s -> k + s < 32 -> k <= 32 - s - q -> 2 ^ k <= lfsr_comp k q s z < 2 ^ 32.
Proof.
  intros Hz Hk Hq Hs Hks Hc. assert (P : 0 < 2 ^ k) by (apply Z.pow_pos_nonneg; lia). pose proof (comp_word k q s z ltac:(lia) Hk ltac:(lia) Hs Hks) as Hw. split; [|apply Hw].
  destruct (Z.ltb_spec (lfsr_comp k q s z) (2 ^ k)) as [H|]; [|lia]. exfalso.
  pose proof (proj1 (high_zero _ k Hw ltac:(lia)) H) as Z0.
  assert (G : forall n : nat, forall i, Z.of_nat n = i -> k <= i < 32 -> Z.testbit z i = false).
  { induction n as [n IH] using lt_wf_ind. intros i En Hi. destruct (Z.ltb_spec i (32 - s)) as [L|L].
    - pose proof (Z0 (i + s) ltac:(lia)) as B. rewrite comp_bits in B by lia.
      destruct (Z.ltb_spec (i + s) 32); [|lia]. destruct (Z.leb_spec (k + s) (i + s)); [|lia]. cbn [andb] in B. replace (i + s - s) with i in B by lia.
      destruct (Z.ltb_spec (i + s + (32 - k - s)) 32) as [L2|L2].
      + lia.
      + rewrite (bits32 z (i + s + (32 - k - s))) in B by lia. cbn [andb] in B. rewrite !xorb_false_r in B. exact B.
    - pose proof (Z0 (i - (32 - k - s)) ltac:(lia)) as B. rewrite comp_bits in B by lia.
      destruct (Z.leb_spec (k + s) (i - (32 - k - s))); [lia|]. rewrite andb_false_r in B. cbn [andb] in B.
      replace (i - (32 - k - s) + (32 - k - s)) with i in B by lia. destruct (Z.ltb_spec i 32); [|lia]. cbn [andb] in B.
      rewrite (IH (Z.to_nat (i - q)) ltac:(lia) (i - q) ltac:(lia) ltac:(lia)) in B. cbn [xorb] in B. destruct (Z.testbit z i); auto. }
  assert (z < 2 ^ k) by (apply (high_zero z k); [lia|lia|]; intros i Hi; apply (G (Z.to_nat i)); lia). lia.
Qed.
(** * The generator *)
Lemma get_next z : lfsr_get z = (lfsr_next z, lfsr_out (lfsr_next z)).
Proof. destruct z as [[[z0 z1] z2] z3]. reflexivity. Qed.
Lemma next_words z : lfsr_words32 z -> lfsr_words32 (lfsr_next z).
Proof. destruct z as [[[z0 z1] z2] z3]. intros (H0 & H1 & H2 & H3). unfold lfsr_next, lfsr_words32. split; [|split; [|split]]; apply comp_word; auto; lia. Qed.
Lemma next_good z : lfsr_good z -> lfsr_good (lfsr_next z).
Proof.
  destruct z as [[[z0 z1] z2] z3]. intros (H0 & H1 & H2 & H3). unfold lfsr_next, lfsr_good.
  pose proof (comp_good 1 6 18 z0 ltac:(lia)). pose proof (comp_good 3 2 2 z1 ltac:(lia)). pose proof (comp_good 4 13 7 z2 ltac:(lia)). pose proof (comp_good 7 3 13 z3 ltac:(lia)). lia.
Qed.
Lemma iter_words n z : lfsr_words32 z -> lfsr_words32 (Nat.iter n lfsr_next z).
Proof. intro H. induction n as [|n IH]; [auto|]. change (lfsr_words32 (lfsr_next (Nat.iter n lfsr_next z))). apply next_words, IH. Qed.
Lemma iter_good n z : lfsr_good z -> lfsr_good (Nat.iter n lfsr_next z).
Proof. intro H. induction n as [|n IH]; [auto|]. change (lfsr_good (lfsr_next (Nat.iter n lfsr_next z))). apply next_good, IH. Qed.
Lemma lxor_word a b : 0 <= a < 2 ^ 32 -> 0 <= b < 2 ^ 32 -> 0 <= Z.lxor a b < 2 ^ 32.
Proof.
  intros Ha Hb. assert (N : 0 <= Z.lxor a b) by (apply Z.lxor_nonneg; lia). split; auto. destruct (Z.eq_dec (Z.lxor a b) 0) as [->|]; [lia|]. apply Z.log2_lt_pow2; [lia|].
  destruct (Z.ltb_spec (Z.log2 (Z.lxor a b)) 32); auto. exfalso. pose proof (Z.bit_log2 (Z.lxor a b) ltac:(lia)) as B. rewrite Z.lxor_spec, !bits32 in B by lia. discriminate.
Qed.
Lemma out_word z : lfsr_words32 z -> 0 <= lfsr_out z < 2 ^ 32.
Proof. destruct z as [[[z0 z1] z2] z3]. intros (H0 & H1 & H2 & H3). unfold lfsr_out. repeat (apply lxor_word; auto). Qed.
Lemma be4 r : be_bytes 4 r = [r / 16777216 mod 256; r / 65536 mod 256; r / 256 mod 256; r mod 256].
Proof.
  unfold be_bytes. cbn [le_bytes rev app]. rewrite !Z.div_div by lia. reflexivity.
Qed.
Lemma land255 v s : 0 <= s -> Z.land (Z.shiftr v s) 255 = v / 2 ^ s mod 256.
Proof. intro. change 255 with (Z.ones 8). rewrite Z.land_ones, Z.shiftr_div_pow2 by lia. reflexivity. Qed.
Lemma word_be r : word_bytes r = be_bytes 4 r.
Proof. rewrite be4. unfold word_bytes. cbn [map]. rewrite !land255 by lia. change (2 ^ 0) with 1. rewrite Z.div_1_r. reflexivity. Qed.
Lemma sh_sh r a b : 0 <= a -> 0 <= b -> sh32 (sh32 r a) b = sh32 r (a + b).
Proof.
  intros Ha Hb. unfold sh32. rewrite !Z.shiftl_mul_pow2 by lia. rewrite Z.mul_mod_idemp_l by lia. rewrite Z.pow_add_r by lia. f_equal. ring.
Qed.
Lemma top_byte r a : 0 <= a <= 24 -> Z.land (Z.shiftr (sh32 r a) 24) 255 = r / 2 ^ (24 - a) mod 256.
Proof.
  intro H. change 255 with (Z.ones 8). rewrite Z.land_ones by lia. change 256 with (2 ^ 8). apply Z.bits_inj'. intros i Hi. rewrite !Z.testbit_mod_pow2 by lia.
  destruct (Z.ltb_spec i 8); [|reflexivity]. cbn [andb]. rewrite Z.shiftr_spec by lia. unfold sh32. rewrite Z.mod_pow2_bits_low, Z.shiftl_spec by lia.
  rewrite <- Z.shiftr_div_pow2, Z.shiftr_spec by lia. f_equal. lia.
Qed.
Lemma tail_be i r : (i <= 4)%nat -> lfsr_tail i r = firstn i (be_bytes 4 r).
Proof.
  intro H. rewrite be4.
  assert (T0 : Z.land (Z.shiftr r 24) 255 = r / 16777216 mod 256) by (apply land255; lia).
  assert (T1 : Z.land (Z.shiftr (sh32 r 8) 24) 255 = r / 65536 mod 256) by (apply (top_byte r 8); lia).
  assert (T2 : Z.land (Z.shiftr (sh32 (sh32 r 8) 8) 24) 255 = r / 256 mod 256) by (rewrite sh_sh by lia; apply (top_byte r 16); lia).
  assert (T3 : Z.land (Z.shiftr (sh32 (sh32 (sh32 r 8) 8) 8) 24) 255 = r mod 256) by (rewrite !sh_sh by lia; change (8 + 8 + 8) with 24; change (8 + (8 + 8)) with 24; rewrite (top_byte r 24) by lia; change (2 ^ (24 - 24)) with 1; rewrite Z.div_1_r; reflexivity).
  do 5 (destruct i as [|i]; [cbn [lfsr_tail firstn]; rewrite ?T0, ?T1, ?T2, ?T3; reflexivity|]). lia.
Qed.
Lemma words_ok n : forall z, lfsr_words n z = (Nat.iter n lfsr_next z, map (lfsr_byte z) (seq 0 (4 * n))).
Proof.
  induction n as [|n IH]; intro z; [reflexivity|]. cbn [lfsr_words]. rewrite get_next, IH. f_equal.
  - change (lfsr_next z) with (Nat.iter 1 lfsr_next z). rewrite iter_add. f_equal. lia.
  - replace (4 * S n)%nat with (4 + 4 * n)%nat by lia. rewrite seq_app, map_app. f_equal; [rewrite word_be; reflexivity|].
    change (0 + 4)%nat with 4%nat.
    apply (list_eq 0); [rewrite !map_length, !seq_length; reflexivity|]. rewrite map_length, seq_length. intros i Hi.
    rewrite (nth_indep _ 0 (lfsr_byte (lfsr_next z) 0)) by (rewrite map_length, seq_length; lia). rewrite map_nth, seq_nth by lia.
    rewrite (nth_indep (map (lfsr_byte z) _) 0 (lfsr_byte z 0)) by (rewrite map_length, seq_length; lia). rewrite map_nth, seq_nth by lia.
    unfold lfsr_byte, lfsr_word. replace ((4 + i) mod 4)%nat with ((0 + i) mod 4)%nat by (rewrite <- (Nat.mod_add (0 + i) 1 4) by lia; f_equal; lia).
    replace ((4 + i) / 4)%nat with (1 + (0 + i) / 4)%nat by (rewrite <- (Nat.div_add_l 1 4 (0 + i)) by lia; f_equal; lia).
    change (lfsr_next z) with (Nat.iter 1 lfsr_next z). rewrite iter_add. do 4 f_equal. lia.
Qed.
(** where each request reads *)
Fixpoint lfsr_pieces (z : lfsr) (w : nat) (sizes : list nat) : list (list Z) :=
  match sizes with [] => [] | n :: ns => map (lfsr_byte z) (seq (4 * w) n) :: lfsr_pieces z (w + (n + 3) / 4) ns end.
Lemma byte_shift z w i : lfsr_byte (Nat.iter w lfsr_next z) i = lfsr_byte z (4 * w + i).
Proof.
  unfold lfsr_byte, lfsr_word. replace ((4 * w + i) mod 4)%nat with (i mod 4)%nat by (rewrite Nat.add_comm, Nat.mul_comm, Nat.mod_add; lia).
  replace ((4 * w + i) / 4)%nat with (i / 4 + w)%nat by (rewrite (Nat.add_comm (4 * w)), (Nat.mul_comm 4), Nat.div_add; lia). rewrite iter_add. reflexivity.
Qed.
Lemma bytes_shift z w a n : map (lfsr_byte (Nat.iter w lfsr_next z)) (seq a n) = map (lfsr_byte z) (seq (4 * w + a) n).
Proof. revert a. induction n as [|n IH]; intro a; [reflexivity|]. cbn [seq map]. rewrite byte_shift, IH. f_equal. f_equal. f_equal. lia. Qed.
Lemma rand1 z siz : lfsr_rand (Some z) siz = Ok (Nat.iter ((siz + 3) / 4) lfsr_next z, map (lfsr_byte z) (seq 0 siz)).
Proof.
  unfold lfsr_rand. cbn [bind]. rewrite words_ok. pose proof (Nat.div_mod siz 4 ltac:(lia)) as Dm. pose proof (Nat.mod_upper_bound siz 4 ltac:(lia)) as Mb.
  set (q := (siz / 4)%nat) in *. destruct (siz mod 4)%nat as [|r'] eqn:Er.
  - replace ((siz + 3) / 4)%nat with q by (apply (Nat.div_unique _ 4 q 3); lia). replace (4 * q)%nat with siz by lia. reflexivity.
  - rewrite get_next. replace ((siz + 3) / 4)%nat with (q + 1)%nat by (apply (Nat.div_unique _ 4 (q + 1) r'); lia). f_equal. f_equal.
    + change (lfsr_next (Nat.iter q lfsr_next z)) with (Nat.iter 1 lfsr_next (Nat.iter q lfsr_next z)). rewrite iter_add. f_equal. lia.
    + rewrite tail_be by lia. replace (seq 0 siz) with (seq 0 (4 * q + S r')) by (f_equal; lia). rewrite seq_app, map_app. f_equal. change (0 + 4 * q)%nat with (4 * q)%nat.
      replace (4 * q)%nat with (4 * q + 0)%nat by lia. rewrite <- bytes_shift. set (z' := Nat.iter q lfsr_next z).
      apply (list_eq 0); [rewrite firstn_length, be_bytes_length, map_length, seq_length; lia|]. rewrite firstn_length, be_bytes_length. intros i Hi.
      rewrite (nth_indep (map (lfsr_byte z') _) 0 (lfsr_byte z' 0)) by (rewrite map_length, seq_length; lia). rewrite map_nth, seq_nth, nth_firstn_lt by lia. unfold lfsr_byte.
      rewrite Nat.mod_small, Nat.div_small by lia. reflexivity.
Qed.
Lemma rands_z z sizes : forall w, lfsr_rands (Some (Nat.iter w lfsr_next z)) sizes = Ok (lfsr_pieces z w sizes).
Proof.
  induction sizes as [|n ns IH]; intro w; [reflexivity|]. cbn [lfsr_rands lfsr_pieces]. rewrite rand1. cbn [bind]. rewrite iter_add, (Nat.add_comm _ w), IH. cbn [bind].
  rewrite bytes_shift, Nat.add_0_r. reflexivity.
Qed.
Lemma pieces_whole z sizes : Forall (fun n => n mod 4 = 0)%nat sizes -> forall w, concat (lfsr_pieces z w sizes) = map (lfsr_byte z) (seq (4 * w) (list_sum sizes)).
Proof.
  induction 1 as [|n ns Hn _ IH]; intro w; [reflexivity|]. cbn [lfsr_pieces concat list_sum fold_right]. rewrite IH. rewrite seq_app, map_app. do 3 f_equal.
  pose proof (Nat.div_mod n 4 ltac:(lia)). replace ((n + 3) / 4)%nat with (n / 4)%nat by (apply (Nat.div_unique _ 4 (n / 4) 3); lia). lia.
Qed.
Lemma lfsr_stream z sizes : Forall (fun n => n mod 4 = 0)%nat sizes -> exists outs, lfsr_rands (Some z) sizes = Ok outs /\ map (@length Z) outs = sizes /\
  concat outs = map (lfsr_byte z) (seq 0 (list_sum sizes)).
Proof.
  intro H. eexists. split; [apply (rands_z z sizes 0)|]. split; [|apply (pieces_whole z sizes H 0)].
  generalize 0%nat. clear H. induction sizes as [|n ns IH]; intro w; [reflexivity|]. cbn [lfsr_pieces map]. rewrite map_length, seq_length, IH. reflexivity.
Qed.
(** * Seeding *)
Definition at_least (m v : Z) : Z := if v <? m then default_seed else v.
Definition seeded_mem (z : lfsr) (seed : list Z) : list Z := seed ++ skipn (length seed) (lfsr_mem z).
Lemma xor_fold (seed : list Z) : forall done p rest, length p = length seed ->  p = repeat 0 (length seed) -> 
  fold_left (fun p i => upd p i (Z.lxor (nth i p 0) (nth i (done ++ seed) 0))) (seq (length done) (length seed)) (done ++ p ++ rest) = done ++ seed ++ rest.
Proof.
  induction seed as [|s seed IH]; intros done p rest L E; subst p; [reflexivity|]. cbn [length seq fold_left repeat app]. rewrite upd_app, !app_nth2, Nat.sub_diag by lia. cbn [nth]. rewrite Z.lxor_0_l.
  replace (done ++ s :: seed) with ((done ++ [s]) ++ seed) by (rewrite <- app_assoc; reflexivity). replace (S (length done)) with (length (done ++ [s])) by (rewrite app_length; cbn; lia).
  replace (done ++ s :: repeat 0 (length seed) ++ rest) with ((done ++ [s]) ++ repeat 0 (length seed) ++ rest) by (rewrite <- app_assoc; reflexivity).
  rewrite IH by (rewrite ?repeat_length; auto). rewrite <- app_assoc. reflexivity.
Qed.
Lemma init_form z seed : (length seed <= 16)%nat -> let m := seeded_mem z seed in
  lfsr_init z seed = Ok (at_least 1 (of_le4 m 0), at_least 7 (of_le4 m 4), at_least 15 (of_le4 m 8), at_least 127 (of_le4 m 12)).
Proof.
  intros L m. unfold lfsr_init. destruct (Nat.ltb_spec 16 (length seed)); [lia|].
  pose proof (xor_fold seed [] (repeat 0 (length seed)) (skipn (length seed) (lfsr_mem z)) (repeat_length _ _) eq_refl) as X. cbn [app length] in X. rewrite X. reflexivity.
Qed.
Lemma byte_mod v : byte (v mod 256). Proof. unfold byte. apply Z.mod_pos_bound. lia. Qed.
Lemma mem_bytes z : bytes (lfsr_mem z) /\ length (lfsr_mem z) = 16%nat.
Proof. destruct z as [[[z0 z1] z2] z3]. split; [|reflexivity]. unfold lfsr_mem, le4. cbn [app]. repeat (constructor; [apply byte_mod|]). constructor. Qed.
Lemma seeded_bytes z seed : bytes seed -> bytes (seeded_mem z seed).
Proof. intro H. apply Forall_app. split; auto. apply bytes_skipn, mem_bytes. Qed.
Lemma le4_word l o : bytes l -> 0 <= of_le4 l o < 2 ^ 32.
Proof.
  intro H. assert (G : forall i, 0 <= nth i l 0 < 256) by (intro i; apply (Forall_nth_d byte l 0 H); unfold byte; lia).
  unfold of_le4. pose proof (G o). pose proof (G (o + 1)%nat). pose proof (G (o + 2)%nat). pose proof (G (o + 3)%nat). lia.
Qed.
Lemma at_least_ok m v : 0 < m <= 127 -> 0 <= v < 2 ^ 32 -> m <= at_least m v < 2 ^ 32 /\ (at_least m v = m <-> v = m).
Proof. intros Hm Hv. unfold at_least, default_seed. destruct (Z.ltb_spec v m); lia. Qed.
Lemma init_bounds z seed : bytes seed -> (length seed <= 16)%nat -> exists z0 z1 z2 z3, lfsr_init z seed = Ok (z0, z1, z2, z3) /\
  (1 <= z0 /\ 7 <= z1 /\ 15 <= z2 /\ 127 <= z3) /\ lfsr_words32 (z0, z1, z2, z3) /\
  (lfsr_good (z0, z1, z2, z3) <-> z0 <> 1 /\ z1 <> 7 /\ z2 <> 15 /\ z3 <> 127).
Proof.
  intros Hs L. pose proof (seeded_bytes z seed Hs) as B. do 4 eexists. split; [apply init_form; auto|].
  destruct (at_least_ok 1 (of_le4 (seeded_mem z seed) 0) ltac:(lia) (le4_word _ _ B)) as [? _]. destruct (at_least_ok 7 (of_le4 (seeded_mem z seed) 4) ltac:(lia) (le4_word _ _ B)) as [? _].
  destruct (at_least_ok 15 (of_le4 (seeded_mem z seed) 8) ltac:(lia) (le4_word _ _ B)) as [? _]. destruct (at_least_ok 127 (of_le4 (seeded_mem z seed) 12) ltac:(lia) (le4_word _ _ B)) as [? _].
  unfold lfsr_words32, lfsr_good. lia.
Qed.
Lemma init_full z z' seed : length seed = 16%nat -> lfsr_init z seed = lfsr_init z' seed.
Proof.
  intro L. rewrite !init_form by lia. unfold seeded_mem. rewrite !skipn_all2; [reflexivity| |]; rewrite (proj2 (mem_bytes _)); lia.
Qed.
(** a seed giving nothing but zeros *)
Definition weak_seed : list Z := le4 1 ++ le4 7 ++ le4 15 ++ le4 127.
Lemma weak_init z : lfsr_init z weak_seed = Ok (1, 7, 15, 127).
Proof. rewrite init_form by (cbn; lia). unfold seeded_mem. rewrite skipn_all2 by (rewrite (proj2 (mem_bytes _)); cbn; lia). reflexivity. Qed.
Lemma weak_iter n : Nat.iter (S n) lfsr_next (1, 7, 15, 127) = (0, 0, 0, 0).
Proof. induction n as [|n IH]; [reflexivity|]. change (lfsr_next (Nat.iter (S n) lfsr_next (1, 7, 15, 127)) = (0, 0, 0, 0)). rewrite IH. reflexivity. Qed.
Lemma weak_byte i : lfsr_byte (1, 7, 15, 127) i = 0.
Proof.
  unfold lfsr_byte, lfsr_word. rewrite weak_iter. change (be_bytes 4 (lfsr_out (0, 0, 0, 0))) with [0; 0; 0; 0]. pose proof (Nat.mod_upper_bound i 4 ltac:(lia)).
  set (j := (i mod 4)%nat) in *. clearbody j. do 4 (destruct j as [|j]; [reflexivity|]). lia.
Qed.
Lemma weak_rands sizes : lfsr_rands (Some (1, 7, 15, 127)) sizes = Ok (map (repeat 0) sizes).
Proof.
  change (1, 7, 15, 127) with (Nat.iter 0 lfsr_next (1, 7, 15, 127)). rewrite rands_z. f_equal. generalize 0%nat. induction sizes as [|n ns IH]; intro w; [reflexivity|].
  cbn [lfsr_pieces map]. rewrite IH. f_equal. generalize (4 * w)%nat. clear. induction n as [|n IH]; intro a; [reflexivity|]. cbn [seq map repeat]. rewrite weak_byte, IH. reflexivity.
Qed.
