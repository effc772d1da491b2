(** Proofs about the Hill cipher. *)
From Verif Require Arc4.
From Verif Require Import Base Lists Modes ModesModel Des3 Rsa2 MpiAlgModel MpiAlg2 DetSpec Det HillModel HillSpec.

Lemma norm256_mod x : norm256 x = x mod 256.
Proof.
  unfold norm256. pose proof (Z.rem_bound_abs x 256 ltac:(lia)) as R. pose proof (Z.quot_rem' x 256) as Q. cbv zeta. destruct (Z.ltb_spec (Z.rem x 256) 0).
  - apply Z.mod_unique with (q := Z.quot x 256 - 1); lia.
  - apply Z.mod_unique with (q := Z.quot x 256); lia.
Qed.

(** Grids laid out in lists. *)
Lemma nth_grid (f : nat -> nat -> Z) w rs cs h k : length cs = w -> (h < length rs)%nat -> (k < w)%nat ->
  nth (h * w + k) (concat (map (fun r => map (f r) cs) rs)) 0 = f (nth h rs O) (nth k cs O).
Proof.
  intros Hw Hh Hk. revert h Hh. induction rs as [|r rs IH]; intros h Hh; [cbn in Hh; lia|]. cbn [map concat]. destruct h as [|h].
  - cbn [Nat.mul Nat.add nth]. rewrite app_nth1 by (rewrite map_length; lia). rewrite (nth_indep _ 0 (f r O)) by (rewrite map_length; lia). apply map_nth.
  - rewrite app_nth2 by (rewrite map_length; lia). rewrite map_length, Hw. replace (S h * w + k - w)%nat with (h * w + k)%nat by lia. cbn [nth]. apply IH. cbn in Hh. lia.
Qed.
Lemma grid_length (f : nat -> nat -> Z) rs cs : length (concat (map (fun r => map (f r) cs) rs)) = (length rs * length cs)%nat.
Proof. induction rs as [|r rs IH]; [reflexivity|]. cbn [map concat]. rewrite app_length, map_length, IH. reflexivity. Qed.
Lemma grid_bytes (f : nat -> nat -> Z) rs cs : (forall r c, byte (f r c)) -> bytes (concat (map (fun r => map (f r) cs) rs)).
Proof.
  intro H. induction rs as [|r rs IH]; [constructor|]. cbn [map concat]. apply Forall_app. split; auto. apply Forall_forall. intros x Hx. apply in_map_iff in Hx. destruct Hx as (c & <- & _). apply H.
Qed.

Lemma without_skip i n : (i < S n)%nat -> without i (S n) = map (skip i) (seq 0 n).
Proof.
  intro Hi. unfold without. replace (S n) with (i + S (n - i))%nat by lia. rewrite seq_app, filter_app. cbn [seq filter Nat.add]. rewrite Nat.eqb_refl. cbn [negb].
  assert (F1 : forall a m, (a + m <= i)%nat -> filter (fun r => negb (Nat.eqb r i)) (seq a m) = seq a m).
  { intros a m. revert a. induction m as [|m IH]; intros a H; [reflexivity|]. cbn [seq filter]. destruct (Nat.eqb_spec a i); [lia|]. cbn [negb]. rewrite IH by lia. reflexivity. }
  assert (F2 : forall m a, (i < a)%nat -> filter (fun r => negb (Nat.eqb r i)) (seq a m) = seq a m).
  { induction m as [|m IH]; intros a H; [reflexivity|]. cbn [seq filter]. destruct (Nat.eqb_spec a i); [lia|]. cbn [negb]. rewrite IH by lia. reflexivity. }
  rewrite F1, F2 by lia. replace n with (i + (n - i))%nat at 2 by lia. rewrite seq_app, map_app. f_equal.
  - cbn [Nat.add]. rewrite <- (map_id (seq 0 i)) at 1. apply map_ext_in. intros k Hk. apply in_seq in Hk. unfold skip. destruct (Nat.ltb_spec k i); lia.
  - rewrite <- seq_shift. apply map_ext_in. intros k Hk. apply in_seq in Hk. unfold skip. destruct (Nat.ltb_spec k i); lia.
Qed.
Lemma nth_map_skip i n k : (k < n)%nat -> nth k (map (skip i) (seq 0 n)) O = skip i k.
Proof. intro H. rewrite (nth_indep _ O (skip i O)) by (rewrite map_length, seq_length; auto). rewrite map_nth, seq_nth by auto. reflexivity. Qed.

Lemma minor_mat n m i j h k : (i < S n)%nat -> (j < S n)%nat -> (h < n)%nat -> (k < n)%nat ->
  mat_of n (mtx_minor m i j (S n)) h k = minor (mat_of (S n) m) i j h k.
Proof.
  intros Hi Hj Hh Hk. unfold mat_of, mtx_minor. rewrite !without_skip by auto. rewrite (nth_grid (fun r c => at_ m (r * S n + c)) n); [|rewrite map_length, seq_length; auto|rewrite map_length, seq_length; auto|auto].
  rewrite !nth_map_skip by auto. reflexivity.
Qed.
Lemma byte_at m k : bytes m -> byte (at_ m k).
Proof.
  intro H. unfold at_. destruct (nth_in_or_default k m 0) as [I|E]; [|rewrite E; unfold byte; lia]. unfold bytes in H. rewrite Forall_forall in H. auto.
Qed.
Lemma minor_bytes m i j n : bytes m -> bytes (mtx_minor m i j n).
Proof. intro H. apply (grid_bytes (fun r c => at_ m (r * n + c))). intros. apply byte_at. auto. Qed.

Lemma sum_mod n f g : (forall k, (k < n)%nat -> f k mod 256 = g k mod 256) -> sum n f mod 256 = sum n g mod 256.
Proof.
  induction n as [|n IH]; intro H; [reflexivity|]. cbn [sum]. rewrite Z.add_mod, IH, H, <- Z.add_mod by (auto; lia). reflexivity.
Qed.
Lemma fold_norm f n : fold_left (fun d i => norm256 (d + f i)) (seq 0 n) 0 = sum n f mod 256.
Proof.
  induction n as [|n IH]; [reflexivity|]. rewrite seq_S, fold_left_app, IH. cbn [fold_left sum Nat.add]. rewrite norm256_mod, Z.add_mod_idemp_l by lia. reflexivity.
Qed.
Lemma fold_sum f n : fold_left (fun d i => d + f i) (seq 0 n) 0 = sum n f.
Proof. induction n as [|n IH]; [reflexivity|]. rewrite seq_S, fold_left_app, IH. reflexivity. Qed.
Lemma odd_sgn k : (if Nat.odd k then -1 else 1) = sgn k.
Proof. unfold sgn, Nat.odd. destruct (Nat.even k); reflexivity. Qed.

Theorem mtx_det_ok n : forall m, bytes m -> mtx_det n m = det n (mat_of n m) mod 256.
Proof.
  induction n as [|n IH]; intros m Hm; [reflexivity|]. destruct n as [|[|n]].
  - pose proof (byte_at m 0 Hm) as A. replace (det 1 (mat_of 1 m)) with (at_ m 0); [rewrite Z.mod_small by exact A; reflexivity|].
    unfold det, mat_of, at_, sgn. cbn [sum Nat.even]. cbn [Nat.mul Nat.add]. lia.
  - cbn [mtx_det]. rewrite norm256_mod. f_equal. rewrite det_S. cbn [sum]. rewrite !det_S. cbn [sum det]. unfold minor, mat_of, at_, sgn, skip.
    cbn [Nat.even Nat.ltb Nat.leb Nat.mul Nat.add]. ring.
  - change (mtx_det (S (S (S n))) m) with (fold_left (fun det i => norm256 (det + at_ m i * (if Nat.odd i then -1 else 1) * mtx_det (S (S n)) (mtx_minor m 0 i (S (S (S n)))))) (seq 0 (S (S (S n)))) 0).
    set (N := S (S n)) in *. rewrite (fold_norm (fun i => at_ m i * (if Nat.odd i then -1 else 1) * mtx_det N (mtx_minor m 0 i (S N)))). rewrite det_S. apply sum_mod. intros k Hk. rewrite odd_sgn, IH by (apply minor_bytes; auto).
    rewrite Z.mul_mod_idemp_r by lia. rewrite (det_ext N (mat_of N (mtx_minor m 0 k (S N))) (minor (mat_of (S N) m) 0 k)).
    + change (mat_of (S N) m 0%nat k) with (at_ m k). f_equal. ring.
    + intros r c Hr Hc. apply minor_mat; auto. lia.
Qed.

Lemma transpose_mat n m i j : (i < n)%nat -> (j < n)%nat -> mat_of n (mtx_transpose m n) i j = tr (mat_of n m) i j.
Proof.
  intros Hi Hj. unfold mat_of at 1, mtx_transpose. rewrite (nth_grid (fun i j => at_ m (j * n + i)) n); rewrite ?seq_length; auto. rewrite !seq_nth by auto. reflexivity.
Qed.
Lemma transpose_bytes m n : bytes m -> bytes (mtx_transpose m n).
Proof. intro H. apply (grid_bytes (fun i j => at_ m (j * n + i))). intros. apply byte_at. auto. Qed.

Lemma invert_mat n m d i j : bytes m -> (i < n)%nat -> (j < n)%nat ->
  mat_of n (mtx_invert m n d) i j = (sgn (i + j) * det (n - 1) (minor (tr (mat_of n m)) i j) * d) mod 256.
Proof.
  intros Hm Hi Hj. unfold mat_of at 1, mtx_invert. cbv zeta.
  rewrite (nth_grid (fun i j => norm256 ((if Nat.odd (i + j) then - mtx_det (n - 1) (mtx_minor (mtx_transpose m n) i j n) else mtx_det (n - 1) (mtx_minor (mtx_transpose m n) i j n)) * d)) n); rewrite ?seq_length; auto.
  rewrite !seq_nth by auto. cbn [Nat.add]. rewrite norm256_mod, mtx_det_ok by (apply minor_bytes, transpose_bytes; auto).
  destruct n as [|n]; [lia|]. replace (S n - 1)%nat with n by lia.
  rewrite (det_ext n (mat_of n (mtx_minor (mtx_transpose m (S n)) i j (S n))) (minor (tr (mat_of (S n) m)) i j)).
  - set (D := det n (minor (tr (mat_of (S n) m)) i j)). replace (if Nat.odd (i + j) then - (D mod 256) else D mod 256) with (sgn (i + j) * (D mod 256)) by (unfold sgn, Nat.odd; destruct (Nat.even (i + j)); cbn [negb]; lia).
    rewrite <- (Z.mul_mod_idemp_l _ d), Z.mul_mod_idemp_r, Z.mul_mod_idemp_l by lia. reflexivity.
  - intros r c Hr Hc. rewrite minor_mat by auto. unfold minor. apply transpose_mat; apply skip_lt; auto.
Qed.
Theorem invert_inverse n m d : bytes m -> (det n (mat_of n m) * d) mod 256 = 1 -> inverse256 n (mat_of n (mtx_invert m n d)) (mat_of n m).
Proof.
  intros Hm Hd i l Hi Hl. unfold mulm. set (M := mat_of n m) in *.
  transitivity ((d * sum n (fun j => sgn (i + j) * tr M l j * det (n - 1) (minor (tr M) i j))) mod 256).
  - rewrite <- sum_mul. apply sum_mod. intros j Hj. rewrite invert_mat by auto. fold M. rewrite Z.mul_mod_idemp_l by lia. unfold tr at 2. f_equal. ring.
  - rewrite (cofactors n (tr M) i l Hi Hl), det_tr. unfold idm. destruct (Nat.eqb i l); [|rewrite Z.mul_0_r; reflexivity]. rewrite Z.mul_comm. exact Hd.
Qed.

(** A matrix is invertible modulo 256 when its determinant is odd. *)
Lemma odd_mod a : Z.odd (a mod 256) = Z.odd a.
Proof. rewrite (Z.div_mod a 256) at 2 by lia. rewrite Z.odd_add, Z.odd_mul. change (Z.odd 256) with false. cbn [andb]. symmetry. apply xorb_false_l. Qed.
Lemma det_mod n : forall M N : mat, (forall r c, (r < n)%nat -> (c < n)%nat -> M r c mod 256 = N r c mod 256) -> det n M mod 256 = det n N mod 256.
Proof.
  induction n as [|n IH]; intros M N H; [reflexivity|]. rewrite !det_S. apply sum_mod. intros j Hj.
  rewrite <- (Z.mul_mod_idemp_r _ (det n (minor M 0 j))), <- (Z.mul_mod_idemp_r _ (det n (minor N 0 j))) by lia.
  rewrite (IH (minor M 0 j) (minor N 0 j)) by (intros; apply H; apply skip_lt; auto).
  rewrite <- (Z.mul_mod_idemp_l (sgn j * M 0%nat j)), <- (Z.mul_mod_idemp_l (sgn j * N 0%nat j)) by lia. rewrite <- (Z.mul_mod_idemp_r _ (M 0%nat j)), <- (Z.mul_mod_idemp_r _ (N 0%nat j)) by lia.
  rewrite H by lia. reflexivity.
Qed.
Theorem invertible_odd n A : invertible256 n A -> Z.odd (det n A) = true.
Proof.
  intros [B H]. assert (E : (det n B * det n A) mod 256 = 1).
  { rewrite <- det_mul. transitivity (det n idm mod 256); [|rewrite det_id; reflexivity]. apply det_mod. intros r c Hr Hc. rewrite H by auto. unfold idm. destruct (Nat.eqb r c); reflexivity. }
  apply (f_equal Z.odd) in E. rewrite odd_mod, Z.odd_mul in E. apply andb_prop in E. tauto.
Qed.

Lemma try_spec n key : bytes key -> exists o, hill_try n key = Ok o /\
  match o with Some i => inverse256 n (mat_of n i) (mat_of n key) /\ length i = (n * n)%nat | None => ~ invertible256 n (mat_of n key) end.
Proof.
  intro Hk. unfold hill_try. rewrite mtx_det_ok by auto. cbv zeta. rewrite odd_mod. destruct (Z.odd (det n (mat_of n key))) eqn:O.
  - set (D := det n (mat_of n key)) in *. pose proof (Z.mod_pos_bound D 256 ltac:(lia)) as DB.
    destruct (long_inv_some (D mod 256) 256) as (r & Er & Br & Mr); [lia|lia|apply Arc4.odd_gcd; rewrite odd_mod; auto|]. rewrite Er. cbn [bind]. eexists. split; [reflexivity|]. split; [|unfold mtx_invert; cbv zeta; rewrite (grid_length (fun i j => norm256 _)), !seq_length; reflexivity].
    apply invert_inverse; auto. fold D. rewrite Z.mul_mod_idemp_r, <- Z.mul_mod_idemp_l by lia. exact Mr.
  - eexists. split; [reflexivity|]. intro I. apply invertible_odd in I. congruence.
Qed.

(** * Blocks *)
Lemma vec_mul_block n key v : mtx_vec_mul key v n = hill_block n (mat_of n key) v.
Proof. unfold mtx_vec_mul, hill_block. apply map_ext. intro i. rewrite norm256_mod, (fold_sum (fun j => at_ key (i * n + j) * at_ v j)). reflexivity. Qed.
Lemma block_length n A v : length (hill_block n A v) = n.
Proof. unfold hill_block. rewrite map_length, seq_length. reflexivity. Qed.
Lemma block_bytes n A v : bytes (hill_block n A v).
Proof. apply Forall_forall. intros x Hx. apply in_map_iff in Hx. destruct Hx as (i & <- & _). apply Z.mod_pos_bound. lia. Qed.
Lemma nth_block n A v i : (i < n)%nat -> nth i (hill_block n A v) 0 = sum n (fun j => A i j * nth j v 0) mod 256.
Proof.
  intro H. unfold hill_block. set (f := fun i => sum n (fun j => A i j * nth j v 0) mod 256). rewrite (nth_indep _ 0 (f O)) by (rewrite map_length, seq_length; auto). rewrite map_nth, seq_nth by auto. reflexivity.
Qed.
Lemma block_inverse n A B v : inverse256 n B A -> length v = n -> bytes v -> hill_block n B (hill_block n A v) = v.
Proof.
  intros H L Hv. apply (list_eq 0); [rewrite block_length; auto|]. rewrite block_length. intros i Hi. rewrite nth_block by auto.
  transitivity (sum n (fun j => sum n (fun k => B i k * A k j) * nth j v 0) mod 256).
  - transitivity (sum n (fun k => sum n (fun j => B i k * A k j * nth j v 0)) mod 256).
    + apply sum_mod. intros k Hk. rewrite nth_block by auto. rewrite Z.mul_mod_idemp_r, <- sum_mul by lia. f_equal. apply sum_ext. intros. ring.
    + rewrite sum_swap. f_equal. apply sum_ext. intros j Hj. rewrite <- sum_mul_r. reflexivity.
  - transitivity (sum n (fun j => idm i j * nth j v 0) mod 256).
    + apply sum_mod. intros j Hj. rewrite <- Z.mul_mod_idemp_l by lia. rewrite (H i j Hi Hj : sum n (fun k => B i k * A k j) mod 256 = _). reflexivity.
    + rewrite (sum_one n i); auto.
      * unfold idm. rewrite Nat.eqb_refl, Z.mul_1_l. apply Z.mod_small. unfold bytes in Hv. rewrite Forall_forall in Hv. apply Hv. apply nth_In. lia.
      * intros k _ N. unfold idm. destruct (Nat.eqb_spec i k); [congruence|lia].
Qed.

(** * Messages *)
Definition hblk (n : nat) (A : mat) (v : list Z) : list Z := hill_block n A (v ++ repeat 0 (n - length v)).
Lemma operate_ecb n key l : (0 < n)%nat -> hill_operate n key l = Ok (ecb n (hblk n (mat_of n key)) l).
Proof.
  intro Hn. unfold hill_operate. destruct n as [|n]; [lia|]. unfold ecb. f_equal. f_equal. apply map_ext. intro v. apply vec_mul_block.
Qed.
Lemma pad_whole n l : (0 < n)%nat -> whole n (hill_pad n l).
Proof.
  intro Hn. unfold whole, hill_pad. rewrite app_length, repeat_length. apply Nat.mod_divide; [lia|]. pose proof (Nat.mod_upper_bound (length l) n ltac:(lia)) as U.
  destruct (Nat.eq_dec (length l mod n) 0) as [E|E].
  - rewrite E, Nat.sub_0_r, Nat.mod_same, Nat.add_0_r by lia. auto.
  - rewrite (Nat.mod_small (n - length l mod n)) by lia. rewrite <- Nat.add_mod_idemp_l by lia. replace (length l mod n + (n - length l mod n))%nat with n by lia. apply Nat.mod_same. lia.
Qed.
Lemma ecb_pad n A l : (0 < n)%nat -> ecb n (hblk n A) l = ecb n (hblk n A) (hill_pad n l).
Proof.
  intro Hn. revert l. apply (block_ind n (fun l => ecb n (hblk n A) l = ecb n (hblk n A) (hill_pad n l)) Hn).
  - intros l Hl. destruct l as [|x l]; [unfold hill_pad; cbn [length]; rewrite Nat.mod_0_l, Nat.sub_0_r, Nat.mod_same by lia; reflexivity|].
    unfold hill_pad. rewrite (Nat.mod_small (length (x :: l))) by auto. set (w := x :: l) in *. assert (LW : (0 < length w)%nat) by (unfold w; cbn; lia).
    rewrite (Nat.mod_small (n - length w)) by lia. unfold ecb. rewrite (chunks_short n w) by lia. rewrite chunks_short by (rewrite ?app_length, ?repeat_length; lia). cbn [map concat]. f_equal.
    unfold hblk. rewrite app_length, repeat_length. replace (n - (length w + (n - length w)))%nat with O by lia. cbn [repeat]. rewrite app_nil_r. reflexivity.
  - intros a r Ha IH. rewrite ecb_cons by auto. rewrite IH. unfold hill_pad. rewrite app_length, Ha. replace ((n + length r) mod n)%nat with (length r mod n)%nat.
    + rewrite <- app_assoc, (ecb_cons n (hblk n A) a) by auto. reflexivity.
    + rewrite <- (Nat.add_mod_idemp_l n) by lia. rewrite Nat.mod_same by lia. reflexivity.
Qed.
Theorem hill_messages n A B ka kb l : (0 < n)%nat -> inverse256 n (mat_of n kb) (mat_of n ka) -> A = mat_of n ka -> B = mat_of n kb -> bytes l ->
  exists ct, hill_operate n ka l = Ok ct /\ length ct = length (hill_pad n l) /\ bytes ct /\ hill_operate n kb ct = Ok (hill_pad n l).
Proof.
  intros Hn I -> -> Hl. assert (BP : bytes (hill_pad n l)). { apply Forall_app. split; auto. apply Forall_forall. intros x Hx. apply repeat_spec in Hx. subst. unfold byte. lia. }
  pose proof (pad_whole n l Hn) as W. rewrite operate_ecb by auto. rewrite ecb_pad by auto. eexists. split; [reflexivity|].
  assert (HL : forall A b, length b = n -> length (hblk n A b) = n) by (intros; apply block_length).
  split; [apply ecb_length; auto|]. split; [apply ecb_bytes; auto; intros; apply block_bytes|]. rewrite operate_ecb by auto. f_equal. apply ecb_inverse; auto.
  intros b Lb Hb. unfold hblk at 1. rewrite HL by auto. rewrite Nat.sub_diag. cbn [repeat]. rewrite app_nil_r. unfold hblk. rewrite Lb, Nat.sub_diag. cbn [repeat]. rewrite app_nil_r. apply block_inverse; auto.
Qed.

(** * Initialisation *)
Lemma trim_ok k : (keylen_trim k <= 10)%nat /\ keylen_trim k = Nat.sqrt (Nat.min k 100).
Proof.
  assert (F : forallb (fun k => Nat.leb (trim_loop 11 1 k) 10 && Nat.eqb (trim_loop 11 1 k) (Nat.sqrt k)) (seq 0 101) = true) by (vm_compute; reflexivity).
  rewrite forallb_forall in F. specialize (F (Nat.min k 100) ltac:(apply in_seq; lia)). cbv beta in F. apply andb_prop in F. destruct F as [F1 F2]. apply Nat.leb_le in F1. apply Nat.eqb_eq in F2. auto.
Qed.
Lemma trim_sq n : (n <= 10)%nat -> keylen_trim (n * n) = n.
Proof. intro H. destruct (trim_ok (n * n)) as [_ ->]. rewrite Nat.min_l by nia. apply Nat.sqrt_square. Qed.

Theorem init_key n key draws : (n <= 10)%nat -> length key = (n * n)%nat -> bytes key ->
  exists rc c, hill_init (Some key) None (n * n) draws = Ok (rc, c) /\ hn c = n /\ hkey c = key /\
    (rc = 0 <-> invertible256 n (mat_of n key)) /\ (rc = 0 -> inverse256 n (mat_of n (hikey c)) (mat_of n key)) /\ (rc <> 0 -> rc = -1).
Proof.
  intros Hn L Hk. unfold hill_init. rewrite trim_sq by auto. cbv zeta. rewrite L, Nat.ltb_irrefl. cbn [orb]. rewrite <- L, firstn_all.
  destruct (try_spec n key Hk) as (o & -> & S). cbn [bind]. destruct o as [i|]; eexists; eexists; (split; [reflexivity|]); cbn [hn hkey hikey]; (split; [reflexivity|]); (split; [reflexivity|]).
  - destruct S as [S1 S2]. split; [split; [exists (mat_of n i); auto|auto]|]. split; auto. congruence.
  - split; [split; [discriminate|intro; contradiction]|]. split; [discriminate|auto].
Qed.
Lemma keygen_ok n key ikey draws rc k i : Forall bytes draws -> hill_keygen n key ikey draws = Ok (rc, k, i) ->
  (rc = 0 /\ In k draws /\ inverse256 n (mat_of n i) (mat_of n k)) \/ (rc = -1 /\ forall d, In d draws -> ~ invertible256 n (mat_of n d)).
Proof.
  intro F. revert key. induction F as [|d draws Hd F IH]; intros key E; cbn [hill_keygen] in E; [inversion E; right; split; [auto|intros ? []]|].
  destruct (try_spec n d Hd) as (o & T & S). rewrite T in E. cbn [bind] in E. destruct o as [x|].
  - inversion E; subst. left. split; [auto|]. split; [left; auto|tauto].
  - destruct (IH _ E) as [(A1 & A2 & A3)|(A1 & A2)]; [left; split; [auto|]; split; [right; auto|auto]|right; split; [auto|]]. intros d' [<-|I]; auto.
Qed.
Lemma keygen_total n key ikey draws : Forall bytes draws -> exists r, hill_keygen n key ikey draws = Ok r.
Proof.
  intro F. revert key. induction F as [|d draws Hd F IH]; intros key; cbn [hill_keygen]; [eauto|].
  destruct (try_spec n d Hd) as (o & T & S). rewrite T. cbn [bind]. destruct o; eauto.
Qed.
Theorem init_random n draws : (n <= 10)%nat -> Forall bytes draws ->
  exists rc c, hill_init None None (n * n) draws = Ok (rc, c) /\ hn c = n /\
    (rc = 0 -> inverse256 n (mat_of n (hikey c)) (mat_of n (hkey c))) /\
    (rc = 0 <-> exists d, In d (firstn 100 draws) /\ invertible256 n (mat_of n d)) /\ (rc <> 0 -> rc = -1).
Proof.
  intros Hn F. unfold hill_init. rewrite trim_sq by auto. cbv zeta. cbn [orb].
  assert (F' : Forall bytes (firstn 100 draws)). { apply Forall_forall. intros x Hx. rewrite Forall_forall in F. apply F. rewrite <- (firstn_skipn 100 draws). apply in_or_app. auto. }
  destruct (keygen_total n (repeat 0 (n * n)) (repeat 0 (n * n)) _ F') as [[[rc k] i] E]. rewrite E. cbn [bind]. eexists. eexists. split; [reflexivity|]. cbn [hn hkey hikey]. split; [reflexivity|].
  destruct (keygen_ok _ _ _ _ _ _ _ F' E) as [(A1 & A2 & A3)|(A1 & A2)].
  - split; [auto|]. split; [|intro; congruence]. split; [|auto]. intros _. exists k. split; auto. exists (mat_of n i). auto.
  - split; [rewrite A1; discriminate|]. split; [|auto]. split; [rewrite A1; discriminate|]. intros (d & I & V). elim (A2 d I V).
Qed.
Lemma hill_one_block c v : (0 < hn c)%nat -> length v = hn c -> hill_encrypt c v = Ok (hill_block (hn c) (mat_of (hn c) (hkey c)) v).
Proof.
  intros Hn L. unfold hill_encrypt. rewrite operate_ecb by auto. unfold ecb. rewrite chunks_short by lia. cbn [map concat]. rewrite app_nil_r. unfold hblk. rewrite L, Nat.sub_diag. cbn [repeat]. rewrite app_nil_r. reflexivity.
Qed.
Lemma pad_id n l : (0 < n)%nat -> (length l mod n = 0)%nat -> hill_pad n l = l.
Proof. intros Hn E. unfold hill_pad. rewrite E, Nat.sub_0_r, Nat.mod_same by lia. apply app_nil_r. Qed.
