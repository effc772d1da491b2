(** The compression functions of the code are the standards'. *)
From Verif Require Import Base Bits BytesSpec Bytes Lists HashTables HashModel HashSpec HashBase.

Lemma fold_left_map {A B C} (f : A -> B -> A) (g : C -> B) l : forall a, fold_left f (map g l) a = fold_left (fun a x => f a (g x)) l a.
Proof. induction l as [|x l IH]; intro a; [reflexivity|]. cbn [map fold_left]. apply IH. Qed.
Lemma fold_left_inv {A B} (P : A -> Prop) (f g : A -> B -> A) l : (forall a x, P a -> In x l -> f a x = g a x /\ P (g a x)) ->
  forall a, P a -> fold_left f l a = fold_left g l a /\ P (fold_left g l a).
Proof.
  induction l as [|x l IH]; intros H a Ha; [auto|]. cbn [fold_left]. destruct (H a x Ha (or_introl eq_refl)) as [E Hp].
  rewrite E. apply IH; auto. intros b y Hb Hy. apply H; auto. right. auto.
Qed.
Lemma combine_nth_seq {A B} (da : A) (db : B) n : forall a b, length a = n -> length b = n -> combine a b = map (fun i => (nth i a da, nth i b db)) (seq 0 n).
Proof.
  induction n as [|n IH]; intros [|x a] [|y b] La Lb; try discriminate; [reflexivity|].
  cbn [combine seq map nth]. f_equal. rewrite <- seq_shift, map_map. apply IH; auto.
Qed.
(** [n] registers *)
Definition regs (w : Z) (n : nat) (r : list Z) : Prop := length r = n /\ Forall (wordw w) r.
Lemma regs_nth w n r i : 0 <= w -> regs w n r -> wordw w (nth i r 0).
Proof. intros Hw [_ H]. apply Forall_nth_d; auto. unfold wordw. pose proof (Z.pow_pos_nonneg 2 w). lia. Qed.
Lemma add_regs w n a b : 0 <= w -> length a = n -> length b = n -> regs w n (add_words w a b).
Proof. intros Hw La Lb. split; [rewrite add_words_length; congruence|apply add_words_word; auto]. Qed.

(** * SHA-2 schedule and rounds, w bits *)
Lemma sched_ok w s0 s1 ext n : 0 <= w ->
  (forall n i m, ext (S n) i m = ext n (i + 1)%nat (m ++ [wadd w (wadd w (wadd w (fst (s1 : (Z -> Z) * (Z -> Z)) (nth (i - 2) m 0)) (nth (i - 7) m 0)) (fst (s0 : (Z -> Z) * (Z -> Z)) (nth (i - 15) m 0))) (nth (i - 16) m 0)])) ->
  (forall i m, ext 0%nat i m = m) ->
  (forall x, wordw w x -> fst s0 x = snd s0 x) -> (forall x, wordw w x -> fst s1 x = snd s1 x) ->
  forall m, Forall (wordw w) m -> ext n (length m) m = sha2_schedule w (snd s0) (snd s1) n m /\
    Forall (wordw w) (sha2_schedule w (snd s0) (snd s1) n m) /\ length (sha2_schedule w (snd s0) (snd s1) n m) = (length m + n)%nat.
Proof.
  intros Hw ES E0 H0 H1. induction n as [|n IH]; intros m Hm.
  - rewrite E0. cbn [sha2_schedule Nat.iter nat_rect]. unfold sha2_schedule. cbn [Nat.iter nat_rect]. split; [auto|split; [auto|lia]].
  - rewrite ES. unfold sha2_schedule. rewrite nat_iter_r. cbv zeta beta.
    assert (N : forall i, wordw w (nth i m 0)) by (intro i; apply (regs_nth w (length m)); auto; split; auto).
    rewrite H0, H1 by auto. set (x := _ mod 2 ^ w).
    assert (Ex : wadd w (wadd w (wadd w (snd s1 (nth (length m - 2) m 0)) (nth (length m - 7) m 0)) (snd s0 (nth (length m - 15) m 0))) (nth (length m - 16) m 0) = x) by (unfold x; wsum).
    rewrite Ex. destruct (IH (m ++ [x])) as (A & B & C).
    { apply Forall_app. split; auto. constructor; [apply wordw_mod; auto|constructor]. }
    rewrite app_length in A, C. cbn [length] in A, C. unfold sha2_schedule in A, B, C. rewrite A. split; [reflexivity|]. split; [exact B|]. rewrite C. lia.
Qed.

(** * SHA-256 *)
Lemma K256_ok : sha256_k = K256. Proof. vm_compute. reflexivity. Qed.
Lemma s2_sig0_ok x : wordw 32 x -> s2_sig0 x = sigma 32 7 18 3 x.
Proof. intro H. unfold s2_sig0, sigma, xor3. rewrite !rotr_ok by (auto; lia). rewrite shr_ok by lia. reflexivity. Qed.
Lemma s2_sig1_ok x : wordw 32 x -> s2_sig1 x = sigma 32 17 19 10 x.
Proof. intro H. unfold s2_sig1, sigma, xor3. rewrite !rotr_ok by (auto; lia). rewrite shr_ok by lia. reflexivity. Qed.
Lemma s2_ep0_ok x : wordw 32 x -> s2_ep0 x = Sigma 32 2 13 22 x.
Proof. intro H. unfold s2_ep0, Sigma, xor3. rewrite !rotr_ok by (auto; lia). reflexivity. Qed.
Lemma s2_ep1_ok x : wordw 32 x -> s2_ep1 x = Sigma 32 6 11 25 x.
Proof. intro H. unfold s2_ep1, Sigma, xor3. rewrite !rotr_ok by (auto; lia). reflexivity. Qed.
Ltac regs8 r H := let L := fresh "L" in let F := fresh "F" in destruct H as [L F]; do 8 (destruct r as [|? r]; [discriminate L|]); destruct r; [|discriminate L];
  repeat match goal with Q : Forall _ (_ :: _) |- _ => inversion Q; subst; clear Q end.
Lemma s2_round_ok m r i : regs 32 8 r -> s2_round m r i = sha2_step 32 (Sigma 32 2 13 22) (Sigma 32 6 11 25) r (nth i sha256_k 0, nth i m 0) /\
  regs 32 8 (sha2_step 32 (Sigma 32 2 13 22) (Sigma 32 6 11 25) r (nth i sha256_k 0, nth i m 0)).
Proof.
  intro H. regs8 r H. split.
  - cbn [s2_round sha2_step fst snd]. rewrite s2_ep0_ok, s2_ep1_ok by assumption.
    assert (E : s2_ch z3 z4 z5 = Ch z3 z4 z5) by (unfold s2_ch, Ch; rewrite wnot_land by (assumption || lia); reflexivity). rewrite E.
    change (s2_maj z z0 z1) with (Maj z z0 z1). f_equal; [wsum|]. do 3 f_equal. f_equal. wsum.
  - cbn [sha2_step]. split; [reflexivity|]. repeat (apply Forall_cons; [assumption || (apply wordw_mod; lia)|]). apply Forall_nil.
Qed.
Lemma sha256_transform_ok st d : regs 32 8 st -> bytes d -> length d = 64%nat ->
  sha256_transform st d = sha256_compress st d /\ regs 32 8 (sha256_compress st d).
Proof.
  intros Hs Hb L. unfold sha256_transform, sha256_compress. cbv zeta.
  rewrite (read_words_be 4 16) by (auto; lia).
  destruct (words_be_words 4 16 d ltac:(lia) Hb L) as [W1 W2]. change (8 * Z.of_nat 4) with 32 in W1.
  destruct (sched_ok 32 (s2_sig0, sigma 32 7 18 3) (s2_sig1, sigma 32 17 19 10) s2_extend 48 ltac:(lia) (fun n i m => eq_refl) (fun i m => eq_refl) s2_sig0_ok s2_sig1_ok (words_be 4 d) W1) as (S1 & S2 & S3).
  rewrite W2 in S1, S3. cbn [fst snd] in *. rewrite S1. set (W := sha2_schedule _ _ _ _ _) in *.
  rewrite <- K256_ok. rewrite (combine_nth_seq 0 0 64) by (auto; reflexivity).
  rewrite fold_left_map.
  destruct (fold_left_inv (regs 32 8) (s2_round W) (fun a x => sha2_step 32 (Sigma 32 2 13 22) (Sigma 32 6 11 25) a (nth x sha256_k 0, nth x W 0)) (seq 0 64) (fun a x Ha _ => s2_round_ok W a x Ha) st Hs) as [E R].
  rewrite E. split; [reflexivity|]. apply add_regs; [lia|apply Hs|apply R].
Qed.

(** * SHA-512 *)
Lemma K512_ok : sha512_k = K512. Proof. vm_compute. reflexivity. Qed.
Lemma s5_s0_ok x : wordw 64 x -> s5_s0 x = sigma 64 1 8 7 x.
Proof. intro H. unfold s5_s0, sigma, xor3. rewrite !rotr_ok by (auto; lia). rewrite shr_ok by lia. reflexivity. Qed.
Lemma s5_s1_ok x : wordw 64 x -> s5_s1 x = sigma 64 19 61 6 x.
Proof. intro H. unfold s5_s1, sigma, xor3. rewrite !rotr_ok by (auto; lia). rewrite shr_ok by lia. reflexivity. Qed.
Lemma s5_s2_ok x : wordw 64 x -> s5_s2 x = Sigma 64 28 34 39 x.
Proof. intro H. unfold s5_s2, Sigma, xor3. rewrite !rotr_ok by (auto; lia). reflexivity. Qed.
Lemma s5_s3_ok x : wordw 64 x -> s5_s3 x = Sigma 64 14 18 41 x.
Proof. intro H. unfold s5_s3, Sigma, xor3. rewrite !rotr_ok by (auto; lia). reflexivity. Qed.
(** the registers as the standard names them *)
Definition view (pos : list nat) (r : list Z) : list Z := map (fun i => nth i r 0) pos.
Definition rotp (pos : list nat) : list nat := last pos 0%nat :: removelast pos.
Lemma s5_p_ok pos r x K : In pos s5_perms -> regs 64 8 r ->
  view (rotp pos) (s5_p pos r x K) = sha2_step 64 (Sigma 64 28 34 39) (Sigma 64 14 18 41) (view pos r) (K, x) /\
  regs 64 8 (s5_p pos r x K).
Proof.
  intros Hp H. regs8 r H.
  cbn [s5_perms In] in Hp.
  destruct Hp as [<-|[<-|[<-|[<-|[<-|[<-|[<-|[<-|[]]]]]]]]]; cbn [s5_p view rotp last removelast map nth upd];
  cbn [sha2_step fst snd]; rewrite ?s5_s2_ok, ?s5_s3_ok by assumption; change s5_f1 with (fun x y z => Z.lxor z (Z.land x (Z.lxor y z))); change s5_f0 with (fun x y z => Z.lor (Z.land x y) (Z.land z (Z.lor x y))); cbv beta;
  rewrite ch_xor, maj_or;
  (split; [f_equal; [wsum|]; do 3 f_equal; f_equal; wsum|split; [reflexivity|repeat (apply Forall_cons; [assumption || (apply wadd_word; lia)|]); apply Forall_nil]]).
Qed.
(** rows follow each other by rotation *)
Fixpoint chained (pos : list nat) (rows : list (list nat * nat)) (last_pos : list nat) : bool :=
  match rows with
  | [] => if list_eq_dec Nat.eq_dec pos last_pos then true else false
  | (p, _) :: rows => (if list_eq_dec Nat.eq_dec pos p then true else false) && chained (rotp p) rows last_pos
  end.
Lemma s5_fold W rows : forall pos r, chained pos rows [0; 1; 2; 3; 4; 5; 6; 7]%nat = true -> Forall (fun row => In (fst row) s5_perms) rows -> regs 64 8 r ->
  let r' := fold_left (fun r row => s5_p (fst row) r (nth (snd row) W 0) (nth (snd row) sha512_k 0)) rows r in
  view [0; 1; 2; 3; 4; 5; 6; 7]%nat r' = fold_left (fun a x => sha2_step 64 (Sigma 64 28 34 39) (Sigma 64 14 18 41) a (nth x sha512_k 0, nth x W 0)) (map snd rows) (view pos r) /\ regs 64 8 r'.
Proof.
  induction rows as [|[p t] rows IH]; intros pos r C I R; cbn [chained fold_left map fst snd] in *.
  - destruct (list_eq_dec Nat.eq_dec pos [0; 1; 2; 3; 4; 5; 6; 7]%nat) as [->|]; [|discriminate]. auto.
  - apply andb_prop in C as [C1 C2]. destruct (list_eq_dec Nat.eq_dec pos p) as [->|]; [|discriminate].
    inversion I; subst. destruct (s5_p_ok p r (nth t W 0) (nth t sha512_k 0)) as [E R']; auto.
    rewrite <- E. apply IH; auto.
Qed.
Lemma view_id r : length r = 8%nat -> view [0; 1; 2; 3; 4; 5; 6; 7]%nat r = r.
Proof. intro L. do 8 (destruct r as [|? r]; [discriminate L|]). destruct r; [reflexivity|discriminate L]. Qed.
Lemma s5_rows_in : Forall (fun row => In (fst row) s5_perms) s5_rows.
Proof. unfold s5_rows. vm_compute. repeat (apply Forall_cons; [cbn [fst]; tauto|]). apply Forall_nil. Qed.
Lemma sha512_process_ok st d : regs 64 8 st -> bytes d -> length d = 128%nat ->
  sha512_process st d = sha512_compress st d /\ regs 64 8 (sha512_compress st d).
Proof.
  intros Hs Hb L. unfold sha512_process, sha512_compress. cbv zeta.
  rewrite (read_words_be 8 16) by (auto; lia).
  destruct (words_be_words 8 16 d ltac:(lia) Hb L) as [W1 W2]. change (8 * Z.of_nat 8) with 64 in W1.
  destruct (sched_ok 64 (s5_s0, sigma 64 1 8 7) (s5_s1, sigma 64 19 61 6) s5_extend 64 ltac:(lia) (fun n i m => eq_refl) (fun i m => eq_refl) s5_s0_ok s5_s1_ok (words_be 8 d) W1) as (S1 & S2 & S3).
  rewrite W2 in S1, S3. cbn [fst snd] in *. rewrite S1. set (W := sha2_schedule _ _ _ _ _) in *.
  rewrite <- K512_ok. rewrite (combine_nth_seq 0 0 80) by (auto; reflexivity). rewrite fold_left_map.
  destruct (s5_fold W s5_rows [0; 1; 2; 3; 4; 5; 6; 7]%nat st) as [E R].
  { vm_compute. reflexivity. } { apply s5_rows_in. } { auto. }
  rewrite (view_id st) in E by apply Hs. rewrite view_id in E by apply R. change (map snd s5_rows) with (seq 0 80) in E.
  rewrite E. split; [reflexivity|]. apply add_regs; [lia|apply Hs|]. rewrite <- E. apply R.
Qed.

(** * SHA-1 *)
Definition s1_next (t : nat) (W : list Z) : Z :=
  ROTL 32 1 (Z.lxor (xor3 (nth (t - 3) W 0) (nth (t - 8) W 0) (nth (t - 14) W 0)) (nth (t - 16) W 0)).
Definition s1_sched (n : nat) (m : list Z) : list Z := Nat.iter n (fun W => W ++ [s1_next (length W) W]) m.
Lemma s1_sched_64 m : sha1_schedule m = s1_sched 64 m.
Proof. unfold sha1_schedule, s1_sched. f_equal. Qed.
Lemma s1_sched_S n m : s1_sched (S n) m = s1_sched n m ++ [s1_next (length (s1_sched n m)) (s1_sched n m)].
Proof. reflexivity. Qed.
Lemma s1_next_app t W v : (16 <= t <= length W)%nat -> s1_next t (W ++ v) = s1_next t W.
Proof. intro H. unfold s1_next. rewrite !app_nth1 by lia. reflexivity. Qed.
Lemma s1_next_word t W : Forall (wordw 32) W -> wordw 32 (Z.lxor (xor3 (nth (t - 3) W 0) (nth (t - 8) W 0) (nth (t - 14) W 0)) (nth (t - 16) W 0)).
Proof. intro H. assert (N : forall i, wordw 32 (nth i W 0)) by (intro i; apply (regs_nth 32 (length W)); [lia|split; auto]). apply lxor_word; [lia| |apply N]. apply xor3_word; auto. lia. Qed.
Lemma s1_sched_ok n m : length m = 16%nat -> Forall (wordw 32) m ->
  length (s1_sched n m) = (16 + n)%nat /\ Forall (wordw 32) (s1_sched n m) /\ (forall t, (t < 16)%nat -> nth t (s1_sched n m) 0 = nth t m 0) /\
  (forall t, (16 <= t < 16 + n)%nat -> nth t (s1_sched n m) 0 = s1_next t (s1_sched n m)).
Proof.
  intros L F. induction n as [|n (A & B & C & D)].
  - cbn [s1_sched Nat.iter nat_rect]. unfold s1_sched. cbn [Nat.iter nat_rect]. split; [lia|]. split; [auto|]. split; [auto|]. intros. lia.
  - rewrite s1_sched_S. set (S := s1_sched n m) in *. split; [rewrite app_length; cbn [length]; lia|]. split; [|split].
    + apply Forall_app. split; auto. constructor; [|constructor]. apply ROTL_word; [lia|]. apply s1_next_word; auto.
    + intros t Ht. rewrite app_nth1 by lia. auto.
    + intros t Ht. destruct (Nat.eq_dec t (16 + n)) as [->|].
      * rewrite app_nth2 by lia. rewrite A, Nat.sub_diag. cbn [nth]. rewrite s1_next_app by lia. reflexivity.
      * rewrite app_nth1 by lia. rewrite s1_next_app by lia. apply D. lia.
Qed.
Definition window (S W : list Z) (t : nat) : Prop := length W = 16%nat /\ forall j, (t - 16 <= j < t)%nat -> nth (j mod 16) W 0 = nth j S 0.
Lemma window_step S W t : (16 <= t)%nat -> window S W t -> nth t S 0 = s1_next t S -> Forall (wordw 32) S ->
  window S (s1_r W t) (t + 1).
Proof.
  intros Ht [L H] N F. unfold s1_r. rewrite !H by lia.
  assert (E : (t mod 16 = (t - 16) mod 16)%nat) by (replace t with ((t - 16) + 1 * 16)%nat at 1 by lia; apply Nat.mod_add; lia).
  assert (B : (t mod 16 < 16)%nat) by (apply Nat.mod_upper_bound; lia).
  split; [rewrite upd_length; auto|]. intros j Hj. rewrite nth_upd by lia.
  destruct (Nat.eq_dec j t) as [->|Hne].
  - rewrite Nat.eqb_refl. rewrite E, H by lia.
    rewrite N. unfold s1_next. rewrite <- rotl_ok; [reflexivity|lia|]. apply (s1_next_word t S F).
  - assert (M : (j mod 16 <> t mod 16)%nat).
    { rewrite E. intro Q. pose proof (Nat.div_mod j 16 ltac:(lia)). pose proof (Nat.div_mod (t - 16) 16 ltac:(lia)). rewrite Q in *. 
      assert (j - (t - 16) = 16 * (j / 16 - (t - 16) / 16))%nat by lia. lia. }
    destruct (Nat.eqb_spec (j mod 16) (t mod 16)); [congruence|]. apply H. lia.
Qed.
Lemma s1_f_ok t x y z : s1_f t x y z = sha1_fn t x y z.
Proof. unfold s1_f, sha1_fn. destruct (Nat.ltb t 20); [apply ch_xor|]. destruct (Nat.ltb t 40); [reflexivity|]. destruct (Nat.ltb t 60); [apply maj_or|reflexivity]. Qed.
Lemma s1_k_ok t : s1_k t = sha1_k t.
Proof. unfold s1_k, sha1_k. destruct (Nat.ltb t 20); [vm_compute; reflexivity|]. destruct (Nat.ltb t 40); [vm_compute; reflexivity|]. destruct (Nat.ltb t 60); vm_compute; reflexivity. Qed.
Local Opaque sha1_k sha1_fn ROTL md5_T.
Definition s1_perms : list (list nat) := [[0; 1; 2; 3; 4]; [4; 0; 1; 2; 3]; [3; 4; 0; 1; 2]; [2; 3; 4; 0; 1]; [1; 2; 3; 4; 0]]%nat.
Lemma s1_p_ok t pos r x : In pos s1_perms -> regs 32 5 r ->
  view (rotp pos) (s1_p t pos r x) = sha1_step (view pos r) (t, x) /\ regs 32 5 (s1_p t pos r x).
Proof.
  intros Hp H. destruct H as [L F]. do 5 (destruct r as [|? r]; [discriminate L|]); destruct r; [|discriminate L].
  repeat match goal with Q : Forall _ (_ :: _) |- _ => inversion Q; subst; clear Q end.
  cbn [s1_perms In] in Hp.
  destruct Hp as [<-|[<-|[<-|[<-|[<-|[]]]]]]; cbn [s1_p view rotp last removelast map nth upd]; cbn [sha1_step fst snd];
  rewrite !rotl_ok by (assumption || lia); rewrite s1_f_ok, s1_k_ok;
  (split; [f_equal; wsum|split; [reflexivity|repeat (apply Forall_cons; [assumption || (apply wadd_word; lia) || (apply ROTL_word; [lia|assumption])|]); apply Forall_nil]]).
Qed.
Lemma s1_fold S : length S = 80%nat -> Forall (wordw 32) S -> (forall t, (16 <= t < 80)%nat -> nth t S 0 = s1_next t S) ->
  forall rows t pos W r, chained pos rows [0; 1; 2; 3; 4]%nat = true -> Forall (fun row => In (fst row) s1_perms) rows ->
  map snd rows = seq t (length rows) -> (t + length rows = 80)%nat -> window S W (Nat.max t 16) -> regs 32 5 r ->
  let r' := snd (fold_left s1_row rows (W, r)) in
  view [0; 1; 2; 3; 4]%nat r' = fold_left (fun a x => sha1_step a (x, nth x S 0)) (map snd rows) (view pos r) /\ regs 32 5 r'.
Proof.
  intros LS FS N. induction rows as [|[p u] rows IH]; intros t pos W r C I M T Wn R; cbn [chained fold_left map fst snd length seq] in *.
  - destruct (list_eq_dec Nat.eq_dec pos [0; 1; 2; 3; 4]%nat) as [->|]; [|discriminate]. auto.
  - injection M as -> M. apply andb_prop in C as [C1 C2]. destruct (list_eq_dec Nat.eq_dec pos p) as [->|]; [|discriminate].
    inversion I; subst. cbn [s1_row]. set (W' := if Nat.ltb t 16 then W else s1_r W t).
    assert (WW : window S W' (Nat.max (Datatypes.S t) 16) /\ nth (t mod 16) W' 0 = nth t S 0).
    { unfold W'. destruct (Nat.ltb_spec t 16).
      - replace (Nat.max (Datatypes.S t) 16) with 16%nat by lia. replace (Nat.max t 16) with 16%nat in Wn by lia. split; [auto|]. apply Wn. lia.
      - replace (Nat.max t 16) with t in Wn by lia. pose proof (window_step S W t ltac:(lia) Wn (N t ltac:(lia)) FS) as Q.
        replace (Nat.max (Datatypes.S t) 16) with (t + 1)%nat by lia. split; [exact Q|]. apply Q. lia. }
    destruct WW as [W1 W2]. rewrite W2.
    destruct (s1_p_ok t p r (nth t S 0)) as [E R']; auto.
    rewrite <- E. apply (IH (Datatypes.S t)); auto. lia.
Qed.
Lemma view_id5 r : length r = 5%nat -> view [0; 1; 2; 3; 4]%nat r = r.
Proof. intro L. do 5 (destruct r as [|? r]; [discriminate L|]). destruct r; [reflexivity|discriminate L]. Qed.
Lemma s1_rows_in : Forall (fun row => In (fst row) s1_perms) sha1_rows.
Proof. unfold sha1_rows. repeat (apply Forall_cons; [cbn [fst s1_perms In]; tauto|]). apply Forall_nil. Qed.
Lemma combine_seq_l {B} (db : B) n b : length b = n -> combine (seq 0 n) b = map (fun i => (i, nth i b db)) (seq 0 n).
Proof.
  intro L. rewrite (combine_nth_seq 0%nat db n) by (auto; apply seq_length). apply map_ext_in. intros i Hi. apply in_seq in Hi. rewrite seq_nth by lia. reflexivity.
Qed.
Lemma sha1_process_ok st d : regs 32 5 st -> bytes d -> length d = 64%nat ->
  sha1_process st d = sha1_compress st d /\ regs 32 5 (sha1_compress st d).
Proof.
  intros Hs Hb L. unfold sha1_process, sha1_compress. cbv zeta.
  rewrite (read_words_be 4 16) by (auto; lia).
  destruct (words_be_words 4 16 d ltac:(lia) Hb L) as [W1 W2]. change (8 * Z.of_nat 4) with 32 in W1.
  rewrite s1_sched_64.
  destruct (s1_sched_ok 64 (words_be 4 d) W2 W1) as (S1 & S2 & S3 & S4). set (S := s1_sched 64 (words_be 4 d)) in *.
  rewrite (combine_seq_l 0 80) by auto. rewrite fold_left_map.
  destruct (s1_fold S S1 S2 S4 sha1_rows 0 [0; 1; 2; 3; 4]%nat (words_be 4 d) st) as [E R]; auto.
  { apply s1_rows_in. } { split; [exact W2|]. cbn [Nat.max]. intros j Hj. rewrite Nat.mod_small by lia. symmetry. apply S3. lia. }
  rewrite (view_id5 st) in E by apply Hs. rewrite view_id5 in E by apply R. change (map snd sha1_rows) with (seq 0 80) in E.
  rewrite E. split; [reflexivity|]. apply add_regs; [lia|apply Hs|]. rewrite <- E. apply R.
Qed.

(** * MD5 *)
Definition mrow := (Z * (nat * nat * nat * nat) * nat * Z * Z)%type.
Definition m5_pos (row : mrow) : list nat := let '(_, (a, b, c, d), _, _, _) := row in [a; b; c; d].
Definition m5_par (row : mrow) : Z * nat * Z * Z := let '(k, _, x, s, ac) := row in (k, x, s, ac).
Definition m5_spec (t : nat) : Z * nat * Z * Z := (Z.of_nat (t / 16), md5_index t, md5_shift t, md5_T (t + 1)).
Lemma md5_rows_par : map m5_par md5_rows = map m5_spec (seq 0 64). Proof. vm_compute. reflexivity. Qed.
Lemma md5_shift_range t : (t < 64)%nat -> 0 <= md5_shift t <= 32.
Proof.
  intro H. assert (C : forallb (fun t => (0 <=? md5_shift t) && (md5_shift t <=? 32))%bool (seq 0 64) = true) by (vm_compute; reflexivity).
  assert (I : In t (seq 0 64)) by (apply in_seq; lia). pose proof (proj1 (forallb_forall _ _) C t I) as E. cbv beta in E. lia.
Qed.
Lemma m5_f_ok t x y z : (t < 64)%nat -> wordw 32 x -> wordw 32 y -> wordw 32 z -> m5_f (Z.of_nat (t / 16)) x y z = md5_F t x y z.
Proof.
  intros Ht Hx Hy Hz. unfold m5_f, md5_F. rewrite !wnot_ok by (auto; lia). cbv zeta.
  assert (H : (t / 16 < 4)%nat) by (apply Nat.div_lt_upper_bound; lia).
  destruct (t / 16)%nat as [|[|[|[|]]]]; try reflexivity. lia.
Qed.
Lemma m5_sum a b f x t s : wadd 32 (ROTL 32 s (wadd 32 a (wadd 32 (wadd 32 f x) t))) b = (b + ROTL 32 s ((a + f + x + t) mod 2 ^ 32)) mod 2 ^ 32.
Proof.
  assert (E : wadd 32 a (wadd 32 (wadd 32 f x) t) = (a + f + x + t) mod 2 ^ 32) by wsum. rewrite E. generalize (ROTL 32 s ((a + f + x + t) mod 2 ^ 32)). intro v. wsum.
Qed.
Definition m5_perms : list (list nat) := [[0; 1; 2; 3]; [3; 0; 1; 2]; [2; 3; 0; 1]; [1; 2; 3; 0]]%nat.
Lemma m5_row_ok X t row r : (t < 64)%nat -> m5_par row = m5_spec t -> In (m5_pos row) m5_perms -> regs 32 4 r -> 
  view (rotp (m5_pos row)) (m5_row X r row) = md5_step X (view (m5_pos row) r) t /\ regs 32 4 (m5_row X r row).
Proof.
  intros Ht Hpar Hp H. destruct row as [[[[k [[[a b] c] d]] x] s] ac]. cbn [m5_par m5_pos] in *. unfold m5_spec in Hpar. injection Hpar as -> -> -> ->. change (fst (Nat.divmod t 15 0 15)) with (t / 16)%nat.
  pose proof (md5_shift_range t Ht) as Sh.
  destruct H as [L F]. do 4 (destruct r as [|? r]; [discriminate L|]); destruct r; [|discriminate L].
  repeat match goal with Q : Forall _ (_ :: _) |- _ => inversion Q; subst; clear Q end.
  cbn [m5_perms In] in Hp.
  destruct Hp as [Hp|[Hp|[Hp|[Hp|[]]]]]; injection Hp as <- <- <- <-; cbn [m5_row view rotp last removelast map nth upd]; cbn [md5_step];
  rewrite m5_f_ok by assumption;
  rewrite rotl_ok by (try (apply wadd_word; lia); lia);
  (split; [rewrite m5_sum; reflexivity|split; [reflexivity|repeat (apply Forall_cons; [assumption || (apply wadd_word; lia)|]); apply Forall_nil]]).
Qed.
Lemma m5_fold X rows : forall t pos r, chained pos (map (fun row => (m5_pos row, 0%nat)) rows) [0; 1; 2; 3]%nat = true -> Forall (fun row => In (m5_pos row) m5_perms) rows ->
  map m5_par rows = map m5_spec (seq t (length rows)) -> (t + length rows = 64)%nat -> regs 32 4 r ->
  let r' := fold_left (m5_row X) rows r in
  view [0; 1; 2; 3]%nat r' = fold_left (md5_step X) (seq t (length rows)) (view pos r) /\ regs 32 4 r'.
Proof.
  induction rows as [|row rows IH]; intros t pos r C I M T R; cbn [chained fold_left map fst snd length seq] in *.
  - destruct (list_eq_dec Nat.eq_dec pos [0; 1; 2; 3]%nat) as [->|]; [|discriminate]. auto.
  - apply andb_prop in C as [C1 C2]. destruct (list_eq_dec Nat.eq_dec pos (m5_pos row)) as [->|]; [|discriminate].
    inversion I; subst. assert (M1 : m5_par row = m5_spec t) by congruence. assert (M2 : map m5_par rows = map m5_spec (seq (S t) (length rows))) by congruence.
    destruct (m5_row_ok X t row r) as [E R']; auto; [lia|]. rewrite <- E. apply IH; auto. lia.
Qed.
Lemma view_id4 r : length r = 4%nat -> view [0; 1; 2; 3]%nat r = r.
Proof. intro L. do 4 (destruct r as [|? r]; [discriminate L|]). destruct r; [reflexivity|discriminate L]. Qed.
Lemma m5_rows_in : Forall (fun row => In (m5_pos row) m5_perms) md5_rows.
Proof. unfold md5_rows. repeat (apply Forall_cons; [cbn [m5_pos m5_perms In]; tauto|]). apply Forall_nil. Qed.
Definition md5_words (H X : list Z) : list Z := add_words 32 H (fold_left (md5_step X) (seq 0 64) H).
Lemma md5_process_ok st X : regs 32 4 st -> md5_process st X = md5_words st X /\ regs 32 4 (md5_words st X).
Proof.
  intros Hs. unfold md5_process, md5_words.
  destruct (m5_fold X md5_rows 0 [0; 1; 2; 3]%nat st) as [E R]; [vm_compute; reflexivity|exact m5_rows_in|exact md5_rows_par|reflexivity|exact Hs|].
  rewrite (view_id4 st) in E by apply Hs. rewrite view_id4 in E by apply R. change (length md5_rows) with 64%nat in E.
  rewrite E. split; [reflexivity|]. apply add_regs; [lia|apply Hs|]. rewrite <- E. apply R.
Qed.
