(** Memory-level division: single writes, buffer sizes, and the loops of
    src/mpi/mpi_div_abs.c. *)
From Verif Require Import Base Lists MpiModel MpiMulModel MpiDivModel MemModel MemMulModel MemDivModel MemSpec Mem MemOps MemShift MemLeaf MemMul MemRec MemToom MpiDiv.
Ltac Zify.zify_post_hook ::= idtac.

Lemma wr_at x i v e s o (Q : unit -> st -> Prop) : mem s x = Some o -> (i < length (o_da o))%nat ->
  (forall s', becomes s x (mkobj (o_sg o) (o_us o) (upd (o_da o) i v)) s' -> Q tt s') -> wp (wr x i v) e s Q.
Proof.
  intros M I H. unfold wr. apply wp_bind. apply wp_get; [eapply mem_live; eauto|]. rewrite (mem_ob _ _ _ M).
  rewrite (proj2 (Nat.ltb_lt _ _) I). apply wp_set. apply H. apply becomes_put.
Qed.
Lemma rd_at x i e s o (Q : Z -> st -> Prop) : mem s x = Some o -> (i < length (o_da o))%nat -> Q (nth i (o_da o) 0) s -> wp (rd x i) e s Q.
Proof.
  intros M I H. unfold rd. apply wp_bind. apply wp_get; [eapply mem_live; eauto|]. rewrite (mem_ob _ _ _ M).
  rewrite (proj2 (Nat.ltb_lt _ _) I). apply wp_ret. auto.
Qed.
Lemma set_us_at x k e s o (Q : unit -> st -> Prop) : mem s x = Some o -> (forall s', becomes s x (mkobj (o_sg o) k (o_da o)) s' -> Q tt s') -> wp (set_us x k) e s Q.
Proof. intros M H. unfold set_us. apply wp_bind. apply wp_get; [eapply mem_live; eauto|]. rewrite (mem_ob _ _ _ M). apply wp_set. apply H. apply becomes_put. Qed.
Lemma set_sg_at x g e s o (Q : unit -> st -> Prop) : mem s x = Some o -> (forall s', becomes s x (mkobj g (o_us o) (o_da o)) s' -> Q tt s') -> wp (set_sg x g) e s Q.
Proof. intros M H. unfold set_sg. apply wp_bind. apply wp_get; [eapply mem_live; eauto|]. rewrite (mem_ob _ _ _ M). apply wp_set. apply H. apply becomes_put. Qed.
Lemma get_at x e s o (Q : obj -> st -> Prop) : mem s x = Some o -> Q o s -> wp (get x) e s Q.
Proof. intros M H. apply wp_get; [eapply mem_live; eauto|]. rewrite (mem_ob _ _ _ M). auto. Qed.
Lemma peek_at x e s o (Q : mpi -> st -> Prop) : mem s x = Some o -> (o_us o <= length (o_da o))%nat -> Q (view o) s -> wp (peek x) e s Q.
Proof. intros M L H. eapply wp_peek; [exists o; eauto|auto]. Qed.
Lemma zero_at x e s o (Q : unit -> st -> Prop) : mem s x = Some o -> (forall s', becomes s x (mkobj false 0 (o_da o)) s' -> Q tt s') -> wp (zero x) e s Q.
Proof. intros M H. apply zero_ok; [eapply mem_live; eauto|]. unfold dat. rewrite (mem_ob _ _ _ M). auto. Qed.

Lemma upd_twice {A} (l : list A) : forall i x y, upd (upd l i x) i y = upd l i y.
Proof. induction l as [|a l IH]; intros [|i] x y; cbn [upd]; auto. f_equal. apply IH. Qed.

(** * Multiplication by a digit leaves room for the product *)
Lemma mul_m_len e n r a b va vb w s : calm n s -> (r < n)%nat -> (a < n)%nat -> (b < n)%nat -> has s a va -> has s b vb -> has s r w ->
  (used vb = 1)%nat -> is_zero va = false ->
  wp (mul_m n r a b) e s (fun rc s' => rc = 0 -> (used va + 1 <= len s' r)%nat).
Proof.
  intros C R Ra Rb Ha Hb Hr U Z. unfold mul_m. apply wp_bind. eapply wp_peek; eauto. apply wp_bind. eapply wp_peek; eauto.
  unfold mul_gen_m. apply wp_bind. apply wp_get; [eapply has_live; eauto|]. apply wp_bind. apply wp_get; [eapply has_live; eauto|].
  apply wp_check. cbn [mul_abs_m]. apply wp_bind. eapply wp_peek; eauto. apply wp_bind. eapply wp_peek; eauto. cbv zeta.
  rewrite (proj2 (Nat.ltb_ge 300 _)) by lia. rewrite (proj2 (Nat.ltb_ge 64 _)) by lia.
  eapply wp_mono; [apply (mul_comba_len e n r a b va vb w s); auto|]. intros rc s1 ((_ & _ & A) & L).
  destruct A as [(-> & V)|(-> & _)]; cbn [Z.eqb]; [|discriminate].
  assert (Zb : is_zero vb = false) by (rewrite is_zero_used, U; auto). specialize (L eq_refl Z Zb). clear Z Zb.
  apply wp_bind. eapply wp_peek; eauto. destruct (is_zero _); [apply wp_ret; intros _; lia|].
  apply wp_bind. apply wp_set_sg; [eapply has_live; eauto|]. apply wp_ret. intros _. unfold len, dat at 1. rewrite ob_put. cbn [o_da]. unfold len in L. lia.
Qed.
Lemma mul_dig_room e n r a d va w v s : calm n s -> (r < n)%nat -> (a < n)%nat -> has s a va -> has s r w -> is_zero va = false -> mul_dig (if Nat.eqb r a then false else neg w) va d = Ok v ->
  wp (mul_dig_m n r a d) e s (fun rc s' => after e n r true v s rc s' /\ (rc = 0 -> (used va + 1 <= len s' r)%nat)).
Proof.
  intros C R Ra Ha Hr Z F. apply wp_and; [eapply mul_dig_m_ok; eauto|]. unfold mul_dig_m. apply wp_bind. apply wp_set. set (s1 := put s n (mkobj false 1 [d])).
  assert (M : forall x, x <> n -> mem s1 x = mem s x) by (intros; apply put_other; auto). assert (Hn : has s1 n (mkmpi false [d])) by (eapply has_intro; [apply put_same|cbn; lia|reflexivity]).
  apply wp_finally. eapply wp_mono; [eapply (mul_m_len e (n + 1)%nat r a n va (mkmpi false [d]) w s1)|]; try lia; auto.
  - intros x Hx. rewrite M by lia. apply C. lia.
  - eapply has_same; [apply M; lia|auto].
  - eapply has_same; [apply M; lia|auto].
  - intros rc s2 H. unfold wp, set. intro E. specialize (H E). unfold len, dat, ob in *. cbn [mem]. rewrite (proj2 (Nat.eqb_neq r n)) by lia. exact H.
Qed.
Lemma mul_dig_neg a d v : neg a = false -> mul_dig false a d = Ok v -> neg v = false.
Proof.
  intros N F. unfold mul_dig, mul, mul_gen, mul_abs in F. cbn [mul_abs_f used dg length] in F. rewrite (proj2 (Nat.ltb_ge 300 _)) in F by lia. rewrite (proj2 (Nat.ltb_ge 64 _)) in F by lia.
  cbn [bind] in F. injection F as <-. unfold mul_comba, mul_comba_gen. cbn [neg]. rewrite N. cbn [xorb].
  destruct (is_zero _ || _)%bool; [reflexivity|]. destruct (is_zero _); reflexivity.
Qed.

(** * State of the main loops *)
Definition D (n nn i : nat) (dq : list Z) (T1 T2 : obj) (X Y : mpi) (s : st) : Prop :=
  calm (n + 5) s /\ mem s n = Some (mkobj false (length dq) dq) /\ mem s (n + 1) = Some T1 /\ mem s (n + 2) = Some T2 /\
  (o_us T1 <= length (o_da T1) /\ 2 <= length (o_da T1))%nat /\ ((o_us T2 <= 3)%nat /\ length (o_da T2) = 3%nat /\ o_sg T2 = false) /\
  has s (n + 3) X /\ (S nn <= len s (n + 3))%nat /\ washed s (n + 3) (S i) /\ has s (n + 4) Y.
Definition fr (n : nat) (s s' : st) : Prop := (forall x, (x < n)%nat -> mem s' x = mem s x) /\ (tick s <= tick s')%nat.
Definition Out (e : env) (n : nat) (s : st) (P : st -> Prop) (rc : Z) (s' : st) : Prop :=
  fr n s s' /\ (rc = 0 /\ P s' \/ rc = -1 /\ starved e s s' /\ calm (n + 5) s' /\ forall x, (n <= x < n + 5)%nat -> live s' x).

Lemma fr_trans n s s1 s2 : fr n s s1 -> fr n s1 s2 -> fr n s s2.
Proof. intros (A & B) (C & E). split; [intros; rewrite C, A; auto|lia]. Qed.
Lemma fr_refl n s : fr n s s. Proof. split; auto. Qed.
Lemma out_from e n s s1 P rc s' : fr n s s1 -> Out e n s1 P rc s' -> Out e n s P rc s'.
Proof.
  intros F (G & H). split; [eapply fr_trans; eauto|]. destruct H as [H|(A & B & C)]; [auto|right]. split; auto. split; auto.
  eapply starved_mono; [| |exact B]; [apply F|lia].
Qed.
Lemma out_weak e n s (P Q : st -> Prop) rc s' : (forall s1, P s1 -> Q s1) -> Out e n s P rc s' -> Out e n s Q rc s'.
Proof. intros H (F & [(A & B)|B]); split; auto. Qed.
Lemma out_chk e n s P P' m f : wp m e s (Out e n s P) -> (forall s1, P s1 -> wp f e s1 (Out e n s1 P')) -> wp (check m f) e s (Out e n s P').
Proof.
  intros H1 H2. apply wp_check. eapply wp_mono; [exact H1|]. intros rc s1 (F & [(-> & K)|(-> & K)]); cbn [Z.eqb].
  - eapply wp_mono; [apply H2; auto|]. intros rc s2. apply out_from; auto.
  - split; auto.
Qed.
Lemma out_ret e n s (P : st -> Prop) : P s -> wp (ret 0) e s (Out e n s P).
Proof. intro H. apply wp_ret. split; [apply fr_refl|auto]. Qed.
(** after a write that only touches locals *)
Lemma out_step {A} e n s P (m : cmd A) f : wp m e s (fun a s1 => fr n s s1 /\ wp (f a) e s1 (Out e n s1 P)) -> wp (cbind m f) e s (Out e n s P).
Proof. intro H. apply wp_bind. eapply wp_mono; [exact H|]. intros a s1 (F & G). eapply wp_mono; [exact G|]. intros rc s2. apply out_from; auto. Qed.

Lemma washed_le s r k j : (j <= k)%nat -> washed s r k -> washed s r j.
Proof. intros L [H|H]; [left; auto|right]. intros i Hi. apply H. lia. Qed.
Lemma washed_same s s' r k : mem s' r = mem s r -> washed s r k -> washed s' r k.
Proof. intro E. unfold washed, clean, dat, ob. rewrite E. auto. Qed.
Lemma len_same s s' r : mem s' r = mem s r -> len s' r = len s r.
Proof. intro E. unfold len, dat, ob. rewrite E. auto. Qed.

Section Locals.
Variables (n nn : nat).
Lemma D_live i dq T1 T2 X Y s x : D n nn i dq T1 T2 X Y s -> (n <= x < n + 5)%nat -> live s x.
Proof.
  intros (C & Mq & M1 & M2 & _ & _ & HX & _ & _ & HY) Hx.
  assert (x = n \/ x = n + 1 \/ x = n + 2 \/ x = n + 3 \/ x = n + 4)%nat as E by lia. destruct E as [->|[->|[->|[->| ->]]]]; [eapply mem_live; eauto|eapply mem_live; eauto|eapply mem_live; eauto|eapply has_live; eauto|eapply has_live; eauto].
Qed.
Lemma D_down i j dq T1 T2 X Y s : (j <= i)%nat -> D n nn i dq T1 T2 X Y s -> D n nn j dq T1 T2 X Y s.
Proof. intros L (A1 & A2 & A3 & A4 & A5 & A6 & A7 & A8 & A9 & A0). repeat (split; auto). eapply washed_le; [|eauto]. lia. Qed.
(** any change of one local *)
Lemma D_q i dq dq' T1 T2 X Y s s' : D n nn i dq T1 T2 X Y s -> length dq' = length dq -> becomes s n (mkobj false (length dq) dq') s' -> D n nn i dq' T1 T2 X Y s' /\ fr n s s'.
Proof.
  intros (A1 & A2 & A3 & A4 & A5 & A6 & A7 & A8 & A9 & A0) L (B1 & B2 & B3).
  split; [|split; [intros; apply B2; lia|lia]]. rewrite <- L in B1. split; [intros x Hx; rewrite B2 by lia; apply A1; auto|].
  rewrite <- (B2 (n + 1)%nat) in A3 by lia. rewrite <- (B2 (n + 2)%nat) in A4 by lia. pose proof (B2 (n + 3)%nat ltac:(lia)) as E3. pose proof (B2 (n + 4)%nat ltac:(lia)) as E4.
  repeat (split; auto); [eapply has_same; eauto|rewrite (len_same s) by auto; auto|eapply washed_same; eauto|eapply has_same; eauto].
Qed.
Lemma D_t1k i dq T1 T2 X Y s s' v : D n nn i dq T1 T2 X Y s -> calm (n + 5) s' -> keeps (n + 5) (n + 1) s s' -> has s' (n + 1) v -> (2 <= len s' (n + 1))%nat ->
  (exists T, view T = v /\ D n nn i dq T T2 X Y s') /\ fr n s s'.
Proof.
  intros (A1 & A2 & A3 & A4 & A5 & A6 & A7 & A8 & A9 & A0) C (B2 & B3) (o & M & O1 & O2) L.
  split; [|split; [intros; apply B2; lia|lia]]. exists o. split; auto. split; [exact C|].
  rewrite <- (B2 n) in A2 by lia. rewrite <- (B2 (n + 2)%nat) in A4 by lia. pose proof (B2 (n + 3)%nat ltac:(lia) ltac:(lia)) as E3. pose proof (B2 (n + 4)%nat ltac:(lia) ltac:(lia)) as E4.
  unfold len, dat in L. rewrite (mem_ob _ _ _ M) in L.
  repeat (split; auto); [eapply has_same; eauto|rewrite (len_same s) by auto; auto|eapply washed_same; eauto|eapply has_same; eauto].
Qed.
Lemma D_t1 i dq T1 T2 X Y s s' T : D n nn i dq T1 T2 X Y s -> becomes s (n + 1) T s' -> (o_us T <= length (o_da T))%nat -> (2 <= length (o_da T))%nat -> D n nn i dq T T2 X Y s' /\ fr n s s'.
Proof.
  intros HD (B1 & B2 & B3) L1 L2. destruct (D_t1k i dq T1 T2 X Y s s' (view T) HD) as ((T' & V & H) & F); auto.
  - intros x Hx. rewrite B2 by lia. apply HD; auto.
  - split; [intros; apply B2; auto|lia].
  - exists T; auto.
  - unfold len, dat. rewrite (mem_ob _ _ _ B1). auto.
  - split; auto. assert (T' = T) as ->; auto. destruct H as (_ & _ & H & _). congruence.
Qed.
Lemma D_t2 i dq T1 T2 X Y s s' T : D n nn i dq T1 T2 X Y s -> becomes s (n + 2) T s' -> ((o_us T <= 3)%nat /\ length (o_da T) = 3%nat /\ o_sg T = false) -> D n nn i dq T1 T X Y s' /\ fr n s s'.
Proof.
  intros (A1 & A2 & A3 & A4 & A5 & A6 & A7 & A8 & A9 & A0) (B1 & B2 & B3) L.
  split; [|split; [intros; apply B2; lia|lia]]. split; [intros x Hx; rewrite B2 by lia; apply A1; auto|].
  rewrite <- (B2 n) in A2 by lia. rewrite <- (B2 (n + 1)%nat) in A3 by lia. pose proof (B2 (n + 3)%nat ltac:(lia)) as E3. pose proof (B2 (n + 4)%nat ltac:(lia)) as E4.
  repeat (split; auto; try apply L); [eapply has_same; eauto|rewrite (len_same s) by auto; auto|eapply washed_same; eauto|eapply has_same; eauto].
Qed.
Lemma D_x i j dq T1 T2 X X' Y e s s' : D n nn i dq T1 T2 X Y s -> leaf e (n + 3) true X' s 0 s' -> washed s' (n + 3) (S j) -> D n nn j dq T1 T2 X' Y s' /\ fr n s s'.
Proof.
  intros (A1 & A2 & A3 & A4 & A5 & A6 & A7 & A8 & A9 & A0) (B2 & B3 & [(_ & V & L)|(N & _)]) W; [|discriminate].
  split; [|split; [intros; apply B2; lia|lia]]. split; [intros x Hx; rewrite B2 by lia; apply A1; auto|].
  rewrite <- (B2 n) in A2 by lia. rewrite <- (B2 (n + 1)%nat) in A3 by lia. rewrite <- (B2 (n + 2)%nat) in A4 by lia. pose proof (B2 (n + 4)%nat ltac:(lia)) as E4.
  repeat (split; auto; try lia). eapply has_same; eauto.
Qed.
Lemma D_y i dq T1 T2 X Y Y' e s s' : D n nn i dq T1 T2 X Y s -> leaf e (n + 4) true Y' s 0 s' -> D n nn i dq T1 T2 X Y' s' /\ fr n s s'.
Proof.
  intros (A1 & A2 & A3 & A4 & A5 & A6 & A7 & A8 & A9 & A0) (B2 & B3 & [(_ & V & L)|(N & _)]); [|discriminate].
  split; [|split; [intros; apply B2; lia|lia]]. split; [intros x Hx; rewrite B2 by lia; apply A1; auto|].
  rewrite <- (B2 n) in A2 by lia. rewrite <- (B2 (n + 1)%nat) in A3 by lia. rewrite <- (B2 (n + 2)%nat) in A4 by lia. pose proof (B2 (n + 3)%nat ltac:(lia)) as E3.
  repeat (split; auto; try lia); [eapply has_same; eauto|rewrite (len_same s) by auto; auto|eapply washed_same; eauto].
Qed.
Lemma D_failed i dq T1 T2 X Y e s s' P : D n nn i dq T1 T2 X Y s -> calm (n + 5) s' -> (forall x, (x < n + 5)%nat -> mem s' x = mem s x) -> (tick s <= tick s')%nat -> starved e s s' -> Out e n s P (-1) s'.
Proof.
  intros HD C M T S. split; [split; auto; intros; apply M; lia|]. right. split; auto. split; auto. split; auto. intros x Hx. unfold live. rewrite M by lia. eapply D_live; eauto.
Qed.
Lemma op_t1 i dq T1 T2 X Y e s m v : D n nn i dq T1 T2 X Y s -> wp m e s (fun rc s' => after e (n + 5) (n + 1) true v s rc s' /\ (rc = 0 -> (2 <= len s' (n + 1))%nat)) ->
  wp m e s (Out e n s (fun s' => exists T, view T = v /\ D n nn i dq T T2 X Y s')).
Proof.
  intros HD H. eapply wp_mono; [exact H|]. intros rc s' ((C & K & A) & L). destruct A as [(-> & V)|(-> & S & M)].
  - destruct (D_t1k _ _ _ _ _ _ _ s' v HD) as (G & F); auto. split; auto.
  - eapply D_failed; eauto; [|apply K]. intros x Hx. destruct (Nat.eq_dec x (n + 1)) as [->|N]; auto. apply K; auto.
Qed.
Lemma op_t1l i dq T1 T2 X Y e s m v : D n nn i dq T1 T2 X Y s -> wp m e s (leaf e (n + 1) true v s) ->
  wp m e s (Out e n s (fun s' => exists T, view T = v /\ D n nn i dq T T2 X Y s')).
Proof.
  intros HD H. eapply op_t1; eauto. eapply wp_mono; [exact H|]. intros rc s' L. split; [apply leaf_after; [lia|apply HD|auto]|]. intros ->. destruct L as (_ & _ & [(_ & _ & L)|(N & _)]); [|discriminate].
  destruct HD as (_ & _ & M & _ & (_ & G) & _). assert (E : len s (n + 1) = length (o_da T1)) by (unfold len, dat; rewrite (mem_ob _ _ _ M); auto). lia.
Qed.
Lemma op_x i j dq T1 T2 X X' Y e s m : D n nn i dq T1 T2 X Y s -> wp m e s (fun rc s' => leaf e (n + 3) true X' s rc s' /\ (rc = 0 -> washed s' (n + 3) (S j))) ->
  wp m e s (Out e n s (D n nn j dq T1 T2 X' Y)).
Proof.
  intros HD H. eapply wp_mono; [exact H|]. intros rc s' (L & W). pose proof L as (A & B & [(-> & _)|(-> & S & M)]).
  - destruct (D_x _ j _ _ _ _ X' _ e _ s' HD L (W eq_refl)) as (G & F). split; auto.
  - assert (MM : forall x, mem s' x = mem s x) by (intro x; destruct (Nat.eq_dec x (n + 3)) as [->|N]; auto). eapply D_failed; eauto. intros x Hx. rewrite MM. apply HD; auto.
Qed.
Lemma op_y i dq T1 T2 X Y Y' e s m : D n nn i dq T1 T2 X Y s -> wp m e s (leaf e (n + 4) true Y' s) -> wp m e s (Out e n s (D n nn i dq T1 T2 X Y')).
Proof.
  intros HD H. eapply wp_mono; [exact H|]. intros rc s' L. pose proof L as (A & B & [(-> & _)|(-> & S & M)]).
  - destruct (D_y _ _ _ _ _ _ Y' e _ s' HD L) as (G & F). split; auto.
  - assert (MM : forall x, mem s' x = mem s x) by (intro x; destruct (Nat.eq_dec x (n + 4)) as [->|N]; auto). eapply D_failed; eauto. intros x Hx. rewrite MM. apply HD; auto.
Qed.
Lemma rd_q i dq T1 T2 X Y e s k (Q : Z -> st -> Prop) : D n nn i dq T1 T2 X Y s -> (k < length dq)%nat -> Q (nth k dq 0) s -> wp (rd n k) e s Q.
Proof. intros HD K H. eapply rd_at; [apply HD|exact K|exact H]. Qed.
Lemma wr_q i dq T1 T2 X Y e s k v (Q : unit -> st -> Prop) : D n nn i dq T1 T2 X Y s -> (k < length dq)%nat ->
  (forall s', D n nn i (upd dq k v) T1 T2 X Y s' -> fr n s s' -> Q tt s') -> wp (wr n k v) e s Q.
Proof.
  intros HD K H. eapply wr_at; [apply HD|exact K|]. cbn [o_sg o_us o_da]. intros s' HB.
  destruct (D_q _ _ (upd dq k v) _ _ _ _ _ s' HD) as (G & F); [apply upd_length|auto|]. auto.
Qed.
Lemma rd_x i dq T1 T2 X Y e s j (Q : Z -> st -> Prop) : D n nn i dq T1 T2 X Y s -> (j <= i)%nat -> (i <= nn)%nat -> (0 < i <= used X)%nat -> Q (nth j (dg X) 0) s -> wp (rd (n + 3) j) e s Q.
Proof.
  intros (_ & _ & _ & _ & _ & _ & HX & L & W & _) J I U H. destruct (le_lt_dec (used X) j) as [G|G].
  - destruct (has_elim _ _ _ HX) as (Lx & Ux & _). apply wp_rd; auto; [lia|]. rewrite nth_overflow in H by exact G.
    destruct W as [W|W]; [lia|]. rewrite W; auto. lia.
  - eapply wp_rd_has; eauto.
Qed.
Lemma rd_y i dq T1 T2 X Y e s j (Q : Z -> st -> Prop) : D n nn i dq T1 T2 X Y s -> (j < used Y)%nat -> Q (nth j (dg Y) 0) s -> wp (rd (n + 4) j) e s Q.
Proof. intros (_ & _ & _ & _ & _ & _ & _ & _ & _ & HY) J H. eapply wp_rd_has; eauto. Qed.
End Locals.
