(** Memory-level model: rules for commands, and the digit loops. *)
From Verif Require Import Base Lists MpiModel MemModel MemSpec.

(** * Rules *)
Lemma wp_ret {A} (a : A) e s (Q : A -> st -> Prop) : Q a s -> wp (ret a) e s Q.
Proof. intro H. exact H. Qed.
Lemma wp_bind {A B} (m : cmd A) (f : A -> cmd B) e s Q : wp m e s (fun a s' => wp (f a) e s' Q) -> wp (cbind m f) e s Q.
Proof. unfold wp, cbind. destruct (m e s) as [[a s']|rc| |]; auto. Qed.
Lemma wp_mono {A} (m : cmd A) e s (P Q : A -> st -> Prop) : wp m e s P -> (forall a s', P a s' -> Q a s') -> wp m e s Q.
Proof. unfold wp. destruct (m e s) as [[a s']|rc| |]; auto. Qed.
Lemma wp_check m f e s Q : wp m e s (fun rc s' => if rc =? 0 then wp f e s' Q else Q rc s') -> wp (check m f) e s Q.
Proof. intro H. apply wp_bind. eapply wp_mono; [exact H|]. intros rc s' K. cbv beta in K. destruct (rc =? 0); exact K. Qed.
Lemma wp_finally m c e s Q : wp m e s (fun rc s' => wp c e s' (fun _ s2 => Q rc s2)) -> wp (finally m c) e s Q.
Proof. intro H. apply wp_bind. eapply wp_mono; [exact H|]. intros rc s' K. apply wp_bind. eapply wp_mono; [exact K|]. intros t s2 L. exact L. Qed.
Lemma wp_and {A} (m : cmd A) e s (P Q : A -> st -> Prop) : wp m e s P -> wp m e s Q -> wp m e s (fun a s' => P a s' /\ Q a s').
Proof. unfold wp. destruct (m e s) as [[a s']|rc| |]; auto. Qed.
Lemma wp_ok {A} (m : cmd A) e s Q : wp m e s Q <-> exists a s', m e s = Ok (a, s') /\ Q a s'.
Proof.
  unfold wp. destruct (m e s) as [[a s']|rc| |]; split; intro H; try tauto.
  - eauto.
  - destruct H as (a0 & s0 & E & K). injection E as -> ->. auto.
  - destruct H as (a0 & s0 & E & K). discriminate.
  - destruct H as (a0 & s0 & E & K). discriminate.
  - destruct H as (a0 & s0 & E & K). discriminate.
Qed.

Definition ob (s : st) (x : nat) : obj := match mem s x with Some o => o | None => void end.
Definition live (s : st) (x : nat) : Prop := mem s x <> None.
Definition dat (s : st) (x : nat) : list Z := o_da (ob s x).
Definition len (s : st) (x : nat) : nat := length (dat s x).
Definition put (s : st) (x : nat) (o : obj) : st := mkst (fun y => if Nat.eqb y x then Some o else mem s y) (tick s).

Lemma live_ob s x : live s x -> mem s x = Some (ob s x).
Proof. unfold live, ob. destruct (mem s x); congruence. Qed.
Lemma mem_live s x o : mem s x = Some o -> live s x.
Proof. unfold live. congruence. Qed.
Lemma mem_ob s x o : mem s x = Some o -> ob s x = o.
Proof. unfold ob. intros ->. reflexivity. Qed.
Lemma wp_get x e s (Q : obj -> st -> Prop) : live s x -> Q (ob s x) s -> wp (get x) e s Q.
Proof. intros L H. unfold wp, get. rewrite (live_ob _ _ L). exact H. Qed.
Lemma wp_set x o e s (Q : unit -> st -> Prop) : Q tt (put s x o) -> wp (set x (Some o)) e s Q.
Proof. intro H. exact H. Qed.
Lemma put_same s x o : mem (put s x o) x = Some o.
Proof. cbn. rewrite Nat.eqb_refl. reflexivity. Qed.
Lemma put_other s x o y : y <> x -> mem (put s x o) y = mem s y.
Proof. intro H. cbn. rewrite (proj2 (Nat.eqb_neq y x) H). reflexivity. Qed.
Lemma ob_put s x o : ob (put s x o) x = o.
Proof. unfold ob. rewrite put_same. reflexivity. Qed.
Lemma ob_put_o s x o y : y <> x -> ob (put s x o) y = ob s y.
Proof. intro H. unfold ob. rewrite put_other by auto. reflexivity. Qed.
Lemma live_put s x o y : live s y -> live (put s x o) y.
Proof. unfold live. cbn. destruct (Nat.eqb y x); congruence. Qed.
Lemma live_put_same s x o : live (put s x o) x.
Proof. unfold live. rewrite put_same. discriminate. Qed.

Lemma wp_rd x i e s (Q : Z -> st -> Prop) : live s x -> (i < len s x)%nat -> Q (nth i (dat s x) 0) s -> wp (rd x i) e s Q.
Proof.
  intros L H K. apply wp_bind. apply wp_get; auto. unfold len, dat in *. rewrite (proj2 (Nat.ltb_lt _ _) H). exact K.
Qed.
Definition wput (s : st) (x i : nat) (v : Z) : st := put s x (mkobj (o_sg (ob s x)) (o_us (ob s x)) (upd (dat s x) i v)).
Lemma wp_wr x i v e s (Q : unit -> st -> Prop) : live s x -> (i < len s x)%nat -> Q tt (wput s x i v) -> wp (wr x i v) e s Q.
Proof.
  intros L H K. apply wp_bind. apply wp_get; auto. unfold len, dat in *. rewrite (proj2 (Nat.ltb_lt _ _) H). exact K.
Qed.
Lemma wp_set_us x k e s (Q : unit -> st -> Prop) : live s x -> Q tt (put s x (mkobj (o_sg (ob s x)) k (dat s x))) -> wp (set_us x k) e s Q.
Proof. intros L K. apply wp_bind. apply wp_get; auto. Qed.
Lemma wp_set_sg x b e s (Q : unit -> st -> Prop) : live s x -> Q tt (put s x (mkobj b (o_us (ob s x)) (dat s x))) -> wp (set_sg x b) e s Q.
Proof. intros L K. apply wp_bind. apply wp_get; auto. Qed.

(** * Only one object changes, and no allocation is made *)
Definition becomes (s : st) (r : nat) (o : obj) (s' : st) : Prop :=
  mem s' r = Some o /\ (forall x, x <> r -> mem s' x = mem s x) /\ tick s' = tick s.
Lemma becomes_put s r o : becomes s r o (put s r o).
Proof. split; [apply put_same|]. split; [intros; apply put_other; auto|reflexivity]. Qed.
Lemma becomes_trans s r o s1 o' s2 : becomes s r o s1 -> becomes s1 r o' s2 -> becomes s r o' s2.
Proof. intros (A1 & A2 & A3) (B1 & B2 & B3). split; auto. split; [intros x Hx; rewrite B2, A2 by auto; auto|congruence]. Qed.
Lemma becomes_ob s r o s' : becomes s r o s' -> ob s' r = o.
Proof. intros (H & _). apply mem_ob. auto. Qed.
Lemma becomes_live s r o s' : becomes s r o s' -> live s' r.
Proof. intros (H & _). eapply mem_live. eauto. Qed.
Lemma becomes_live_o s r o s' x : becomes s r o s' -> live s x -> live s' x.
Proof. intros (H & K & _) L. destruct (Nat.eq_dec x r) as [->|N]; [eapply mem_live; eauto|]. unfold live. rewrite K; auto. Qed.
Lemma becomes_refl s r : live s r -> becomes s r (ob s r) s.
Proof. intro L. split; [apply live_ob; auto|]. split; auto. Qed.

(** the buffer of [r] becomes [d] *)
Definition chg (s : st) (r : nat) (d : list Z) (s' : st) : Prop :=
  becomes s r (mkobj (o_sg (ob s r)) (o_us (ob s r)) d) s'.
Lemma chg_refl s r d : live s r -> d = dat s r -> chg s r d s.
Proof. intros L ->. unfold chg. replace (mkobj _ _ _) with (ob s r) by (unfold dat; destruct (ob s r); reflexivity). apply becomes_refl; auto. Qed.
Lemma chg_trans s r d s1 d' s2 : chg s r d s1 -> chg s1 r d' s2 -> chg s r d' s2.
Proof. unfold chg. intros H K. rewrite (becomes_ob _ _ _ _ H) in K. cbn in K. eapply becomes_trans; eauto. Qed.
Lemma wput_chg s r i v : chg s r (upd (dat s r) i v) (wput s r i v).
Proof. apply becomes_put. Qed.
Lemma chg_dat s r d s' : chg s r d s' -> dat s' r = d.
Proof. intro H. unfold dat. rewrite (becomes_ob _ _ _ _ H). reflexivity. Qed.
Lemma chg_dat_o s r d s' x : chg s r d s' -> x <> r -> dat s' x = dat s x.
Proof. intros (_ & H & _) N. unfold dat, ob. rewrite H; auto. Qed.
Lemma chg_live s r d s' x : chg s r d s' -> live s x -> live s' x.
Proof. apply becomes_live_o. Qed.
Lemma chg_ext s r d d' s' : chg s r d s' -> d = d' -> chg s r d' s'.
Proof. intros H <-. auto. Qed.

(** * Lists *)
Lemma firstn_S_nth {A} (l : list A) (d : A) k : (k < length l)%nat -> firstn (S k) l = firstn k l ++ [nth k l d].
Proof. revert k. induction l; intros [|k] H; cbn in *; try lia; auto. f_equal. apply IHl. lia. Qed.
Lemma skipn_nth {A} (l : list A) (d : A) i : (i < length l)%nat -> skipn i l = nth i l d :: skipn (S i) l.
Proof. revert i. induction l; intros [|i] H; cbn in *; try lia; auto. apply IHl. lia. Qed.
Lemma firstn_upd {A} (l : list A) : forall n i v, (n <= i)%nat -> firstn n (upd l i v) = firstn n l.
Proof. induction l; intros [|n] [|i] v H; cbn; auto; try lia. f_equal. apply IHl. lia. Qed.
Lemma skipn_upd {A} (l : list A) : forall n i v, (i < n)%nat -> skipn n (upd l i v) = skipn n l.
Proof. induction l; intros [|n] [|i] v H; cbn; auto; try lia. apply IHl. lia. Qed.
Lemma upd_split {A} (l : list A) : forall i v, (i < length l)%nat -> upd l i v = firstn i l ++ v :: skipn (S i) l.
Proof. induction l; intros [|i] v H; cbn in *; try lia; auto. f_equal. apply IHl. lia. Qed.
Lemma paste {A} (l : list A) i v R k : (i < length l)%nat ->
  firstn (S i) (upd l i v) ++ R ++ skipn (S i + k) (upd l i v) = firstn i l ++ (v :: R) ++ skipn (i + S k) l.
Proof.
  intro H. rewrite skipn_upd by lia. replace (S i + k)%nat with (i + S k)%nat by lia.
  rewrite upd_split by auto. rewrite firstn_app, firstn_length_le by lia. replace (S i - i)%nat with 1%nat by lia.
  rewrite firstn_firstn. replace (Nat.min (S i) i) with i by lia. rewrite <- app_assoc. reflexivity.
Qed.
Lemma paste0 {A} (l : list A) i : firstn i l ++ [] ++ skipn (i + 0) l = l.
Proof. rewrite Nat.add_0_r. apply firstn_skipn. Qed.

(** the buffer of [a] from [i] on, before and after a write at [i] to [r] *)
Lemma skip_wput s r a i v j : (i < j)%nat -> skipn j (dat (wput s r i v) a) = skipn j (dat s a).
Proof.
  intro H. destruct (Nat.eq_dec a r) as [->|N].
  - rewrite (chg_dat _ _ _ _ (wput_chg s r i v)). apply skipn_upd. auto.
  - rewrite (chg_dat_o _ _ _ _ _ (wput_chg s r i v) N). reflexivity.
Qed.
Lemma len_wput s r a i v : len (wput s r i v) a = len s a.
Proof.
  unfold len. destruct (Nat.eq_dec a r) as [->|N].
  - rewrite (chg_dat _ _ _ _ (wput_chg s r i v)). apply upd_length.
  - rewrite (chg_dat_o _ _ _ _ _ (wput_chg s r i v) N). reflexivity.
Qed.
Lemma live_wput s r i v x : live s x -> live (wput s r i v) x.
Proof. apply live_put. Qed.
(** digits i .. i+k-1 of [a] *)
Definition seg (s : st) (a i k : nat) : list Z := firstn k (skipn i (dat s a)).
Lemma seg_wput s r a i v j k : (i < j)%nat -> seg (wput s r i v) a j k = seg s a j k.
Proof. intro H. unfold seg. rewrite skip_wput; auto. Qed.
Lemma seg_cons s a i k : (i < len s a)%nat -> seg s a i (S k) = nth i (dat s a) 0 :: seg s a (S i) k.
Proof. intro H. unfold seg. rewrite (skipn_nth _ 0) by auto. reflexivity. Qed.
Lemma seg_0 s a i : seg s a i 0 = []. Proof. reflexivity. Qed.
Lemma seg_len s a i k : (i + k <= len s a)%nat -> length (seg s a i k) = k.
Proof. unfold len. intro H. unfold seg. rewrite firstn_length, skipn_length. lia. Qed.
Definition over (s : st) (r i k : nat) (R : list Z) : list Z := firstn i (dat s r) ++ R ++ skipn (i + k) (dat s r).
Lemma over_step s r i v R k s' : live s r -> (i < len s r)%nat -> chg (wput s r i v) r (over (wput s r i v) r (S i) k R) s' -> chg s r (over s r i (S k) (v :: R)) s'.
Proof.
  intros L H K. eapply chg_trans; [apply wput_chg|]. eapply chg_ext; [exact K|]. unfold over.
  rewrite (chg_dat _ _ _ _ (wput_chg s r i v)). apply paste. auto.
Qed.

(** * Digit loops *)
Lemma move_ok e r a : forall k i s, live s r -> live s a -> (i + k <= len s r)%nat -> (i + k <= len s a)%nat ->
  wp (move r a k i) e s (fun _ s' => chg s r (over s r i k (seg s a i k)) s').
Proof.
  induction k; intros i s Lr La Hr Ha; cbn [move].
  - apply wp_ret. apply chg_refl; auto. unfold over. apply paste0.
  - apply wp_bind. apply wp_rd; [auto|lia|]. apply wp_bind. apply wp_wr; [auto|lia|].
    eapply wp_mono; [apply IHk; try apply live_wput; rewrite ?len_wput; auto; lia|].
    intros t s' K. rewrite seg_cons by lia. apply over_step; [auto|lia|]. rewrite seg_wput in K by lia. exact K.
Qed.
Lemma add_carry_ok e r a : forall k i c s, live s r -> live s a -> (i + k <= len s r)%nat -> (i + k <= len s a)%nat ->
  wp (add_carry_m r a k i c) e s (fun cy s' => exists R, length R = k /\ chg s r (over s r i k R) s' /\
    (cy = 0 /\ add_carry (seg s a i k) c = R \/ cy = 1 /\ add_carry (seg s a i k) c = R ++ [1])).
Proof.
  induction k; intros i c s Lr La Hr Ha; cbn [add_carry_m]; destruct (c =? 0) eqn:Ec.
  - apply wp_bind. cbn [move]. apply wp_ret. apply wp_ret. exists []. split; auto. split; [apply chg_refl; auto; apply paste0|].
    left. rewrite seg_0. cbn. rewrite Ec. auto.
  - apply wp_ret. exists []. split; auto. split; [apply chg_refl; auto; apply paste0|]. right. rewrite seg_0. cbn. rewrite Ec. auto.
  - apply wp_bind. eapply wp_mono; [apply move_ok; auto|]. intros t s' K. apply wp_ret. exists (seg s a i (S k)). split; [apply seg_len; auto|].
    split; auto. left. split; auto. destruct (seg s a i (S k)); cbn; rewrite Ec; auto.
  - apply wp_bind. apply wp_rd; [auto|lia|]. apply wp_bind. apply wp_wr; [auto|lia|].
    eapply wp_mono; [apply IHk; try apply live_wput; rewrite ?len_wput; auto; lia|].
    intros cy s' (R & LR & K & D). rewrite seg_wput in D by lia. exists ((nth i (dat s a) 0 + 1) mod B :: R). split; [cbn; lia|].
    split; [apply over_step; auto; lia|]. rewrite seg_cons by lia. cbn [add_carry]. rewrite Ec. cbn [app].
    destruct D as [[D1 D2]|[D1 D2]]; [left|right]; (split; [auto|f_equal; auto]).
Qed.
Lemma add_loop_ok e r a b : forall m k i c s, live s r -> live s a -> live s b -> (i + (m + k) <= len s r)%nat -> (i + (m + k) <= len s a)%nat -> (i + m <= len s b)%nat ->
  wp (add_loop_m r a b m k i c) e s (fun cy s' => exists R, length R = (m + k)%nat /\ chg s r (over s r i (m + k) R) s' /\
    (cy = 0 /\ add_loop (seg s a i (m + k)) (seg s b i m) c = R \/ cy = 1 /\ add_loop (seg s a i (m + k)) (seg s b i m) c = R ++ [1])).
Proof.
  induction m; intros k i c s Lr La Lb Hr Ha Hb; cbn [add_loop_m].
  - eapply wp_mono; [apply add_carry_ok; auto|]. intros cy s' (R & K). exists R. rewrite seg_0.
    assert (E : add_loop (seg s a i k) [] c = add_carry (seg s a i k) c) by (destruct (seg s a i k); reflexivity).
    cbn [Nat.add]. rewrite E. exact K.
  - apply wp_bind. apply wp_rd; [auto|lia|]. apply wp_bind. apply wp_rd; [auto|lia|]. apply wp_bind. apply wp_wr; [auto|lia|].
    eapply wp_mono; [apply IHm; try apply live_wput; rewrite ?len_wput; auto; lia|].
    intros cy s' (R & LR & K & D). rewrite !seg_wput in D by lia. cbn [Nat.add]. rewrite !seg_cons by lia. cbn [add_loop].
    eexists (_ :: R). split; [cbn; lia|]. split; [apply over_step; [auto|lia|exact K]|]. cbn [app].
    destruct D as [[D1 D2]|[D1 D2]]; [left|right]; (split; [auto|f_equal; auto]).
Qed.
Lemma sub_borrow_ok e r a : forall k i c s, live s r -> live s a -> (i + k <= len s r)%nat -> (i + k <= len s a)%nat ->
  wp (sub_borrow_m r a k i c) e s (fun cy s' => exists R, length R = k /\ chg s r (over s r i k R) s' /\
    (cy = 0 /\ sub_borrow (seg s a i k) c = Some R \/ cy = 1 /\ sub_borrow (seg s a i k) c = None)).
Proof.
  induction k; intros i c s Lr La Hr Ha; cbn [sub_borrow_m]; destruct (c =? 0) eqn:Ec.
  - apply wp_bind. cbn [move]. apply wp_ret. apply wp_ret. exists []. split; auto. split; [apply chg_refl; auto; apply paste0|].
    left. rewrite seg_0. cbn. rewrite Ec. auto.
  - apply wp_ret. exists []. split; auto. split; [apply chg_refl; auto; apply paste0|]. right. rewrite seg_0. cbn. rewrite Ec. auto.
  - apply wp_bind. eapply wp_mono; [apply move_ok; auto|]. intros t s' K. apply wp_ret. exists (seg s a i (S k)). split; [apply seg_len; auto|].
    split; auto. left. split; auto. destruct (seg s a i (S k)); cbn; rewrite Ec; auto.
  - apply wp_bind. apply wp_rd; [auto|lia|]. apply wp_bind. apply wp_wr; [auto|lia|].
    eapply wp_mono; [apply IHk; try apply live_wput; rewrite ?len_wput; auto; lia|].
    intros cy s' (R & LR & K & D). rewrite seg_wput in D by lia. eexists (_ :: R). split; [cbn; lia|].
    split; [apply over_step; [auto|lia|exact K]|]. rewrite seg_cons by lia. cbn [sub_borrow]. rewrite Ec.
    destruct D as [[D1 D2]|[D1 D2]]; [left|right]; (split; [auto|rewrite D2; auto]).
Qed.
Lemma sub_loop_ok e r a b : forall m k i c s, live s r -> live s a -> live s b -> (i + (m + k) <= len s r)%nat -> (i + (m + k) <= len s a)%nat -> (i + m <= len s b)%nat ->
  wp (sub_loop_m r a b m k i c) e s (fun cy s' => exists R, length R = (m + k)%nat /\ chg s r (over s r i (m + k) R) s' /\
    (cy = 0 /\ sub_loop (seg s a i (m + k)) (seg s b i m) c = Some R \/ cy = 1 /\ sub_loop (seg s a i (m + k)) (seg s b i m) c = None)).
Proof.
  induction m; intros k i c s Lr La Lb Hr Ha Hb; cbn [sub_loop_m].
  - eapply wp_mono; [apply sub_borrow_ok; auto|]. intros cy s' (R & K). exists R. rewrite seg_0.
    assert (E : sub_loop (seg s a i k) [] c = sub_borrow (seg s a i k) c) by (destruct (seg s a i k); reflexivity).
    cbn [Nat.add]. rewrite E. exact K.
  - apply wp_bind. apply wp_rd; [auto|lia|]. apply wp_bind. apply wp_rd; [auto|lia|]. apply wp_bind. apply wp_wr; [auto|lia|].
    eapply wp_mono; [apply IHm; try apply live_wput; rewrite ?len_wput; auto; lia|].
    intros cy s' (R & LR & K & D). rewrite !seg_wput in D by lia. cbn [Nat.add]. rewrite !seg_cons by lia. cbn [sub_loop].
    eexists (_ :: R). split; [cbn; lia|]. split; [apply over_step; [auto|lia|exact K]|].
    destruct D as [[D1 D2]|[D1 D2]]; [left|right]; (split; [auto|rewrite D2; auto]).
Qed.
Lemma fill_ok e r : forall k i s, live s r -> (i + k <= len s r)%nat ->
  wp (fill r k i) e s (fun _ s' => chg s r (over s r i k (repeat 0 k)) s').
Proof.
  induction k; intros i s Lr Hr; cbn [fill].
  - apply wp_ret. apply chg_refl; auto. apply paste0.
  - apply wp_bind. apply wp_wr; [auto|lia|]. eapply wp_mono; [apply IHk; try apply live_wput; rewrite ?len_wput; auto; lia|].
    intros t s' K. cbn [repeat]. apply over_step; [auto|lia|exact K].
Qed.
Lemma down_ok e r n : forall k i s, live s r -> (i + k + n <= len s r)%nat ->
  wp (down r n k i) e s (fun _ s' => chg s r (over s r i k (seg s r (i + n) k)) s').
Proof.
  induction k; intros i s Lr Hr; cbn [down].
  - apply wp_ret. apply chg_refl; auto. apply paste0.
  - apply wp_bind. apply wp_rd; [auto|lia|]. apply wp_bind. apply wp_wr; [auto|lia|].
    eapply wp_mono; [apply IHk; try apply live_wput; rewrite ?len_wput; auto; lia|].
    intros t s' K. rewrite seg_cons by lia. apply over_step; [auto|lia|]. cbn [Nat.add] in K. rewrite seg_wput in K by lia. exact K.
Qed.
Lemma shl_loop_ok e r d : forall k i c s, live s r -> (i + k <= len s r)%nat ->
  wp (shl_loop_m r k i d c) e s (fun cy s' => exists R, length R = k /\ chg s r (over s r i k R) s' /\
    shl_loop (seg s r i k) d c = R ++ if cy =? 0 then [] else [cy]).
Proof.
  induction k; intros i c s Lr Hr; cbn [shl_loop_m].
  - apply wp_ret. exists []. split; auto. split; [apply chg_refl; auto; apply paste0|]. rewrite seg_0. reflexivity.
  - apply wp_bind. apply wp_rd; [auto|lia|]. apply wp_bind. apply wp_wr; [auto|lia|].
    eapply wp_mono; [apply IHk; try apply live_wput; rewrite ?len_wput; auto; lia|].
    intros cy s' (R & LR & K & D). rewrite seg_wput in D by lia. eexists (_ :: R). split; [cbn; lia|]. split; [apply over_step; [auto|lia|exact K]|].
    rewrite seg_cons by lia. cbn [shl_loop app]. f_equal. exact D.
Qed.
Lemma up_ok e r n : forall k s, live s r -> (k + n <= len s r)%nat ->
  wp (up r n k) e s (fun _ s' => chg s r (firstn n (dat s r) ++ firstn k (dat s r) ++ skipn (k + n) (dat s r)) s').
Proof.
  induction k; intros s Lr Hr; cbn [up].
  - apply wp_ret. apply chg_refl; auto. cbn. apply firstn_skipn.
  - apply wp_bind. apply wp_rd; [auto|lia|]. apply wp_bind. apply wp_wr; [auto|lia|].
    eapply wp_mono; [apply IHk; try apply live_wput; rewrite ?len_wput; auto; lia|].
    intros t s' K. eapply chg_trans; [apply wput_chg|]. eapply chg_ext; [exact K|]. rewrite (chg_dat _ _ _ _ (wput_chg s r _ _)).
    unfold len in Hr. rewrite !firstn_upd by lia. rewrite (firstn_S_nth _ 0 k) by lia. rewrite upd_split by lia.
    rewrite skipn_app, firstn_length_le by lia. rewrite Nat.sub_diag. rewrite skipn_all2 by (rewrite firstn_length; lia).
    cbn [skipn app Nat.add]. rewrite <- app_assoc. reflexivity.
Qed.
(** [shr_loop] with a carry coming in from above *)
Fixpoint shr_in (l : list Z) (D r : Z) : list Z * Z :=
  match l with
  | [] => ([], r)
  | x :: l' => let '(h, r) := shr_in l' D r in
      (Z.lor (Z.shiftr x D) (Z.shiftl r (64 - D) mod B) :: h, Z.land x (Z.shiftl 1 D - 1))
  end.
Lemma shr_in_0 l D : shr_in l D 0 = shr_loop l D.
Proof. induction l; cbn; auto. rewrite IHl. reflexivity. Qed.
Lemma shr_in_snoc l D r x : shr_in (l ++ [x]) D r =
  (fst (shr_in l D (Z.land x (Z.shiftl 1 D - 1))) ++ [Z.lor (Z.shiftr x D) (Z.shiftl r (64 - D) mod B)], snd (shr_in l D (Z.land x (Z.shiftl 1 D - 1)))).
Proof.
  induction l; cbn [app shr_in]; [reflexivity|]. rewrite IHl. destruct (shr_in l D (Z.land x (Z.shiftl 1 D - 1))) as [h q]. reflexivity.
Qed.
Lemma shr_in_len l D r : length (fst (shr_in l D r)) = length l.
Proof. induction l; cbn; auto. destruct (shr_in l D r) as [h q]. cbn in *. lia. Qed.
Lemma shr_loop_ok e c D : forall k r s, live s c -> (k <= len s c)%nat ->
  wp (shr_loop_m c k D r) e s (fun _ s' => chg s c (fst (shr_in (firstn k (dat s c)) D r) ++ skipn k (dat s c)) s').
Proof.
  induction k; intros r s L H; cbn [shr_loop_m].
  - apply wp_ret. apply chg_refl; auto.
  - apply wp_bind. apply wp_rd; [auto|lia|]. apply wp_bind. apply wp_wr; [auto|lia|].
    eapply wp_mono; [apply IHk; try apply live_wput; rewrite ?len_wput; auto; lia|].
    intros t s' K. eapply chg_trans; [apply wput_chg|]. eapply chg_ext; [exact K|]. rewrite (chg_dat _ _ _ _ (wput_chg s c _ _)).
    unfold len in H. rewrite firstn_upd by lia. rewrite (firstn_S_nth _ 0 k) by lia. rewrite shr_in_snoc. cbn [fst].
    rewrite upd_split by lia. rewrite skipn_app, firstn_length_le by lia. rewrite Nat.sub_diag. rewrite skipn_all2 by (rewrite firstn_length; lia).
    cbn [skipn app]. rewrite <- app_assoc. reflexivity.
Qed.
Lemma adjust_snoc l x : adjust (l ++ [x]) = if x =? 0 then adjust l else l ++ [x].
Proof.
  induction l; cbn; auto. rewrite IHl. destruct (x =? 0); auto. destruct (l ++ [x]) eqn:E; auto. destruct l; discriminate.
Qed.
Lemma adj_adjust l : forall k, (k <= length l)%nat -> firstn (adj l k) l = adjust (firstn k l) /\ (adj l k <= k)%nat.
Proof.
  induction k; intro H; cbn [adj]; [auto|]. rewrite (firstn_S_nth l 0 k) by lia. rewrite adjust_snoc.
  destruct (nth k l 0 =? 0); [split; [apply IHk|destruct IHk]; lia|]. rewrite <- firstn_S_nth by lia. split; auto.
Qed.
Lemma adj_zero l : forall k j, (adj l k <= j < k)%nat -> nth j l 0 = 0.
Proof.
  induction k; cbn [adj]; intros j H; [lia|]. destruct (nth k l 0 =? 0) eqn:E; [|lia].
  destruct (Nat.eq_dec j k) as [->|N]; [lia|]. apply IHk. lia.
Qed.
