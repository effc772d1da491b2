(** Memory-level model: simulation of straight-line code over local objects. *)
From Verif Require Import Base Lists MpiModel MpiMulModel MemModel MemSpec Mem MemOps MemShift MemMulModel MemLeaf MemMul MemRec.

(** Value of an operand: [l] are the locals, [g] the objects of the caller. *)
Definition look (g : nat -> mpi) (l : list mpi) (x : arg) : mpi := match x with L i => nth i l mzero | G x => g x end.
Definition is_loc (x : arg) (d : nat) : bool := match x with L i => Nat.eqb d i | G _ => false end.
Definition put_loc (l : list mpi) (d : nat) (v : res mpi) : res (list mpi) := do v <- v; Ok (upd l d v).
Definition step (mulabs : bool -> mpi -> mpi -> res mpi) (sq : bool -> mpi -> res mpi) (g : nat -> mpi) (l : list mpi) (i : ins) : res (list mpi) :=
  let at_ := look g l in
  let rs2 d a b := if (is_loc a d || is_loc b d)%bool then false else neg (nth d l mzero) in
  let rs1 d a := if is_loc a d then false else neg (nth d l mzero) in
  match i with
  | IMulAbs d a b => put_loc l d (mulabs (rs2 d a b) (at_ a) (at_ b))
  | IMul d a b => put_loc l d (mul_gen mulabs (rs2 d a b) (at_ a) (at_ b))
  | ISqr d a => put_loc l d (sq (rs1 d a) (at_ a))
  | IAdd d a b => put_loc l d (add (at_ a) (at_ b))
  | ISub d a b => put_loc l d (sub (at_ a) (at_ b))
  | ICopy d a => put_loc l d (Ok (at_ a))
  | IMod2e d a e => put_loc l d (Ok (mod_2e (at_ a) e))
  | IShld d k => put_loc l d (Ok (shld (nth d l mzero) k))
  | IShrd d k => put_loc l d (Ok (shrd (nth d l mzero) k))
  | IShl d a k => put_loc l d (Ok (shl (at_ a) k))
  | IShr d a k => put_loc l d (Ok (shr (at_ a) k))
  | IDiv3 d => put_loc l d (div3 (nth d l mzero))
  end.
Fixpoint steps mulabs sq g (l : list mpi) (p : list ins) : res (list mpi) :=
  match p with [] => Ok l | i :: p => do l <- step mulabs sq g l i; steps mulabs sq g l p end.
Lemma steps_app mulabs sq g p q : forall l, steps mulabs sq g l (p ++ q) = do l <- steps mulabs sq g l p; steps mulabs sq g l q.
Proof. induction p as [|i p IH]; intro l; cbn [app steps]; auto. destruct (step mulabs sq g l i); cbn [bind]; auto. Qed.

(** The locals n .. m-1 hold [l], the caller's objects [gs] hold [g]. *)
Definition sim (n m : nat) (gs : list nat) (g : nat -> mpi) (l : list mpi) (s : st) : Prop :=
  m = (n + length l)%nat /\ calm m s /\ (forall i, (i < length l)%nat -> has s (n + i) (nth i l mzero)) /\ (forall x, In x gs -> (x < n)%nat /\ has s x (g x)).
Definition arg_ok (k : nat) (gs : list nat) (x : arg) : Prop := match x with L i => (i < k)%nat | G x => In x gs end.
Definition ins_ok (k : nat) (gs : list nat) (i : ins) : Prop :=
  match i with
  | IMulAbs d a b | IMul d a b | IAdd d a b | ISub d a b => (d < k)%nat /\ arg_ok k gs a /\ arg_ok k gs b
  | ISqr d a | ICopy d a => (d < k)%nat /\ arg_ok k gs a
  | IShl d a e | IShr d a e | IMod2e d a e => (d < k)%nat /\ arg_ok k gs a /\ 0 <= e
  | IShld d _ | IShrd d _ | IDiv3 d => (d < k)%nat
  end.
Definition dst (i : ins) : nat :=
  match i with
  | IMulAbs d _ _ | IMul d _ _ | IAdd d _ _ | ISub d _ _ | ISqr d _ | ICopy d _ | IShl d _ _ | IShr d _ _ | IMod2e d _ _ | IShld d _ | IShrd d _ | IDiv3 d => d
  end.

Lemma upd_nth {A} (l : list A) : forall d v i (z : A), (i < length l)%nat -> nth i (upd l d v) z = if Nat.eqb i d then v else nth i l z.
Proof. induction l as [|x l IH]; intros [|d] v [|i] z H; cbn in *; try lia; auto. apply IH. lia. Qed.
Lemma look_ok n m gs g l s x : sim n m gs g l s -> arg_ok (length l) gs x -> has s (at_ n x) (look g l x) /\ (at_ n x < m)%nat.
Proof.
  intros (-> & C & HL & HG) H. destruct x as [i|x]; cbn in *; [split; [apply HL; auto|lia]|]. destruct (HG x H). split; auto. lia.
Qed.
Lemma at_eqb n m gs g l s x d : sim n m gs g l s -> arg_ok (length l) gs x -> (n + d =? at_ n x)%nat = is_loc x d.
Proof.
  intros (-> & C & HL & HG) H. destruct x as [i|x]; cbn in *.
  - destruct (Nat.eqb_spec d i), (Nat.eqb_spec (n + d) (n + i)); auto; lia.
  - destruct (HG x H). apply Nat.eqb_neq. lia.
Qed.
Lemma after_weak e n r b v s rc s' : usable s r -> after e n r b v s rc s' -> after e n r false v s rc s'.
Proof.
  intros (w & W) (A & C & [D|(D1 & D2 & D3)]); (split; [|split]; auto). right. split; auto. split; auto. destruct b; auto. exists w. eapply has_same; eauto.
Qed.
Ltac eqs := repeat match goal with H : (_ =? at_ _ _)%nat = _ |- _ => rewrite H; clear H end.
Lemma exec_ok mm mf str sm sf e n m gs g l l' i s : mul_ok mm mf str -> sqr_okm sm sf -> sim n m gs g l s -> ins_ok (length l) gs i -> step mf sf g l i = Ok l' ->
  wp (exec mm sm n m i) e s (fun rc s' => exists v, l' = upd l (dst i) v /\ after e m (n + dst i) false v s rc s').
Proof.
  intros HM HS SI HI F. destruct SI as (Em & C & HL & HG). assert (SI : sim n m gs g l s) by (split; auto).
  assert (D : (dst i < length l)%nat) by (destruct i; cbn in *; tauto). assert (Hd : has s (n + dst i) (nth (dst i) l mzero)) by (apply HL; auto).
  assert (Dm : (n + dst i < m)%nat) by lia. assert (Ud : usable s (n + dst i)) by (eexists; eauto). pose proof (has_live _ _ _ Hd) as Ld.
  assert (LA : forall b v rc s', leaf e (n + dst i) b v s rc s' -> after e m (n + dst i) false v s rc s') by (intros; eapply after_weak; eauto; eapply leaf_after; eauto).
  assert (AW : forall b v rc s', after e m (n + dst i) b v s rc s' -> after e m (n + dst i) false v s rc s') by (intros; eapply after_weak; eauto).
  unfold step, put_loc in F.
  destruct i as [d a b|d a b|d a|d a b|d a b|d a|d a x|d x|d x|d a x|d a x|d]; cbn [dst exec ins_ok] in *;
    repeat match goal with H : _ /\ _ |- _ => destruct H end;
    repeat match goal with H : arg_ok (length l) gs ?z |- _ => let V := fresh "V" in let W := fresh "W" in destruct (look_ok _ _ _ _ _ _ _ SI H) as [V W]; pose proof (at_eqb _ _ _ _ _ _ _ d SI H); clear H end.
  - destruct (mf _ _ _) as [v| | |] eqn:E; try discriminate. injection F as <-. eapply wp_mono; [eapply HM; [exact C|exact Dm|exact W0|exact W|exact V0|exact V|exact Hd|]; eqs; exact E|]. intros rc s' K. exists v. eauto.
  - destruct (mul_gen mf _ _ _) as [v| | |] eqn:E; try discriminate. injection F as <-. eapply wp_mono; [eapply (mul_gen_ok _ _ _ HM); [exact C|exact Dm|exact W0|exact W|exact V0|exact V|exact Hd|]; eqs; exact E|]. intros rc s' K. exists v. eauto.
  - destruct (sf _ _) as [v| | |] eqn:E; try discriminate. injection F as <-. eapply wp_mono; [eapply HS; [exact C|exact Dm|exact W|exact V|exact Hd|]; eqs; exact E|]. intros rc s' K. exists v. eauto.
  - destruct (add _ _) as [v| | |] eqn:E; try discriminate. injection F as <-. eapply wp_mono; [eapply add_m_ok; [exact V0|exact V|exact Ld|exact E]|]. intros rc s' [K _]. exists v. eauto.
  - destruct (sub _ _) as [v| | |] eqn:E; try discriminate. injection F as <-. eapply wp_mono; [eapply sub_m_ok; [exact V0|exact V|exact Ld|exact E]|]. intros rc s' [K _]. exists v. eauto.
  - injection F as <-. eapply wp_mono; [eapply copy_ok; [exact V|exact Ld]|]. intros rc s' K. eexists. eauto.
  - injection F as <-. eapply wp_mono; [eapply mod_2e_ok; [exact V|exact Ld|auto]|]. intros rc s' K. eexists. eauto.
  - injection F as <-. eapply wp_mono; [eapply shld_m_ok; exact Hd|]. intros rc s' [K _]. eexists. eauto.
  - injection F as <-. eapply wp_mono; [eapply shrd_m_ok; exact Hd|]. intros rc s' (-> & o & B1 & B2 & B3 & B4). eexists. split; [reflexivity|]. apply (LA true). rewrite <- B3. eapply becomes_leaf; eauto. lia.
  - injection F as <-. eapply wp_mono; [eapply shl_m_ok; [exact V|exact Ud]|]. intros rc s' K. eexists. eauto.
  - injection F as <-. eapply wp_mono; [eapply shr_m_ok; [exact V|exact Ld]|]. intros rc s' [K _]. eexists. eauto.
  - destruct (div3 _) as [v| | |] eqn:E; try discriminate. injection F as <-. eapply wp_mono; [eapply div3_ok; [exact C|exact Dm|exact Hd|exact E]|]. intros rc s' K. exists v. eauto.
Qed.

(** Outcome of a piece of straight-line code. *)
Definition outcome (e : env) (n m : nat) (gs : list nat) (g : nat -> mpi) (l : list mpi) (s : st) (rc : Z) (s' : st) : Prop :=
  (forall x, (x < n)%nat -> mem s' x = mem s x) /\ (tick s <= tick s')%nat /\
  (rc = 0 /\ sim n m gs g l s' \/ rc = -1 /\ starved e s s' /\ calm m s' /\ forall x, (n <= x < m)%nat -> live s' x).
Lemma execs_ok mm mf str sm sf e n m gs g p : mul_ok mm mf str -> sqr_okm sm sf -> forall l l' s, sim n m gs g l s -> Forall (ins_ok (length l) gs) p -> steps mf sf g l p = Ok l' ->
  wp (execs mm sm n m p) e s (outcome e n m gs g l' s).
Proof.
  intros HM HS. induction p as [|i p IH]; intros l l' s SI HI F; cbn [execs steps] in *.
  - injection F as <-. apply wp_ret. split; auto.
  - inversion HI as [|i0 p0 Hi Hp]; subst. destruct (step mf sf g l i) as [l1| | |] eqn:E; try discriminate. cbn [bind] in F.
    apply wp_check. eapply wp_mono; [eapply exec_ok; eauto|]. intros rc s1 (v & -> & A1 & (A2 & A3) & A4). destruct SI as (Em & C & HL & HG).
    assert (D : (dst i < length l)%nat) by (destruct i; cbn in *; tauto).
    destruct A4 as [(-> & V)|(-> & S1 & (w & W))]; cbn [Z.eqb].
    + assert (SI1 : sim n m gs g (upd l (dst i) v) s1).
      { split; [rewrite upd_length; auto|]. split; auto. split.
        - intros j Hj. rewrite upd_length in Hj. rewrite upd_nth by auto. destruct (Nat.eqb_spec j (dst i)) as [->|N]; [exact V|].
          eapply has_same; [apply A2; lia|apply HL; auto].
        - intros x Hx. destruct (HG x Hx) as [X1 X2]. split; auto. eapply has_same; [apply A2; lia|auto]. }
      eapply wp_mono; [eapply IH; [exact SI1|rewrite upd_length; auto|exact F]|]. intros rc s2 (B1 & B2 & B3).
      split; [intros x Hx; rewrite B1, A2 by lia; auto|]. split; [lia|]. destruct B3 as [B3|(-> & B3 & B4 & B5)]; [left; auto|right].
      split; auto. split; [eapply starved_mono; [exact A3| |exact B3]; lia|]. auto.
    + split; [intros x Hx; apply A2; lia|]. split; auto. right. split; auto. split; auto. split; auto.
      intros x Hx. destruct (Nat.eq_dec x (n + dst i)) as [->|N]; [eapply has_live; eauto|]. unfold live. rewrite A2 by lia.
      replace x with (n + (x - n))%nat by lia. eapply has_live. apply HL. lia.
Qed.
Lemma sim_loc n m gs g l s i : sim n m gs g l s -> (i < length l)%nat -> has s (n + i) (nth i l mzero).
Proof. intros (_ & _ & H & _). apply H. Qed.
Lemma nosq_ok : sqr_okm nosq (fun _ _ => UB).
Proof. intros e n r a va w v s C R Ra Ha Hr F. discriminate. Qed.
Lemma nomul_ok : mul_ok nomul (fun _ _ _ => UB) (fun _ _ => true).
Proof. intros e n r a b va vb w v s C R Ra Rb Ha Hb Hr F. discriminate. Qed.
