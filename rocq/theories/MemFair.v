(** Rules for [unless_refused], and exponentiation whatever allocations are
    refused. *)
From Verif Require Import Base Lists BytesSpec Bytes Bits MpiModel MpiSpec MpiDigits MpiMulModel MpiCanon MpiDivModel MpiDiv MpiAlgModel MpiAlg MpiAlg2 MpiIOModel MpiIO MpiTextSpec MpiRand Pk PkModel MemModel MemMulModel MemDivModel MemAlgModel MemSpec Mem MemOps MemShift MemLeaf MemMul MemSim MemToom MemMulSafe MemDiv MemDivSafe MemLoc MemGcd MemExp MemAlgSpec MemAlgSafe MemInv MemEcpModel MemEcpSpec MemEcp MemEcpMul MemBin MemEcpFail MemPkModel MemPkSpec.
Ltac Zify.zify_post_hook ::= idtac.

(** the refused allocation is number [t] or a later one *)
Definition fair {A : Type} (t : nat) (m : cmd A) (e : env) (s : st) (Q : A -> st -> Prop) : Prop :=
  match m e s with Ok (a, s') => Q a s' | UB => exists k, (t <= k)%nat /\ grant e k = false | _ => False end.
Lemma fair_unless {A} (m : cmd A) e s Q : fair (tick s) m e s Q <-> unless_refused m e s Q.
Proof. reflexivity. Qed.
Lemma unless_fair {A} t (m : cmd A) e s Q : (t <= tick s)%nat -> unless_refused m e s Q -> fair t m e s Q.
Proof. unfold unless_refused, fair. intro L. destruct (m e s) as [[a s']|c| |]; auto. intros (k & K & G). exists k. split; [lia|auto]. Qed.
Lemma fair_wp {A} t (m : cmd A) e s Q : wp m e s Q -> fair t m e s Q.
Proof. unfold wp, fair. destruct (m e s) as [[a s']|c| |]; tauto. Qed.
Lemma fair_mono {A} t (m : cmd A) e s (P Q : A -> st -> Prop) : fair t m e s P -> (forall a s', P a s' -> Q a s') -> fair t m e s Q.
Proof. unfold fair. destruct (m e s) as [[a s']|c| |]; auto. Qed.
Lemma fair_bind {A C} t (m : cmd A) (f : A -> cmd C) e s Q : fair t m e s (fun a s1 => fair t (f a) e s1 Q) -> fair t (cbind m f) e s Q.
Proof. unfold fair, cbind. destruct (m e s) as [[a s1]|c| |]; auto. Qed.
Lemma fair_ret {A} t (a : A) e s (Q : A -> st -> Prop) : Q a s -> fair t (ret a) e s Q.
Proof. auto. Qed.
Lemma fair_peek {C} t x v (f : mpi -> cmd C) e s Q : has s x v -> fair t (f v) e s Q -> fair t (run v <- peek x; f v) e s Q.
Proof. intros H F. apply fair_bind. apply fair_wp. eapply wp_peek; [exact H|]. auto. Qed.

(** * Exponentiation *)
Lemma ub_here {A C} (m : cmd A) (f : A -> cmd C) e s : m e s = UB -> cbind m f e s = UB.
Proof. intro E. unfold cbind. rewrite E. reflexivity. Qed.
Lemma peek_at x v e s : has s x v -> peek x e s = Ok (v, s).
Proof. intros (o & M & L & <-). unfold peek, cbind, get. rewrite M. apply Nat.leb_le in L. rewrite L. reflexivity. Qed.
Lemma peek_none x e s : mem s x = None -> peek x e s = UB.
Proof. intros M. unfold peek, cbind, get. rewrite M. reflexivity. Qed.
Lemma exp_refused e s n r b ex mo ve m : (r < n)%nat -> usable s r -> has s ex (ofZ ve) -> with_modulus n s mo m -> 0 <= ve -> grant e (tick s) = false ->
  mod_exp_m n r b ex mo e s = UB.
Proof.
  intros Lr Ur He Hm Pe G. unfold mod_exp_m. rewrite (bind_at _ _ _ _ _ _ (peek_at _ _ _ _ He)).
  assert (NG : (match mo with None => ret false | Some m0 => run vm <- peek m0; ret (neg vm) end) e s = Ok (false, s)).
  { destruct mo as [x|], m as [v|]; try destruct Hm; [|reflexivity]. rewrite (bind_at _ _ _ _ _ _ (peek_at _ _ _ _ (proj1 H0))). unfold ret. rewrite ofZ_neg. destruct (Z.ltb_spec v 0); [lia|reflexivity]. }
  rewrite (bind_at _ _ _ _ _ _ NG). rewrite ofZ_neg. destruct (Z.ltb_spec ve 0); [lia|]. cbn [orb].
  assert (W : wp (init_int n 1) e s (fun rc s' => mem s' n = None /\ (forall y, y <> n -> mem s' y = mem s y))).
  { unfold init_int. apply wp_check. eapply wp_mono; [apply init_refused; exact G|]. intros rc s' (-> & _ & M & F). change (-1 =? 0) with false. cbv iota. auto. }
  apply wp_ok in W. destruct W as (rc & s1 & E1 & M1 & F1). rewrite (bind_at _ _ _ _ _ _ E1). cbv zeta.
  destruct (Z.to_nat (count_bits (ofZ ve))) as [|k].
  - cbn [Nat.eqb]. apply ub_here. unfold swap. assert (Lv : live s1 r) by (unfold live; rewrite F1 by lia; apply usable_live; exact Ur). unfold live in Lv.
    unfold cbind, get. destruct (mem s1 r) as [o|]; [|congruence]. rewrite M1. reflexivity.
  - cbn [Nat.eqb me_loop_m]. unfold finally. apply ub_here. unfold check. apply ub_here, ub_here. unfold sqr_m. apply ub_here. apply peek_none. exact M1.
Qed.
Lemma exp_fair e s n r b ex mo vb ve m : calm n s -> (r < n)%nat -> (b < n)%nat -> (ex < n)%nat -> usable s r -> has s b (ofZ vb) -> has s ex (ofZ ve) ->
  with_modulus n s mo m -> 0 <= ve -> m <> Some 1 \/ 0 < ve ->
  unless_refused (mod_exp_m n r b ex mo) e s (after e n r true (ofZ (power vb ve m)) s).
Proof.
  intros. destruct (grant e (tick s)) eqn:G; [apply fair_unless, fair_wp; apply power_safe; auto|].
  unfold unless_refused. rewrite (exp_refused e s n r b ex mo ve m); auto. exists (tick s). auto.
Qed.

(** * Bodies with locals *)
(** what a body leaves for the clean-up *)
Definition left {T} (e : env) (n k : nat) (bad v : T) (s0 : st) (r : T) (s' : st) : Prop :=
  calm (n + k) s' /\ (forall x, (x < n)%nat -> mem s' x = mem s0 x) /\ (tick s0 <= tick s')%nat /\ (forall i, (i < k)%nat -> usable s' (n + i)) /\
  (r = v \/ r = bad /\ starved e s0 s').
Lemma vloc_left {T} e n V s0 s (bad v : T) : vloc n V s0 s -> left e n (length V) bad v s0 v s.
Proof. intros (C & F & Tk & H). split; auto. split; auto. split; auto. split; [intros i Hi; eexists; apply H; auto|auto]. Qed.
Lemma starved_left e s0 s s' : (tick s0 <= tick s)%nat -> starved e s s' -> starved e s0 s'.
Proof. intros T (k & K & G). exists k. split; [lia|auto]. Qed.
Lemma vloc_after {T} e n V s0 s i m b v (bad w : T) rc s' : vloc n V s0 s -> (i < length V)%nat -> (n + length V <= m)%nat -> after e m (n + i) b v s rc s' ->
  (rc = 0 /\ vloc n (upd V i v) s0 s') \/ (rc = -1 /\ left e n (length V) bad w s0 bad s').
Proof.
  intros (C & F & Tk & H) I L A. apply (after_narrow e m (n + length V) (n + i)) in A; auto; [|lia]. destruct A as (C' & (K & T') & D).
  assert (O : forall x, (x < n)%nat -> mem s' x = mem s0 x) by (intros x Hx; rewrite K by lia; auto).
  destruct D as [(-> & Hv)|(-> & S & Dr)].
  - left. split; auto. split; [rewrite upd_length; auto|]. split; auto. split; [lia|]. rewrite upd_length. intros j Hj. rewrite upd_nth by auto.
    destruct (Nat.eqb_spec j i) as [->|N]; auto. eapply has_same; [apply K; lia|auto].
  - right. split; auto. split; auto. split; auto. split; [lia|]. split; [|right; split; auto; eapply starved_left; eauto].
    intros j Hj. destruct (Nat.eq_dec j i) as [->|N].
    + destruct b; [|exact Dr]. eapply usable_same; [exact Dr|]. eexists; apply H; auto.
    + eapply usable_same; [apply K; lia|]. eexists; apply H; auto.
Qed.
Lemma fair_need {T} e n V s0 s i m b v M (f : cmd (res T)) w : vloc n V s0 s -> (i < length V)%nat -> (n + length V <= m)%nat ->
  unless_refused M e s (after e m (n + i) b v s) -> (forall s', vloc n (upd V i v) s0 s' -> fair (tick s0) f e s' (left e n (length V) (Err (-1)) w s0)) ->
  fair (tick s0) (need M f) e s (left e n (length V) (Err (-1)) w s0).
Proof.
  intros K I L W F. unfold need. apply fair_bind. eapply fair_mono; [apply unless_fair; [apply K|exact W]|]. intros rc s' A.
  destruct (vloc_after e n V s0 s i m b v (Err (-1)) w rc s' K I L A) as [(-> & K')|(-> & D)]; [apply F; exact K'|apply fair_ret; exact D].
Qed.
Lemma fair_check e n V s0 s i m b v M (f : cmd Z) w : vloc n V s0 s -> (i < length V)%nat -> (n + length V <= m)%nat ->
  unless_refused M e s (after e m (n + i) b v s) -> (forall s', vloc n (upd V i v) s0 s' -> fair (tick s0) f e s' (left e n (length V) (-1) w s0)) ->
  fair (tick s0) (chk M; f) e s (left e n (length V) (-1) w s0).
Proof.
  intros K I L W F. unfold check. apply fair_bind. eapply fair_mono; [apply unless_fair; [apply K|exact W]|]. intros rc s' A.
  destruct (vloc_after e n V s0 s i m b v (-1) w rc s' K I L A) as [(-> & K')|(-> & D)]; [apply F; exact K'|apply fair_ret; exact D].
Qed.
Lemma fair_closing {T} t e n k s0 s (bad v : T) body : fair t body e s (left e n k bad v s0) ->
  fair t (closing body (clear_list (locals n k))) e s (returns e n bad v s0).
Proof.
  intros F. unfold closing. apply fair_bind. eapply fair_mono; [exact F|]. intros r s1 (C & O & Tk & U & D).
  apply fair_bind. apply fair_wp. eapply wp_mono; [apply clear_list_ok|].
  { intros y Hy. apply in_locals in Hy. replace y with (n + (y - n))%nat by lia. apply usable_live. apply U. lia. }
  intros _ s2 (A1 & A2 & A3). apply fair_ret. split; [split|split; [lia|]].
  - intros y Hy. destruct (in_dec Nat.eq_dec y (locals n k)) as [I|I]; [right; apply A1; exact I|]. rewrite A2 by exact I. rewrite in_locals in I. apply C. lia.
  - intros x Hx. rewrite A2 by (rewrite in_locals; lia). apply O. auto.
  - destruct D as [->|(-> & S)]; [left; auto|right]. split; auto. destruct S as (j & J & G). exists j. split; [lia|auto].
Qed.
Lemma fair_init {T} e n k s (f : cmd (res T)) w : calm n s ->
  (forall s1, vloc n (repeat mzero k) s s1 -> fair (tick s) f e s1 (returns e n (Err (-1)) w s)) ->
  fair (tick s) (need (init_list [] (locals n k)) f) e s (returns e n (Err (-1)) w s).
Proof.
  intros C F. unfold need. apply fair_bind, fair_wp. eapply wp_mono; [apply init_list_ok; [apply seq_NoDup|intros x []]|].
  intros rc s1 (M & T1 & [(-> & V & _)|(-> & S & _ & U)]).
  - apply F. split; [rewrite repeat_length; intros y Hy; rewrite M by (try rewrite in_locals; auto; lia); apply C; lia|]. split; [intros x Hx; apply M; [rewrite in_locals; lia|auto]|]. split; [exact T1|].
    rewrite repeat_length. intros i Hi. replace (nth i (repeat mzero k) mzero) with mzero by (symmetry; apply nth_repeat). apply V. apply in_locals. lia.
  - apply fair_ret. split; [split|split; auto].
    + intros y Hy. destruct (in_dec Nat.eq_dec y (locals n k)) as [I|I]; [destruct (U y I) as [E|[E|E]]; [left; exact E|right; exact E|rewrite E; apply C; auto]|]. rewrite M by auto. apply C. auto.
    + intros x Hx. apply M; [rewrite in_locals; lia|auto].
Qed.
Lemma fair_init_z e n k s (f : cmd Z) w : calm n s ->
  (forall s1, vloc n (repeat mzero k) s s1 -> fair (tick s) f e s1 (returns e n (-1) w s)) ->
  fair (tick s) (chk init_list [] (locals n k); f) e s (returns e n (-1) w s).
Proof.
  intros C F. unfold check. apply fair_bind, fair_wp. eapply wp_mono; [apply init_list_ok; [apply seq_NoDup|intros x []]|].
  intros rc s1 (M & T1 & [(-> & V & _)|(-> & S & _ & U)]).
  - apply F. split; [rewrite repeat_length; intros y Hy; rewrite M by (try rewrite in_locals; auto; lia); apply C; lia|]. split; [intros x Hx; apply M; [rewrite in_locals; lia|auto]|]. split; [exact T1|].
    rewrite repeat_length. intros i Hi. replace (nth i (repeat mzero k) mzero) with mzero by (symmetry; apply nth_repeat). apply V. apply in_locals. lia.
  - apply fair_ret. split; [split|split; auto].
    + intros y Hy. destruct (in_dec Nat.eq_dec y (locals n k)) as [I|I]; [destruct (U y I) as [E|[E|E]]; [left; exact E|right; exact E|rewrite E; apply C; auto]|]. rewrite M by auto. apply C. auto.
    + intros x Hx. apply M; [rewrite in_locals; lia|auto].
Qed.
