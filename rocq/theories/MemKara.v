(** Memory-level model: the Karatsuba and Toom-3 routines, and the entry points
    of multiplication and squaring. *)
From Verif Require Import Base Lists MpiModel MpiMulModel MemModel MemSpec Mem MemOps MemShift MemMulModel MemLeaf MemMul MemRec MemSim.

(** * Locals are set up, used and cleared *)
Definition inner (e : env) (n k r : nat) (strong : bool) (v : mpi) (s : st) (rc : Z) (s' : st) : Prop :=
  (forall x, (x < n)%nat -> x <> r -> mem s' x = mem s x) /\ (tick s <= tick s')%nat /\ (forall x, (n <= x < n + k)%nat -> live s' x) /\ calm (n + k) s' /\
  (rc = 0 /\ has s' r v \/ rc = -1 /\ starved e s s' /\ (if strong then mem s' r = mem s r else exists w, has s' r w)).
Lemma closing e n k r b v l m s : (r < n)%nat -> (forall x, In x l <-> (n <= x < n + k)%nat) -> wp m e s (inner e n k r b v s) -> wp (finally m (clear_list l)) e s (after e n r b v s).
Proof.
  intros R HL W. apply wp_finally. eapply wp_mono; [exact W|]. intros rc s1 (A & T & LV & C & D). eapply wp_mono; [apply clear_list_ok; intros x Hx; apply LV; apply HL; auto|].
  intros t s2 (B1 & B2 & B3). assert (MM : forall x, (x < n)%nat -> mem s2 x = mem s1 x) by (intros; apply B2; rewrite HL; lia).
  split; [|split; [split|]].
  - intros x Hx. destruct (le_lt_dec (n + k) x) as [G|G]; [rewrite B2 by (rewrite HL; lia); apply C; auto|right; apply B1; apply HL; lia].
  - intros x Hx N. rewrite MM by auto. auto.
  - lia.
  - destruct D as [(-> & V)|(-> & S1 & V)]; [left; split; auto; eapply has_same; [apply MM; auto|auto]|right]. split; auto. split; [eapply starved_mono; [| |exact S1]; lia|].
    destruct b; [rewrite MM by auto; auto|]. destruct V as (w & V). exists w. eapply has_same; [apply MM; auto|auto].
Qed.
Lemma after_from e n r b v s s1 rc s' : (forall x, (x < n)%nat -> mem s1 x = mem s x) -> (r < n)%nat -> (tick s <= tick s1)%nat -> after e n r b v s1 rc s' -> after e n r b v s rc s'.
Proof.
  intros M R T (A1 & (A2 & A3) & A4). split; auto. split; [split; [intros x Hx N; rewrite A2, M by auto; auto|lia]|]. destruct A4 as [A4|(-> & S1 & V)]; [auto|right].
  split; auto. split; [eapply starved_mono; [exact T| |exact S1]; lia|]. destruct b; [rewrite V; auto|auto].
Qed.

(** * Filling the locals *)
Lemma sim_upd n m gs g l s s' d v : sim n m gs g l s -> (d < length l)%nat -> (forall x, x <> (n + d)%nat -> mem s' x = mem s x) -> has s' (n + d) v -> sim n m gs g (upd l d v) s'.
Proof.
  intros (Em & C & HL & HG) D A V. split; [rewrite upd_length; auto|]. split; [intros x Hx; rewrite A by lia; apply C; auto|]. split.
  - intros j Hj. rewrite upd_length in Hj. rewrite upd_nth by auto. destruct (Nat.eqb_spec j d) as [->|N]; [exact V|]. eapply has_same; [apply A; lia|apply HL; auto].
  - intros x Hx. destruct (HG x Hx) as [X1 X2]. split; auto. eapply has_same; [apply A; lia|auto].
Qed.
Lemma take_sim e n m gs g l s d a off k (Q : unit -> st -> Prop) : sim n m gs g l s -> (d < length l)%nat -> neg (nth d l mzero) = false -> In a gs -> (off + k <= used (g a))%nat -> (k <= len s (n + d))%nat ->
  (forall s', sim n m gs g (upd l d (mkmpi false (firstn k (skipn off (dg (g a)))))) s' -> (forall x, x <> (n + d)%nat -> mem s' x = mem s x) -> tick s' = tick s -> Q tt s') ->
  wp (take (n + d) a off k) e s Q.
Proof.
  intros SI D Z I O K H. pose proof SI as (Em & C & HL & HG). destruct (HG a I) as [X1 X2]. destruct (has_elim _ _ _ (HL d D)) as (Ld & _ & Gd & _ & _).
  eapply take_ok; eauto. intros s' BB. rewrite Gd, Z in BB. pose proof BB as (B1 & B2 & B3). apply H; auto. eapply sim_upd; eauto.
  assert (LK : length (firstn k (skipn off (dg (g a)))) = k) by (rewrite firstn_length_le; auto; rewrite skipn_length; unfold used in O; lia).
  eapply has_intro; [exact B1|rewrite app_length; lia|]. rewrite firstn_app, LK, Nat.sub_diag. cbn [firstn]. rewrite app_nil_r. rewrite (firstn_all2 (n := k) (firstn k (skipn off (dg (g a))))) by lia. auto.
Qed.
Lemma adj_sim e n m gs g l s d (Q : unit -> st -> Prop) : sim n m gs g l s -> (d < length l)%nat ->
  (forall s', sim n m gs g (upd l d (mkmpi (neg (nth d l mzero)) (adjust (dg (nth d l mzero))))) s' -> (forall x, x <> (n + d)%nat -> mem s' x = mem s x) -> tick s' = tick s -> Q tt s') ->
  wp (madjust (n + d)) e s Q.
Proof.
  intros SI D H. pose proof SI as (Em & C & HL & HG). destruct (has_elim _ _ _ (HL d D)) as (Ld & U & G & E & N). apply madjust_ok; auto; [lia|]. rewrite U, G. intros s' BB. pose proof BB as (B1 & B2 & B3).
  apply H; auto. eapply sim_upd; eauto. destruct (adj_adjust (dat s (n + d)) _ N) as [A1 A2]. rewrite E in A1. eapply has_intro; [exact B1|unfold len in *; lia|]. rewrite A1. reflexivity.
Qed.
Lemma len_mem s s' x : mem s' x = mem s x -> len s' x = len s x.
Proof. intro H. unfold len, dat, ob. rewrite H. reflexivity. Qed.
Lemma two_values s a b va vb : has s a va -> has s b vb -> exists g : nat -> mpi, g a = va /\ g b = vb.
Proof. intros A B. exists (fun x => view (ob s x)). destruct (ob_view _ _ _ A), (ob_view _ _ _ B). auto. Qed.

(** init_size for consecutive locals *)
Lemma locals_ok e n gs g ks s : calm n s -> (forall x, In x gs -> (x < n)%nat /\ has s x (g x)) ->
  wp (init_sizes [] (combine (seq n (length ks)) ks)) e s (fun rc s' => (forall x, (x < n)%nat -> mem s' x = mem s x) /\ (tick s <= tick s')%nat /\
    (rc = 0 /\ sim n (n + length ks) gs g (repeat mzero (length ks)) s' /\ (forall i, (i < length ks)%nat -> len s' (n + i) = nth i ks 0%nat) \/ rc = -1 /\ starved e s s' /\ calm n s')).
Proof.
  intros C HG. assert (LC : length (combine (seq n (length ks)) ks) = length ks) by (rewrite combine_length, seq_length; lia).
  assert (MF : map fst (combine (seq n (length ks)) ks) = seq n (length ks)).
  { clear. generalize n. induction ks; intro m; cbn; [auto|]. f_equal. auto. }
  eapply wp_mono; [apply init_sizes_ok; [cbn [app]; rewrite MF; apply seq_NoDup|intros x []]|]. intros rc s1 (A & T & D). rewrite MF in *.
  assert (MM : forall y, ~ (n <= y < n + length ks)%nat -> mem s1 y = mem s y) by (intros y Hy; apply A; [rewrite in_seq; auto|auto]).
  split; [intros x Hx; apply MM; lia|]. split; auto. destruct D as [(-> & D & _)|(-> & S1 & _ & D)]; [left|right]; (split; auto).
  - assert (E : forall i, (i < length ks)%nat -> exists d, mem s1 (n + i) = Some (mkobj false 0 d) /\ length d = nth i ks 0%nat).
    { intros i Hi. apply D. replace (n + i)%nat with (nth i (seq n (length ks)) 0%nat) by (apply seq_nth; auto). rewrite <- combine_nth by apply seq_length. apply nth_In. lia. }
    split.
    + split; [rewrite repeat_length; auto|]. split; [intros x Hx; rewrite MM by lia; apply C; lia|]. split.
      * intros i Hi. rewrite repeat_length in Hi. destruct (E i Hi) as (d & M & _). rewrite nth_repeat. eapply has_intro; [exact M|lia|reflexivity].
      * intros x Hx. destruct (HG x Hx). split; auto. eapply has_same; [apply MM; lia|auto].
    + intros i Hi. destruct (E i Hi) as (d & M & Ld). unfold len, dat. rewrite (mem_ob _ _ _ M). exact Ld.
  - split; auto. intros x Hx. destruct (le_lt_dec (n + length ks) x) as [G|G]; [rewrite MM by lia; apply C; lia|]. destruct (D x) as [H|[H|H]]; [apply in_seq; lia|auto|auto|]. rewrite H. apply C. lia.
Qed.
Lemma locals8_ok e n gs g k s : calm n s -> (forall x, In x gs -> (x < n)%nat /\ has s x (g x)) ->
  wp (init_list [] (locals n k)) e s (fun rc s' => (forall x, (x < n)%nat -> mem s' x = mem s x) /\ (tick s <= tick s')%nat /\
    (rc = 0 /\ sim n (n + k) gs g (repeat mzero k) s' /\ (forall i, (i < k)%nat -> (8 <= len s' (n + i))%nat) \/ rc = -1 /\ starved e s s' /\ calm n s')).
Proof.
  intros C HG. unfold locals. eapply wp_mono; [apply init_list_ok; [cbn [rev app]; apply seq_NoDup|intros x []]|]. intros rc s1 (A & T & D).
  assert (MM : forall y, ~ (n <= y < n + k)%nat -> mem s1 y = mem s y) by (intros y Hy; apply A; [rewrite in_seq; auto|auto]).
  split; [intros x Hx; apply MM; lia|]. split; auto. destruct D as [(-> & D & _)|(-> & S1 & _ & D)]; [left|right]; (split; auto).
  - split.
    + split; [rewrite repeat_length; auto|]. split; [intros x Hx; rewrite MM by lia; apply C; lia|]. split.
      * intros i Hi. rewrite repeat_length in Hi. rewrite nth_repeat. apply D. apply in_seq. lia.
      * intros x Hx. destruct (HG x Hx). split; auto. eapply has_same; [apply MM; lia|auto].
    + intros i Hi. apply D. apply in_seq. lia.
  - split; auto. intros x Hx. destruct (le_lt_dec (n + k) x) as [G|G]; [rewrite MM by lia; apply C; lia|]. destruct (D x) as [H|[H|H]]; [apply in_seq; lia|auto|auto|]. rewrite H. apply C. lia.
Qed.
Lemma sim_live n k gs g l s x : sim n (n + k) gs g l s -> (n <= x < n + k)%nat -> live s x.
Proof. intros (Em & _ & H & _) Hx. replace x with (n + (x - n))%nat by lia. eapply has_live. apply H. lia. Qed.

(** code then the final addition into the destination *)
Lemma finish_add e n k gs g l r i j v s s1 : sim n (n + k) gs g l s1 -> (i < length l)%nat -> (j < length l)%nat -> (r < n)%nat -> live s r -> add (nth i l mzero) (nth j l mzero) = Ok v ->
  (forall x, (x < n)%nat -> mem s1 x = mem s x) -> (tick s <= tick s1)%nat -> wp (add_m r (n + i) (n + j)) e s1 (inner e n k r true v s).
Proof.
  intros SI I J R Lr F A T. pose proof SI as (Em & C & HL & HG). assert (L1 : live s1 r) by (unfold live; rewrite A; auto).
  eapply wp_mono; [eapply add_m_ok; [apply HL; exact I|apply HL; exact J|exact L1|exact F]|]. intros rc s2 ((B1 & B2 & B3) & _).
  split; [intros x Hx N; rewrite B1, A; auto|]. split; [lia|]. split; [intros x Hx; unfold live; rewrite B1 by lia; eapply sim_live; eauto|]. split; [intros x Hx; rewrite B1 by lia; apply C; auto|].
  destruct B3 as [(-> & V & _)|(-> & S1 & V)]; [auto|right]. split; auto. split; [eapply starved_mono; [exact T| |exact S1]; lia|]. rewrite V. apply A. auto.
Qed.

(** * Karatsuba *)
Ltac step_res F := repeat match type of F with bind ?x _ = Ok _ => let E := fresh "E" in destruct x eqn:E; cbn [bind] in F; try discriminate F end.
Lemma put_ok l d x v : x = Ok v -> put_loc l d x = Ok (upd l d v).
Proof. intros ->. reflexivity. Qed.
Lemma steps_cons mf sf g l i p l1 l' : step mf sf g l i = Ok l1 -> steps mf sf g l1 p = Ok l' -> steps mf sf g l (i :: p) = Ok l'.
Proof. intros H K. cbn [steps]. rewrite H. exact K. Qed.
Ltac go_steps := repeat (eapply steps_cons; [cbn [step]; apply put_ok; cbn [look nth is_loc Nat.eqb orb neg mzero dg]; first [eassumption|reflexivity]|cbn [upd]]); cbn [steps].
Lemma kara_steps mf va vb g v : is_zero va = false -> is_zero vb = false -> karatsuba mf va vb = Ok v ->
  let hB := Nat.div2 (Nat.min (used va) (used vb)) in
  exists l, length l = 7%nat /\ steps mf (fun _ _ => UB) g
    [mkmpi false (adjust (firstn hB (dg va))); mkmpi false (skipn hB (dg va)); mkmpi false (adjust (firstn hB (dg vb))); mkmpi false (skipn hB (dg vb)); mzero; mzero; mzero] (kara_ops hB) = Ok l /\
    add (nth 5 l mzero) (nth 6 l mzero) = Ok v.
Proof.
  intros Z1 Z2 F. unfold karatsuba in F. rewrite Z1, Z2 in F. cbn [orb] in F. cbv zeta in F. intro hB. fold hB in F. unfold kara_ops. step_res F.
  eexists. split; [|split; [go_steps; reflexivity|]].
  - reflexivity.
  - exact F.
Qed.
Lemma karatsuba_m_ok mm mf str : mul_ok mm mf str -> mul_ok (karatsuba_m mm) (fun _ => karatsuba mf) (fun _ _ => true).
Proof.
  intros HM e n r a b va vb w v s C R Ra Rb Ha Hb Hr F. pose proof (has_live _ _ _ Hr) as Lr. unfold karatsuba_m. apply wp_bind. eapply wp_peek; eauto. apply wp_bind. eapply wp_peek; eauto.
  destruct (is_zero va) eqn:Za; [unfold karatsuba in F; rewrite Za in F; injection F as <-; apply zero_after; auto|].
  destruct (is_zero vb) eqn:Zb; [unfold karatsuba in F; rewrite Za, Zb in F; injection F as <-; apply zero_after; auto|]. cbn [orb]. cbv zeta.
  destruct (two_values _ _ _ _ _ Ha Hb) as (g & Ga & Gb). destruct (kara_steps _ _ _ g _ Za Zb F) as (l' & Ll & ST & FA). clear F.
  set (hB := Nat.div2 (Nat.min (used va) (used vb))) in *. assert (Hh : (hB <= Nat.min (used va) (used vb))%nat) by apply Nat.div2_decr, Nat.le_succ_diag_r || (unfold hB; pose proof (Nat.div2_double (Nat.min (used va) (used vb))); rewrite Nat.div2_div; apply Nat.div_le_upper_bound; lia).
  apply wp_check. pose proof (locals_ok e n [a; b] g [hB; used va - hB; hB; used vb - hB; 2 * hB; 2 * hB; 2 * hB]%nat s C) as LK. cbn [length seq combine] in LK.
  replace (S n) with (n + 1)%nat in LK by lia. replace (S (n + 1)) with (n + 2)%nat in LK by lia. replace (S (n + 2)) with (n + 3)%nat in LK by lia. replace (S (n + 3)) with (n + 4)%nat in LK by lia. replace (S (n + 4)) with (n + 5)%nat in LK by lia. replace (S (n + 5)) with (n + 6)%nat in LK by lia.
  eapply wp_mono; [apply LK; intros x [<-|[<-|[]]]; rewrite ?Ga, ?Gb; auto|]. clear LK. intros rc s1 (A1 & T1 & [(-> & SI & LN)|(-> & S1 & C1)]); cbn [Z.eqb].
  2:{ split; auto. split; [split; auto|]. right. auto. }
  eapply wp_mono; [|intros rc s9 K; eapply (after_from e n r true v s s1); [exact A1|exact R|exact T1|exact K]].
  apply (closing e n 7); [auto|cbn [In]; intro x; lia|].
  pose proof (LN 0%nat ltac:(lia)) as N0. pose proof (LN 1%nat ltac:(lia)) as N1. pose proof (LN 2%nat ltac:(lia)) as N2. pose proof (LN 3%nat ltac:(lia)) as N3. cbn [nth] in N0, N1, N2, N3. clear LN.
  replace (take n a 0 hB) with (take (n + 0) a 0 hB) by (f_equal; lia). cbn [repeat] in SI.
  apply wp_bind. eapply take_sim; [exact SI|cbn; lia|reflexivity|left; auto|rewrite Ga; lia|lia|]. intros s2 SI2 M2 T2.
  apply wp_bind. eapply take_sim; [exact SI2|cbn; lia|reflexivity|right; left; auto|rewrite Gb; lia|rewrite (len_mem s1) by (apply M2; lia); lia|]. intros s3 SI3 M3 T3.
  apply wp_bind. eapply take_sim; [exact SI3|cbn; lia|reflexivity|left; auto|rewrite Ga; lia|rewrite (len_mem s2), (len_mem s1) by (apply M2 || apply M3; lia); lia|]. intros s4 SI4 M4 T4.
  apply wp_bind. eapply take_sim; [exact SI4|cbn; lia|reflexivity|right; left; auto|rewrite Gb; lia|rewrite (len_mem s3), (len_mem s2), (len_mem s1) by (apply M2 || apply M3 || apply M4; lia); lia|]. intros s5 SI5 M5 T5.
  replace (madjust n) with (madjust (n + 0)) by (f_equal; lia).
  apply wp_bind. eapply adj_sim; [exact SI5|cbn; lia|]. intros s6 SI6 M6 T6. apply wp_bind. eapply adj_sim; [exact SI6|cbn; lia|]. intros s7 SI7 M7 T7.
  clear SI SI2 SI3 SI4 SI5 SI6. cbn [upd nth neg dg] in SI7. rewrite Ga, Gb in SI7. rewrite !skipn_O in SI7. rewrite (firstn_all2 (n := (used va - hB)%nat)) in SI7 by (rewrite skipn_length; unfold used; lia). rewrite (firstn_all2 (n := (used vb - hB)%nat)) in SI7 by (rewrite skipn_length; unfold used; lia).
  apply wp_check. eapply wp_mono; [eapply execs_ok; [exact HM|exact nosq_ok|exact SI7| |exact ST]|].
  { clear. unfold kara_ops. cbn [length]. repeat (constructor; [cbn [ins_ok arg_ok]; repeat split; lia|]). constructor. }
  intros rc s8 (B1 & B2 & B3). assert (MM : forall x, (x < n)%nat -> mem s8 x = mem s1 x) by (intros x Hx; rewrite B1, M7, M6, M5, M4, M3, M2 by lia; auto).
  assert (TT : (tick s7 = tick s1)%nat) by congruence.
  destruct B3 as [(-> & SI8)|(-> & S8 & C8 & L8)]; cbn [Z.eqb].
  - eapply finish_add; [exact SI8|lia|lia|auto|unfold live; rewrite A1; auto|exact FA|exact MM|lia].
  - split; [intros; apply MM; auto|]. split; [lia|]. split; [exact L8|]. split; auto. right. split; auto. split; [eapply starved_mono; [| |exact S8]; lia|auto].
Qed.
