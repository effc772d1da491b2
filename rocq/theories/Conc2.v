(** Proofs for PropConc.v: the generator. *)
From Verif Require Import Base Lists BytesSpec Bytes AesModel AesSpec ModesModel ModesSpec Modes Modes2 Aes4 Wrap2 PrngModel PrngSpec Trivium Prng ConcModel Conc.

Lemma with_ix_id p : with_ix p (pix p) = p.
Proof. destruct p. reflexivity. Qed.
Lemma res_solo i siz : forall p out, (pix p < 16)%nat ->
  let '(o, ix', s') := prng_residual siz (pix p) (plo p) in
  solo prng_step (2 * length o + 1) (i, p) (PRes siz out) = Ok ((i, with_ix p ix'), PMain s' (out ++ o)) /\ (length o + s' = siz)%nat.
Proof.
  induction siz as [|s IH]; intros p out H; cbn [prng_residual].
  - cbn [length solo Nat.mul Nat.add]. split; [|reflexivity]. cbn [prng_step]. rewrite andb_false_r. cbn [bind]. rewrite with_ix_id, app_nil_r. reflexivity.
  - destruct (pix p) as [|ix] eqn:Ep.
    + cbn [length]. split; [|reflexivity]. cbn [Nat.mul Nat.add solo prng_step]. rewrite Ep. cbn [Nat.eqb negb andb bind]. rewrite <- Ep, with_ix_id, app_nil_r. reflexivity.
    + set (p1 := with_ix p (Nat.modulo (Datatypes.S ix + 1) 16)).
      specialize (IH p1 (out ++ [nth (Datatypes.S ix) (plo p) 0])). change (pix p1) with (Nat.modulo (Datatypes.S ix + 1) 16) in IH. change (plo p1) with (plo p) in IH.
      destruct (prng_residual s (Nat.modulo (Datatypes.S ix + 1) 16) (plo p)) as [[o ix'] s'].
      destruct IH as [E L]; [apply Nat.mod_upper_bound; lia|]. split; [|cbn [length]; lia].
      cbn [length]. replace (2 * Datatypes.S (length o) + 1)%nat with (2 + (2 * length o + 1))%nat by lia. rewrite solo_add.
      cbn [solo prng_step]. rewrite Ep. cbn [Nat.eqb negb andb]. destruct (Nat.leb_spec 16 (Datatypes.S ix)); [lia|]. cbn [bind prng_step].
      change (with_ix (with_ix p (Datatypes.S ix + 1)) (Nat.modulo (pix (with_ix p (Datatypes.S ix + 1))) 16)) with p1.
      replace (Datatypes.S s - 1)%nat with s by lia. rewrite E, <- app_assoc. reflexivity.
Qed.
Lemma main_solo i n : forall p siz out, (siz / 16 = n)%nat ->
  let '(o, c, ctr) := prng_main n (paes p) (pctr p) in
  solo prng_step (2 * n) (i, p) (PMain siz out) = Ok ((i, {| paes := c; pix := pix p; pctr := ctr; plo := plo p |}), PMain (Nat.modulo siz 16) (out ++ o)).
Proof.
  induction n as [|n IH]; intros p siz out H; cbn [prng_main].
  - cbn [Nat.mul solo]. rewrite app_nil_r. replace (Nat.modulo siz 16) with siz by (symmetry; apply Nat.mod_small; apply Nat.div_small_iff; lia). destruct p. reflexivity.
  - assert (L : (16 <= siz)%nat) by (destruct (Nat.le_gt_cases 16 siz); auto; rewrite Nat.div_small in H by lia; discriminate).
    destruct (aes_encrypt (paes p) (pctr p)) as [c b] eqn:Ee.
    specialize (IH {| paes := c; pix := pix p; pctr := ctr_inc (pctr p); plo := plo p |} (siz - 16)%nat (out ++ b)). cbn [paes pctr pix plo] in IH.
    destruct (prng_main n c (ctr_inc (pctr p))) as [[o c'] ctr'].
    replace (2 * Datatypes.S n)%nat with (2 + 2 * n)%nat by lia. rewrite solo_add. cbn [solo prng_step].
    destruct (Nat.leb_spec 16 siz); [|lia]. rewrite Ee. cbn [bind prng_step].
    unfold with_ctr. cbn [paes pix pctr plo]. rewrite IH.
    + f_equal. f_equal. rewrite <- app_assoc. f_equal. replace siz with ((siz - 16) + 1 * 16)%nat at 2 by lia. rewrite Nat.mod_add by lia. reflexivity.
    + replace siz with ((siz - 16) + 1 * 16)%nat in H by lia. rewrite Nat.div_add in H by lia. lia.
Qed.
Lemma done_solo n g out : solo prng_step n g (PDone out) = Ok (g, PDone out).
Proof. induction n as [|n IH]; [reflexivity|]. cbn [solo]. destruct g as [i p]. cbn [prng_step bind]. exact IH. Qed.
Lemma solo_le n : forall m g l g' out, solo prng_step n g l = Ok (g', PDone out) -> (n <= m)%nat -> solo prng_step m g l = Ok (g', PDone out).
Proof. intros m g l g' out E H. replace m with (n + (m - n))%nat by lia. rewrite solo_add, E. cbn [bind]. apply done_solo. Qed.
Lemma rand_solo p siz p' out K : (pix p < 16)%nat -> prng_rand (Some p) siz = Ok (p', out) -> (4 * siz + 8 <= K)%nat ->
  solo prng_step K (true, p) (PStart siz) = Ok ((true, p'), PDone out).
Proof.
  intros H R HK. unfold prng_rand in R. cbn [bind] in R.
  assert (Rs := res_solo true siz p [] H). destruct (prng_residual siz (pix p) (plo p)) as [[o1 ix] s]. destruct Rs as [E1 L1].
  set (p1 := with_ix p ix) in *.
  assert (Mn := main_solo true (s / 16) p1 s ([] ++ o1) eq_refl). cbn [app] in *. change (paes p1) with (paes p) in Mn. change (pctr p1) with (pctr p) in Mn.
  destruct (prng_main (s / 16) (paes p) (pctr p)) as [[o2 c] ctr]. change (pix p1) with ix in Mn. change (plo p1) with (plo p) in Mn.
  assert (Hd : (s / 16 <= s)%nat) by (apply Nat.div_le_upper_bound; lia).
  assert (P : solo prng_step (1 + ((2 * length o1 + 1) + 2 * (s / 16))) (true, p) (PStart siz) =
    Ok ((true, {| paes := c; pix := ix; pctr := ctr; plo := plo p |}), PMain (Nat.modulo s 16) (o1 ++ o2))).
  { rewrite solo_add. cbn [solo prng_step bind]. rewrite solo_add, E1. cbn [bind]. exact Mn. }
  set (n := (1 + ((2 * length o1 + 1) + 2 * (s / 16)))%nat) in *.
  assert (Hn : (n + 4 <= K)%nat) by lia. clearbody n.
  destruct (Nat.modulo s 16) as [|r] eqn:Er.
  - injection R as <- <-. apply solo_le with (n := (n + 1)%nat); [|lia]. rewrite solo_add, P. cbn [bind solo prng_step Nat.leb]. reflexivity.
  - destruct (aes_encrypt c ctr) as [c2 lo] eqn:Ee. injection R as <- <-.
    apply solo_le with (n := (n + 4)%nat); [|lia]. rewrite solo_add, P. cbn [bind].
    assert (Lr : (Datatypes.S r < 16)%nat) by (rewrite <- Er; apply Nat.mod_upper_bound; lia).
    cbn [solo]. unfold prng_step at 1. destruct (Nat.leb_spec 16 (Datatypes.S r)); [lia|]. cbn [paes pctr]. rewrite Ee. cbn [bind prng_step].
    unfold with_ctr, with_ix. cbn [paes pix pctr plo bind prng_step]. rewrite <- app_assoc. reflexivity.
Qed.

Section Locked.
  Variables (k : list Z) (c0 : Z) (sz : nat -> nat) (K : nat).
  Hypothesis EL : forall b, length b = 16%nat -> length (fips_cipher k b) = 16%nat.
  Lemma locked order : forall pos p ts, at_pos k c0 pos p -> NoDup order ->
    (forall i, In i order -> nth_error ts i = Some (PStart (sz i)) /\ (4 * sz i + 8 <= K)%nat) ->
    exists p' ts', sched prng_step (true, p) ts (concat (map (fun i => repeat i K) order)) = Ok ((true, p'), ts') /\
      (forall j i, nth_error order j = Some i ->
        nth_error ts' i = Some (PDone (map (ctr_byte (fips_cipher k) c0) (seq (pos + list_sum (map sz (firstn j order))) (sz i))))) /\
      (forall i, ~ In i order -> nth_error ts' i = nth_error ts i).
  Proof.
    induction order as [|i order IH]; intros pos p ts A Nd Q.
    - exists p, ts. split; [reflexivity|]. split; [intros [|j] i E; discriminate|auto].
    - inversion_clear Nd as [|? ? Ni Nd']. destruct (Q i (or_introl eq_refl)) as [Ei Hi].
      destruct (rand_step k c0 EL pos p (sz i) A) as (p1 & Er & A1).
      assert (Hix : (pix p < 16)%nat) by (destruct A as (_ & _ & -> & _); apply Nat.mod_upper_bound; lia).
      assert (So := rand_solo p (sz i) p1 _ K Hix Er Hi).
      cbn [map concat]. rewrite (sched_repeat prng_step K i (true, p) ts _ _ _ _ Ei So).
      destruct (IH (pos + sz i)%nat p1 (upd ts i (PDone (map (ctr_byte (fips_cipher k) c0) (seq pos (sz i))))) A1 Nd') as (p' & ts' & E & P1 & P2).
      { intros j Hj. destruct (Q j (or_intror Hj)) as [Ej Hj']. split; [|exact Hj']. rewrite nth_error_upd. destruct (Nat.eqb_spec i j); [subst; contradiction|exact Ej]. }
      exists p', ts'. split; [exact E|]. split.
      + intros [|j] i' E'; cbn [nth_error] in E'.
        * injection E' as <-. cbn [firstn map list_sum fold_right]. rewrite P2 by exact Ni. rewrite nth_error_upd, Nat.eqb_refl, Ei. rewrite Nat.add_0_r. reflexivity.
        * rewrite (P1 j i' E'). cbn [firstn map list_sum fold_right]. rewrite Nat.add_assoc. reflexivity.
      + intros i' Hn. rewrite P2 by (intro; apply Hn; right; auto). rewrite nth_error_upd. destruct (Nat.eqb_spec i i'); [subst; exfalso; apply Hn; left; reflexivity|reflexivity].
  Qed.
End Locked.
Lemma prng_locked seed lo sizes order K : bytes seed -> NoDup order -> (forall i, In i order -> i < length sizes)%nat -> (forall n, In n sizes -> 4 * n + 8 <= K)%nat ->
  exists p g ts', prng_init lo seed = Ok p /\
    sched prng_step (true, p) (map PStart sizes) (concat (map (fun i => repeat i K) order)) = Ok (g, ts') /\
    forall j i, nth_error order j = Some i ->
      nth_error ts' i = Some (PDone (map (ctr_byte (fips_cipher (seed_part 0 seed)) (be_val (seed_part 1 seed)))
        (seq (list_sum (map (fun i => nth i sizes 0%nat) (firstn j order))) (nth i sizes 0%nat)))).
Proof.
  intros Hs Nd Hi HK. destruct (init_ok lo seed Hs) as (p & Ep & A).
  destruct (locked _ _ (fun i => nth i sizes 0%nat) K (fun b => seed_cipher_len seed b Hs) order 0 p (map PStart sizes) A Nd) as (p' & ts' & E & P & _).
  { intros i H. specialize (Hi i H). split; [|apply HK, nth_In; auto]. rewrite nth_error_map, (nth_error_nth' sizes 0%nat Hi). reflexivity. }
  exists p, (true, p'), ts'. split; [exact Ep|]. split; [exact E|]. exact P.
Qed.

(** two threads that ask for a block *)
Lemma seed_cipher_inj seed a b : bytes seed -> length a = 16%nat -> length b = 16%nat -> bytes a -> bytes b ->
  fips_cipher (seed_part 0 seed) a = fips_cipher (seed_part 0 seed) b -> a = b.
Proof.
  intros H La Lb Ba Bb E. destruct (seed_bytes 0 seed H) as [B0 L0]. destruct (aes_cipher (seed_part 0 seed) B0 ltac:(lia)) as (_ & _ & _ & X).
  rewrite L0 in X. change (aes_size 16) with 16%nat in X. rewrite <- L0, firstn_all in X. rewrite L0 in X.
  rewrite <- (X a La Ba), <- (X b Lb Bb), E. reflexivity.
Qed.
Lemma prng_race seed lo : bytes seed -> exists p sch g b b', prng_init lo seed = Ok p /\
  sched prng_step (true, p) [PStart 16; PStart 16] sch = Ok (g, [PDone b; PDone b]) /\ prng_rands (Some p) [16; 16]%nat = Ok [b; b'] /\ b <> b'.
Proof.
  intro H. destruct (init_ok lo seed H) as (p & Ep & A).
  set (k := seed_part 0 seed) in *. set (c0 := be_val (seed_part 1 seed)) in *.
  assert (EL := fun b => seed_cipher_len seed b H). fold k in EL.
  assert (R := rands_ok k c0 EL [16; 16]%nat 0 p A).
  assert (B : forall q, map (ctr_byte (fips_cipher k) c0) (seq (16 * q) 16) = cblk k c0 q).
  { intro q. rewrite <- (cblk_bytes k c0 EL q 16) by lia. apply firstn_all2. rewrite (cblk_len k c0 EL). lia. }
  exists p, [0; 0; 0; 1; 1; 1; 0; 0; 1; 1]%nat.
  destruct A as (Kp & Dp & Hix & Hctr & _). change (Nat.modulo 0 16) with 0%nat in Hix. change ((0 + 15) / 16)%nat with 0%nat in Hctr.
  assert (Ee := enc_ctr k c0 (paes p) 0 Kp Dp). rewrite <- Hctr in Ee.
  exists (true, with_ctr (with_ctr p (ctr_inc (pctr p))) (ctr_inc (ctr_inc (pctr p)))), (cblk k c0 0), (cblk k c0 1). split; [exact Ep|]. split; [|split].
  - destruct p as [pa px pc pl]. cbn [paes pix pctr plo] in *. subst px.
    cbn [sched nth_error prng_step upd bind pix plo paes pctr Nat.eqb negb andb Nat.leb Nat.sub app]. rewrite Ee.
    cbn [sched nth_error prng_step upd bind pix plo paes pctr Nat.eqb negb andb Nat.leb Nat.sub app]. rewrite Ee.
    cbn [sched nth_error prng_step upd bind pix plo paes pctr Nat.eqb negb andb Nat.leb Nat.sub app with_ctr]. reflexivity.
  - rewrite R. cbn [pieces]. change (0 + 16)%nat with (16 * 1)%nat. change 0%nat with (16 * 0)%nat at 1. rewrite !B. reflexivity.
  - unfold cblk. intro E. apply (seed_cipher_inj seed) in E; auto using be_bytes_length, be_bytes_bytes.
    apply (f_equal be_val) in E. rewrite !be_val_bytes in E. change (Z.of_nat 0) with 0 in E. change (Z.of_nat 1) with 1 in E. rewrite Z.add_0_r in E.
    change (256 ^ Z.of_nat 16) with (2 ^ 128) in E. Z.to_euclidean_division_equations. lia.
Qed.
Lemma prng_race_ub seed lo : bytes seed -> exists p p' o sch, prng_init lo seed = Ok p /\ prng_rand (Some p) 15 = Ok (p', o) /\
  sched prng_step (true, p') [PStart 1; PStart 1] sch = UB.
Proof.
  intro H. destruct (init_ok lo seed H) as (p & Ep & A).
  destruct (rand_step _ _ (fun b => seed_cipher_len seed b H) 0 p 15 A) as (p' & Er & A').
  exists p, p'. eexists. exists [0; 0; 1; 1]%nat. split; [exact Ep|]. split; [exact Er|].
  destruct A' as (_ & _ & Hix & _). change (Nat.modulo (0 + 15) 16) with 15%nat in Hix. destruct p' as [pa px pc pl]. cbn [pix] in Hix. subst px.
  cbn [sched nth_error prng_step upd bind pix plo paes pctr Nat.eqb negb andb Nat.leb Nat.sub app]. 
  unfold with_ix. cbn [sched nth_error prng_step upd bind pix plo paes pctr Nat.eqb negb andb Nat.leb Nat.sub app Nat.add]. reflexivity.
Qed.
