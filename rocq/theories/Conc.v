(** Proofs for PropConc.v. *)
From Verif Require Import Base Lists BytesSpec Bytes AesModel AesSpec ModesModel ModesSpec Modes Modes2 Aes4 Wrap2 PrngModel PrngSpec Trivium Prng ConcModel.

Lemma nth_error_upd {A} (l : list A) : forall i j v, nth_error (upd l i v) j = if Nat.eqb i j then match nth_error l i with Some _ => Some v | None => None end else nth_error l j.
Proof.
  induction l as [|x l IH]; intros i j v.
  - cbn [upd]. destruct (Nat.eqb i j); destruct i, j; reflexivity.
  - destruct i as [|i], j as [|j]; cbn [upd nth_error Nat.eqb]; auto.
Qed.
Lemma upd_len {A} (l : list A) : forall i v, length (upd l i v) = length l.
Proof. induction l as [|x l IH]; intros [|i] v; cbn [upd length]; auto. Qed.

Section Gen.
  Context {S L : Type} (step : S -> L -> res (S * L)).
  Lemma solo_add n : forall m s l, solo step (n + m) s l = (do ' (s, l) <- solo step n s l; solo step m s l).
  Proof.
    induction n as [|n IH]; intros m s l; [reflexivity|]. cbn [solo Nat.add]. destruct (step s l) as [[s' l']| | |]; cbn [bind]; auto.
  Qed.
  (** threads that leave the shared state as it is do not see each other *)
  Lemma sched_frame s sch : forall ts, (forall l, In l ts -> forall n, exists l', solo step n s l = Ok (s, l')) ->
    exists ts', sched step s ts sch = Ok (s, ts') /\ length ts' = length ts /\
      forall i l, nth_error ts i = Some l -> exists l', nth_error ts' i = Some l' /\ solo step (count_occ Nat.eq_dec sch i) s l = Ok (s, l').
  Proof.
    induction sch as [|k sch IH]; intros ts Q.
    { exists ts. split; [reflexivity|]. split; [reflexivity|]. intros i l E. exists l. split; [exact E|reflexivity]. }
    cbn [sched]. destruct (nth_error ts k) as [l|] eqn:Ek.
    - destruct (Q l (nth_error_In _ _ Ek) 1%nat) as [l1 E1]. cbn [solo] in E1. destruct (step s l) as [[s1 l1']| | |] eqn:Es; cbn [bind] in E1; try discriminate.
      injection E1 as -> ->. cbn [bind].
      destruct (IH (upd ts k l1)) as (ts' & E2 & Ln & P).
      { intros l2 H2 n. destruct (In_nth_error _ _ H2) as [j Ej]. rewrite nth_error_upd, Ek in Ej. destruct (Nat.eqb_spec k j) as [Ekj|N]; [subst j|].
        - injection Ej as <-. destruct (Q l (nth_error_In _ _ Ek) (Datatypes.S n)) as [l3 E3]. cbn [solo] in E3. rewrite Es in E3. cbn [bind] in E3. exists l3. exact E3.
        - apply Q. apply (nth_error_In _ _ Ej). }
      exists ts'. split; [exact E2|]. split; [rewrite Ln; apply upd_len|]. intros i l2 Ei. cbn [count_occ].
      destruct (Nat.eq_dec k i) as [->|N].
      + rewrite Ek in Ei. injection Ei as <-. destruct (P i l1) as (l3 & E3 & E4); [rewrite nth_error_upd, Nat.eqb_refl, Ek; reflexivity|].
        exists l3. split; [exact E3|]. cbn [solo]. rewrite Es. cbn [bind]. exact E4.
      + destruct (P i l2) as (l3 & E3 & E4); [rewrite nth_error_upd; destruct (Nat.eqb_spec k i); [contradiction|exact Ei]|].
        exists l3. split; [exact E3|exact E4].
    - destruct (IH ts Q) as (ts' & E2 & Ln & P). exists ts'. split; [exact E2|]. split; [exact Ln|]. intros i l Ei. cbn [count_occ].
      destruct (Nat.eq_dec k i) as [->|N]; [congruence|]. apply P. exact Ei.
  Qed.
  (** one thread scheduled n times in a row *)
  Lemma sched_repeat n : forall i s ts l s' l' sch, nth_error ts i = Some l -> solo step n s l = Ok (s', l') ->
    sched step s ts (repeat i n ++ sch) = sched step s' (upd ts i l') sch.
  Proof.
    induction n as [|n IH]; intros i s ts l s' l' sch E R; cbn [solo] in R; cbn [repeat app].
    - injection R as <- <-. f_equal. revert i E. clear. induction ts as [|x ts IH]; intros [|i] E; cbn [nth_error upd] in *; try discriminate; [congruence|]. f_equal. apply IH. exact E.
    - cbn [sched]. rewrite E. destruct (step s l) as [[s1 l1]| | |]; cbn [bind] in *; try discriminate.
      erewrite IH; [|rewrite nth_error_upd, Nat.eqb_refl, E; reflexivity|exact R]. f_equal.
      clear. revert i. induction ts as [|x ts IH]; intros [|i]; cbn [upd]; auto. f_equal. apply IH.
  Qed.
End Gen.

(** * AES *)
Lemma whole_blocks_step f src : (16 <= length src)%nat -> whole_blocks f src = f (firstn 16 src) ++ whole_blocks f (skipn 16 src).
Proof.
  intro L. unfold whole_blocks. rewrite skipn_length.
  assert (E : (length src / 16 = Datatypes.S ((length src - 16) / 16))%nat).
  { replace (length src) with ((length src - 16) + 1 * 16)%nat at 1 by lia. rewrite Nat.div_add by lia. lia. }
  rewrite E. set (n := ((length src - 16) / 16)%nat) in *.
  assert (Ln : (16 * n <= length src - 16)%nat) by (apply Nat.mul_div_le; lia).
  clearbody n. clear E.
  replace (firstn (16 * Datatypes.S n) src) with (firstn 16 src ++ firstn (16 * n) (skipn 16 src)).
  2: { replace (16 * Datatypes.S n)%nat with (16 + 16 * n)%nat by lia. rewrite <- (firstn_skipn 16 src) at 3. rewrite firstn_app, firstn_firstn, firstn_length.
       replace (Nat.min (16 + 16 * n) 16) with 16%nat by lia. f_equal. f_equal. lia. }
  set (a := firstn 16 src). assert (La : length a = 16%nat) by (unfold a; rewrite firstn_length; lia).
  set (b := firstn (16 * n) (skipn 16 src)). clearbody a b. clear - La.
  assert (Fu : forall f1 f2 l, (length l <= f1)%nat -> (length l <= f2)%nat -> chunks_aux f1 16 l = chunks_aux f2 16 l).
  { clear. induction f1 as [|f1 IH]; intros [|f2] l H1 H2; [reflexivity|destruct l; [reflexivity|cbn in *; lia]|destruct l; [reflexivity|cbn in *; lia]|].
    destruct l as [|x l]; [reflexivity|]. cbn [chunks_aux]. f_equal. apply IH; rewrite skipn_length; cbn [length] in *; lia. }
  assert (St : forall k l, l <> [] -> chunks_aux (Datatypes.S k) 16 l = firstn 16 l :: chunks_aux k 16 (skipn 16 l)).
  { clear. intros k l Hl. destruct l; [contradiction|reflexivity]. }
  unfold chunks. rewrite app_length, La. rewrite (Fu (16 + length b)%nat (Datatypes.S (length b + 15))) by (rewrite app_length; lia).
  rewrite St by (intro E; apply (f_equal (@length Z)) in E; rewrite app_length in E; cbn [length] in E; lia).
  replace (firstn 16 (a ++ b)) with a by (rewrite firstn_app, <- La, firstn_all, Nat.sub_diag; cbn [firstn]; rewrite app_nil_r; reflexivity).
  replace (skipn 16 (a ++ b)) with b by (rewrite skipn_app, <- La, skipn_all, Nat.sub_diag; reflexivity).
  cbn [map concat]. f_equal. f_equal. f_equal. apply Fu; lia.
Qed.
Lemma whole_blocks_short f src : (length src < 16)%nat -> whole_blocks f src = [].
Proof. intro L. unfold whole_blocks. rewrite Nat.div_small by lia. reflexivity. Qed.

Section Aes.
  Variables (c : aes) (enc : bool).
  Hypothesis D : dec c = negb enc.
  Hypothesis N : (1 <= nr c <= 14)%nat.
  Definition rnd := if enc then fround else rround.
  Definition fin := if enc then ffinal else rfinal.
  Definition blk (src : list Z) : list Z := aes_block rnd fin (nr c) (keys c) src.
  Definition finish (i : nat) (w : Z * Z * Z * Z) : list Z :=
    let '(w0, w1, w2, w3) := aes_rounds fin 1 (nr c) (keys c) (aes_rounds rnd (nr c - i) i (keys c) w) in
    write32le w0 ++ write32le w1 ++ write32le w2 ++ write32le w3.
  (** where a thread that works on [src0] can be, and how many steps it needs *)
  Definition ainv (src0 : list Z) (l : aes_at) (k : nat) : Prop :=
    match l with
    | AStart e src => e = enc /\ src = src0 /\ k = (2 + (nr c + 1) * (length src / 16))%nat
    | AFlag _ _ => False
    | ALoop e src out => e = enc /\ out ++ whole_blocks blk src = whole_blocks blk src0 /\ k = (1 + (nr c + 1) * (length src / 16))%nat
    | ARound e src out i w => e = enc /\ (16 <= length src)%nat /\ (1 <= i <= nr c)%nat /\
        out ++ finish i w ++ whole_blocks blk (skipn 16 src) = whole_blocks blk src0 /\
        k = (2 + (nr c - i) + (nr c + 1) * ((length src - 16) / 16))%nat
    | ADone out => out = whole_blocks blk src0
    end.
  Lemma aes_step_inv src0 l k : ainv src0 l k -> exists l', aes_step c l = Ok (c, l') /\ exists k', ainv src0 l' k' /\ (k' <= k - 1)%nat /\ (forall out, l = ADone out -> l' = l).
  Proof.
    destruct l as [e src|e src|e src out|e src out i w|out]; cbn [ainv aes_step]; intro I.
    - destruct I as (-> & -> & ->). rewrite D. replace (Bool.eqb (negb enc) enc) with false by (destruct enc; reflexivity).
      eexists. split; [reflexivity|]. eexists. split; [cbn [ainv]; split; [reflexivity|]; split; [reflexivity|reflexivity]|]. split; [lia|discriminate].
    - destruct I.
    - destruct I as (-> & E & ->). destruct (Nat.leb_spec 16 (length src)) as [L|L].
      + eexists. split; [reflexivity|]. eexists. split.
        * cbn [ainv]. split; [reflexivity|]. split; [exact L|]. split; [lia|]. split; [|reflexivity].
          rewrite <- E, (whole_blocks_step blk src L). f_equal. f_equal. unfold finish, blk, aes_block.
          assert (R : forall o, (o + 4 <= 16)%nat -> read32le (firstn 16 src) o = read32le src o).
          { intros o Ho. unfold read32le. rewrite !nth_firstn_lt by lia. reflexivity. }
          rewrite !R by lia. reflexivity.
        * assert (Q : (length src / 16 = 1 + (length src - 16) / 16)%nat).
          { replace (length src) with ((length src - 16) + 1 * 16)%nat at 1 by lia. rewrite Nat.div_add by lia. lia. }
          rewrite Q. split; [lia|discriminate].
      + eexists. split; [reflexivity|]. exists 0%nat. split; [cbn [ainv]; rewrite <- E, (whole_blocks_short blk src L), app_nil_r; reflexivity|]. split; [lia|discriminate].
    - destruct I as (-> & L & Hi & E & ->). destruct (Nat.ltb_spec 60 (4 * i + 4)); [lia|].
      assert (RS : rounds_seen enc c = nr c) by (unfold rounds_seen; rewrite D; destruct enc; reflexivity). rewrite RS.
      destruct (Nat.ltb_spec i (nr c)) as [Li|Li].
      + eexists. split; [reflexivity|]. eexists. split.
        * cbn [ainv]. split; [reflexivity|]. split; [exact L|]. split; [lia|]. split; [|reflexivity].
          rewrite <- E. f_equal. f_equal. unfold finish. replace (nr c - i)%nat with (Datatypes.S (nr c - (i + 1))) by lia.
          destruct w as [[[w0 w1] w2] w3]. cbn [aes_rounds]. fold rnd. destruct (rnd w0 w1 w2 w3) as [[[t0 t1] t2] t3]. reflexivity.
        * split; [lia|discriminate].
      + assert (i = nr c) by lia. subst i. fold fin. unfold finish in E. rewrite Nat.sub_diag in E. cbn [aes_rounds] in E.
        destruct w as [[[w0 w1] w2] w3]. cbn [aes_rounds] in *. destruct (fin w0 w1 w2 w3) as [[[t0 t1] t2] t3].
        eexists. split; [reflexivity|]. eexists. split.
        * cbn [ainv]. split; [reflexivity|]. split; [|reflexivity]. rewrite <- E, <- !app_assoc. reflexivity.
        * rewrite skipn_length. split; [lia|discriminate].
    - eexists. split; [reflexivity|]. exists 0%nat. split; [exact I|]. split; [lia|]. auto.
  Qed.
  Lemma aes_solo n : forall src0 l k, ainv src0 l k -> exists l', solo aes_step n c l = Ok (c, l') /\ ((k <= n)%nat -> l' = ADone (whole_blocks blk src0)) /\
    (forall out, l' = ADone out -> out = whole_blocks blk src0).
  Proof.
    induction n as [|n IH]; intros src0 l k I.
    - exists l. split; [reflexivity|]. split.
      + intro H. destruct l; cbn [ainv] in I; [destruct I as (_ & _ & ->); inversion H|destruct I|destruct I as (_ & _ & ->); inversion H|destruct I as (_ & _ & _ & _ & ->); inversion H|]. rewrite I. reflexivity.
      + intros out ->. exact I.
    - cbn [solo]. destruct (aes_step_inv _ _ _ I) as (l1 & E1 & k1 & I1 & K1 & F1). rewrite E1. cbn [bind].
      destruct (IH src0 l1 k1 I1) as (l' & E & P & Q). exists l'. split; [exact E|]. split; [|exact Q]. intro H. apply P. lia.
  Qed.
End Aes.
Lemma aes_shared c enc srcs sch : dec c = negb enc -> (1 <= nr c <= 14)%nat ->
  exists ts', sched aes_step c (map (AStart enc) srcs) sch = Ok (c, ts') /\
    forall i src, nth_error srcs i = Some src ->
      (forall out, nth_error ts' i = Some (ADone out) -> out = snd (aes_call c (if enc then Enc src else Dec src))) /\
      ((2 + 15 * (length src / 16) <= count_occ Nat.eq_dec sch i)%nat -> nth_error ts' i = Some (ADone (snd (aes_call c (if enc then Enc src else Dec src))))).
Proof.
  intros D N.
  assert (W : forall src, snd (aes_call c (if enc then Enc src else Dec src)) = whole_blocks (blk c enc) src).
  { intro src. unfold blk, rnd, fin. destruct enc; cbn [aes_call]; unfold aes_encrypt, aes_decrypt; rewrite D; reflexivity. }
  assert (St : forall src, ainv c enc src (AStart enc src) (2 + (nr c + 1) * (length src / 16))) by (intro src; cbn [ainv]; auto).
  destruct (sched_frame aes_step c sch (map (AStart enc) srcs)) as (ts' & E & Ln & P).
  { intros l Hl n. apply in_map_iff in Hl as (src & <- & _). destruct (aes_solo c enc D N n src _ _ (St src)) as (l' & E & _). exists l'. exact E. }
  exists ts'. split; [exact E|]. intros i src Ei. destruct (P i (AStart enc src)) as (l' & El & So).
  { rewrite nth_error_map, Ei. reflexivity. }
  destruct (aes_solo c enc D N (count_occ Nat.eq_dec sch i) src _ _ (St src)) as (l2 & E2 & Q1 & Q2). rewrite So in E2. injection E2 as <-. rewrite W, El. split.
  - intros out Eo. injection Eo as ->. apply Q2. reflexivity.
  - intro Hc. rewrite Q1; [reflexivity|]. etransitivity; [|exact Hc]. apply -> Nat.add_le_mono_l. apply Nat.mul_le_mono_r. lia.
Qed.
Lemma keyed_nr k c : keyed k c -> (1 <= nr c <= 14)%nat.
Proof. intros (ks & Hn & _). destruct Hn as [<-|[<-|[<-|[]]]]; lia. Qed.
Lemma aes_shared_enc key srcs sch : bytes key -> (16 <= length key)%nat -> Forall bytes srcs ->
  exists c ts', aes_key_set key = Ok c /\ sched aes_step c (map (AStart true) srcs) sch = Ok (c, ts') /\
    forall i src, nth_error srcs i = Some src ->
      (forall out, nth_error ts' i = Some (ADone out) -> out = fips_op (firstn (aes_size (length key)) key) (Enc src)) /\
      ((2 + 15 * (length src / 16) <= count_occ Nat.eq_dec sch i)%nat -> nth_error ts' i = Some (ADone (fips_op (firstn (aes_size (length key)) key) (Enc src)))).
Proof.
  intros Hk L Hs. destruct (key_set_keyed key Hk L) as (c & E & D & K). exists c.
  destruct (aes_shared c true srcs sch D (keyed_nr _ _ K)) as (ts' & E1 & P). exists ts'. split; [exact E|]. split; [exact E1|].
  intros i src Ei. specialize (P i src Ei). cbn [aes_call] in P. rewrite (call_enc _ _ src K D) in P; [exact P|].
  apply (proj1 (Forall_forall _ _) Hs). apply (nth_error_In _ _ Ei).
Qed.
Lemma aes_shared_dec key srcs sch : bytes key -> (16 <= length key)%nat -> Forall bytes srcs ->
  exists c ts', aes_key_set key = Ok c /\ let c := fst (aes_decrypt c []) in
    sched aes_step c (map (AStart false) srcs) sch = Ok (c, ts') /\
    forall i src, nth_error srcs i = Some src ->
      (forall out, nth_error ts' i = Some (ADone out) -> out = fips_op (firstn (aes_size (length key)) key) (Dec src)) /\
      ((2 + 15 * (length src / 16) <= count_occ Nat.eq_dec sch i)%nat -> nth_error ts' i = Some (ADone (fips_op (firstn (aes_size (length key)) key) (Dec src)))).
Proof.
  intros Hk L Hs. destruct (key_set_keyed key Hk L) as (c & E & D & K). exists c.
  destruct (call_dec _ c [] K (Forall_nil _)) as (c1 & E1 & K1 & D1). 
  destruct (aes_shared c1 false srcs sch D1 (keyed_nr _ _ K1)) as (ts' & E2 & P). exists ts'. split; [exact E|]. rewrite E1. cbn [fst]. split; [exact E2|].
  intros i src Ei. specialize (P i src Ei). cbn [aes_call] in P. destruct (call_dec _ c1 src K1) as (c2 & E3 & _).
  { apply (proj1 (Forall_forall _ _) Hs). apply (nth_error_In _ _ Ei). }
  rewrite E3 in P. exact P.
Qed.
(** an encryption whose context is turned around while it runs *)
Lemma rounds_ub c src out n : forall i w, dec c = true -> (1 <= i <= 15)%nat -> (i + n = 15)%nat -> solo aes_step (Datatypes.S n) c (ARound true src out i w) = UB.
Proof.
  induction n as [|n IH]; intros i w D Hi Hn; cbn [solo aes_step].
  - destruct (Nat.ltb_spec 60 (4 * i + 4)); [reflexivity|lia].
  - destruct (Nat.ltb_spec 60 (4 * i + 4)); [lia|]. unfold rounds_seen. rewrite D. cbn [andb]. destruct (Nat.ltb_spec i (nr c + 128)); [|lia]. cbn [bind].
    change (do ' (s0, l0) <- aes_step c (ARound true src out (i + 1) (aes_rounds fround 1 i (keys c) w)); solo aes_step n s0 l0)
      with (solo aes_step (Datatypes.S n) c (ARound true src out (i + 1) (aes_rounds fround 1 i (keys c) w))). apply IH; auto; lia.
Qed.
Lemma sched_solo_ub {S L} (step : S -> L -> res (S * L)) n : forall i s ts l, nth_error ts i = Some l -> solo step n s l = UB -> sched step s ts (repeat i n) = UB.
Proof.
  induction n as [|n IH]; intros i s ts l E R; cbn [solo] in R; [discriminate|]. cbn [repeat sched]. rewrite E. destruct (step s l) as [[s1 l1]| | |]; cbn [bind] in *; try discriminate; [|reflexivity].
  apply IH with (l := l1); [rewrite nth_error_upd, Nat.eqb_refl, E; reflexivity|exact R].
Qed.
Lemma aes_race_ub key src c : aes_key_set key = Ok c -> (16 <= length src)%nat -> dec c = false ->
  exists sch, sched aes_step c [AStart true src; AStart false []] sch = UB.
Proof.
  intros E L D. exists ([0; 0; 1; 1] ++ repeat 0 15)%nat. cbn [app sched nth_error aes_step]. rewrite D. cbn [Bool.eqb bind upd sched nth_error aes_step].
  destruct (Nat.leb_spec 16 (length src)); [|lia]. cbn [bind upd sched nth_error aes_step]. rewrite D. cbn [Bool.eqb bind upd sched nth_error aes_step].
  eapply sched_solo_ub; [reflexivity|]. apply (rounds_ub _ _ _ 14); [reflexivity|lia|lia].
Qed.
