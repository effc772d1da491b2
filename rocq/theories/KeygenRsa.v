(** Correctness of the RSA key generation. *)
From Coq Require Import Znumtheory.
From Verif Require Import Base Bits BytesSpec Bytes Lists NumTh MpiModel MpiSpec MpiDigits MpiMulModel MpiMul MpiMul2 MpiSqr MpiCanon MpiDivModel MpiDiv MpiAlgModel MpiAlg MpiAlg2 MpiIOModel MpiIO MpiTextSpec MpiRand MrDraws PkModel PkSpec Pk KeygenModel KeygenSpec Keygen.

Ltac Zify.zify_post_hook ::= idtac.

Definition eok (e : Z) (k : rsakey) : Prop := exists E0, rk_e k = ofZ E0 /\ 0 <= E0 /\ (e <> 0 -> E0 = e).

Lemma draw_value s bits r : source_ok s -> 0 <= bits -> draw s bits = Ok r -> exists v, r = ofZ v /\ 0 <= v.
Proof.
  intros HS Hb H. unfold draw in H. destruct (Z.eq_dec bits 0) as [->|].
  - unfold rand in H. cbn in H. injection H as <-. exists 0. split; [reflexivity|lia].
  - destruct (HS [] (Z.to_nat ((bits + 7) / 8))) as [HB HL]. apply rand_value in H; auto; [|lia|rewrite HL, Z2Nat.id; auto; apply Z.div_pos; lia].
    eexists. split; [exact H|]. apply drawn_bound; [lia|]. apply (be_val_bound _ HB).
Qed.

Lemma rsa_round_inv jx jy s bits e k g rc k' g' : source_ok s -> 0 <= bits -> eok e k ->
  rsa_round jx jy s bits e k g = Ok (rc, k', g') ->
  rk_d k' = rk_d k /\ eok e k' /\
  (rc = 0 -> exists P Q, found (at_ s 0) (bits / 2) P /\ found (at_ s 1) (bits / 2) Q /\
     ((P = Q \/ Z.log2 (P * Q) + 1 <> bits) /\ g' = g \/
      exists E, rk_p k' = ofZ P /\ rk_q k' = ofZ Q /\ rk_n k' = ofZ (P * Q) /\ rk_e k' = ofZ E /\
        accepted P /\ accepted Q /\ 1 < P /\ 1 < Q /\ Z.odd P = true /\ Z.odd Q = true /\ P <> Q /\
        Z.log2 (P * Q) + 1 = bits /\ 0 <= E /\ (e <> 0 -> E = e) /\ (0 < E -> g' = ofZ (Z.gcd E (phi P Q))))).
Proof.
  intros HS Hb HE H. unfold rsa_round in H. rewrite Z.shiftr_div_pow2 in H by lia. change (2 ^ 1) with 2 in H.
  assert (Hh : 0 <= bits / 2) by (apply Z.div_pos; lia).
  destruct (mprime (at_ s 0) (bits / 2) (Some (Z.to_nat 10000)) (rk_p k)) as [[[rp p] ip]| | |] eqn:MP; cbn [bind] in H; try discriminate.
  destruct (Z.eqb_spec rp 0) as [->|NP]; cbn [negb] in H.
  2:{ injection H as <- <- <-. cbn [rk_d]. split; [reflexivity|]. split; [exact HE|]. intro; contradiction. }
  cbn [rk_q rk_d rk_e rk_n] in H.
  destruct (mprime (at_ s 1) (bits / 2) (Some (Z.to_nat 10000)) (rk_q k)) as [[[rq q] iq]| | |] eqn:MQ; cbn [bind] in H; try discriminate.
  destruct (Z.eqb_spec rq 0) as [->|NQ]; cbn [negb] in H.
  2:{ injection H as <- <- <-. cbn [rk_d]. split; [reflexivity|]. split; [exact HE|]. intro; contradiction. }
  destruct (mprime_success _ _ _ _ _ _ (source_at s 0 HS) Hh MP) as (_ & _ & _ & P & -> & HP & OP & AP & _).
  destruct (mprime_success _ _ _ _ _ _ (source_at s 1 HS) Hh MQ) as (_ & _ & _ & Q & -> & HQ & OQ & AQ & _).
  assert (FP : found (at_ s 0) (bits / 2) P) by (eexists _, _; exact MP).
  assert (FQ : found (at_ s 1) (bits / 2) Q) by (eexists _, _; exact MQ).
  rewrite cmp_ofZ in H. destruct (Z.eqb_spec (Z.sgn (Q - P)) 0) as [EQ|NE].
  { injection H as <- <- <-. cbn [rk_d]. split; [reflexivity|]. split; [exact HE|]. intros _. exists P, Q. split; [exact FP|]. split; [exact FQ|].
    left. split; [left; lia|reflexivity]. }
  rewrite mul_ofZ in H. cbn [bind] in H. rewrite cb_log in H by (apply Z.mul_pos_pos; lia).
  destruct (Z.eqb_spec (Z.log2 (P * Q) + 1) bits) as [EB|NB]; cbn [negb] in H.
  2:{ injection H as <- <- <-. cbn [rk_d]. split; [reflexivity|]. split; [exact HE|]. intros _. exists P, Q. split; [exact FP|]. split; [exact FQ|].
    left. split; [right; exact NB|reflexivity]. }
  rewrite <- ofZ_1, !sub_ofZ in H. cbn [bind] in H. rewrite mul_ofZ in H. cbn [bind] in H. cbn [rk_d rk_e] in H.
  destruct (if e =? 0 then draw (at_ s 2) bits else Ok (rk_e k)) as [e'| | |] eqn:ED; cbn [bind] in H; try discriminate.
  destruct (gcd jx jy e' (ofZ ((P - 1) * (Q - 1)))) as [g1| | |] eqn:G; cbn [bind] in H; try discriminate.
  injection H as <- <- <-. cbn [rk_d rk_e rk_p rk_q rk_n]. split; [reflexivity|].
  assert (XE : exists E, e' = ofZ E /\ 0 <= E /\ (e <> 0 -> E = e)).
  { destruct (Z.eqb_spec e 0) as [->|].
    - destruct (draw_value _ _ _ (source_at s 2 HS) Hb ED) as (v & -> & Hv). exists v. split; [reflexivity|]. split; [exact Hv|]. intro; contradiction.
    - destruct HE as (E0 & E1 & E2 & E3). exists E0. split; [congruence|]. split; auto. }
  destruct XE as (E & -> & E2 & E3). split; [exists E; auto|]. intros _. exists P, Q. split; [exact FP|]. split; [exact FQ|]. right. exists E.
  split; [reflexivity|]. split; [reflexivity|]. split; [reflexivity|]. split; [reflexivity|]. split; [exact AP|]. split; [exact AQ|].
  split; [lia|]. split; [lia|]. split; [exact OP|]. split; [exact OQ|]. split; [intro X; apply NE; rewrite X, Z.sub_diag; reflexivity|].
  split; [exact EB|]. split; [exact E2|]. split; [exact E3|]. intro E4. rewrite gcd_ofZ in G; [injection G as <-; reflexivity|exact E4|apply Z.mul_pos_pos; lia].
Qed.

Lemma cmp_one g : cmp (ofZ g) mone = 0 <-> g = 1.
Proof. rewrite <- ofZ_1, cmp_ofZ. lia. Qed.

Lemma rsa_loop_inv jx jy s bits e : source_ok s -> 0 <= bits -> forall n i k g rc k', eok e k -> cmp g mone <> 0 ->
  rsa_loop n i jx jy s bits e k g = Ok (rc, k') ->
  rk_d k' = rk_d k /\ (rc = 0 -> rsa_good bits e k' \/ forall u, (i <= u < i + n)%nat -> rsa_rejected s bits e u).
Proof.
  intros HS Hb. induction n as [|n IH]; intros i k g rc k' HE HG H; cbn [rsa_loop] in H.
  { injection H as <- <-. split; [reflexivity|]. intros _. right. intros u Hu. lia. }
  destruct (rsa_round jx jy (at_ s i) bits e k g) as [[[r1 k1] g1]| | |] eqn:R; cbn [bind] in H; try discriminate.
  destruct (rsa_round_inv _ _ _ _ _ _ _ _ _ _ (source_at s i HS) Hb HE R) as (D1 & E1 & X).
  destruct (Z.eqb_spec r1 0) as [->|NR]; cbn [negb] in H.
  2:{ injection H as <- <-. split; [exact D1|]. intro; contradiction. }
  destruct (X eq_refl) as (P & Q & FP & FQ & Y). clear X.
  destruct (Z.eqb_spec (cmp g1 mone) 0) as [G1|G1].
  - injection H as <- <-. split; [exact D1|]. intros _. left. destruct Y as [[_ ->]|Y]; [contradiction|].
    destruct Y as (E & Y1 & Y2 & Y3 & Y4 & Y5 & Y6 & Y7 & Y8 & Y9 & Y10 & Y11 & Y12 & Y13 & Y14 & Y15).
    exists P, Q, E. do 14 (split; [assumption|]). intro E0. rewrite (Y15 E0) in G1. apply cmp_one. exact G1.
  - destruct (IH (S i) k1 g1 rc k' E1 G1 H) as [D2 X]. split; [congruence|]. intro RC. destruct (X RC) as [GD|RJ]; [left; exact GD|]. right.
    intros u Hu. destruct (Nat.eq_dec u i) as [->|]; [|apply RJ; lia]. exists P, Q. split; [exact FP|]. split; [exact FQ|].
    destruct Y as [[[Y|Y] _]|Y]; [left; exact Y|right; left; exact Y|]. right; right.
    destruct Y as (E & _ & _ & _ & _ & _ & _ & _ & _ & _ & _ & _ & _ & Y13 & Y14 & Y15). exists E. split; [exact Y14|].
    destruct (Z.eq_dec E 0) as [|NE]; [left; assumption|]. right. intro G. apply G1. rewrite Y15 by lia. apply cmp_one. exact G.
Qed.

Theorem rsa_keygen_ok jx jy s bits e k rc k' : source_ok s -> 0 <= bits -> 0 <= e < 2 ^ 63 -> (exists E0, rk_e k = ofZ E0 /\ 0 <= E0) ->
  rsa_keygen jx jy s bits e k = Ok (rc, k') ->
  rk_d k' = rk_d k /\ (rc = 0 -> rsa_good bits e k' \/ forall u, (u < Z.to_nat 10000)%nat -> rsa_rejected s bits e u).
Proof.
  intros HS Hb He (E0 & HE0 & HE1) H. unfold rsa_keygen in H.
  assert (XE : exists e0, (if e =? 0 then Ok (rk_e k) else set_int e) = Ok (ofZ e0) /\ 0 <= e0 /\ (e <> 0 -> e0 = e)).
  { destruct (Z.eqb_spec e 0); [exists E0; rewrite HE0; split; auto; split; auto; intro; contradiction|].
    exists e. split; [apply set_int_ofZ; lia|]. split; [lia|auto]. }
  destruct XE as (e0 & XE & X1 & X2). rewrite XE in H. cbn [bind] in H.
  apply rsa_loop_inv in H; auto; [|exists e0; auto|vm_compute; discriminate]. cbn [rk_d] in H. destruct H as [D R]. split; [exact D|].
  intro RC. destruct (R RC) as [G|J]; [left; exact G|right]. intros u Hu. apply J. lia.
Qed.

(** A good key with prime factors can be completed. *)
Theorem rsa_good_valid bits e k P Q E : 0 < e -> rsa_good bits e k -> rk_p k = ofZ P -> rk_q k = ofZ Q -> rk_e k = ofZ E -> prime P -> prime Q ->
  exists d, rsa_valid (P * Q) E d.
Proof.
  intros He (P' & Q' & E' & KP & KQ & KN & KE & _ & _ & HP & HQ & _ & _ & NE & _ & HE & EE & G) KP' KQ' KE' PP PQ.
  assert (P' = P) by (rewrite <- (mval_ofZ P'), <- KP, KP'; apply mval_ofZ).
  assert (Q' = Q) by (rewrite <- (mval_ofZ Q'), <- KQ, KQ'; apply mval_ofZ).
  assert (E' = E) by (rewrite <- (mval_ofZ E'), <- KE, KE'; apply mval_ofZ). subst P' Q' E'.
  specialize (EE ltac:(lia)). specialize (G ltac:(lia)). set (L := Z.lcm (P - 1) (Q - 1)).
  assert (PhP : 0 < phi P Q) by (apply Z.mul_pos_pos; lia).
  assert (LP : (L | phi P Q)).
  { apply Z.lcm_least; [exists (Q - 1); unfold phi; ring|exists (P - 1); unfold phi; ring]. }
  destruct (Z.gcd_bezout E (phi P Q) 1 G) as (a & b & AB).
  exists (a mod phi P Q + phi P Q). exists P, Q. split; [exact PP|]. split; [exact PQ|]. split; [exact NE|]. split; [reflexivity|].
  pose proof (Z.mod_pos_bound a (phi P Q) PhP) as MB. split; [lia|]. split; [lia|].
  eapply Z.divide_trans; [exact LP|]. pose proof (Z.div_mod a (phi P Q) ltac:(lia)) as DM.
  exists (E - E * (a / phi P Q) - b). replace (a mod phi P Q) with (a - phi P Q * (a / phi P Q)) by lia.
  rewrite Z.mul_sub_distr_r. replace (b * phi P Q) with (1 - a * E) by lia. ring.
Qed.
