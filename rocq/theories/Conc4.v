(** Two threads in step draw the same bytes. *)
From Verif Require Import Base Lists BytesSpec Bytes AesModel AesSpec ModesModel ModesSpec Modes Modes2 Aes4 Wrap2 PrngModel PrngSpec Trivium Prng ConcModel Conc Conc2.

Section Step.
  Variables (k : list Z) (c0 : Z).
  Hypothesis EL : forall b, length b = 16%nat -> length (fips_cipher k b) = 16%nat.
  Lemma lockstep n : forall siz p out q, (siz <= n)%nat -> keyed k (paes p) -> dec (paes p) = false -> pctr p = be_bytes 16 (c0 + Z.of_nat q) ->
    exists sch g o, sched prng_step (true, p) [PMain siz out; PMain siz out] sch = Ok (g, [PDone o; PDone o]) /\ length o = (length out + siz)%nat.
  Proof.
    induction n as [|n IH]; intros siz p out q H Kp Dp Cp.
    - destruct siz; [|lia]. exists [0; 1]%nat, (true, p), out. split; [reflexivity|lia].
    - assert (Ee := enc_ctr k c0 (paes p) q Kp Dp). rewrite <- Cp in Ee. assert (Lb := cblk_len k c0 EL q).
      destruct p as [pa px pc pl]. cbn [paes pix pctr plo] in *. destruct (Nat.leb_spec 16 siz).
      + destruct (IH (siz - 16)%nat {| paes := pa; pix := px; pctr := ctr_inc (ctr_inc pc); plo := pl |} (out ++ cblk k c0 q) (q + 2)%nat) as (sch & g & o & S & L); [lia|exact Kp|exact Dp| |].
        { cbn [pctr]. rewrite Cp, !ctr_inc_ok. f_equal. lia. }
        exists ([0; 1; 0; 1] ++ sch)%nat, g, o. split; [|rewrite L, app_length, Lb; lia].
        cbn [app sched nth_error prng_step paes pix pctr plo]. destruct (Nat.leb_spec 16 siz); [|lia]. rewrite Ee.
        cbn [bind upd sched nth_error prng_step paes pix pctr plo]. destruct (Nat.leb_spec 16 siz); [|lia]. rewrite Ee.
        cbn [bind upd sched nth_error prng_step paes pix pctr plo]. unfold with_ctr. cbn [bind upd sched nth_error prng_step paes pix pctr plo]. exact S.
      + destruct siz as [|s].
        * exists [0; 1]%nat. eexists. exists out. split; [reflexivity|lia].
        * exists [0; 1; 0; 1; 0; 1; 0; 1]%nat. eexists. exists (out ++ firstn (Datatypes.S s) (cblk k c0 q)). split; [|rewrite app_length, firstn_length, Lb; lia].
          cbn [sched nth_error prng_step paes pix pctr plo]. destruct (Nat.leb_spec 16 (Datatypes.S s)); [lia|]. rewrite Ee.
          cbn [bind upd sched nth_error prng_step paes pix pctr plo]. destruct (Nat.leb_spec 16 (Datatypes.S s)); [lia|]. rewrite Ee.
          cbn [bind upd sched nth_error prng_step paes pix pctr plo]. unfold with_ctr, with_ix. cbn [bind upd sched nth_error prng_step paes pix pctr plo]. reflexivity.
  Qed.
End Step.
Lemma prng_same seed lo siz : bytes seed -> exists p sch g b, prng_init lo seed = Ok p /\
  sched prng_step (true, p) [PStart siz; PStart siz] sch = Ok (g, [PDone b; PDone b]) /\ length b = siz.
Proof.
  intro H. destruct (init_ok lo seed H) as (p & Ep & A). destruct A as (Kp & Dp & Hix & Hctr & _).
  destruct (lockstep _ _ (fun b => seed_cipher_len seed b H) siz siz p [] _ (Nat.le_refl _) Kp Dp Hctr) as (sch & g & b & S & L).
  exists p, ([0; 1; 0; 1] ++ sch)%nat, g, b. split; [exact Ep|]. split; [|exact L].
  change (Nat.modulo 0 16) with 0%nat in Hix. cbn [app sched nth_error prng_step bind upd]. rewrite Hix. cbn [Nat.eqb negb andb bind upd sched nth_error prng_step].
  rewrite Hix. cbn [Nat.eqb negb andb bind upd sched nth_error prng_step]. exact S.
Qed.
