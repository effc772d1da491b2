(** The lemmas behind C74. *)
From Verif Require Import Base MpiModel MpiSpec MpiCanon MpiAlg MemModel MemSpec MemAlgModel MemAlgSpec Mem MemOps MemExp MemGcd MemSqrt MemInv MemInv2.

Lemma power_safe e s n r b ex mo vb ve m : calm n s -> (r < n)%nat -> (b < n)%nat -> (ex < n)%nat -> usable s r -> has s b (ofZ vb) -> has s ex (ofZ ve) ->
  with_modulus n s mo m -> 0 <= ve -> m <> Some 1 \/ 0 < ve -> grant e (tick s) = true ->
  wp (mod_exp_m n r b ex mo) e s (after e n r true (ofZ (power vb ve m)) s).
Proof.
  intros C R Lb Le U Hb He Hm Pe HX G. assert (E : power vb ve m = exp_val vb ve m) by (destruct m; reflexivity). rewrite E.
  apply exp_safe; auto. 
Qed.
Lemma power_neg e s n r b ex mo ve : has s ex (ofZ ve) -> ve < 0 -> (forall x, mo = Some x -> usable s x) -> wp (mod_exp_m n r b ex mo) e s (fun rc s' => rc = -1 /\ s' = s).
Proof.
  intros H P M. unfold mod_exp_m. apply wp_bind. eapply wp_peek; eauto. apply wp_bind. rewrite ofZ_neg. destruct (Z.ltb_spec ve 0); [|lia]. destruct mo as [x|].
  - destruct (M x eq_refl) as (w & W). apply wp_bind. eapply wp_peek; eauto. apply wp_ret. apply wp_ret. auto.
  - apply wp_ret. apply wp_ret. auto.
Qed.
