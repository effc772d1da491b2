(** Property C26: exclusive or of overlapping buffers. *)
From Verif Require Import Base MemxorModel Memxor.

Theorem C26_memxor : forall m dst src n x,
  memxor m dst src n x = if ((dst <=? x) && (x <? dst + Z.of_nat n))%bool then Z.lxor (m x) (m (src + (x - dst))) else m x.
Proof. exact memxor_ok. Qed.
Print Assumptions C26_memxor.

(** The destination overlaps the end of one source and the start of the other,
    and the sources are apart: the result is wrong. *)
Theorem C26_memxor2_refuted : exists t m dst s1 s2 n m' x, disj t s1 (Z.of_nat n) /\ disj t s2 (Z.of_nat n) /\ disj t dst (Z.of_nat n) /\
  memxor2 (Some t) m dst s1 s2 n = Ok m' /\ dst <= x < dst + Z.of_nat n /\
  m' x <> Z.lxor (m (s1 + (x - dst))) (m (s2 + (x - dst))).
Proof.
  exists 100, (fun a => if a <? 5 then 2 ^ a else 0), 2, 0, 6, 5%nat.
  eexists. exists 6. unfold disj. split; [lia|]. split; [lia|]. split; [lia|]. split; [reflexivity|]. split; [lia|]. vm_compute. discriminate.
Qed.
Print Assumptions C26_memxor2_refuted.

(** Without memory for the temporary block nothing is done, and nothing reported. *)
Theorem C26_no_memory_refuted : exists m dst s1 s2 n, memxor2 None m dst s1 s2 n = Ok m /\
  exists x, dst <= x < dst + Z.of_nat n /\ m x <> Z.lxor (m (s1 + (x - dst))) (m (s2 + (x - dst))).
Proof. exists (fun a => a), 1, 0, 2, 4%nat. split; [reflexivity|]. exists 1. split; [lia|]. vm_compute. discriminate. Qed.
Print Assumptions C26_no_memory_refuted.

(** Right for every other placement, [t] being the block malloc returns. *)
Theorem C26_memxor2_partial : forall m dst s1 s2 n t, ~ straddles dst s1 s2 (Z.of_nat n) ->
  disj t s1 (Z.of_nat n) -> disj t s2 (Z.of_nat n) -> disj t dst (Z.of_nat n) ->
  exists m', memxor2 (Some t) m dst s1 s2 n = Ok m' /\
    forall x, inb x t n = false ->
      m' x = if inb x dst n then Z.lxor (m (s1 + (x - dst))) (m (s2 + (x - dst))) else m x.
Proof. exact memxor2_ok. Qed.
Print Assumptions C26_memxor2_partial.

Example C26_ex : ~ straddles 1 0 2 4 /\ disj 100 0 4 /\
  match memxor2 (Some 100) (fun a => a * a) 1 0 2 4 with Ok m' => map m' [0; 1; 2; 3; 4; 5] = [0; 4; 8; 20; 16; 25] | _ => False end.
Proof. split; [unfold straddles; lia|]. split; [unfold disj; lia|]. vm_compute. reflexivity. Qed.
