(** Fermat's little theorem over the integers. *)
From Coq Require Import ZArith Znumtheory List Permutation Lia.
Import ListNotations.
Open Scope Z_scope.

Definition zprod (l : list Z) : Z := fold_right Z.mul 1 l.
Lemma zprod_perm l l' : Permutation l l' -> zprod l = zprod l'.
Proof. induction 1; cbn; try congruence; try ring. unfold zprod in *. rewrite IHPermutation. reflexivity. Qed.

Definition residues (p : Z) : list Z := map Z.of_nat (seq 1 (Z.to_nat (p - 1))).
Lemma residues_in p x : In x (residues p) <-> 1 <= x < p.
Proof.
  unfold residues. rewrite in_map_iff. split.
  - intros (n & <- & H). apply in_seq in H. lia.
  - intro H. exists (Z.to_nat x). split; [lia|]. apply in_seq. lia.
Qed.
Lemma residues_nodup p : NoDup (residues p).
Proof. apply FinFun.Injective_map_NoDup; [intros x y; lia|apply seq_NoDup]. Qed.
Lemma residues_length p : length (residues p) = Z.to_nat (p - 1).
Proof. unfold residues. rewrite map_length, seq_length. reflexivity. Qed.

Lemma zprod_scale a p l : 0 < p -> zprod (map (fun x => a * x mod p) l) mod p = a ^ Z.of_nat (length l) * zprod l mod p.
Proof.
  intro Hp. induction l as [|x l IH]; [change (Z.of_nat (length (@nil Z))) with 0; rewrite Z.pow_0_r; reflexivity|].
  cbn [map length]. change (zprod (?a :: ?b)) with (a * zprod b). rewrite Nat2Z.inj_succ, Z.pow_succ_r by lia.
  rewrite Z.mul_mod, IH, Z.mod_mod, <- Z.mul_mod by lia. f_equal. ring.
Qed.

Lemma zprod_coprime p l : prime p -> (forall x, In x l -> 1 <= x < p) -> ~ (p | zprod l).
Proof.
  intros P. pose proof (prime_ge_2 p P). induction l as [|x l IH]; intros H0 D.
  - apply Z.divide_pos_le in D; cbn in *; lia.
  - change (zprod (x :: l)) with (x * zprod l) in D. apply prime_mult in D; auto. destruct D as [D|D].
    + specialize (H0 x ltac:(left; auto)). apply Z.divide_pos_le in D; lia.
    + apply IH; auto. intros; apply H0; right; auto.
Qed.

Lemma NoDup_map_in {A B} (f : A -> B) l : (forall x y, In x l -> In y l -> f x = f y -> x = y) -> NoDup l -> NoDup (map f l).
Proof.
  intros I N. induction N as [|x l NI N IH]; [constructor|]. cbn. constructor.
  - intro H. apply in_map_iff in H as (y & E & H). apply NI. rewrite (I x y); auto; [left|right]; auto.
  - apply IH. intros; apply I; auto; right; auto.
Qed.

Lemma fermat1 p a : prime p -> ~ (p | a) -> a ^ (p - 1) mod p = 1.
Proof.
  intros P ND. pose proof (prime_ge_2 p P) as P2.
  assert (NZ : forall x, 1 <= x < p -> ~ (p | a * x)).
  { intros x Hx D. apply prime_mult in D; auto. destruct D as [D|D]; auto. apply Z.divide_pos_le in D; lia. }
  assert (PM : Permutation (map (fun x => a * x mod p) (residues p)) (residues p)).
  { apply NoDup_Permutation_bis.
    - apply NoDup_map_in; [|apply residues_nodup]. intros x y Hx Hy E. apply residues_in in Hx, Hy.
      assert (D : (p | a * (x - y))).
      { exists (a * x / p - a * y / p). pose proof (Z.div_mod (a * x) p ltac:(lia)). pose proof (Z.div_mod (a * y) p ltac:(lia)). lia. }
      apply prime_mult in D; auto. destruct D as [D|[k D]]; [contradiction|]. assert (k = 0) by nia. lia.
    - rewrite map_length. auto.
    - intros y Hy. apply in_map_iff in Hy as (x & <- & Hx). apply residues_in in Hx. apply residues_in.
      pose proof (Z.mod_pos_bound (a * x) p ltac:(lia)). assert (a * x mod p <> 0); [|lia].
      intro E. apply (NZ x Hx). apply Zmod_divide; lia. }
  apply zprod_perm in PM. pose proof (zprod_scale a p (residues p) ltac:(lia)) as S. rewrite PM, residues_length, Z2Nat.id in S by lia.
  assert (NP : ~ (p | zprod (residues p))) by (apply zprod_coprime; auto; intros x; apply residues_in).
  assert (D : (p | (a ^ (p - 1) - 1) * zprod (residues p))).
  { set (A := a ^ (p - 1)) in *. set (Q := zprod (residues p)) in *. exists (A * Q / p - Q / p).
    pose proof (Z.div_mod (A * Q) p ltac:(lia)). pose proof (Z.div_mod Q p ltac:(lia)). lia. }
  apply prime_mult in D; auto. destruct D as [[k D]|D]; [|contradiction].
  replace (a ^ (p - 1)) with (1 + k * p) by lia. rewrite Z.mod_add by lia. apply Z.mod_small. lia.
Qed.

Lemma fermat p a : prime p -> 0 <= a -> a ^ p mod p = a mod p.
Proof.
  intros P Ha. pose proof (prime_ge_2 p P). replace p with (Z.succ (p - 1)) at 1 by lia. rewrite Z.pow_succ_r by lia.
  destruct (Zdivide_dec p a) as [D|D].
  - assert (E : a mod p = 0) by (apply Zdivide_mod; auto). rewrite Z.mul_mod, E, Z.mul_0_l, Z.mod_0_l by lia. reflexivity.
  - rewrite Z.mul_mod, fermat1, Z.mul_1_r, Z.mod_mod by (auto; lia). reflexivity.
Qed.
