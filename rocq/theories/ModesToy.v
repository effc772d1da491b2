(** A toy block cipher, for the examples and counterexamples about modes. *)
From Verif Require Import Base Modes.

Definition toyE (b : list Z) : list Z := map (fun x => (x + 1) mod 256) (rev b).
Definition toyD (b : list Z) : list Z := rev (map (fun x => (x - 1) mod 256) b).
Lemma toy_cipher n : cipher n toyE toyD.
Proof.
  unfold cipher, toyE, toyD. split; [|split; [|split]].
  - intros b H. now rewrite map_length, rev_length.
  - intros b H _. apply Forall_forall. intros x Hx. apply in_map_iff in Hx. destruct Hx as (y & <- & _).
    unfold byte. apply Z.mod_pos_bound. lia.
  - intros b H. now rewrite rev_length, map_length.
  - intros b H B. rewrite map_map. rewrite <- (rev_involutive b) at 2. f_equal.
    rewrite <- (map_id (rev b)) at 2. apply map_ext_in. intros x Hx. rewrite <- in_rev in Hx.
    pose proof (proj1 (Forall_forall _ _) B x Hx) as Bx. unfold byte in Bx.
    rewrite Zminus_mod_idemp_l. replace (x + 1 - 1) with x by ring. now apply Z.mod_small.
Qed.
