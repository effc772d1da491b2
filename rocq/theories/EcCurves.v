(** The named curves. *)
From Coq Require Import ZArith Lia List.
From Verif Require Import Base MpiModel MpiSpec EcpModel EcSpec EcpSpec EcCurvesModel EcCurvesSpec.
Import ListNotations.
Open Scope Z_scope.

Definition on_curveb (p a b : Z) (P : ecpoint) : bool :=
  match P with
  | None => true
  | Some (x, y) => (0 <=? x) && (x <? p) && (0 <=? y) && (y <? p) && ((y * y) mod p =? (x * x * x + a * x + b) mod p)
  end.
Lemma on_curveb_ok p a b P : on_curveb p a b P = true -> on_curve p a b P.
Proof. destruct P as [[x y]|]; [|intros _; exact I]. unfold on_curveb, on_curve. rewrite !Bool.andb_true_iff, !Z.leb_le, !Z.ltb_lt, Z.eqb_eq. tauto. Qed.
Definition sane (c : curve) : bool :=
  on_curveb (cp c) (ca c) (cb c) (cg c) && negb ((4 * (ca c * ca c * ca c) + 27 * (cb c * cb c)) mod cp c =? 0).
Lemma sane_ok c : sane c = true -> on_curve (cp c) (ca c) (cb c) (cg c) /\ (4 * (ca c * ca c * ca c) + 27 * (cb c * cb c)) mod cp c <> 0.
Proof. unfold sane. rewrite Bool.andb_true_iff, Bool.negb_true_iff, Z.eqb_neq. intros [H1 H2]. split; [apply on_curveb_ok; exact H1|exact H2]. Qed.
Lemma all_sane : forallb (fun q => sane (snd q)) named = true.
Proof. vm_compute. reflexivity. Qed.

(** how the tables hold the coefficient a *)
Definition am_of (a : Z) : mpi := if a =? 0 then mkmpi false [0] else ofZ a.
Lemma am_of_rep a : a_rep (am_of a) a.
Proof. unfold am_of, a_rep. destruct (Z.eqb_spec a 0) as [->|]; auto. Qed.
Definition cgrp (c : curve) : grp := egrp (cp c) (am_of (ca c)) (cb c) (cg c) (cn c).
Lemma all_load : Forall (fun q => ecp_grp_load (fst q) = Ok (cgrp (snd q))) named.
Proof. repeat (constructor; [vm_compute; reflexivity|]). constructor. Qed.
Lemma load_other id : ~ In id (map fst named) -> ecp_grp_load id = Err (-1).
Proof.
  intro N. cbn in N. unfold ecp_grp_load. destruct id as [|q|q]; [exfalso; apply N; auto| |reflexivity].
  do 4 (destruct q as [q|q|]; try reflexivity; try (exfalso; apply N; tauto)).
Qed.
Theorem named_ok id c : In (id, c) named ->
  ecp_grp_load id = Ok (cgrp c) /\ on_curve (cp c) (ca c) (cb c) (cg c) /\ (4 * (ca c * ca c * ca c) + 27 * (cb c * cb c)) mod cp c <> 0.
Proof.
  intro H. split; [exact (proj1 (Forall_forall _ _) all_load _ H)|].
  apply sane_ok. exact (proj1 (forallb_forall _ _) all_sane _ H).
Qed.
