(** Two threads that turn one AES key round, on a concrete key; the start of the
    generator by two threads. *)
From Verif Require Import Base BytesSpec AesModel AesSpec Aes4 PrngModel ConcModel.

Definition ex_key : list Z := map Z.of_nat (seq 0 16).
Definition ex_src : list Z := map Z.of_nat (seq 32 16).
Fixpoint same (a b : list Z) : bool :=
  match a, b with
  | [], [] => true
  | x :: a, y :: b => (x =? y) && same a b
  | _, _ => false
  end.
Lemma same_refl a : same a a = true.
Proof. induction a as [|x a IH]; [reflexivity|]. cbn [same]. rewrite Z.eqb_refl. exact IH. Qed.
Definition ex_sch : list nat := ([0; 1; 0; 1] ++ repeat 0 12 ++ repeat 1 12)%nat.
Definition race (key src : list Z) (sch : list nat) (out : list Z) : bool :=
  match aes_key_set key with
  | Ok c =>
      match sched aes_step c [AStart false src; AStart false src] sch with
      | Ok (c, [ADone a; ADone b]) => negb (same a out || same b out || same (snd (aes_decrypt c src)) out)
      | _ => false
      end
  | _ => false
  end.
Lemma race_ok key src sch out : race key src sch out = true -> exists c c' a b, aes_key_set key = Ok c /\
  sched aes_step c [AStart false src; AStart false src] sch = Ok (c', [ADone a; ADone b]) /\
  a <> out /\ b <> out /\ snd (aes_decrypt c' src) <> out.
Proof.
  unfold race. intro R.
  destruct (aes_key_set key) as [c| | | ] eqn:E; try discriminate.
  destruct (sched aes_step c _ sch) as [[c' ts]| | | ] eqn:S; try discriminate.
  destruct ts as [|[| | | |a] [|[| | | |b] [|? ?]]]; try discriminate.
  apply Bool.negb_true_iff, Bool.orb_false_iff in R. destruct R as [R R3]. apply Bool.orb_false_iff in R. destruct R as [R1 R2].
  assert (N : forall l, same l out = false -> l <> out) by (intros l H ->; rewrite same_refl in H; discriminate).
  exists c, c', a, b. split; [reflexivity|]. split; [exact S|]. split; [apply N; exact R1|]. split; [apply N; exact R2|apply N; exact R3].
Qed.
Lemma race_ex : race ex_key ex_src ex_sch (fips_op ex_key (Dec ex_src)) = true.
Proof. vm_compute. reflexivity. Qed.
Lemma seq_bytes k n : (k + n <= 256)%nat -> bytes (map Z.of_nat (seq k n)).
Proof. intros H. apply Forall_forall. intros x Hx. apply in_map_iff in Hx. destruct Hx as (y & <- & Hy). apply in_seq in Hy. unfold byte. lia. Qed.
Lemma aes_race : exists key src c sch c' a b, bytes key /\ length key = 16%nat /\ bytes src /\ length src = 16%nat /\ aes_key_set key = Ok c /\
  sched aes_step c [AStart false src; AStart false src] sch = Ok (c', [ADone a; ADone b]) /\
  a <> fips_op key (Dec src) /\ b <> fips_op key (Dec src) /\ snd (aes_decrypt c' src) <> fips_op key (Dec src).
Proof.
  destruct (race_ok _ _ _ _ race_ex) as (c & c' & a & b & H).
  exists ex_key, ex_src, c, ex_sch, c', a, b.
  split; [apply seq_bytes; lia|]. split; [reflexivity|]. split; [apply seq_bytes; lia|]. split; [reflexivity|]. exact H.
Qed.
