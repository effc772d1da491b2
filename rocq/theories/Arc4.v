(** Proofs about ARC4 and the affine cipher. *)
From Coq Require Import Permutation Znumtheory Zpow_facts.
From Verif Require Import Base Bits Lists MpiModel MpiAlgModel MpiAlg2 Arc4Model Arc4Spec.
Ltac Zify.zify_post_hook ::= idtac.

(** The table as a permutation. *)
Definition tab (s : list Z) : Prop := length s = 256%nat /\ bytes s /\ NoDup s.

Definition sw (s : list Z) (i j : nat) : list Z := upd (upd s i (nth j s 0)) j (nth i s 0).
Lemma sw_nth s i j x : (i < length s)%nat -> (j < length s)%nat ->
  nth x (sw s i j) 0 = if Nat.eqb x i then nth j s 0 else if Nat.eqb x j then nth i s 0 else nth x s 0.
Proof.
  intros Hi Hj. unfold sw. rewrite nth_upd by (rewrite upd_length; auto).
  rewrite nth_upd by auto.
  destruct (Nat.eqb_spec x j), (Nat.eqb_spec x i); subst; auto.
Qed.
Lemma sw_length s i j : length (sw s i j) = length s.
Proof. unfold sw. now rewrite !upd_length. Qed.
Lemma byte_nth s i : bytes s -> byte (nth i s 0).
Proof. intros H. apply Forall_nth_d; auto. unfold byte. lia. Qed.
Lemma sw_tab s i j : (i < 256)%nat -> (j < 256)%nat -> tab s -> tab (sw s i j).
Proof.
  intros Hi Hj (L & Hb & N). split; [|split].
  - now rewrite sw_length.
  - unfold sw. repeat apply Forall_upd; auto; apply byte_nth; auto.
  - apply (NoDup_nth _ 0). rewrite sw_length, L. intros p q Hp Hq.
    rewrite !sw_nth by lia. pose proof (proj1 (NoDup_nth s 0) N) as U. rewrite L in U.
    destruct (Nat.eqb_spec p i), (Nat.eqb_spec p j), (Nat.eqb_spec q i), (Nat.eqb_spec q j);
      intros E; apply U in E; lia.
Qed.
Lemma tab_perm s : tab s -> Permutation s (map Z.of_nat (seq 0 256)).
Proof.
  intros (L & Hb & N). apply NoDup_Permutation_bis; auto.
  - rewrite L. apply Nat.leb_le. reflexivity.
  - intros x Hx. apply in_map_iff. exists (Z.to_nat x).
    pose proof (proj1 (Forall_forall _ _) Hb x Hx) as B. unfold byte in B.
    split; [lia|]. apply in_seq. lia.
Qed.
Lemma init_tab : tab (map Z.of_nat (seq 0 256)).
Proof.
  split; [reflexivity|]. split.
  - apply Forall_forall. intros x Hx. apply in_map_iff in Hx. destruct Hx as (y & <- & Hy). apply in_seq in Hy. unfold byte. lia.
  - apply (FinFun.Injective_map_NoDup). { intros a b H. lia. } apply seq_NoDup.
Qed.

Lemma sched_tab n : forall i s j k key, (i + n <= 256)%nat -> tab s -> tab (arc4_sched n i s j k key).
Proof.
  induction n; intros i s j k key H T; [exact T|]. cbn [arc4_sched].
  apply IHn; [lia|]. apply (sw_tab s i); auto; lia.
Qed.
Lemma key_set_tab key c : arc4_key_set key = Ok c -> tab (a4s c).
Proof.
  destruct key; [discriminate|]. unfold arc4_key_set. intros H.
  apply (f_equal (fun r => match r with Ok c => a4s c | _ => [] end)) in H. cbn iota in H. rewrite <- H.
  cbn [a4s]. apply sched_tab; [lia|]. apply init_tab.
Qed.
Lemma next_tab c : tab (a4s c) -> tab (a4s (fst (arc4_next c))).
Proof.
  intros T. unfold arc4_next. cbn [fst a4s]. apply (sw_tab (a4s c)); auto; lia.
Qed.
Lemma crypt_tab l : forall c, tab (a4s c) -> tab (a4s (fst (arc4_crypt c l))).
Proof.
  induction l; intros c T; [exact T|]. cbn [arc4_crypt]. pose proof (next_tab c T) as N.
  destruct (arc4_next c) as [c1 k] eqn:E. specialize (IHl c1 N).
  destruct (arc4_crypt c1 l) as [c2 o]. exact IHl.
Qed.
(** contexts that can arise *)
Inductive arc4_reach : arc4 -> Prop :=
| reach_key key c : arc4_key_set key = Ok c -> arc4_reach c
| reach_crypt c l : arc4_reach c -> arc4_reach (fst (arc4_crypt c l)).
Lemma reach_perm c : arc4_reach c -> Permutation (a4s c) (map Z.of_nat (seq 0 256)).
Proof.
  intros H. apply tab_perm. induction H; [eapply key_set_tab; eauto|]. now apply crypt_tab.
Qed.

(** Data does not influence the state; the key stream. *)
Fixpoint arc4_ks (c : arc4) (n : nat) : arc4 * list Z :=
  match n with
  | O => (c, [])
  | S n => let '(c, k) := arc4_next c in let '(c, o) := arc4_ks c n in (c, k :: o)
  end.
Lemma crypt_ks l : forall c, arc4_crypt c l = (fst (arc4_ks c (length l)), xorl l (snd (arc4_ks c (length l)))).
Proof.
  induction l; intros c; [reflexivity|]. cbn [arc4_crypt length arc4_ks].
  destruct (arc4_next c) as [c1 k]. rewrite IHl. destruct (arc4_ks c1 (length l)) as [c2 o]. reflexivity.
Qed.
Lemma ks_length n : forall c, length (snd (arc4_ks c n)) = n.
Proof.
  induction n; intros c; [reflexivity|]. cbn [arc4_ks]. destruct (arc4_next c) as [c1 k].
  specialize (IHn c1). destruct (arc4_ks c1 n). simpl in *. lia.
Qed.
Lemma crypt_twice c m : arc4_crypt c (snd (arc4_crypt c m)) = (fst (arc4_crypt c m), m).
Proof.
  rewrite !crypt_ks. cbn [fst snd]. rewrite !xorl_length, ks_length, Nat.min_id.
  f_equal. apply xorl_invol. rewrite ks_length. auto.
Qed.
Lemma crypt_app a : forall c b, arc4_crypt c (a ++ b) =
  let '(c1, x) := arc4_crypt c a in let '(c2, y) := arc4_crypt c1 b in (c2, x ++ y).
Proof.
  induction a; intros c b; cbn [arc4_crypt app].
  - destruct (arc4_crypt c b); auto.
  - destruct (arc4_next c) as [c1 k]. rewrite IHa.
    destruct (arc4_crypt c1 a0) as [c2 x]. destruct (arc4_crypt c2 b) as [c3 y]. reflexivity.
Qed.
(** successive calls *)
Fixpoint arc4_calls (c : arc4) (ls : list (list Z)) : arc4 * list (list Z) :=
  match ls with
  | [] => (c, [])
  | l :: r => let '(c, o) := arc4_crypt c l in let '(c, os) := arc4_calls c r in (c, o :: os)
  end.
Lemma calls_concat ls : forall c, arc4_crypt c (concat ls) = (fst (arc4_calls c ls), concat (snd (arc4_calls c ls))).
Proof.
  induction ls; intros c; [reflexivity|]. cbn [concat arc4_calls]. rewrite crypt_app.
  destruct (arc4_crypt c a) as [c1 o]. rewrite IHls. destruct (arc4_calls c1 ls). reflexivity.
Qed.

(** Agreement with the published generator *)
Definition agree (s : list Z) (F : Z -> Z) : Prop := forall x, 0 <= x < 256 -> nth (Z.to_nat x) s 0 = F x.
Lemma sw_agree s F i j : length s = 256%nat -> 0 <= i < 256 -> 0 <= j < 256 -> agree s F ->
  agree (sw s (Z.to_nat i) (Z.to_nat j)) (swap F i j).
Proof.
  intros L Hi Hj A x Hx. rewrite sw_nth by lia. unfold swap.
  destruct (Nat.eqb_spec (Z.to_nat x) (Z.to_nat i)), (Z.eqb_spec x i); try lia; [now apply A|].
  destruct (Nat.eqb_spec (Z.to_nat x) (Z.to_nat j)), (Z.eqb_spec x j); try lia; now apply A.
Qed.
Lemma sched_agree n : forall i s j k key F, (i + n <= 256)%nat -> length s = 256%nat -> key <> [] ->
  k = Z.to_nat (Z.of_nat i mod Z.of_nat (length key)) -> agree s F ->
  agree (arc4_sched n i s j k key) (rc4_sched n (Z.of_nat i) F j key).
Proof.
  induction n; intros i s j k key F H L Hk Ek A; [exact A|]. cbn [arc4_sched rc4_sched].
  assert (Lk : 0 < Z.of_nat (length key)) by (destruct key; [congruence|simpl; lia]).
  assert (Ai : nth i s 0 = F (Z.of_nat i)). { rewrite <- (Nat2Z.id i) at 1. apply A. lia. }
  set (j1 := (j + nth i s 0 + nth k key 0) mod 256).
  assert (E1 : (j + F (Z.of_nat i) + nth (Z.to_nat (Z.of_nat i mod Z.of_nat (length key))) key 0) mod 256 = j1).
  { unfold j1. rewrite Ai, Ek. reflexivity. }
  rewrite E1.
  assert (Hj : 0 <= j1 < 256) by (apply Z.mod_pos_bound; lia). clearbody j1.
  replace (Z.of_nat i + 1) with (Z.of_nat (S i)) by lia.
  apply IHn; auto; try lia.
  - now rewrite !upd_length.
  - pose proof (Z.mod_pos_bound (Z.of_nat i) _ Lk) as M.
    replace (Z.of_nat (S i)) with (Z.of_nat i + 1) by lia.
    destruct (Nat.eqb_spec (S k) (length key)) as [E|E].
    + symmetry. replace 0%nat with (Z.to_nat 0) by reflexivity. f_equal.
      rewrite <- Zplus_mod_idemp_l. replace (_ + 1) with (Z.of_nat (length key)) by lia. apply Z_mod_same_full.
    + rewrite <- Zplus_mod_idemp_l. rewrite Z.mod_small by lia. lia.
  - pose proof (sw_agree s F (Z.of_nat i) j1 L) as G. rewrite Nat2Z.id in G. apply G; auto. lia.
Qed.
Lemma ks_agree n : forall c F, length (a4s c) = 256%nat -> agree (a4s c) F ->
  snd (arc4_ks c n) = rc4_gen n (a4x c) (a4y c) F.
Proof.
  induction n; intros c F L A; [reflexivity|]. cbn [arc4_ks rc4_gen]. unfold arc4_next.
  set (x := (a4x c + 1) mod 256). assert (Hx : 0 <= x < 256) by (apply Z.mod_pos_bound; lia).
  rewrite (A x Hx). set (y := (a4y c + F x) mod 256). assert (Hy : 0 <= y < 256) by (apply Z.mod_pos_bound; lia).
  rewrite (A y Hy). clearbody x y.
  set (s1 := upd _ (Z.to_nat y) _).
  assert (As : agree s1 (swap F x y)).
  { unfold s1. rewrite <- (A x Hx), <- (A y Hy). apply (sw_agree (a4s c)); auto. }
  assert (Ls : length s1 = 256%nat) by (unfold s1; rewrite !upd_length; auto).
  specialize (IHn {| a4x := x; a4y := y; a4s := s1 |} (swap F x y) Ls As). cbn [a4x a4y a4s] in IHn.
  destruct (arc4_ks _ n) as [c2 o]. cbn [snd] in *. rewrite IHn. f_equal.
  replace (swap F x y x + swap F x y y) with (F x + F y).
  { apply As. apply Z.mod_pos_bound. lia. }
  unfold swap. rewrite Z.eqb_refl. destruct (Z.eqb_spec y x); subst; rewrite ?Z.eqb_refl; lia.
Qed.
Lemma arc4_is_rc4 key c m : arc4_key_set key = Ok c ->
  snd (arc4_crypt c m) = xorl m (rc4_stream key (length m)).
Proof.
  intros H. pose proof (key_set_tab _ _ H) as (L & _). rewrite crypt_ks. cbn [snd]. f_equal.
  destruct key as [|k0 key]; [discriminate|].
  assert (E : c = {| a4x := 0; a4y := 0; a4s := arc4_sched 256 0 (map Z.of_nat (seq 0 256)) 0 0 (k0 :: key) |}).
  { unfold arc4_key_set in H. congruence. }
  unfold rc4_stream. rewrite (ks_agree _ c (rc4_sched 256 0 (fun x => x) 0 (k0 :: key)) L).
  - subst c. reflexivity.
  - rewrite E. cbn [a4s]. apply (sched_agree 256 0); auto; try lia. { discriminate. }
    intros x Hx. rewrite nth_indep with (d' := Z.of_nat 0) by (rewrite map_length, seq_length; lia).
    rewrite map_nth, seq_nth by lia. lia.
Qed.

(** Affine cipher *)
Lemma land1_odd a : (Z.land a 1 =? 1) = Z.odd a.
Proof.
  change 1 with (Z.ones 1) at 1. rewrite Z.land_ones by lia. change (2 ^ 1) with 2.
  rewrite Zmod_odd. now destruct (Z.odd a).
Qed.
Lemma odd_gcd a : Z.odd a = true -> Z.gcd a 256 = 1.
Proof.
  intros H. apply Zgcd_1_rel_prime. change 256 with (2 ^ 8).
  apply rel_prime_Zpower_r; [lia|]. apply Zgcd_1_rel_prime. apply Z.odd_spec in H. destruct H as [k ->].
  rewrite Z.gcd_comm, Z.mul_comm. rewrite Z.add_comm, Z.gcd_add_mult_diag_r. reflexivity.
Qed.
Lemma invs_ok l : bytes l -> forallb Z.odd l = true ->
  exists v, affine_invs l = Ok v /\ length v = length l /\ forall k, (k < length l)%nat -> (nth k l 0 * nth k v 0) mod 256 = 1.
Proof.
  induction l as [|a l IH]; intros Hb H; [exists []; repeat split; simpl; lia|].
  inversion Hb; subst. cbn [forallb] in H. apply andb_true_iff in H. destruct H as [Ho Hl].
  destruct (IH H3 Hl) as (v & E & L & P). cbn [affine_invs]. rewrite land1_odd, Ho. cbn [negb].
  unfold byte in *.
  destruct (long_inv_some a 256) as (r & Er & Br & Mr); try lia. { now apply odd_gcd. }
  rewrite Er. cbn [bind]. rewrite E. cbn [bind]. eexists. split; [reflexivity|].
  split; [simpl; lia|]. intros [|k] Hk; simpl in *.
  - rewrite Zmult_mod_idemp_r. exact Mr.
  - apply P. lia.
Qed.
Lemma invs_bad l : bytes l -> forallb Z.odd l = false -> affine_invs l = Err (-1).
Proof.
  induction l as [|a l IH]; intros Hb H; [discriminate|]. inversion Hb; subst.
  cbn [forallb] in H. cbn [affine_invs]. rewrite land1_odd. destruct (Z.odd a) eqn:Ho; [|reflexivity].
  cbn [negb andb] in *. unfold byte in *. destruct (long_inv_some a 256) as (r & Er & _); try lia. { now apply odd_gcd. }
  rewrite Er. cbn [bind]. rewrite IH by auto. reflexivity.
Qed.
Lemma at_ok l k : (k < length l)%nat -> at_ l k = Ok (nth k l 0).
Proof. intros H. unfold at_. rewrite (nth_error_nth' l 0 H). reflexivity. Qed.
Lemma affine_round c : afn c <> O -> (afn c <= keymax)%nat -> length (afa c) = keymax -> length (afb c) = keymax -> length (afi c) = keymax ->
  (forall k, (k < afn c)%nat -> (nth k (afa c) 0 * nth k (afi c) 0) mod 256 = 1) ->
  forall l k, bytes l -> (k < afn c)%nat -> exists e, affine_enc c k l = Ok e /\ length e = length l /\ bytes e /\ affine_dec c k e = Ok l.
Proof.
  intros N0 Nk La Lb Li P. induction l as [|x l IH]; intros k Hb Hk.
  { exists []. repeat split; constructor. }
  inversion Hb; subst. cbn [affine_enc].
  rewrite !at_ok by lia. cbn [bind].
  destruct (IH (if Nat.eqb (S k) (afn c) then O else S k)) as (e & E & L & B & D); auto.
  { destruct (Nat.eqb_spec (S k) (afn c)); lia. }
  rewrite E. cbn [bind]. eexists. split; [reflexivity|]. split; [simpl; lia|].
  split. { constructor; auto. unfold byte. apply Z.mod_pos_bound. lia. }
  cbn [affine_dec]. rewrite !at_ok by lia. cbn [bind]. rewrite D. cbn [bind]. do 2 f_equal.
  set (a := nth k (afa c) 0) in *. set (i := nth k (afi c) 0) in *. set (b := nth k (afb c) 0).
  specialize (P k Hk). fold a i in P. rewrite Zmult_mod, Zminus_mod_idemp_l, <- Zmult_mod.
  replace ((x * a + b - b) * i) with (x * (a * i)) by ring.
  rewrite <- Zmult_mod_idemp_r, P, Z.mul_1_r. unfold byte in *. apply Z.mod_small. lia.
Qed.
Lemma pad32_length l : (length l <= keymax)%nat -> length (pad32 l) = keymax.
Proof. intros H. unfold pad32. rewrite app_length, repeat_length. lia. Qed.
Lemma pad32_nth l k : (k < length l)%nat -> nth k (pad32 l) 0 = nth k l 0.
Proof. intros H. unfold pad32. now rewrite app_nth1. Qed.
Lemma affine_ok ka kb : bytes ka -> length kb = length ka -> (1 <= length ka)%nat ->
  forallb Z.odd (firstn 32 ka) = true ->
  exists c, affine_init ka kb = Ok c /\ forall m, bytes m -> exists e, affine_encrypt c m = Ok e /\ length e = length m /\ affine_decrypt c e = Ok m.
Proof.
  intros Hb L N H. unfold affine_init.
  assert (F : forallb Z.odd (firstn (Nat.min keymax (length ka)) ka) = true).
  { unfold keymax. destruct (Nat.min_spec 32 (length ka)) as [[_ ->]|[? ->]]; auto.
    rewrite firstn_all. rewrite firstn_all2 in H by auto. exact H. }
  set (n := Nat.min keymax (length ka)) in *.
  assert (Ln : length (firstn n ka) = n) by (rewrite firstn_length; unfold n; lia).
  destruct (invs_ok (firstn n ka)) as (v & E & Lv & P); auto. { now apply bytes_firstn. }
  rewrite E. cbn [bind]. eexists. split; [reflexivity|]. intros m Hm.
  assert (n <= 32)%nat by (unfold n, keymax; lia). assert (n <> O) by (unfold n, keymax; lia).
  set (c := Build_affine _ _ _ _).
  destruct (affine_round c) with (l := m) (k := O) as (e & E1 & L1 & _ & D1); auto; unfold c; cbn [afn afa afb afi]; auto.
  - apply pad32_length. lia.
  - apply pad32_length. rewrite firstn_length. unfold keymax. lia.
  - apply pad32_length. unfold keymax. lia.
  - intros k Hk. rewrite !pad32_nth by lia. apply P. lia.
  - lia.
  - exists e. auto.
Qed.
Lemma affine_bad ka kb : bytes ka -> forallb Z.odd (firstn 32 ka) = false -> affine_init ka kb = Err (-1).
Proof.
  intros Hb H. unfold affine_init. rewrite invs_bad; auto. { now apply bytes_firstn. }
  unfold keymax. destruct (Nat.min_spec 32 (length ka)) as [[_ ->]|[? ->]]; auto.
  rewrite firstn_all. rewrite firstn_all2 in H by auto. exact H.
Qed.
Lemma affine_short ka kb : (length ka <= 32)%nat -> length kb = length ka -> (1 <= length ka)%nat -> bytes ka ->
  (forallb Z.odd ka = true -> exists c, affine_init ka kb = Ok c /\
     forall m, bytes m -> exists e, affine_encrypt c m = Ok e /\ length e = length m /\ affine_decrypt c e = Ok m) /\
  (forallb Z.odd ka = false -> affine_init ka kb = Err (-1)).
Proof.
  intros H L N Hb. rewrite <- (firstn_all2 ka H). split; intros F.
  - rewrite firstn_all2 in * by auto. apply affine_ok; auto. now rewrite firstn_all2.
  - rewrite firstn_all2 in * by auto. apply affine_bad; auto. now rewrite firstn_all2.
Qed.
