(** Proofs for C92: ownership of digit buffers. *)
From Verif Require Import Base LifeModel LifeSpec.

Lemma upd_same {A} (f : nat -> A) o x : upd f o x o = x.
Proof. unfold upd. now rewrite Nat.eqb_refl. Qed.
Lemma upd_other {A} (f : nat -> A) o x y : y <> o -> upd f o x y = f y.
Proof. intros H. unfold upd. destruct (Nat.eqb_spec y o); congruence. Qed.

(** A new state in which [o] holds what it held, or a fresh block. *)
Lemma fresh_dead s : well_owned s -> live s (asked s) = false.
Proof. intros (_ & _ & _ & W4 & _). destruct (live s (asked s)) eqn:E; [|reflexivity]. apply W4 in E. lia. Qed.

(** Replacing an object that owns nothing by one that owns nothing. *)
Lemma wo_replace s o x n : well_owned s -> idle s o -> (forall b, data x <> Some (Heap b)) -> (data x = Some Static -> alloc x = Some 0%nat) -> (asked s <= n)%nat ->
  well_owned (mkst (upd (objs s) o x) (live s) n).
Proof.
  intros (W1 & W2 & W3 & W4 & W5) I D St Hn. unfold well_owned, owns in *; cbn [objs live asked].
  assert (K : forall y b, data (upd (objs s) o x y) = Some (Heap b) -> y <> o /\ data (objs s y) = Some (Heap b)).
  { intros y b H. destruct (Nat.eq_dec y o) as [->|N]; [rewrite upd_same in H; destruct (D b H)|]. rewrite upd_other in H by exact N. auto. }
  split; [|split; [|split; [|split]]].
  - intros y b H. apply K in H. destruct H as [N H]. rewrite upd_other by exact N. apply W1; exact H.
  - intros y1 y2 b H1 H2. apply K in H1, H2. eapply W2; [apply H1|apply H2].
  - intros b H. destruct (W3 b H) as [y Hy]. exists y. rewrite upd_other; [exact Hy|]. intros ->. exact (I b Hy).
  - intros b H. apply W4 in H. lia.
  - intros y H. destruct (Nat.eq_dec y o) as [->|N]; [rewrite upd_same in *; auto|]. rewrite upd_other in * by exact N. auto.
Qed.

(** Giving a fresh block to an object that owns nothing. *)
Lemma wo_new s o k : well_owned s -> idle s o ->
  well_owned (mkst (upd (objs s) o (mkobj (Some (Heap (asked s))) (Some (S k)))) (upd (live s) (asked s) true) (S (asked s))).
Proof.
  intros W I. pose proof (fresh_dead s W) as F. destruct W as (W1 & W2 & W3 & W4 & W5). unfold well_owned, owns in *; cbn [objs live asked].
  assert (K : forall y b, data (upd (objs s) o (mkobj (Some (Heap (asked s))) (Some (S k))) y) = Some (Heap b) ->
    (y = o /\ b = asked s) \/ (y <> o /\ b <> asked s /\ data (objs s y) = Some (Heap b))).
  { intros y b H. destruct (Nat.eq_dec y o) as [->|N].
    - rewrite upd_same in H. cbn in H. injection H as <-. auto.
    - rewrite upd_other in H by exact N. right. split; [exact N|]. split; [|exact H]. intros ->. destruct (W1 _ _ H) as [L _]. congruence. }
  split; [|split; [|split; [|split]]].
  - intros y b H. destruct (K y b H) as [[-> ->]|(N & Nb & H')].
    + rewrite !upd_same. split; [reflexivity|]. exists k. reflexivity.
    + rewrite !upd_other by assumption. apply W1; exact H'.
  - intros y1 y2 b H1 H2. destruct (K _ _ H1) as [[-> ->]|(N & Nb & H1')], (K _ _ H2) as [[-> E]|(N2 & Nb2 & H2')]; try congruence.
    eapply W2; eassumption.
  - intros b H. destruct (Nat.eq_dec b (asked s)) as [->|Nb].
    + exists o. rewrite upd_same. reflexivity.
    + rewrite upd_other in H by exact Nb. destruct (W3 b H) as [y Hy]. exists y. rewrite upd_other; [exact Hy|]. intros ->. exact (I b Hy).
  - intros b H. destruct (Nat.eq_dec b (asked s)) as [->|Nb]; [lia|]. rewrite upd_other in H by exact Nb. apply W4 in H. lia.
  - intros y H. destruct (Nat.eq_dec y o) as [->|N]; [rewrite upd_same in H; discriminate|]. rewrite upd_other in * by exact N. auto.
Qed.

(** Taking its block from an object. *)
Lemma wo_free s o b x : well_owned s -> owns s o b -> (forall b, data x <> Some (Heap b)) -> data x <> Some Static ->
  well_owned (mkst (upd (objs s) o x) (upd (live s) b false) (asked s)).
Proof.
  intros (W1 & W2 & W3 & W4 & W5) O D St. unfold well_owned, owns in *; cbn [objs live asked].
  assert (K : forall y c, data (upd (objs s) o x y) = Some (Heap c) -> y <> o /\ c <> b /\ data (objs s y) = Some (Heap c)).
  { intros y c H. destruct (Nat.eq_dec y o) as [->|N]; [rewrite upd_same in H; destruct (D c H)|]. rewrite upd_other in H by exact N. split; [exact N|]. split; [|exact H].
    intros ->. apply N. eapply W2; eassumption. }
  split; [|split; [|split; [|split]]].
  - intros y c H. destruct (K y c H) as (N & Nc & H'). rewrite !upd_other by assumption. apply W1; exact H'.
  - intros y1 y2 c H1 H2. destruct (K _ _ H1) as (_ & _ & H1'), (K _ _ H2) as (_ & _ & H2'). eapply W2; eassumption.
  - intros c H. destruct (Nat.eq_dec c b) as [->|Nc]; [rewrite upd_same in H; discriminate|]. rewrite upd_other in H by exact Nc.
    destruct (W3 c H) as [y Hy]. exists y. rewrite upd_other; [exact Hy|]. intros ->. apply Nc. rewrite O in Hy. congruence.
  - intros c H. destruct (Nat.eq_dec c b) as [->|Nc]; [rewrite upd_same in H; discriminate|]. rewrite upd_other in H by exact Nc. apply W4; exact H.
  - intros y H. destruct (Nat.eq_dec y o) as [->|N]; [rewrite upd_same in H; congruence|]. rewrite upd_other in * by exact N. auto.
Qed.

Lemma clear_ok o s : well_owned s -> data (objs s o) <> None ->
  exists s', mpi_clear o s = Done 0 s' /\ well_owned s' /\ objs s' o = void /\ (forall y, y <> o -> objs s' y = objs s y) /\
    (forall b, live s' b = true <-> live s b = true /\ ~ owns s o b).
Proof.
  intros W N. pose proof W as (W1 & W2 & W3 & W4 & W5). unfold mpi_clear.
  destruct (data (objs s o)) as [[|b|]|] eqn:E; [| | |congruence].
  - eexists. split; [reflexivity|]. unfold set_obj. split; [apply wo_replace; auto; try discriminate; intros b; unfold owns; congruence|]. cbn [objs live].
    split; [apply upd_same|]. split; [intros; now apply upd_other|]. unfold owns. intros b. rewrite E. split; [intros H; split; [exact H|discriminate]|tauto].
  - destruct (W1 o b E) as [L [k A]]. rewrite A, L. eexists. split; [reflexivity|]. split; [apply wo_free; auto; discriminate|]. cbn [objs live].
    split; [apply upd_same|]. split; [intros; now apply upd_other|]. unfold owns. intros c. rewrite E. destruct (Nat.eq_dec c b) as [->|Nc].
    + rewrite upd_same. split; [discriminate|]. intros [_ H]. destruct H. reflexivity.
    + rewrite upd_other by exact Nc. split; [intros H; split; [exact H|congruence]|tauto].
  - rewrite (W5 o E). eexists. split; [reflexivity|]. unfold set_obj. split; [apply wo_replace; auto; try discriminate; intros b; unfold owns; congruence|]. cbn [objs live].
    split; [apply upd_same|]. split; [intros; now apply upd_other|]. unfold owns. intros b. rewrite E. split; [intros H; split; [exact H|discriminate]|tauto].
Qed.

Lemma clear_list_ok l : forall s, well_owned s -> (forall o, In o l -> data (objs s o) <> None) ->
  exists s', clear_list l s = Done 0 s' /\ well_owned s' /\ (forall o, In o l -> objs s' o = void) /\ (forall y, ~ In y l -> objs s' y = objs s y) /\
    (forall b, live s' b = true <-> live s b = true /\ forall o, In o l -> ~ owns s o b).
Proof.
  induction l as [|o l IH]; intros s W D.
  - exists s. split; [reflexivity|]. split; [exact W|]. split; [intros o []|]. split; [reflexivity|]. intros b. split; [intros H; split; [exact H|intros o []]|tauto].
  - destruct (clear_ok o s W (D o (or_introl eq_refl))) as (s1 & E1 & W1 & V1 & F1 & L1). cbn [clear_list]. rewrite E1. cbn [andthen].
    assert (D1 : forall y, In y l -> data (objs s1 y) <> None).
    { intros y Hy. destruct (Nat.eq_dec y o) as [->|N]; [rewrite V1; discriminate|]. rewrite F1 by exact N. apply D. now right. }
    destruct (IH s1 W1 D1) as (s2 & E2 & W2 & V2 & F2 & L2). exists s2. split; [exact E2|]. split; [exact W2|]. split; [|split].
    + intros y [<-|Hy]; [|apply V2; exact Hy]. destruct (in_dec Nat.eq_dec o l) as [H|H]; [apply V2; exact H|]. rewrite F2 by exact H. exact V1.
    + intros y Hy. rewrite F2 by (intros H; apply Hy; now right). apply F1. intros ->. apply Hy. now left.
    + intros b. rewrite L2, L1. split.
      * intros [[H1 H2] H3]. split; [exact H1|]. intros y [<-|Hy]; [exact H2|]. destruct (Nat.eq_dec y o) as [->|N]; [exact H2|]. unfold owns. rewrite <- F1 by exact N. apply (H3 y Hy).
      * intros [H1 H2]. split; [split; [exact H1|apply H2; now left]|]. intros y Hy. unfold owns. destruct (Nat.eq_dec y o) as [->|N]; [rewrite V1; discriminate|].
        rewrite F1 by exact N. apply (H2 y). now right.
Qed.

Section Requests.
Variable gr : nat -> bool.

Definition given (s s' : st) (o : nat) : Prop := exists b, objs s' o = mkobj (Some (Heap b)) (Some quantum) /\ live s b = false.

Lemma init_ok o s : well_owned s -> idle s o ->
  exists rc s', mpi_init gr o s = Done rc s' /\ well_owned s' /\ (forall y, y <> o -> objs s' y = objs s y) /\ asked s' = S (asked s) /\
    (gr (asked s) = true /\ rc = 0 /\ given s s' o /\ (forall b, live s' b = true <-> live s b = true \/ owns s' o b) \/
     gr (asked s) = false /\ rc = -1 /\ data (objs s' o) = Some Null /\ forall b, live s' b = live s b).
Proof.
  intros W I. unfold mpi_init. destruct (gr (asked s)) eqn:G.
  - eexists 0, _. split; [reflexivity|]. split; [apply wo_new; assumption|]. cbn [objs live asked]. split; [intros; now apply upd_other|]. split; [reflexivity|]. left. split; [reflexivity|].
    split; [reflexivity|]. split.
    + exists (asked s). cbn [objs]. split; [apply upd_same|apply fresh_dead; exact W].
    + intros b. unfold owns; cbn [objs]. rewrite upd_same. cbn [data]. destruct (Nat.eq_dec b (asked s)) as [->|N].
      * rewrite upd_same. tauto.
      * rewrite upd_other by exact N. split; [tauto|]. intros [H|H]; [exact H|congruence].
  - eexists (-1), _. split; [reflexivity|]. split; [apply wo_replace; auto; discriminate|]. cbn [objs live asked]. split; [intros; now apply upd_other|]. split; [reflexivity|]. right.
    split; [reflexivity|]. split; [reflexivity|]. split; [rewrite upd_same; reflexivity|reflexivity].
Qed.

(** What a set-up call leaves: the objects of [l] each given a block, or nothing. *)
Definition made (l : list nat) (s s' : st) (rc : Z) : Prop :=
  well_owned s' /\ (forall y, ~ In y l -> objs s' y = objs s y) /\ (asked s <= asked s')%nat /\
  (rc = 0 /\ (forall o, In o l -> given s s' o) /\ (forall b, live s' b = true <-> live s b = true \/ exists o, In o l /\ owns s' o b) \/
   rc = -1 /\ (forall o, In o l -> idle s' o) /\ (forall b, live s' b = live s b)).

Lemma bool_iff a b : (a = true <-> b = true) -> a = b.
Proof. destruct a, b; intros [H1 H2]; auto. symmetry. auto. Qed.

Lemma given_mono s s1 s' o : (forall b, live s b = true -> live s1 b = true) -> given s1 s' o -> given s s' o.
Proof. intros M (b & E & L). exists b. split; [exact E|]. destruct (live s b) eqn:X; [|reflexivity]. apply M in X. congruence. Qed.

(** One set-up after another. *)
Lemma made_seq l1 l2 s s1 s2 : (forall o, In o l1 -> ~ In o l2) -> made l1 s s1 0 -> made l2 s1 s2 0 -> made (l1 ++ l2) s s2 0.
Proof.
  intros D (W1 & F1 & A1 & [(_ & G1 & L1)|(X & _)]) (W2 & F2 & A2 & [(_ & G2 & L2)|(X' & _)]); try discriminate. split; [exact W2|]. split; [|split; [lia|left; split; [reflexivity|split]]].
  - intros y H. rewrite in_app_iff in H. rewrite F2, F1 by tauto. reflexivity.
  - intros o H. apply in_app_iff in H. destruct H as [H|H].
    + destruct (G1 o H) as (b & E & L). exists b. rewrite F2 by (apply D; exact H). auto.
    + eapply given_mono; [|apply G2; exact H]. intros b Hb. apply L1. now left.
  - intros b. rewrite L2, L1. split.
    + intros [[H|(o & H & O)]|(o & H & O)]; [now left| |]; right; exists o; rewrite in_app_iff; [|tauto]. split; [now left|]. unfold owns. rewrite F2 by (apply D; exact H). exact O.
    + intros [H|(o & H & O)]; [tauto|]. apply in_app_iff in H. destruct H as [H|H]; [|right; exists o; auto]. left. right. exists o. split; [exact H|]. unfold owns in *. rewrite F2 in O by (apply D; exact H). exact O.
Qed.

(** A set-up that fails after another, once the first is cleared. *)
Lemma made_undo l1 l2 s s1 s2 : (forall o, In o l1 -> ~ In o l2) -> (forall o, In o l1 -> idle s o) -> made l1 s s1 0 -> made l2 s1 s2 (-1) ->
  exists s3, clear_list l1 s2 = Done 0 s3 /\ made (l1 ++ l2) s s3 (-1) /\ (forall o, In o l1 -> objs s3 o = void) /\ (forall o, ~ In o l1 -> objs s3 o = objs s2 o).
Proof.
  intros D I (W1 & F1 & A1 & [(_ & G1 & L1)|(X & _)]) (W2 & F2 & A2 & [(X' & _)|(_ & G2 & L2)]); try discriminate.
  assert (K : forall o, In o l1 -> objs s2 o = objs s1 o) by (intros o H; apply F2, D, H).
  destruct (clear_list_ok l1 s2 W2) as (s3 & E3 & W3 & V3 & F3 & L3).
  { intros o H. rewrite K by exact H. destruct (G1 o H) as (b & E & _). rewrite E. discriminate. }
  exists s3. split; [exact E3|]. split; [|split; [exact V3|exact F3]]. split; [exact W3|]. split; [|split].
  - intros y H. rewrite in_app_iff in H. rewrite F3, F2, F1 by tauto. reflexivity.
  - assert (Q : asked s3 = asked s2).
    { clear - E3. revert s2 E3. induction l1 as [|o l IH]; intros s2 E; cbn in E; [congruence|]. unfold mpi_clear in E.
      destruct (data (objs s2 o)) as [[|b|]|]; [| | |discriminate].
      - cbn in E. apply IH in E. exact E.
      - destruct (alloc (objs s2 o)) as [[|k]|]; [| |discriminate]; [cbn in E; apply IH in E; exact E|]. destruct (live s2 b); [|discriminate]. cbn in E. apply IH in E. exact E.
      - destruct (alloc (objs s2 o)) as [[|k]|]; try discriminate. cbn in E; apply IH in E; exact E. }
    lia.
  - right. split; [reflexivity|]. split.
    + intros o H b. unfold owns. destruct (in_dec Nat.eq_dec o l1) as [H1|H1]; [rewrite V3 by exact H1; discriminate|]. rewrite F3 by exact H1. apply in_app_iff in H. destruct H as [H|H]; [contradiction|]. apply G2. exact H.
    + intros b. apply bool_iff. rewrite L3, L2, L1. split.
      * intros [[H|(o & H & O)] H3]; [exact H|]. destruct (H3 o H). unfold owns. rewrite K by exact H. exact O.
      * intros H. split; [now left|]. intros o Ho O. unfold owns in O. rewrite K in O by exact Ho. destruct (G1 o Ho) as (c & E & Lc). rewrite E in O. cbn in O. injection O as ->. congruence.
Qed.

Lemma made_one o s : well_owned s -> idle s o -> exists rc s', mpi_init gr o s = Done rc s' /\ made [o] s s' rc /\ (gr (asked s) = true -> rc = 0).
Proof.
  intros W I. destruct (init_ok o s W I) as (rc & s' & E & W' & F & A & H). exists rc, s'. split; [exact E|]. split.
  - split; [exact W'|]. split; [intros y Hy; apply F; cbn in Hy; intuition|]. split; [lia|]. destruct H as [(_ & -> & G & L)|(_ & -> & N & L)].
    + left. split; [reflexivity|]. split; [intros y [<-|[]]; exact G|]. intros b. rewrite L. split; [intros [H|H]; [now left|right; exists o; cbn; auto]|intros [H|(y & [<-|[]] & H)]; auto].
    + right. split; [reflexivity|]. split; [intros y [<-|[]] b; unfold owns; congruence|exact L].
  - intros G. destruct H as [(_ & H & _)|(H & _)]; [exact H|congruence].
Qed.

Lemma made_nil s : well_owned s -> made [] s s 0.
Proof. intros W. split; [exact W|]. split; [reflexivity|]. split; [lia|]. left. split; [reflexivity|]. split; [intros o []|]. intros b. split; [tauto|]. intros [H|(o & [] & _)]. exact H. Qed.

Lemma made_rc l s s' rc : made l s s' rc -> rc = 0 \/ rc = -1.
Proof. intros (_ & _ & _ & [(-> & _)|(-> & _)]); auto. Qed.

Lemma init_list_gen l : forall done s0 s, NoDup (done ++ l) -> (forall o, In o (done ++ l) -> idle s0 o) -> made done s0 s 0 ->
  exists rc s', init_list gr done l s = Done rc s' /\ made (done ++ l) s0 s' rc /\ ((forall k, gr k = true) -> rc = 0).
Proof.
  induction l as [|o l IH]; intros done s0 s ND I M.
  - exists 0, s. rewrite app_nil_r. cbn. auto.
  - cbn [init_list]. pose proof M as (W & F & _).
    assert (No : ~ In o done) by (intros H; apply NoDup_remove_2 in ND; apply ND; rewrite in_app_iff; auto).
    assert (Io : idle s o). { intros b. unfold owns. rewrite F by exact No. apply I. rewrite in_app_iff. cbn. auto. }
    destruct (made_one o s W Io) as (rc & s1 & E1 & M1 & G1). rewrite E1. cbn [andthen].
    assert (Dj : forall y, In y done -> ~ In y [o]) by (intros y H [<-|[]]; contradiction).
    destruct (made_rc _ _ _ _ M1) as [-> | ->].
    + cbn [Z.eqb]. destruct (IH (done ++ [o]) s0 s1) as (rc & s2 & E2 & M2 & G2).
      * rewrite <- app_assoc. exact ND.
      * rewrite <- app_assoc. exact I.
      * eapply made_seq; eassumption.
      * rewrite <- app_assoc in M2. exists rc, s2. auto.
    + change (-1 =? 0) with false. cbv beta iota. destruct (made_undo done [o] s0 s s1 Dj) as (s3 & E3 & M3 & V3 & F3); auto.
      { intros y H. apply I. rewrite in_app_iff. auto. }
      rewrite E3. cbn [andthen]. exists (-1), s3. split; [reflexivity|]. split; [|intros A; discriminate (G1 (A _))].
      destruct M3 as (W3 & Fr & A3 & [(X & _)|(_ & Id & L3)]); [discriminate|]. split; [exact W3|]. split; [|split; [exact A3|right; split; [reflexivity|split; [|exact L3]]]].
      * intros y H. apply Fr. rewrite in_app_iff in *. cbn in *. tauto.
      * intros y H. destruct (in_dec Nat.eq_dec y (done ++ [o])) as [H'|H']; [apply Id; exact H'|]. intros b. unfold owns. rewrite Fr by exact H'. apply I. exact H.
Qed.

Lemma init_list_ok l s : NoDup l -> well_owned s -> (forall o, In o l -> idle s o) ->
  exists rc s', init_list gr [] l s = Done rc s' /\ made l s s' rc /\ ((forall k, gr k = true) -> rc = 0).
Proof. intros ND W I. apply (init_list_gen l [] s s); auto. apply made_nil. exact W. Qed.

Lemma set_int_id o s k : alloc (objs s o) = Some (S k) -> set_int gr o s = Done 0 s.
Proof. intros A. unfold set_int, mpi_grow. rewrite A. reflexivity. Qed.

Lemma given_alloc s s' o : given s s' o -> alloc (objs s' o) = Some 8%nat.
Proof. intros (b & E & _). rewrite E. reflexivity. Qed.

Lemma set_zero_id p l s s' : made l s s' 0 -> In p l -> In (p + 1)%nat l -> In (p + 2)%nat l -> set_zero gr p s' = Done 0 s'.
Proof.
  intros (_ & _ & _ & [(_ & G & _)|(X & _)]) H0 H1 H2; [|discriminate]. unfold set_zero.
  rewrite (set_int_id p s' 7) by (apply (given_alloc s), G, H0). cbn [andthen].
  rewrite (set_int_id (p + 1) s' 7) by (apply (given_alloc s), G, H1). cbn [andthen].
  rewrite (set_int_id (p + 2) s' 7) by (apply (given_alloc s), G, H2). reflexivity.
Qed.

Lemma set_up_zero l p s (m : st -> out) : (m = fun s => call (rc, s) <- init_list gr [] l s; if rc =? 0 then call (_, s) <- set_zero gr p s; Done 0 s else Done rc s) ->
  NoDup l -> In p l -> In (p + 1)%nat l -> In (p + 2)%nat l -> well_owned s -> (forall o, In o l -> idle s o) ->
  exists rc s', m s = Done rc s' /\ made l s s' rc /\ ((forall k, gr k = true) -> rc = 0).
Proof.
  intros -> ND P0 P1 P2 W I. destruct (init_list_ok l s ND W I) as (rc & s' & E & M & A). rewrite E. cbn [andthen]. destruct (made_rc _ _ _ _ M) as [-> | ->].
  - cbn [Z.eqb]. rewrite (set_zero_id p l s s' M P0 P1 P2). cbn [andthen]. eauto.
  - change (-1 =? 0) with false. cbv iota. eauto.
Qed.

Ltac nodup := repeat (constructor; [cbn; lia|]); constructor.

Lemma pt_init_ok p s : well_owned s -> (forall o, In o (pt_objs p) -> idle s o) ->
  exists rc s', pt_init gr p s = Done rc s' /\ made (pt_objs p) s s' rc /\ ((forall k, gr k = true) -> rc = 0).
Proof. intros W I. apply (set_up_zero (pt_objs p) p s (pt_init gr p)); auto; [nodup|cbn; auto..]. Qed.

Lemma grp_init_ok g s : well_owned s -> (forall o, In o (grp_objs g) -> idle s o) ->
  exists rc s', grp_init gr g s = Done rc s' /\ made (grp_objs g) s s' rc /\ ((forall k, gr k = true) -> rc = 0).
Proof. intros W I. apply (set_up_zero (grp_objs g) (g + 3) s (grp_init gr g)); auto; [nodup|cbn; lia..]. Qed.

Lemma made_sets_up (m : st -> out) l c n : (forall o, In o l <-> member c n o) ->
  (forall s, well_owned s -> (forall o, In o l -> idle s o) -> exists rc s', m s = Done rc s' /\ made l s s' rc /\ ((forall k, gr k = true) -> rc = 0)) -> sets_up m c n.
Proof.
  intros Hl H s W I. destruct (H s W) as (rc & s' & E & (W' & F & _ & R) & _). { intros o Ho. apply I, Hl, Ho. }
  exists rc, s'. split; [exact E|]. split; [exact W'|]. split; [intros o Ho; apply F; rewrite Hl; exact Ho|]. destruct R as [(-> & G & _)|(-> & G & L)].
  - left. split; [reflexivity|]. intros o Ho. apply G, Hl, Ho.
  - right. split; [reflexivity|]. split; [intros o Ho; apply G, Hl, Ho|exact L].
Qed.

Lemma list_sets_up (m : st -> out) l c n : m = init_list gr [] l -> NoDup l -> (forall o, In o l <-> member c n o) -> sets_up m c n.
Proof. intros -> ND Hl. apply made_sets_up with (l := l); [exact Hl|]. intros s W I. apply init_list_ok; assumption. Qed.

Lemma dh_up c : sets_up (dh_init gr c) c 5.
Proof. apply (list_sets_up _ (dh_objs c)); [reflexivity|nodup|]. intros o. unfold member; cbn. lia. Qed.
Lemma dsa_up c : sets_up (dsa_init gr c) c 5.
Proof. apply (list_sets_up _ (dsa_objs c)); [reflexivity|nodup|]. intros o. unfold member; cbn. lia. Qed.
Lemma rsa_up c : sets_up (rsa_init gr c) c 5.
Proof. apply (list_sets_up _ (rsa_objs c)); [reflexivity|nodup|]. intros o. unfold member; cbn. lia. Qed.
Lemma elgamal_up c : sets_up (elgamal_init gr c) c 4.
Proof. apply (list_sets_up _ (elgamal_objs c)); [reflexivity|nodup|]. intros o. unfold member; cbn. lia. Qed.
Lemma pt_up c : sets_up (pt_init gr c) c 3.
Proof. apply (made_sets_up _ (pt_objs c)); [intros o; unfold member; cbn; lia|]. intros s W I. apply pt_init_ok; assumption. Qed.
Lemma grp_up c : sets_up (grp_init gr c) c 7.
Proof. apply (made_sets_up _ (grp_objs c)); [intros o; unfold member; cbn; lia|]. intros s W I. apply grp_init_ok; assumption. Qed.

End Requests.
