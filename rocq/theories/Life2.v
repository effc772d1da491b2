(** Proofs for C92: ECDSA and ECDH contexts, clearing, histories. *)
From Verif Require Import Base LifeModel LifeSpec Life.

Ltac nodup := repeat (constructor; [cbn; lia|]); constructor.

Section Requests.
Variable gr : nat -> bool.

Definition ecdsa_objs (c : nat) : list nat := ([c + 7] ++ pt_objs (c + 8))%nat ++ grp_objs c.

Lemma idle_later l s s' rc o : made l s s' rc -> ~ In o l -> idle s o -> idle s' o.
Proof. intros (_ & F & _) N I b. unfold owns. rewrite F by exact N. apply I. Qed.

(** Steps common to both forms: d and q. *)
Lemma ecdsa_init_ok c s : well_owned s -> (forall o, In o (ecdsa_objs c) -> idle s o) ->
  exists rc s', ecdsa_init gr c None s = Done rc s' /\ made (ecdsa_objs c) s s' rc /\ ((forall k, gr k = true) -> rc = 0).
Proof.
  intros W I. unfold ecdsa_init.
  destruct (made_one gr (c + 7) s W) as (rc & s1 & E1 & M1 & G1). { apply I. cbn. lia. }
  rewrite E1. cbn [andthen]. destruct (made_rc _ _ _ _ M1) as [-> | ->].
  2: { change (-1 =? 0) with false. cbv iota. exists (-1), s1. split; [reflexivity|]. split; [|intros A; discriminate (G1 (A _))].
    destruct M1 as (W1 & F1 & A1 & [(X & _)|(_ & Id & L)]); [discriminate|]. split; [exact W1|]. split; [|split; [exact A1|right; split; [reflexivity|split; [|exact L]]]].
    - intros y H. apply F1. intros H'. apply H. cbn in *. lia.
    - intros y H. destruct (Nat.eq_dec y (c + 7)) as [->|N]; [apply Id; now left|]. intros b. unfold owns. rewrite F1 by (cbn; lia). apply I. exact H. }
  cbn [Z.eqb]. destruct (pt_init_ok gr (c + 8) s1) as (rc & s2 & E2 & M2 & G2). { apply M1. }
  { intros o Ho. eapply idle_later; [exact M1|cbn in *; lia|apply I; cbn in *; lia]. }
  rewrite E2. cbn [andthen]. destruct (made_rc _ _ _ _ M2) as [-> | ->].
  2: { change (-1 =? 0) with false. cbv iota. destruct (made_undo gr [c + 7]%nat (pt_objs (c + 8)) s s1 s2) as (s3 & E3 & M3 & V3 & F3); auto.
    - intros o Ho. cbn in *. lia.
    - intros o Ho. apply I. cbn in *. lia.
    - cbn [clear_list] in E3. destruct (mpi_clear (c + 7) s2) as [r3 s3'|]; [|discriminate]. cbn [andthen] in *. injection E3 as ->.
      exists (-1), s3. split; [reflexivity|]. split; [|intros A; discriminate (G2 A)].
      destruct M3 as (W3 & Fr & A3 & [(X & _)|(_ & Id & L3)]); [discriminate|]. split; [exact W3|]. split; [|split; [exact A3|right; split; [reflexivity|split; [|exact L3]]]].
      + intros y H. apply Fr. intros H'. apply H. cbn in *. lia.
      + intros y H. destruct (in_dec Nat.eq_dec y ([c + 7] ++ pt_objs (c + 8))%nat) as [H'|H']; [apply Id; exact H'|]. intros b. unfold owns. rewrite Fr by exact H'. apply I. exact H. }
  cbn [Z.eqb]. assert (M12 : made ([c + 7] ++ pt_objs (c + 8))%nat s s2 0). { eapply (made_seq gr); [|exact M1|exact M2]. intros o Ho. cbn in *. lia. }
  destruct (grp_init_ok gr c s2) as (rc & s3 & E3 & M3 & G3). { apply M2. }
  { intros o Ho. eapply idle_later; [exact M12|cbn in *; lia|apply I; cbn in *; lia]. }
  rewrite E3. cbn [andthen]. destruct (made_rc _ _ _ _ M3) as [-> | ->].
  - cbn [Z.eqb]. exists 0, s3. split; [reflexivity|]. split; [|auto]. eapply (made_seq gr); [|exact M12|exact M3]. intros o Ho. cbn in *. lia.
  - change (-1 =? 0) with false. cbv iota. destruct (made_undo gr (pt_objs (c + 8) ++ [c + 7])%nat (grp_objs c) s s2 s3) as (s4 & E4 & M4 & V4 & F4).
    + intros o Ho. cbn in *. lia.
    + intros o Ho. apply I. cbn in *. lia.
    + destruct M12 as (W2 & F2 & A2 & [(_ & Gi & L2)|(X & _)]); [|discriminate]. split; [exact W2|]. split; [intros y Hy; apply F2; cbn in *; lia|]. split; [exact A2|]. left. split; [reflexivity|].
      split; [intros o Ho; apply Gi; cbn in *; lia|]. intros b. rewrite L2. split; (intros [H|(o & Ho & O)]; [now left|right; exists o; split; [cbn in *; lia|exact O]]).
    + exact M3.
    + unfold pt_clear. cbn [clear_list pt_objs app] in *. destruct (mpi_clear (c + 8) s3) as [r5 s5|]; [|discriminate]. cbn [andthen] in *. destruct (mpi_clear (c + 8 + 1) s5) as [r6 s6|]; [|discriminate].
      cbn [andthen] in *. destruct (mpi_clear (c + 8 + 2) s6) as [r7 s7|]; [|discriminate]. cbn [andthen] in *. destruct (mpi_clear (c + 7) s7) as [r8 s8|]; [|discriminate]. cbn [andthen] in *. injection E4 as ->.
      exists (-1), s4. split; [reflexivity|]. split; [|intros A; discriminate (G3 A)].
      destruct M4 as (W4 & Fr & A4 & [(X & _)|(_ & Id & L4)]); [discriminate|]. split; [exact W4|]. split; [|split; [exact A4|right; split; [reflexivity|split; [|exact L4]]]].
      * intros y H. apply Fr. intros H'. apply H. cbn in *. lia.
      * intros y H. apply Id. cbn in *. lia.
Qed.

Lemma ecdsa_up c : sets_up (ecdsa_init gr c None) c 11.
Proof. apply (made_sets_up gr _ (ecdsa_objs c)); [intros o; unfold member; cbn; lia|]. intros s W I. apply ecdsa_init_ok; assumption. Qed.

(** ECDH, when every request is granted. *)
Definition ecdh_objs (c : nat) : list nat := (grp_objs c ++ [c + 7] ++ pt_objs (c + 8) ++ pt_objs (c + 11))%nat.

Lemma ecdh_full c s : (forall k, gr k = true) -> well_owned s -> (forall o, member c 14 o -> idle s o) ->
  exists s', ecdh_init gr c s = Done 0 s' /\ well_owned s' /\ (forall o, ~ member c 14 o -> objs s' o = objs s o) /\
    (forall o, member c 14 o -> exists b, objs s' o = mkobj (Some (Heap b)) (Some quantum) /\ live s b = false).
Proof.
  intros A W I. unfold ecdh_init.
  destruct (grp_init_ok gr c s W) as (rc1 & s1 & E1 & M1 & G1). { intros o Ho. apply I. unfold member. cbn in *. lia. }
  rewrite E1. rewrite (G1 A) in M1. clear G1. cbn [andthen].
  destruct (made_one gr (c + 7) s1) as (rc2 & s2 & E2 & M2 & G2). { apply M1. } { eapply idle_later; [exact M1|cbn; lia|apply I; unfold member; lia]. }
  rewrite E2. rewrite (G2 (A _)) in M2. clear G2. cbn [andthen].
  assert (N2 : made (grp_objs c ++ [c + 7])%nat s s2 0). { eapply (made_seq gr); [|exact M1|exact M2]. intros o Ho. cbn in *. lia. }
  destruct (pt_init_ok gr (c + 8) s2) as (rc3 & s3 & E3 & M3 & G3). { apply M2. } { intros o Ho. eapply idle_later; [exact N2|cbn in *; lia|apply I; unfold member; cbn in *; lia]. }
  rewrite E3. rewrite (G3 A) in M3. clear G3. cbn [andthen].
  assert (N3 : made ((grp_objs c ++ [c + 7]) ++ pt_objs (c + 8))%nat s s3 0). { eapply (made_seq gr); [|exact N2|exact M3]. intros o Ho. cbn in *. lia. }
  destruct (pt_init_ok gr (c + 11) s3) as (rc4 & s4 & E4 & M4 & G4). { apply M3. } { intros o Ho. eapply idle_later; [exact N3|cbn in *; lia|apply I; unfold member; cbn in *; lia]. }
  rewrite E4. rewrite (G4 A) in M4. clear G4. cbn [andthen].
  assert (N4 : made (((grp_objs c ++ [c + 7]) ++ pt_objs (c + 8)) ++ pt_objs (c + 11))%nat s s4 0). { eapply (made_seq gr); [|exact N3|exact M4]. intros o Ho. cbn in *. lia. }
  destruct N4 as (W4 & F4 & _ & [(_ & Gi & _)|(X & _)]); [|discriminate]. exists s4. split; [reflexivity|]. split; [exact W4|]. split.
  - intros o Ho. apply F4. unfold member in Ho. cbn. lia.
  - intros o Ho. apply Gi. unfold member in Ho. cbn. lia.
Qed.

(** ECDH, when the very first request is refused. *)
Lemma ecdh_bad c s : well_owned s -> (forall o, member c 14 o -> idle s o) -> data (objs s (c + 1)) = None -> gr (asked s) = false ->
  exists s', ecdh_init gr c s = Done 0 s' /\ ecdh_clear c s' = Undef.
Proof.
  intros W I D G. unfold ecdh_init.
  destruct (init_ok gr c s W) as (r0 & s1 & E0 & W1 & F1 & A1 & [(X & _)|(_ & -> & N1 & L1)]); [apply I; unfold member; lia|congruence|].
  unfold grp_init, grp_objs. cbn [init_list]. rewrite E0. cbn [andthen]. change (-1 =? 0) with false. cbv iota. cbn [clear_list andthen]. change (-1 =? 0) with false. cbv iota. cbn [andthen].
  assert (I1 : forall o, member c 14 o -> idle s1 o).
  { intros o Ho b. unfold owns. destruct (Nat.eq_dec o c) as [->|N]; [congruence|]. rewrite F1 by exact N. apply I. exact Ho. }
  destruct (made_one gr (c + 7) s1 W1) as (r2 & s2 & E2 & M2 & _). { apply I1. unfold member. lia. }
  rewrite E2. cbn [andthen].
  destruct (pt_init_ok gr (c + 8) s2) as (r3 & s3 & E3 & M3 & _). { apply M2. }
  { intros o Ho. eapply idle_later; [exact M2|cbn in *; lia|apply I1; unfold member; cbn in *; lia]. }
  rewrite E3. cbn [andthen].
  destruct (pt_init_ok gr (c + 11) s3) as (r4 & s4 & E4 & M4 & _). { apply M3. }
  { intros o Ho. eapply idle_later; [exact M3|cbn in *; lia|]. eapply idle_later; [exact M2|cbn in *; lia|apply I1; unfold member; cbn in *; lia]. }
  rewrite E4. cbn [andthen]. exists s4. split; [reflexivity|].
  assert (K : forall o, (o < c + 7)%nat -> objs s4 o = objs s1 o).
  { intros o Ho. destruct M4 as (_ & F4 & _). destruct M3 as (_ & F3 & _). destruct M2 as (_ & F2 & _). rewrite F4, F3, F2 by (cbn; lia). reflexivity. }
  unfold ecdh_clear, grp_clear, grp_objs. cbn [clear_list]. unfold mpi_clear at 1. rewrite (K c) by lia. rewrite N1. cbn [andthen].
  unfold mpi_clear at 1. unfold set_obj. cbn [objs]. rewrite upd_other by lia. rewrite K by lia. rewrite F1 by lia. rewrite D. reflexivity.
Qed.

End Requests.

(** * Clearing *)
Lemma zero_list_void l : forall s, (forall o, In o l -> objs s o = void) ->
  live (zero_list l s) = live s /\ asked (zero_list l s) = asked s /\ forall o, objs (zero_list l s) o = objs s o.
Proof.
  induction l as [|x l IH]; intros s V; [repeat split|]. cbn [zero_list].
  assert (K : forall o, objs (set_obj s x void) o = objs s o). { intros o. unfold set_obj; cbn [objs]. destruct (Nat.eq_dec o x) as [->|N]; [rewrite upd_same; symmetry; apply V; now left|now apply upd_other]. }
  destruct (IH (set_obj s x void)) as (L & A & O). { intros o Ho. rewrite K. apply V. now right. }
  split; [exact L|]. split; [exact A|]. intros o. rewrite O. apply K.
Qed.

Lemma wo_ext s s' : live s' = live s -> asked s' = asked s -> (forall o, objs s' o = objs s o) -> well_owned s -> well_owned s'.
Proof.
  intros L A O (W1 & W2 & W3 & W4 & W5). unfold well_owned, owns in *. rewrite L, A. split; [|split; [|split; [|split]]].
  - intros o b. rewrite O. apply W1.
  - intros o1 o2 b. rewrite !O. apply W2.
  - intros b H. destruct (W3 b H) as [o Ho]. exists o. rewrite O. exact Ho.
  - exact W4.
  - intros o. rewrite O. apply W5.
Qed.

Lemma list_gives_back (m : st -> out) l z c n : (forall o, In o l <-> member c n o) -> (forall o, In o z -> member c n o) ->
  (forall s s', clear_list l s = Done 0 s' -> m s = Done 0 (zero_list z s')) -> gives_back m c n.
Proof.
  intros Hl Hz Hm s W D. destruct (clear_list_ok l s W) as (s1 & E & W1 & V & F & L). { intros o Ho. apply D, Hl, Ho. }
  destruct (zero_list_void z s1) as (L2 & A2 & O2). { intros o Ho. apply V, Hl, Hz, Ho. }
  exists (zero_list z s1). split; [apply Hm; exact E|]. split; [eapply wo_ext; eassumption|]. split; [|split].
  - intros o Ho. rewrite O2. apply V, Hl, Ho.
  - intros o Ho. rewrite O2. apply F. rewrite Hl. exact Ho.
  - intros b. rewrite L2, L. split; intros [H1 H2]; (split; [exact H1|]); intros o Ho; apply H2, Hl, Ho.
Qed.

Lemma clear_app l1 l2 s : clear_list (l1 ++ l2) s = call (_, s) <- clear_list l1 s; clear_list l2 s.
Proof. revert s. induction l1 as [|o l IH]; intros s; [reflexivity|]. cbn [clear_list app]. destruct (mpi_clear o s) as [rc s1|]; [|reflexivity]. cbn [andthen]. apply IH. Qed.

Ltac members := intros o; unfold member; cbn; lia.
Ltac zeros := intros o Ho; apply in_seq in Ho; exact Ho.

Lemma dh_down c : gives_back (dh_clear c) c 5.
Proof. apply (list_gives_back _ (dh_objs c) (seq c 5)); [members|zeros|]. intros s s' E. unfold dh_clear. rewrite E. reflexivity. Qed.
Lemma dsa_down c : gives_back (dsa_clear c) c 5.
Proof. apply (list_gives_back _ (dsa_objs c) (seq c 5)); [members|zeros|]. intros s s' E. unfold dsa_clear. rewrite E. reflexivity. Qed.
Lemma rsa_down c : gives_back (rsa_clear c) c 5.
Proof. apply (list_gives_back _ (rsa_objs c) (seq c 5)); [members|zeros|]. intros s s' E. unfold rsa_clear. rewrite E. reflexivity. Qed.
Lemma elgamal_down c : gives_back (elgamal_clear c) c 4.
Proof. apply (list_gives_back _ (elgamal_objs c) (seq c 4)); [members|zeros|]. intros s s' E. unfold elgamal_clear. rewrite E. reflexivity. Qed.
Lemma pt_down c : gives_back (pt_clear c) c 3.
Proof. apply (list_gives_back _ (pt_objs c) []); [members|intros o []|]. intros s s' E. exact E. Qed.
Lemma grp_down c : gives_back (grp_clear c) c 7.
Proof. apply (list_gives_back _ (grp_objs c) []); [members|intros o []|]. intros s s' E. exact E. Qed.
Lemma ecdsa_down c : gives_back (ecdsa_clear c) c 11.
Proof.
  apply (list_gives_back _ (ecdsa_objs c) (seq c 11)); [members|zeros|]. intros s s' E. unfold ecdsa_clear, ecdsa_objs in *. rewrite !clear_app in E. cbn [clear_list] in E.
  destruct (mpi_clear (c + 7) s) as [r1 s1|]; [|discriminate]. cbn [andthen] in *. unfold pt_clear. destruct (clear_list (pt_objs (c + 8)) s1) as [r2 s2|]; [|discriminate]. cbn [andthen] in *.
  unfold grp_clear. rewrite E. reflexivity.
Qed.
Lemma ecdh_down c : gives_back (ecdh_clear c) c 14.
Proof.
  apply (list_gives_back _ (ecdh_objs c) []); [members|intros o []|]. intros s s' E. unfold ecdh_clear, ecdh_objs in *. rewrite !clear_app in E. unfold grp_clear.
  destruct (clear_list (grp_objs c) s) as [r1 s1|]; [|discriminate]. cbn [andthen] in *. rewrite !clear_app in E. cbn [clear_list] in E. destruct (mpi_clear (c + 7) s1) as [r2 s2|]; [|discriminate].
  cbn [andthen] in *. unfold pt_clear. rewrite ?clear_app in E. exact E.
Qed.

(** * Named curves *)
Lemma grp_load_ok g s : exists s', grp_load g true s = Done 0 s' /\ live s' = live s /\ asked s' = asked s /\
  (forall o, member g 7 o -> objs s' o = mkobj (Some Static) (Some 0%nat)) /\ (forall o, ~ member g 7 o -> objs s' o = objs s o).
Proof.
  eexists. split; [reflexivity|]. cbn [live asked objs set_obj]. split; [reflexivity|]. split; [reflexivity|]. unfold upd, member. split; intros o Ho.
  - repeat match goal with |- context [Nat.eqb ?a ?b] => destruct (Nat.eqb_spec a b); [reflexivity|] end. lia.
  - repeat match goal with |- context [Nat.eqb ?a ?b] => destruct (Nat.eqb_spec a b); [lia|] end. reflexivity.
Qed.

Lemma grp_load_wo g s : well_owned s -> (forall o, member g 7 o -> idle s o) ->
  exists s', grp_load g true s = Done 0 s' /\ well_owned s' /\ live s' = live s /\
    (forall o, member g 7 o -> objs s' o = mkobj (Some Static) (Some 0%nat)) /\ (forall o, ~ member g 7 o -> objs s' o = objs s o).
Proof.
  intros (W1 & W2 & W3 & W4 & W5) I. destruct (grp_load_ok g s) as (s' & E & L & A & S1 & S2). exists s'. split; [exact E|]. split; [|auto].
  assert (K : forall o, {member g 7 o} + {~ member g 7 o}). { intros o. unfold member. destruct (le_lt_dec g o); [destruct (lt_dec o (g + 7)); [left; lia|right; lia]|right; lia]. }
  assert (O : forall o b, owns s' o b -> ~ member g 7 o /\ owns s o b).
  { intros o b H. unfold owns in *. destruct (K o) as [M|M]; [rewrite S1 in H by exact M; discriminate|]. rewrite S2 in H by exact M. auto. }
  unfold well_owned. rewrite L, A. split; [|split; [|split; [|split]]].
  - intros o b H. destruct (O o b H) as [M H']. rewrite S2 by exact M. apply W1. exact H'.
  - intros o1 o2 b H1 H2. eapply W2; eapply O; eassumption.
  - intros b H. destruct (W3 b H) as [o Ho]. exists o. unfold owns. rewrite S2; [exact Ho|]. intros M. exact (I o M b Ho).
  - exact W4.
  - intros o H. destruct (K o) as [M|M]; [rewrite S1 by exact M; reflexivity|]. rewrite S2 in * by exact M. auto.
Qed.

(** * Histories *)
Lemma wo_swap o1 o2 s : well_owned s -> well_owned (mkst (upd (upd (objs s) o1 (objs s o2)) o2 (objs s o1)) (live s) (asked s)).
Proof.
  intros (W1 & W2 & W3 & W4 & W5). set (sw := fun y => if Nat.eqb y o2 then o1 else if Nat.eqb y o1 then o2 else y).
  assert (K : forall y, upd (upd (objs s) o1 (objs s o2)) o2 (objs s o1) y = objs s (sw y)).
  { intros y. unfold upd, sw. destruct (Nat.eqb y o2); [reflexivity|]. destruct (Nat.eqb y o1); reflexivity. }
  assert (Iv : forall y, sw (sw y) = y).
  { intros y. unfold sw. destruct (Nat.eqb_spec y o2); [|destruct (Nat.eqb_spec y o1)]; repeat match goal with |- context [Nat.eqb ?a ?b] => destruct (Nat.eqb_spec a b) end; congruence. }
  unfold well_owned, owns in *; cbn [objs live asked]. split; [|split; [|split; [|split]]].
  - intros y b. rewrite K. apply W1.
  - intros y1 y2 b. rewrite !K. intros H1 H2. rewrite <- (Iv y1), <- (Iv y2). f_equal. eapply W2; eassumption.
  - intros b H. destruct (W3 b H) as [y Hy]. exists (sw y). rewrite K, Iv. exact Hy.
  - exact W4.
  - intros y. rewrite K. apply W5.
Qed.

Lemma wo_asked s n : (asked s <= n)%nat -> well_owned s -> well_owned (mkst (objs s) (live s) n).
Proof. intros H (W1 & W2 & W3 & W4 & W5). unfold well_owned, owns in *; cbn [objs live asked]. repeat (split; [assumption|]). split; [|exact W5]. intros b Hb. apply W4 in Hb. lia. Qed.

Section Histories.
Variable gr : nat -> bool.

Lemma step_ok op s : well_owned s -> allowed s op -> exists rc s', step gr op s = Done rc s' /\ well_owned s'.
Proof.
  intros W A. destruct op as [o|o|o n|o1 o2|o]; cbn [step allowed] in *.
  - destruct (init_ok gr o s W A) as (rc & s' & E & W' & _). eauto.
  - destruct (clear_ok o s W A) as (s' & E & W' & _). eauto.
  - destruct A as (D & Nst & Al). unfold mpi_grow. destruct (alloc (objs s o)) as [a|] eqn:Ea; [|congruence]. destruct (Nat.leb n a); [eauto|].
    assert (Hq : exists k, (n + (quantum * 2 - n mod quantum))%nat = S k). { exists (n + (quantum * 2 - n mod quantum) - 1)%nat. pose proof (Nat.mod_upper_bound n quantum). unfold quantum in *. lia. }
    destruct Hq as [k Hk]. rewrite Hk.
    destruct (data (objs s o)) as [[|b|]|] eqn:Ed; [| |congruence|congruence].
    + destruct (gr (asked s)); eexists _, _; (split; [reflexivity|]); [|apply wo_asked; [lia|exact W]]. apply wo_new; [exact W|]. intros b. unfold owns. congruence.
    + pose proof W as (W1 & _). destruct (W1 o b Ed) as [L _]. rewrite L. destruct (gr (asked s)); eexists _, _; (split; [reflexivity|]); [|apply wo_asked; [lia|exact W]].
      assert (W' : well_owned (mkst (upd (objs s) o void) (upd (live s) b false) (asked s))) by (apply wo_free; auto; discriminate).
      assert (I' : idle (mkst (upd (objs s) o void) (upd (live s) b false) (asked s)) o) by (intros b'; unfold owns; cbn [objs]; rewrite upd_same; discriminate).
      pose proof (wo_new _ o k W' I') as W2. cbn [objs live asked] in W2. eapply (wo_ext _ _ _ _ _ W2).
      Unshelve. all: cbn [objs live asked]; try reflexivity. intros y. destruct (Nat.eq_dec y o) as [->|N]; [rewrite !upd_same; reflexivity|]. rewrite !upd_other by exact N. reflexivity.
  - eexists _, _. split; [reflexivity|]. apply wo_swap. exact W.
  - eexists _, _. split; [reflexivity|]. unfold set_obj. apply wo_replace; auto; discriminate.
Qed.

Lemma run_ok l : forall s, well_owned s -> allowed_run gr l s -> exists s', run gr l s = Done 0 s' /\ well_owned s'.
Proof.
  induction l as [|op l IH]; intros s W A; [exists s; auto|]. destruct A as [A1 A2]. destruct (step_ok op s W A1) as (rc & s1 & E & W1). cbn [run]. rewrite E. cbn [andthen]. apply IH; [exact W1|]. eapply A2. exact E.
Qed.

(** * Lost blocks *)
Definition lost (s : st) (b : nat) : Prop := live s b = true /\ (b < asked s)%nat /\ forall o, ~ owns s o b.

Lemma lost_step op s rc s' b : lost s b -> step gr op s = Done rc s' -> lost s' b.
Proof.
  intros (L & A & N) E. unfold owns in N. destruct op as [o|o|o n|o1 o2|o]; cbn [step] in E.
  - unfold mpi_init in E. destruct (gr (asked s)); injection E as <- <-; unfold lost, owns; cbn [objs live asked].
    + rewrite upd_other by lia. split; [exact L|]. split; [lia|]. intros y. destruct (Nat.eq_dec y o) as [->|Ny]; [rewrite upd_same; cbn; intros H; injection H; lia|rewrite upd_other by exact Ny; apply N].
    + split; [exact L|]. split; [lia|]. intros y. destruct (Nat.eq_dec y o) as [->|Ny]; [rewrite upd_same; discriminate|rewrite upd_other by exact Ny; apply N].
  - assert (V : forall y, data (upd (objs s) o void y) <> Some (Heap b)) by (intros y; destruct (Nat.eq_dec y o) as [->|Ny]; [rewrite upd_same; discriminate|rewrite upd_other by exact Ny; apply N]).
    unfold mpi_clear, set_obj in E. destruct (data (objs s o)) as [[|c|]|] eqn:Ed; [| | |discriminate].
    + injection E as <- <-. repeat split; auto.
    + destruct (alloc (objs s o)) as [[|k]|]; [injection E as <- <-; repeat split; auto| |discriminate]. destruct (live s c); [|discriminate]. injection E as <- <-. unfold lost, owns; cbn [objs live asked].
      rewrite upd_other by (intros ->; exact (N o Ed)). auto.
    + destruct (alloc (objs s o)) as [[|k]|]; [|discriminate|discriminate]. injection E as <- <-. repeat split; auto.
  - unfold mpi_grow in E. destruct (alloc (objs s o)) as [a|]; [|discriminate]. destruct (Nat.leb n a); [injection E as <- <-; repeat split; auto|].
    destruct (data (objs s o)) as [[|c|]|] eqn:Ed; [| |discriminate|discriminate].
    + destruct (gr (asked s)); injection E as <- <-; unfold lost, owns; cbn [objs live asked]; [|repeat split; auto; lia].
      rewrite upd_other by lia. split; [exact L|]. split; [lia|]. intros y. destruct (Nat.eq_dec y o) as [->|Ny]; [rewrite upd_same; cbn; intros H; injection H; lia|rewrite upd_other by exact Ny; apply N].
    + destruct (live s c); [|discriminate]. destruct (gr (asked s)); injection E as <- <-; unfold lost, owns; cbn [objs live asked]; [|repeat split; auto; lia].
      rewrite upd_other by lia. rewrite upd_other by (intros ->; exact (N o Ed)). split; [exact L|]. split; [lia|]. intros y. destruct (Nat.eq_dec y o) as [->|Ny]; [rewrite upd_same; cbn; intros H; injection H; lia|rewrite upd_other by exact Ny; apply N].
  - injection E as <- <-. unfold lost, owns; cbn [objs live asked]. split; [exact L|]. split; [exact A|]. intros y. unfold upd. destruct (Nat.eqb y o2); [apply N|]. destruct (Nat.eqb y o1); apply N.
  - injection E as <- <-. unfold lost, owns, set_obj; cbn [objs live asked]. split; [exact L|]. split; [exact A|]. intros y. destruct (Nat.eq_dec y o) as [->|Ny]; [rewrite upd_same; discriminate|rewrite upd_other by exact Ny; apply N].
Qed.

Lemma lost_run l : forall s rc s' b, lost s b -> run gr l s = Done rc s' -> lost s' b.
Proof.
  induction l as [|op l IH]; intros s rc s' b H E; cbn [run] in E; [injection E as <- <-; exact H|]. destruct (step gr op s) as [r s1|] eqn:Es; [|discriminate]. cbn [andthen] in E. eapply IH; [|exact E]. eapply lost_step; eassumption.
Qed.

(** * Blocks lost by loading, and tables *)
Lemma grp_load_lost g s o b : well_owned s -> member g 7 o -> owns s o b -> exists s', grp_load g true s = Done 0 s' /\
  forall l rc s2, run gr l s' = Done rc s2 -> live s2 b = true /\ forall y, ~ owns s2 y b.
Proof.
  intros (W1 & W2 & W3 & W4 & W5) M O. destruct (grp_load_ok g s) as (s' & E & L & A & S1 & S2). exists s'. split; [exact E|].
  assert (H : lost s' b).
  { unfold lost. rewrite L, A. destruct (W1 o b O) as [Lb _]. split; [exact Lb|]. split; [apply W4; exact Lb|]. intros y Hy. unfold owns in Hy.
    destruct (Nat.eq_dec y o) as [->|N]; [rewrite S1 in Hy by exact M; discriminate|]. destruct (le_lt_dec g y) as [H1|H1]; [destruct (lt_dec y (g + 7)) as [H2|H2]|].
    - rewrite S1 in Hy by (split; assumption). discriminate.
    - rewrite S2 in Hy by (unfold member; lia). apply N. eapply W2; eassumption.
    - rewrite S2 in Hy by (unfold member; lia). apply N. eapply W2; eassumption. }
  intros l rc s2 R. destruct (lost_run l s' rc s2 b H R) as (H1 & _ & H2). auto.
Qed.

Lemma grp_load_grow g s o n : member g 7 o -> (0 < n)%nat -> exists s', grp_load g true s = Done 0 s' /\ mpi_grow gr o n s' = Undef.
Proof.
  intros M N. destruct (grp_load_ok g s) as (s' & E & _ & _ & S1 & _). exists s'. split; [exact E|]. unfold mpi_grow. rewrite S1 by exact M. cbn [alloc data]. destruct (Nat.leb_spec n 0); [lia|reflexivity].
Qed.

(** ECDSA with a named curve. *)
Lemma ecdsa_named c s : well_owned s -> (forall o, member c 11 o -> idle s o) ->
  exists rc s', ecdsa_init gr c (Some true) s = Done rc s' /\ well_owned s' /\ (forall o, ~ member c 11 o -> objs s' o = objs s o) /\
    (rc = 0 /\ (forall o, member (c + 7) 4 o -> exists b, objs s' o = mkobj (Some (Heap b)) (Some quantum) /\ live s b = false) /\
       (forall o, member c 7 o -> objs s' o = mkobj (Some Static) (Some 0%nat)) \/
     rc = -1 /\ (forall o, member c 11 o -> idle s' o) /\ forall b, live s' b = live s b).
Proof.
  intros W I. unfold ecdsa_init.
  destruct (made_one gr (c + 7) s W) as (rc & s1 & E1 & M1 & _). { apply I. unfold member. lia. }
  rewrite E1. cbn [andthen]. destruct (made_rc _ _ _ _ M1) as [-> | ->].
  2: { change (-1 =? 0) with false. cbv iota. exists (-1), s1. split; [reflexivity|].
    destruct M1 as (W1 & F1 & A1 & [(X & _)|(_ & Id & L)]); [discriminate|]. split; [exact W1|]. split; [|right; split; [reflexivity|split; [|exact L]]].
    - intros y H. apply F1. unfold member in H. cbn. lia.
    - intros y H. destruct (Nat.eq_dec y (c + 7)) as [->|N]; [apply Id; now left|]. intros b. unfold owns. rewrite F1 by (cbn; lia). apply I. exact H. }
  cbn [Z.eqb]. destruct (pt_init_ok gr (c + 8) s1) as (rc & s2 & E2 & M2 & G2). { apply M1. }
  { intros o Ho. eapply idle_later; [exact M1|cbn in *; lia|apply I; unfold member; cbn in *; lia]. }
  rewrite E2. cbn [andthen]. destruct (made_rc _ _ _ _ M2) as [-> | ->].
  2: { change (-1 =? 0) with false. cbv iota. destruct (made_undo gr [c + 7]%nat (pt_objs (c + 8)) s s1 s2) as (s3 & E3 & M3 & V3 & F3); auto.
    - intros o Ho. cbn in *. lia.
    - intros o Ho. apply I. unfold member. cbn in *. lia.
    - cbn [clear_list] in E3. destruct (mpi_clear (c + 7) s2) as [r3 s3'|]; [|discriminate]. cbn [andthen] in *. injection E3 as ->.
      exists (-1), s3. split; [reflexivity|].
      destruct M3 as (W3 & Fr & A3 & [(X & _)|(_ & Id & L3)]); [discriminate|]. split; [exact W3|]. split; [|right; split; [reflexivity|split; [|exact L3]]].
      + intros y H. apply Fr. unfold member in H. cbn. lia.
      + intros y H. destruct (in_dec Nat.eq_dec y ([c + 7] ++ pt_objs (c + 8))%nat) as [H'|H']; [apply Id; exact H'|]. intros b. unfold owns. rewrite Fr by exact H'. apply I. exact H. }
  cbn [Z.eqb]. assert (M12 : made ([c + 7] ++ pt_objs (c + 8))%nat s s2 0). { eapply (made_seq gr); [|exact M1|exact M2]. intros o Ho. cbn in *. lia. }
  destruct (grp_load_wo c s2) as (s3 & E3 & W3 & L3 & S1 & S2). { apply M2. }
  { intros o Ho. eapply idle_later; [exact M12|unfold member in *; cbn; lia|apply I; unfold member in *; lia]. }
  rewrite E3. cbn [andthen Z.eqb]. exists 0, s3. split; [reflexivity|]. split; [exact W3|]. destruct M12 as (_ & F2 & _ & [(_ & Gi & _)|(X & _)]); [|discriminate]. split.
  - intros o Ho. unfold member in Ho. rewrite S2, F2 by (unfold member; cbn; lia). reflexivity.
  - left. split; [reflexivity|]. split; [|exact S1]. intros o Ho. unfold member in Ho. destruct (Gi o) as (b & Eb & Lb); [cbn; lia|]. exists b. rewrite S2 by (unfold member; lia). auto.
Qed.

(** ... and with a number that names no curve: d and q are given back. *)
Lemma ecdsa_unknown c s : well_owned s -> (forall o, member c 11 o -> idle s o) ->
  exists s', ecdsa_init gr c (Some false) s = Done (-1) s' /\ well_owned s' /\ (forall o, ~ member c 11 o -> objs s' o = objs s o) /\ forall b, live s' b = live s b.
Proof.
  intros W I. unfold ecdsa_init.
  destruct (made_one gr (c + 7) s W) as (rc & s1 & E1 & M1 & _). { apply I. unfold member. lia. }
  rewrite E1. cbn [andthen]. destruct (made_rc _ _ _ _ M1) as [-> | ->].
  2: { change (-1 =? 0) with false. cbv iota. exists s1. split; [reflexivity|].
    destruct M1 as (W1 & F1 & A1 & [(X & _)|(_ & Id & L)]); [discriminate|]. split; [exact W1|]. split; [|exact L]. intros y H. apply F1. unfold member in H. cbn. lia. }
  cbn [Z.eqb]. destruct (pt_init_ok gr (c + 8) s1) as (rc & s2 & E2 & M2 & G2). { apply M1. }
  { intros o Ho. eapply idle_later; [exact M1|cbn in *; lia|apply I; unfold member; cbn in *; lia]. }
  rewrite E2. cbn [andthen]. destruct (made_rc _ _ _ _ M2) as [-> | ->].
  2: { change (-1 =? 0) with false. cbv iota. destruct (made_undo gr [c + 7]%nat (pt_objs (c + 8)) s s1 s2) as (s3 & E3 & M3 & V3 & F3); auto.
    - intros o Ho. cbn in *. lia.
    - intros o Ho. apply I. unfold member. cbn in *. lia.
    - cbn [clear_list] in E3. destruct (mpi_clear (c + 7) s2) as [r3 s3'|]; [|discriminate]. cbn [andthen] in *. injection E3 as ->.
      exists s3. split; [reflexivity|].
      destruct M3 as (W3 & Fr & A3 & [(X & _)|(_ & Id & L3)]); [discriminate|]. split; [exact W3|]. split; [|exact L3]. intros y H. apply Fr. unfold member in H. cbn. lia. }
  cbn [Z.eqb]. assert (M12 : made ([c + 7] ++ pt_objs (c + 8))%nat s s2 0). { eapply (made_seq gr); [|exact M1|exact M2]. intros o Ho. cbn in *. lia. }
  unfold grp_load. cbn [andthen]. change (-1 =? 0) with false. cbv iota.
  destruct M12 as (W2 & F2 & _ & [(_ & Gi & L2)|(X & _)]); [|discriminate].
  destruct (clear_list_ok (pt_objs (c + 8) ++ [c + 7])%nat s2 W2) as (s3 & E3 & W3 & V3 & F3 & L3).
  { intros o Ho. destruct (Gi o) as (b & Eb & _); [cbn in *; lia|]. rewrite Eb. discriminate. }
  rewrite clear_app in E3. unfold pt_clear. destruct (clear_list (pt_objs (c + 8)) s2) as [r4 s4|]; [|discriminate]. cbn [andthen clear_list] in *. destruct (mpi_clear (c + 7) s4) as [r5 s5|]; [|discriminate]. cbn [andthen] in *. injection E3 as ->.
  exists s3. split; [reflexivity|]. split; [exact W3|]. split.
  - intros y H. unfold member in H. rewrite F3, F2 by (cbn; lia). reflexivity.
  - intros b. apply bool_iff. rewrite L3, L2. split.
    + intros [[H|(o & H & O)] H3]; [exact H|]. destruct (H3 o); [cbn in *; lia|exact O].
    + intros H. split; [now left|]. intros o Ho O. destruct (Gi o) as (d & Eb & Lb); [cbn in *; lia|]. unfold owns in O. rewrite Eb in O. cbn in O. injection O as ->. congruence.
Qed.
End Histories.

Lemma start_owned : well_owned start.
Proof. unfold well_owned, owns, start; cbn. repeat split; intros; discriminate. Qed.
