(** Streaming: what a context holds after a message has been absorbed in pieces. *)
From Verif Require Import Base Bits BytesSpec Bytes Lists Modes HashTables HashModel HashSpec HashBase HashComp.

Lemma upd_blit buf n b : (n < length buf)%nat -> upd buf n b = blit buf n [b].
Proof.
  revert n. induction buf as [|x buf IH]; intros n H; cbn [length] in H; [lia|]. destruct n as [|n]; [reflexivity|].
  cbn [upd]. rewrite IH by lia. reflexivity.
Qed.
Lemma blit_full buf n x : length buf = (n + length x)%nat -> blit buf n x = firstn n buf ++ x.
Proof. intro L. unfold blit. rewrite (skipn_all2 buf) by lia. rewrite app_nil_r. reflexivity. Qed.

Section STREAM.
Variable bs : nat.
Variable f g : list Z -> list Z -> list Z.
Variable P : list Z -> Prop.
Variable iv : list Z.
Hypothesis Hbs : (0 < bs)%nat.
Hypothesis Hfg : forall st d, P st -> bytes d -> length d = bs -> f st d = g st d /\ P (g st d).
Hypothesis Hiv : P iv.

Set Default Proof Using "Hbs Hfg Hiv".
Definition feeds (m buf : list Z) (n : nat) (st : list Z) : Prop :=
  bytes m /\ bytes buf /\ length buf = bs /\ P st /\
  exists p q k, m = p ++ q /\ length p = (bs * k)%nat /\ length q = n /\ (n < bs)%nat /\ firstn n buf = q /\ st = fold_left g (chunks bs p) iv.

Lemma feeds_init : feeds [] (repeat 0 bs) 0 iv.
Proof.
  split; [constructor|]. split; [apply bytes_repeat0|]. split; [apply repeat_length|]. split; [auto|].
  exists [], [], 0%nat. split; [reflexivity|]. split; [cbn [length]; lia|]. split; [reflexivity|]. split; [auto|]. split; reflexivity.
Qed.
Lemma feeds_n m buf n st : feeds m buf n st -> n = (length m mod bs)%nat.
Proof.
  intros (_ & _ & _ & _ & p & q & k & -> & Lp & Lq & Hn & _). rewrite app_length, Lp, Lq, Nat.add_comm, Nat.mul_comm, Nat.mod_add by lia.
  symmetry. apply Nat.mod_small. auto.
Qed.
Lemma chunks_pb p b k : length p = (bs * k)%nat -> length b = bs -> chunks bs (p ++ b) = chunks bs p ++ [b].
Proof.
  revert p. induction k as [|k IH]; intros p Lp Lb.
  - destruct p; [|cbn [length] in Lp; lia]. cbn [app]. rewrite <- (app_nil_r b) at 1. rewrite chunks_app by auto. rewrite chunks_nil. reflexivity.
  - rewrite <- (firstn_skipn bs p). rewrite <- app_assoc.
    rewrite (chunks_app _ (firstn bs p) (skipn bs p ++ b)), (chunks_app _ (firstn bs p) (skipn bs p)) by (auto; rewrite firstn_length_le; nia).
    rewrite IH by (auto; rewrite skipn_length; nia). reflexivity.
Qed.
(** one block completes the buffer *)
Lemma feeds_block m buf n st x : feeds m buf n st -> bytes x -> (n + length x = bs)%nat ->
  f st (firstn n buf ++ x) = fold_left g (chunks bs (m ++ x)) iv /\ P (f st (firstn n buf ++ x)) /\
  exists k, length (m ++ x) = (bs * k)%nat.
Proof.
  intros (Bm & Bb & Lb & Pst & p & q & k & -> & Lp & Lq & Hn & Hq & Hs) Bx Lx.
  rewrite Hq. assert (Bq : bytes q) by (apply bytes_app in Bm; tauto). destruct (Hfg st (q ++ x)) as [E1 E2]; auto.
  { apply bytes_app. auto. } { rewrite app_length. lia. }
  rewrite E1. split; [|split; [auto|]].
  - rewrite <- app_assoc. rewrite (chunks_pb p (q ++ x) k) by (auto; rewrite app_length; lia).
    rewrite fold_left_app. cbn [fold_left]. congruence.
  - exists (k + 1)%nat. rewrite !app_length. nia.
Qed.
Lemma feeds_full m st buf : bytes m -> bytes buf -> length buf = bs -> P st -> st = fold_left g (chunks bs m) iv -> (exists k, length m = (bs * k)%nat) -> feeds m buf 0 st.
Proof.
  intros. destruct H4 as [k Hk]. repeat (split; [assumption|]). exists m, [], k. rewrite app_nil_r. repeat (split; [auto|]). auto.
Qed.
Lemma feeds_tail m buf n st x : feeds m buf n st -> bytes x -> (n + length x < bs)%nat -> feeds (m ++ x) (blit buf n x) (n + length x) st.
Proof.
  intros (Bm & Bb & Lb & Pst & p & q & k & -> & Lp & Lq & Hn & Hq & Hs) Bx Lx. unfold blit.
  split; [apply bytes_app; auto|]. split; [apply bytes_app; split; [apply bytes_firstn; auto|apply bytes_app; split; [auto|apply bytes_skipn; auto]]|].
  split; [rewrite !app_length, firstn_length_le, skipn_length by lia; lia|]. split; [auto|].
  exists p, (q ++ x), k. split; [rewrite app_assoc; reflexivity|]. split; [auto|]. split; [rewrite app_length; lia|]. split; [lia|].
  split; [|auto]. rewrite Hq. rewrite app_assoc. rewrite firstn_app, app_length, Lq, Nat.sub_diag. cbn [firstn]. rewrite app_nil_r.
  apply firstn_all2. rewrite app_length. lia.
Qed.
(** a byte at a time *)
Lemma feeds_byte m buf n st b : feeds m buf n st -> byte b ->
  if Nat.eqb (n + 1) bs then feeds (m ++ [b]) (upd buf n b) 0 (f st (upd buf n b)) else feeds (m ++ [b]) (upd buf n b) (n + 1) st.
Proof.
  intros F Hb. pose proof F as (Bm & Bb & Lb & Pst & p & q & k & Em & Lp & Lq & Hn & Hq & Hs).
  assert (Bx : bytes [b]) by (constructor; [auto|constructor]).
  rewrite upd_blit by lia. destruct (Nat.eqb_spec (n + 1) bs) as [E|E].
  - destruct (feeds_block m buf n st [b] F Bx E) as (H1 & H2 & H3). rewrite blit_full by (cbn [length]; lia).
    apply feeds_full; auto; [apply bytes_app; auto|apply bytes_app; split; [apply bytes_firstn; auto|auto]|rewrite app_length, firstn_length_le by lia; cbn [length]; lia].
  - apply feeds_tail; auto. cbn [length]. lia.
Qed.

(** whole blocks *)
Lemma blocks_ok fuel : forall st data p, (length data <= fuel)%nat -> bytes p -> bytes data -> P st -> st = fold_left g (chunks bs p) iv -> (exists k, length p = (bs * k)%nat) ->
  exists a r, data = a ++ r /\ (length r < bs)%nat /\ blocks fuel bs f st data = (fold_left g (chunks bs (p ++ a)) iv, r) /\
    P (fold_left g (chunks bs (p ++ a)) iv) /\ exists k, length (p ++ a) = (bs * k)%nat.
Proof.
  induction fuel as [|fuel IH]; intros st data p Hf Bp Bd Pst Hst [k Lk]; cbn [blocks].
  - exists [], data. rewrite app_nil_r. split; [reflexivity|]. split; [lia|]. rewrite <- Hst. split; [reflexivity|]. split; [auto|]. exists k. auto.
  - destruct (Nat.leb_spec bs (length data)).
    + assert (Lf : length (firstn bs data) = bs) by (apply firstn_length_le; auto).
      destruct (Hfg st (firstn bs data)) as [E1 E2]; auto; [apply bytes_firstn; auto|]. rewrite E1.
      destruct (IH (g st (firstn bs data)) (skipn bs data) (p ++ firstn bs data)) as (a & r & D & Lr & B & Pq & K); auto.
      { rewrite skipn_length. lia. } { apply bytes_app. split; [auto|apply bytes_firstn; auto]. } { apply bytes_skipn; auto. }
      { rewrite (chunks_pb p _ k) by auto. rewrite fold_left_app. cbn [fold_left]. congruence. }
      { exists (k + 1)%nat. rewrite app_length. lia. }
      exists (firstn bs data ++ a), r. rewrite <- !app_assoc in *. rewrite <- D, firstn_skipn. auto.
    + exists [], data. rewrite app_nil_r. split; [reflexivity|]. split; [lia|]. rewrite <- Hst. split; [reflexivity|]. split; [auto|]. exists k. auto.
Qed.
Lemma absorb_ok m buf n st data : feeds m buf n st -> bytes data ->
  feeds (m ++ data) (fst (absorb bs f buf st n data)) (length (m ++ data) mod bs) (snd (absorb bs f buf st n data)).
Proof.
  intros F Bd. pose proof F as (Bm & Bb & Lb & Pst & p & q & k & Em & Lp & Lq & Hn & Hq & Hs). unfold absorb. cbv zeta.
  assert (G : forall buf st m data, feeds m buf 0 st -> bytes data ->
    feeds (m ++ data) (fst (let '(st, data) := blocks (length data) bs f st data in (blit buf 0 data, st))) (length (m ++ data) mod bs) (snd (let '(st, data) := blocks (length data) bs f st data in (blit buf 0 data, st)))).
  { clear - Hbs Hfg Hiv. intros buf st m data F Bd. pose proof F as (Bm & Bb & Lb & Pst & p & q & k & Em & Lp & Lq & Hn & Hq & Hs).
    destruct q; [|discriminate]. rewrite app_nil_r in Em. subst p.
    destruct (blocks_ok (length data) st data m) as (a & r & D & Lr & B & Pq & K); auto; [exists k; auto|]. rewrite B. cbn [fst snd].
    rewrite D in Bd. apply bytes_app in Bd as [Ba Br].
    assert (F2 : feeds (m ++ a) buf 0 (fold_left g (chunks bs (m ++ a)) iv)) by (apply feeds_full; auto; apply bytes_app; auto).
    pose proof (feeds_tail _ _ _ _ r F2 Br ltac:(lia)) as F3. rewrite D, app_assoc. rewrite <- (feeds_n _ _ _ _ F3). exact F3. }
  destruct (Nat.eqb_spec n 0) as [->|Hnz]; cbn [negb andb].
  - apply G; auto.
  - destruct (Nat.leb_spec (bs - n) (length data)) as [Hle|Hgt].
    + assert (Lf : length (firstn (bs - n) data) = (bs - n)%nat) by (apply firstn_length_le; auto).
      assert (Bf : bytes (firstn (bs - n) data)) by (apply bytes_firstn; auto).
      destruct (feeds_block m buf n st (firstn (bs - n) data) F Bf ltac:(lia)) as (H1 & H2 & H3).
      rewrite blit_full by lia.
      assert (F2 : feeds (m ++ firstn (bs - n) data) (firstn n buf ++ firstn (bs - n) data) 0 (f st (firstn n buf ++ firstn (bs - n) data))).
      { apply feeds_full; auto; [apply bytes_app; auto|apply bytes_app; split; [apply bytes_firstn; auto|auto]|rewrite app_length, firstn_length_le by lia; lia]. }
      pose proof (G _ _ _ (skipn (bs - n) data) F2 (bytes_skipn _ _ Bd)) as Q. rewrite <- app_assoc, firstn_skipn in Q. exact Q.
    + assert (Eb : blocks (length data) bs f st data = (st, data)).
      { destruct (length data) eqn:E; [reflexivity|]. cbn [blocks]. rewrite E. destruct (Nat.leb_spec bs (S n0)); [lia|reflexivity]. }
      rewrite Eb. cbn [fst snd].
      assert (F3 : feeds (m ++ data) (blit buf n data) (n + length data) st) by (apply feeds_tail; auto; lia).
      rewrite <- (feeds_n _ _ _ _ F3). exact F3.
Qed.
Lemma feeds_iterate m buf st : feeds m buf 0 st -> st = iterate bs g iv m.
Proof. intros (_ & _ & _ & _ & p & q & k & -> & _ & Lq & _ & _ & ->). destruct q; [|discriminate]. rewrite app_nil_r. reflexivity. Qed.
End STREAM.
