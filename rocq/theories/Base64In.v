(** Proofs for PropBase64In.v: what decoding gives for each text of legal characters. *)
From Verif Require Import Base Base64Spec Base64Model Base64.

Definition six (x : Z) : Prop := 0 <= x < 64.
Definition d0 a b := Z.lor (Z.shiftl a 2) (Z.shiftr (Z.land b 0x30) 4) mod 256.
Definition d1 b c := Z.lor (Z.shiftl (Z.land b 0x0F) 4) (Z.shiftr (Z.land c 0x3C) 2) mod 256.
Definition d2 c d := Z.lor (Z.shiftl (Z.land c 0x03) 6) d mod 256.
Lemma d0_ok a b : six a -> six b -> i0 (d0 a b) = a /\ Z.land (d0 a b) 3 = b / 16 /\ d0 a b = 4 * a + b / 16.
Proof.
  intros A B. assert (F : forallb (fun a => forallb (fun b => (i0 (d0 a b) =? a) && (Z.land (d0 a b) 3 =? b / 16) && (d0 a b =? 4 * a + b / 16))%bool (dom 64)) (dom 64) = true) by (vm_compute; reflexivity).
  pose proof (all2 64 64 _ F a b A B) as E. cbn beta in E. rewrite !Bool.andb_true_iff, !Z.eqb_eq in E. tauto.
Qed.
Lemma d1_ok b c : six b -> six c -> Z.shiftr (Z.land (d1 b c) 0xF0) 4 = b mod 16 /\ Z.land (d1 b c) 15 = c / 4 /\ d1 b c = 16 * (b mod 16) + c / 4.
Proof.
  intros A B. assert (F : forallb (fun a => forallb (fun b => (Z.shiftr (Z.land (d1 a b) 0xF0) 4 =? a mod 16) && (Z.land (d1 a b) 15 =? b / 4) && (d1 a b =? 16 * (a mod 16) + b / 4))%bool (dom 64)) (dom 64) = true) by (vm_compute; reflexivity).
  pose proof (all2 64 64 _ F b c A B) as E. cbn beta in E. rewrite !Bool.andb_true_iff, !Z.eqb_eq in E. tauto.
Qed.
Lemma d2_ok c d : six c -> six d -> Z.shiftr (Z.land (d2 c d) 0xC0) 6 = c mod 4 /\ i3 (d2 c d) = d /\ d2 c d = 64 * (c mod 4) + d.
Proof.
  intros A B. assert (F : forallb (fun a => forallb (fun b => (Z.shiftr (Z.land (d2 a b) 0xC0) 6 =? a mod 4) && (i3 (d2 a b) =? b) && (d2 a b =? 64 * (a mod 4) + b))%bool (dom 64)) (dom 64) = true) by (vm_compute; reflexivity).
  pose proof (all2 64 64 _ F c d A B) as E. cbn beta in E. rewrite !Bool.andb_true_iff, !Z.eqb_eq in E. tauto.
Qed.
Lemma one_ok b : six b -> Z.lor (Z.shiftl (b / 16) 4) (b mod 16) = b /\ Z.lor (Z.shiftl (b / 4) 2) (b mod 4) = b /\ Z.shiftl (b / 16) 4 = 16 * (b / 16) /\ Z.shiftl (b / 4) 2 = 4 * (b / 4).
Proof.
  intro A. assert (F : forallb (fun b => (Z.lor (Z.shiftl (b / 16) 4) (b mod 16) =? b) && (Z.lor (Z.shiftl (b / 4) 2) (b mod 4) =? b) && (Z.shiftl (b / 16) 4 =? 16 * (b / 16)) && (Z.shiftl (b / 4) 2 =? 4 * (b / 4)))%bool (dom 64) = true) by (vm_compute; reflexivity).
  pose proof (all1 64 _ F b A) as E. cbn beta in E. rewrite !Bool.andb_true_iff, !Z.eqb_eq in E. tauto.
Qed.
Lemma alpha_ok i : six i -> legal (alphabet i) = true /\ unb (alphabet i) = i /\ (alphabet i =? 61) = false.
Proof. intro H. destruct (b64_alphabet i H) as (<- & L & U & E). auto. Qed.
Lemma d0_byte a b : six a -> six b -> byte (d0 a b). Proof. intros. apply Z.mod_pos_bound. lia. Qed.
Lemma d1_byte a b : byte (d1 a b). Proof. apply Z.mod_pos_bound. lia. Qed.
Lemma d2_byte a b : byte (d2 a b). Proof. apply Z.mod_pos_bound. lia. Qed.

(** the loop, group by group *)
Lemma loop4 a b c d r : six a -> six b -> six c -> six d ->
  decode_loop (alphabet a :: alphabet b :: alphabet c :: alphabet d :: r) = do t <- decode_loop r; Ok (d0 a b :: d1 b c :: d2 c d :: t).
Proof.
  intros A B C D. destruct (alpha_ok a A) as (LA & UA & _), (alpha_ok b B) as (LB & UB & _), (alpha_ok c C) as (LC & UC & EC), (alpha_ok d D) as (LD & UD & ED).
  cbn [decode_loop]. rewrite LA, LB, LC, LD, UA, UB, UC, UD, EC, ED. reflexivity.
Qed.
Lemma enc4 a b c d r : six a -> six b -> six c -> six d -> encode_loop (d0 a b :: d1 b c :: d2 c d :: r) = alphabet a :: alphabet b :: alphabet c :: alphabet d :: encode_loop r.
Proof.
  intros A B C D. destruct (d0_ok a b A B) as (P0 & P1 & _), (d1_ok b c B C) as (Q0 & Q1 & _), (d2_ok c d C D) as (R0 & R1 & _), (one_ok b B) as (B1 & _), (one_ok c C) as (_ & C1 & _).
  cbn [encode_loop]. fold (i0 (d0 a b)). fold (i3 (d2 c d)). change 3%Z with 3. rewrite P0, P1, Q0, Q1, R0, R1, B1, C1.
  rewrite (proj1 (b64_alphabet a A)), (proj1 (b64_alphabet b B)), (proj1 (b64_alphabet c C)), (proj1 (b64_alphabet d D)). reflexivity.
Qed.
Lemma ind4 (P : list Z -> Prop) : P [] -> (forall a b c d r, P r -> P (a :: b :: c :: d :: r)) -> forall l, (length l mod 4 = 0)%nat -> P l.
Proof.
  intros H0 H4 l. assert (G : forall n l, (length l <= n)%nat -> (length l mod 4 = 0)%nat -> P l); [|apply (G (length l)); auto].
  induction n as [|n IH]; intros [|a [|b [|c [|d r]]]] L M; auto; try discriminate M; try (cbn [length] in L; lia). apply H4, IH; [cbn [length] in L; lia|].
  cbn [length] in M. replace (Datatypes.S (Datatypes.S (Datatypes.S (Datatypes.S (length r))))) with (length r + 1 * 4)%nat in M by lia. rewrite Nat.mod_add in M by lia. exact M.
Qed.
(** characters of the alphabet in groups of four, then [t] *)
Lemma loop_groups t l' : (bytes l' /\ decode_loop t = Ok l') -> forall v, (length v mod 4 = 0)%nat -> Forall six v ->
  exists l, bytes l /\ decode_loop (map alphabet v ++ t) = Ok l /\ encode_loop l = map alphabet v ++ encode_loop l'.
Proof.
  intros [BT T]. apply (ind4 (fun v => Forall six v -> exists l, bytes l /\ decode_loop (map alphabet v ++ t) = Ok l /\ encode_loop l = map alphabet v ++ encode_loop l')).
  - intros _. exists l'. auto.
  - intros a b c d r IH F. inversion F as [|? ? A F1]; subst. inversion F1 as [|? ? B F2]; subst. inversion F2 as [|? ? C F3]; subst. inversion F3 as [|? ? D F4]; subst.
    destruct (IH F4) as (l & BL & DL & EL). exists (d0 a b :: d1 b c :: d2 c d :: l). split; [repeat (constructor; [first [apply d1_byte|apply d2_byte|apply d0_byte; assumption]|]); exact BL|].
    cbn [map app]. rewrite loop4 by assumption. rewrite DL. split; [reflexivity|]. rewrite enc4 by assumption. rewrite EL. reflexivity.
Qed.
Lemma decode_of s l : (length s mod 4 = 0)%nat -> s <> [] -> decode_loop s = Ok l -> decode s = Ok l.
Proof. intros M N D. unfold decode. rewrite M. cbn [Nat.eqb negb]. destruct s; [contradiction|exact D]. Qed.
Lemma mod4_add a b : (a mod 4 = 0)%nat -> (b mod 4 = 0)%nat -> ((a + b) mod 4 = 0)%nat.
Proof. intros A B. rewrite Nat.add_mod, A, B by lia. reflexivity. Qed.

Lemma full v : v <> [] -> (length v mod 4 = 0)%nat -> Forall six v -> exists l, bytes l /\ decode (map alphabet v) = Ok l /\ rfc4648 l = map alphabet v.
Proof.
  intros N M F. destruct (loop_groups [] [] (conj (Forall_nil _) eq_refl) v M F) as (l & B & D & E). rewrite app_nil_r in D, E. exists l. split; [exact B|]. split; [|rewrite <- encode_rfc by exact B; exact E].
  apply decode_of; [rewrite map_length; exact M| |exact D]. destruct v; [contradiction|discriminate].
Qed.
Lemma pad1 v a b c : (length v mod 4 = 0)%nat -> Forall six v -> six a -> six b -> six c ->
  exists l, bytes l /\ decode (map alphabet (v ++ [a; b; c]) ++ [61]) = Ok l /\ rfc4648 l = map alphabet (v ++ [a; b; 4 * (c / 4)]) ++ [61].
Proof.
  intros M F A B C. assert (T : bytes [d0 a b; d1 b c] /\ decode_loop (map alphabet [a; b; c] ++ [61]) = Ok [d0 a b; d1 b c]).
  { split; [repeat (constructor; [first [apply d1_byte|apply d0_byte; assumption]|]); constructor|].
    destruct (alpha_ok a A) as (LA & UA & _), (alpha_ok b B) as (LB & UB & _), (alpha_ok c C) as (LC & UC & EC). cbn [map app decode_loop]. rewrite LA, LB, LC, UA, UB, UC, EC. reflexivity. }
  destruct (loop_groups _ _ T v M F) as (l & BL & D & E). exists l. split; [exact BL|].
  split; [rewrite map_app, <- app_assoc; apply decode_of; [rewrite !app_length, !map_length; apply mod4_add; [exact M|reflexivity]|destruct (map alphabet v); discriminate|exact D]|].
  rewrite <- encode_rfc by exact BL. rewrite E, map_app, <- app_assoc. f_equal.
  destruct (d0_ok a b A B) as (P0 & P1 & _), (d1_ok b c B C) as (Q0 & Q1 & _), (one_ok b B) as (B1 & _), (one_ok c C) as (_ & _ & _ & C1).
  cbn [encode_loop]. fold (i0 (d0 a b)). rewrite P0, P1, Q0, Q1, B1, C1.
  rewrite (proj1 (b64_alphabet a A)), (proj1 (b64_alphabet b B)). assert (S4 : 0 <= 4 * (c / 4) < 64) by (unfold six in C; pose proof (Z.div_mod c 4 ltac:(lia)); pose proof (Z.mod_pos_bound c 4 ltac:(lia)); lia). rewrite (proj1 (b64_alphabet _ S4)). reflexivity.
Qed.
Lemma pad2 v a b : (length v mod 4 = 0)%nat -> Forall six v -> six a -> six b ->
  exists l, bytes l /\ decode (map alphabet (v ++ [a; b]) ++ [61; 61]) = Ok l /\ rfc4648 l = map alphabet (v ++ [a; 16 * (b / 16)]) ++ [61; 61].
Proof.
  intros M F A B. assert (T : bytes [d0 a b] /\ decode_loop (map alphabet [a; b] ++ [61; 61]) = Ok [d0 a b]).
  { split; [repeat (constructor; [apply d0_byte; assumption|]); constructor|].
    destruct (alpha_ok a A) as (LA & UA & _), (alpha_ok b B) as (LB & UB & _). cbn [map app decode_loop]. rewrite LA, LB, UA, UB. reflexivity. }
  destruct (loop_groups _ _ T v M F) as (l & BL & D & E). exists l. split; [exact BL|].
  split; [rewrite map_app, <- app_assoc; apply decode_of; [rewrite !app_length, !map_length; apply mod4_add; [exact M|reflexivity]|destruct (map alphabet v); discriminate|exact D]|].
  rewrite <- encode_rfc by exact BL. rewrite E, map_app, <- app_assoc. f_equal.
  destruct (d0_ok a b A B) as (P0 & P1 & _), (one_ok b B) as (_ & _ & B1 & _).
  cbn [encode_loop]. fold (i0 (d0 a b)). rewrite P0, P1, B1.
  rewrite (proj1 (b64_alphabet a A)). assert (S4 : 0 <= 16 * (b / 16) < 64) by (unfold six in B; pose proof (Z.div_mod b 16 ltac:(lia)); pose proof (Z.mod_pos_bound b 16 ltac:(lia)); lia). rewrite (proj1 (b64_alphabet _ S4)). reflexivity.
Qed.

(** another text for the same bytes *)
Lemma bump a : byte a -> six (i1 a 0 + 1) /\ Z.shiftr (Z.land (i1 a 0 + 1) 0x30) 4 = Z.land a 3 /\ six (i2 a 0 + 1) /\ Z.shiftr (Z.land (i2 a 0 + 1) 0x3C) 2 = Z.land a 15.
Proof.
  intro A. assert (F : forallb (fun a => (0 <=? i1 a 0 + 1) && (i1 a 0 + 1 <? 64) && (Z.shiftr (Z.land (i1 a 0 + 1) 0x30) 4 =? Z.land a 3) && (0 <=? i2 a 0 + 1) && (i2 a 0 + 1 <? 64) && (Z.shiftr (Z.land (i2 a 0 + 1) 0x3C) 2 =? Z.land a 15))%bool (dom 256) = true) by (vm_compute; reflexivity).
  pose proof (all1 256 _ F a A) as E. cbn beta in E. rewrite !Bool.andb_true_iff, !Z.eqb_eq in E. unfold six. lia.
Qed.
Lemma b64_inj x y : six x -> six y -> b64 x = b64 y -> x = y.
Proof. intros X Y E. rewrite <- (proj1 (proj2 (proj2 (b64_alphabet x X)))), E. apply (b64_alphabet y Y). Qed.
Lemma twin_loop l : bytes l -> (length l mod 3 <> 0)%nat -> exists s, decode_loop s = Ok l /\ length s = length (encode_loop l) /\ s <> encode_loop l.
Proof.
  induction l as [|a|a b|a b c r IH] using ind3; intros H N.
  - destruct N. reflexivity.
  - inversion H as [|? ? Ha]; subst. pose proof (i0_ok a Ha) as [B0 _]. destruct (bump a Ha) as (B1 & E1 & _). destruct (i1_ok a 0 Ha byte_0) as (B1' & _). destruct (i3_ok a Ha) as (_ & _ & _ & _ & R).
    exists [b64 (i0 a); b64 (i1 a 0 + 1); 61; 61]. cbn [encode_loop decode_loop]. rewrite i1_0. fold (i0 a).
    destruct (b64_alphabet _ B0) as (_ & L0 & U0 & _). destruct (b64_alphabet _ B1) as (_ & L1 & U1 & _).
    rewrite L0, L1, U0, U1, E1, R. split; [reflexivity|]. split; [reflexivity|]. intro Q. injection Q as Q. apply b64_inj in Q; [lia|exact B1|exact B1'].
  - inversion H as [|? ? Ha H']; subst. inversion H' as [|? ? Hb]; subst. pose proof (i0_ok a Ha) as [B0 _].
    destruct (i1_ok a b Ha Hb) as (B1 & _ & E1 & F1). destruct (bump b Hb) as (_ & _ & B2 & E2). destruct (i2_ok b 0 Hb byte_0) as (B2' & _).
    destruct (i3_ok a Ha) as (_ & _ & _ & _ & R). destruct (i3_ok b Hb) as (_ & _ & _ & R' & _).
    exists [b64 (i0 a); b64 (i1 a b); b64 (i2 b 0 + 1); 61]. cbn [encode_loop decode_loop]. rewrite i2_0. fold (i0 a). fold (i1 a b).
    destruct (b64_alphabet _ B0) as (_ & L0 & U0 & _). destruct (b64_alphabet _ B1) as (_ & L1 & U1 & _). destruct (b64_alphabet _ B2) as (_ & L2 & U2 & N2).
    rewrite L0, L1, L2, U0, U1, U2, E1, F1, E2, R, R', N2. split; [reflexivity|]. split; [reflexivity|]. intro Q. injection Q as Q. apply b64_inj in Q; [lia|exact B2|exact B2'].
  - inversion H as [|? ? Ha H']; subst. inversion H' as [|? ? Hb H'']; subst. inversion H'' as [|? ? Hc Hr]; subst.
    assert (N' : (length r mod 3 <> 0)%nat) by (cbn [length] in N; replace (Datatypes.S (Datatypes.S (Datatypes.S (length r)))) with (length r + 1 * 3)%nat in N by lia; rewrite Nat.mod_add in N by lia; exact N).
    destruct (IH Hr N') as (s & D & L & Q).
    pose proof (i0_ok a Ha) as [B0 _]. destruct (i1_ok a b Ha Hb) as (B1 & _ & E1 & F1). destruct (i2_ok b c Hb Hc) as (B2 & _ & E2 & F2). destruct (i3_ok c Hc) as (B3 & _ & R3 & _).
    destruct (i3_ok a Ha) as (_ & _ & _ & _ & R). destruct (i3_ok b Hb) as (_ & _ & _ & R' & _).
    exists (b64 (i0 a) :: b64 (i1 a b) :: b64 (i2 b c) :: b64 (i3 c) :: s). cbn [encode_loop]. fold (i0 a). fold (i1 a b). fold (i2 b c). fold (i3 c). cbn [decode_loop].
    destruct (b64_alphabet _ B0) as (_ & L0 & U0 & _). destruct (b64_alphabet _ B1) as (_ & L1 & U1 & _).
    destruct (b64_alphabet _ B2) as (_ & L2 & U2 & N2). destruct (b64_alphabet _ B3) as (_ & L3 & U3 & N3).
    rewrite L0, L1, L2, L3, U0, U1, U2, U3, E1, F1, E2, F2, R, R', R3, N2, N3, D. split; [reflexivity|]. split; [cbn [length]; rewrite L; reflexivity|]. intro X. apply Q. injection X as X. exact X.
Qed.
Lemma other_text l : bytes l -> (length l mod 3 <> 0)%nat -> exists s, decode s = Ok l /\ length s = length (rfc4648 l) /\ s <> rfc4648 l.
Proof.
  intros B N. destruct (twin_loop l B N) as (s & D & L & Q). exists s. rewrite encode_rfc in L, Q by exact B. split; [|split; assumption].
  apply decode_of; [|destruct s; [cbn in D; injection D as <-; destruct N; reflexivity|discriminate]|exact D].
  rewrite L, <- encode_rfc by exact B. rewrite encode_length, Nat.mul_comm. apply Nat.mod_mul. lia.
Qed.
(** texts one after the other *)
Lemma loop_app v y : decode_loop v = Ok y -> forall u, (length u mod 4 = 0)%nat -> forall x, decode_loop u = Ok x -> decode_loop (u ++ v) = Ok (x ++ y).
Proof.
  intro V. apply (ind4 (fun u => forall x, decode_loop u = Ok x -> decode_loop (u ++ v) = Ok (x ++ y))).
  - intros x X. injection X as <-. exact V.
  - intros a b c d r IH x X. cbn [app decode_loop] in *. destruct (legal a && legal b && legal c && legal d)%bool; [|discriminate X].
    destruct (decode_loop r) as [t|?| |]; try discriminate X. rewrite (IH t eq_refl). cbn [bind] in *. injection X as <-. f_equal. cbn [app]. f_equal. rewrite <- !app_assoc. reflexivity.
Qed.
Lemma decode_inv s l : decode s = Ok l -> (length s mod 4 = 0)%nat /\ s <> [] /\ decode_loop s = Ok l.
Proof. unfold decode. destruct (Nat.eqb_spec (length s mod 4) 0) as [E|E]; cbn [negb]; [|discriminate]. destruct s; [discriminate|]. intro H. split; [exact E|]. split; [discriminate|exact H]. Qed.
Lemma joined u v x y : decode u = Ok x -> decode v = Ok y -> decode (u ++ v) = Ok (x ++ y).
Proof.
  intros U V. apply decode_inv in U as (MU & NU & U). apply decode_inv in V as (MV & NV & V). apply decode_of; [rewrite app_length; apply mod4_add; assumption|destruct u; [contradiction|discriminate]|exact (loop_app v y V u MU x U)].
Qed.
(** '=' at the first two places of a group *)
Lemma loop_eq0 b c d r : decode_loop (61 :: b :: c :: d :: r) = decode_loop (65 :: b :: c :: d :: r). Proof. reflexivity. Qed.
Lemma loop_eq1 a c d r : decode_loop (a :: 61 :: c :: d :: r) = decode_loop (a :: 65 :: c :: d :: r). Proof. reflexivity. Qed.
Lemma loop_same v w : decode_loop v = decode_loop w -> forall u, (length u mod 4 = 0)%nat -> decode_loop (u ++ v) = decode_loop (u ++ w).
Proof. intro E. apply (ind4 (fun u => decode_loop (u ++ v) = decode_loop (u ++ w))); [exact E|]. intros a b c d r IH. cbn [app decode_loop]. rewrite IH. reflexivity. Qed.
Lemma decode_same u v w : (length u mod 4 = 0)%nat -> length v = length w -> v <> [] -> decode_loop v = decode_loop w -> decode (u ++ v) = decode (u ++ w).
Proof.
  intros M L N E. unfold decode. rewrite !app_length, L. destruct (negb _); [reflexivity|]. pose proof (loop_same v w E u M) as S.
  destruct (u ++ v) as [|x1 l1] eqn:X; [apply app_eq_nil in X as [_ ->]; contradiction|]. destruct (u ++ w) as [|x2 l2] eqn:Y; [apply app_eq_nil in Y as [_ ->]; destruct v; [contradiction|discriminate]|]. exact S.
Qed.
Lemma eq_as_a u a b c d r : (length u mod 4 = 0)%nat ->
  decode (u ++ 61 :: b :: c :: d :: r) = decode (u ++ 65 :: b :: c :: d :: r) /\ decode (u ++ a :: 61 :: c :: d :: r) = decode (u ++ a :: 65 :: c :: d :: r).
Proof. intro M. split; (apply decode_same; [exact M|reflexivity|discriminate|]); [apply loop_eq0|apply loop_eq1]. Qed.
(** '=' before another character *)
Lemma gap a b d : six a -> six b -> six d -> decode [alphabet a; alphabet b; 61; alphabet d] = Ok [4 * a + b / 16; d].
Proof.
  intros A B D. destruct (alpha_ok a A) as (LA & UA & _), (alpha_ok b B) as (LB & UB & _), (alpha_ok d D) as (LD & UD & ED). destruct (d0_ok a b A B) as (_ & _ & E0). destruct (d2_ok 0 d ltac:(unfold six; lia) D) as (_ & _ & E2).
  apply decode_of; [reflexivity|discriminate|]. cbn [decode_loop]. rewrite LA, LB, LD, UA, UB, UD, ED. change (legal 61) with true. change (unb 61) with 0. cbn [andb bind app Z.eqb Pos.eqb].
  fold (d0 a b). fold (d2 0 d). rewrite E0, E2. reflexivity.
Qed.
