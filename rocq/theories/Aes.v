(** The table-driven AES is FIPS 197, and decryption inverts encryption. *)
From Verif Require Import Base Bits BytesSpec Bytes Lists Poly2Spec Poly2 GcmMul AesTables AesModel AesSpec.

(** * Finite checks *)
Lemma byte_check (P : Z -> bool) : forallb P range256 = true -> forall b, byte b -> P b = true.
Proof.
  intros H b Hb. apply (proj1 (forallb_forall _ _) H). unfold range256. apply in_map_iff. exists (Z.to_nat b).
  unfold byte in Hb. split; [lia|apply in_seq; lia].
Qed.
Definition leqb (a b : list Z) : bool := if list_eq_dec Z.eq_dec a b then true else false.
Lemma leqb_eq a b : leqb a b = true -> a = b.
Proof. unfold leqb. destruct (list_eq_dec Z.eq_dec a b); [auto|discriminate]. Qed.
Definition is_byte (b : Z) : bool := (0 <=? b) && (b <? 256).
Lemma is_byte_ok b : is_byte b = true -> byte b.
Proof. unfold is_byte, byte. lia. Qed.

Definition B (w : Z) : list Z := le_bytes 4 w.
Lemma sbox_tab b : byte b -> tab aes_fsbox b = sbox b.
Proof. intro H. apply Z.eqb_eq. refine (byte_check (fun b => tab aes_fsbox b =? sbox b) _ _ H). vm_compute. reflexivity. Qed.
Lemma rsbox_tab b : byte b -> tab aes_rsbox b = inv_sbox b.
Proof. intro H. apply Z.eqb_eq. refine (byte_check (fun b => tab aes_rsbox b =? inv_sbox b) _ _ H). vm_compute. reflexivity. Qed.
Lemma sbox_byte b : byte b -> byte (sbox b).
Proof. intro H. rewrite <- sbox_tab by auto. apply is_byte_ok. refine (byte_check (fun b => is_byte (tab aes_fsbox b)) _ _ H). vm_compute. reflexivity. Qed.
Lemma inv_sbox_byte b : byte b -> byte (inv_sbox b).
Proof. intro H. rewrite <- rsbox_tab by auto. apply is_byte_ok. refine (byte_check (fun b => is_byte (tab aes_rsbox b)) _ _ H). vm_compute. reflexivity. Qed.
Lemma inv_sbox_sbox b : byte b -> inv_sbox (sbox b) = b.
Proof.
  intro H. rewrite <- rsbox_tab, <- sbox_tab by (auto using sbox_byte).
  apply Z.eqb_eq. refine (byte_check (fun b => tab aes_rsbox (tab aes_fsbox b) =? b) _ _ H). vm_compute. reflexivity.
Qed.
Lemma sbox_inv_sbox b : byte b -> sbox (inv_sbox b) = b.
Proof.
  intro H. rewrite <- sbox_tab, <- rsbox_tab by (auto using inv_sbox_byte).
  apply Z.eqb_eq. refine (byte_check (fun b => tab aes_fsbox (tab aes_rsbox b) =? b) _ _ H). vm_compute. reflexivity.
Qed.
(** columns of the (inverse) MixColumns matrix *)
Definition col0 (a b c d s : Z) := [gmul a s; gmul d s; gmul c s; gmul b s].
Definition rot1 (l : list Z) := match l with [a; b; c; d] => [d; a; b; c] | _ => [] end.
Lemma ftab0_ok b : byte b -> B (tab aes_ftab0 b) = col0 2 3 1 1 (sbox b).
Proof.
  intro H. rewrite <- sbox_tab by auto. apply leqb_eq.
  refine (byte_check (fun b => leqb (B (tab aes_ftab0 b)) (col0 2 3 1 1 (tab aes_fsbox b))) _ _ H). vm_compute. reflexivity.
Qed.
Lemma ftab1_ok b : byte b -> B (tab aes_ftab1 b) = rot1 (col0 2 3 1 1 (sbox b)).
Proof.
  intro H. rewrite <- sbox_tab by auto. apply leqb_eq.
  refine (byte_check (fun b => leqb (B (tab aes_ftab1 b)) (rot1 (col0 2 3 1 1 (tab aes_fsbox b)))) _ _ H). vm_compute. reflexivity.
Qed.
Lemma ftab2_ok b : byte b -> B (tab aes_ftab2 b) = rot1 (rot1 (col0 2 3 1 1 (sbox b))).
Proof.
  intro H. rewrite <- sbox_tab by auto. apply leqb_eq.
  refine (byte_check (fun b => leqb (B (tab aes_ftab2 b)) (rot1 (rot1 (col0 2 3 1 1 (tab aes_fsbox b))))) _ _ H). vm_compute. reflexivity.
Qed.
Lemma ftab3_ok b : byte b -> B (tab aes_ftab3 b) = rot1 (rot1 (rot1 (col0 2 3 1 1 (sbox b)))).
Proof.
  intro H. rewrite <- sbox_tab by auto. apply leqb_eq.
  refine (byte_check (fun b => leqb (B (tab aes_ftab3 b)) (rot1 (rot1 (rot1 (col0 2 3 1 1 (tab aes_fsbox b)))))) _ _ H). vm_compute. reflexivity.
Qed.
Lemma rtab0_ok b : byte b -> B (tab aes_rtab0 b) = col0 0xe 0xb 0xd 0x9 (inv_sbox b).
Proof.
  intro H. rewrite <- rsbox_tab by auto. apply leqb_eq.
  refine (byte_check (fun b => leqb (B (tab aes_rtab0 b)) (col0 0xe 0xb 0xd 0x9 (tab aes_rsbox b))) _ _ H). vm_compute. reflexivity.
Qed.
Lemma rtab1_ok b : byte b -> B (tab aes_rtab1 b) = rot1 (col0 0xe 0xb 0xd 0x9 (inv_sbox b)).
Proof.
  intro H. rewrite <- rsbox_tab by auto. apply leqb_eq.
  refine (byte_check (fun b => leqb (B (tab aes_rtab1 b)) (rot1 (col0 0xe 0xb 0xd 0x9 (tab aes_rsbox b)))) _ _ H). vm_compute. reflexivity.
Qed.
Lemma rtab2_ok b : byte b -> B (tab aes_rtab2 b) = rot1 (rot1 (col0 0xe 0xb 0xd 0x9 (inv_sbox b))).
Proof.
  intro H. rewrite <- rsbox_tab by auto. apply leqb_eq.
  refine (byte_check (fun b => leqb (B (tab aes_rtab2 b)) (rot1 (rot1 (col0 0xe 0xb 0xd 0x9 (tab aes_rsbox b))))) _ _ H). vm_compute. reflexivity.
Qed.
Lemma rtab3_ok b : byte b -> B (tab aes_rtab3 b) = rot1 (rot1 (rot1 (col0 0xe 0xb 0xd 0x9 (inv_sbox b)))).
Proof.
  intro H. rewrite <- rsbox_tab by auto. apply leqb_eq.
  refine (byte_check (fun b => leqb (B (tab aes_rtab3 b)) (rot1 (rot1 (rot1 (col0 0xe 0xb 0xd 0x9 (tab aes_rsbox b)))))) _ _ H). vm_compute. reflexivity.
Qed.
Lemma mtab0_ok b : byte b -> B (tab aes_mtab b) = col0 0xe 0xb 0xd 0x9 b.
Proof. intro H. apply leqb_eq. refine (byte_check (fun b => leqb (B (tab aes_mtab b)) (col0 0xe 0xb 0xd 0x9 b)) _ _ H). vm_compute. reflexivity. Qed.
Lemma mtab1_ok b : byte b -> B (rotl32 (tab aes_mtab b) 8) = rot1 (col0 0xe 0xb 0xd 0x9 b).
Proof. intro H. apply leqb_eq. refine (byte_check (fun b => leqb (B (rotl32 (tab aes_mtab b) 8)) (rot1 (col0 0xe 0xb 0xd 0x9 b))) _ _ H). vm_compute. reflexivity. Qed.
Lemma mtab2_ok b : byte b -> B (rotl32 (tab aes_mtab b) 16) = rot1 (rot1 (col0 0xe 0xb 0xd 0x9 b)).
Proof. intro H. apply leqb_eq. refine (byte_check (fun b => leqb (B (rotl32 (tab aes_mtab b) 16)) (rot1 (rot1 (col0 0xe 0xb 0xd 0x9 b)))) _ _ H). vm_compute. reflexivity. Qed.
Lemma mtab3_ok b : byte b -> B (rotl32 (tab aes_mtab b) 24) = rot1 (rot1 (rot1 (col0 0xe 0xb 0xd 0x9 b))).
Proof. intro H. apply leqb_eq. refine (byte_check (fun b => leqb (B (rotl32 (tab aes_mtab b) 24)) (rot1 (rot1 (rot1 (col0 0xe 0xb 0xd 0x9 b))))) _ _ H). vm_compute. reflexivity. Qed.
Lemma gmul_byte a b : byte b -> In a [1; 2; 3; 0x9; 0xb; 0xd; 0xe] -> byte (gmul a b).
Proof.
  intros H Ha. apply is_byte_ok.
  pose proof (byte_check (fun b => forallb (fun a => is_byte (gmul a b)) [1; 2; 3; 0x9; 0xb; 0xd; 0xe]) ltac:(vm_compute; reflexivity) b H) as G.
  cbv beta in G. exact (proj1 (forallb_forall _ _) G a Ha).
Qed.

(** * Linearity *)
Lemma aes_rem_lxor n : forall p q, aes_rem n (Z.lxor p q) = Z.lxor (aes_rem n p) (aes_rem n q).
Proof.
  induction n as [|n IH]; intros p q; [reflexivity|]. cbn [aes_rem]. rewrite <- IH. f_equal. rewrite Z.lxor_spec.
  set (g := _ * _). destruct (Z.testbit p _), (Z.testbit q _); cbn [xorb].
  - rewrite Z.lxor_assoc, (Z.lxor_comm q g), <- (Z.lxor_assoc g g q), Z.lxor_nilpotent, Z.lxor_0_l. reflexivity.
  - rewrite !Z.lxor_assoc. f_equal. apply Z.lxor_comm.
  - apply Z.lxor_assoc.
  - reflexivity.
Qed.
Lemma gmul_lxor a x y : gmul a (Z.lxor x y) = Z.lxor (gmul a x) (gmul a y).
Proof. unfold gmul. rewrite clmul_lxor_r. apply aes_rem_lxor. Qed.
Lemma xor4_lxor a b c d a' b' c' d' :
  xor4 (Z.lxor a a') (Z.lxor b b') (Z.lxor c c') (Z.lxor d d') = Z.lxor (xor4 a b c d) (xor4 a' b' c' d').
Proof.
  unfold xor4. apply Z.bits_inj'. intros i _. rewrite !Z.lxor_spec.
  destruct (Z.testbit a i), (Z.testbit a' i), (Z.testbit b i), (Z.testbit b' i), (Z.testbit c i), (Z.testbit c' i), (Z.testbit d i), (Z.testbit d' i); reflexivity.
Qed.
Lemma xor4_transpose a1 b1 c1 d1 a2 b2 c2 d2 a3 b3 c3 d3 a4 b4 c4 d4 :
  xor4 (xor4 a1 b1 c1 d1) (xor4 a2 b2 c2 d2) (xor4 a3 b3 c3 d3) (xor4 a4 b4 c4 d4) =
  xor4 (xor4 a1 a2 a3 a4) (xor4 b1 b2 b3 b4) (xor4 c1 c2 c3 c4) (xor4 d1 d2 d3 d4).
Proof.
  change (xor4 (xor4 a1 b1 c1 d1) (xor4 a2 b2 c2 d2) (xor4 a3 b3 c3 d3) (xor4 a4 b4 c4 d4)) with
    (xor4 (Z.lxor (Z.lxor (Z.lxor a1 b1) c1) d1) (Z.lxor (Z.lxor (Z.lxor a2 b2) c2) d2) (Z.lxor (Z.lxor (Z.lxor a3 b3) c3) d3) (Z.lxor (Z.lxor (Z.lxor a4 b4) c4) d4)).
  rewrite !xor4_lxor. reflexivity.
Qed.
Opaque gmul.
Lemma gmul_xor4 e a b c d : gmul e (xor4 a b c d) = xor4 (gmul e a) (gmul e b) (gmul e c) (gmul e d).
Proof. unfold xor4. rewrite !gmul_lxor. reflexivity. Qed.

Lemma inv_mix_col_pieces x : byte x ->
  xor4 (gmul 0xe (gmul 2 x)) (gmul 0xb (gmul 1 x)) (gmul 0xd (gmul 1 x)) (gmul 0x9 (gmul 3 x)) = x /\
  xor4 (gmul 0xe (gmul 3 x)) (gmul 0xb (gmul 2 x)) (gmul 0xd (gmul 1 x)) (gmul 0x9 (gmul 1 x)) = 0 /\
  xor4 (gmul 0xe (gmul 1 x)) (gmul 0xb (gmul 3 x)) (gmul 0xd (gmul 2 x)) (gmul 0x9 (gmul 1 x)) = 0 /\
  xor4 (gmul 0xe (gmul 1 x)) (gmul 0xb (gmul 1 x)) (gmul 0xd (gmul 3 x)) (gmul 0x9 (gmul 2 x)) = 0.
Proof.
  intro H. repeat split; apply Z.eqb_eq.
  - refine (byte_check (fun x => xor4 (gmul 0xe (gmul 2 x)) (gmul 0xb (gmul 1 x)) (gmul 0xd (gmul 1 x)) (gmul 0x9 (gmul 3 x)) =? x) _ _ H). vm_compute. reflexivity.
  - refine (byte_check (fun x => xor4 (gmul 0xe (gmul 3 x)) (gmul 0xb (gmul 2 x)) (gmul 0xd (gmul 1 x)) (gmul 0x9 (gmul 1 x)) =? 0) _ _ H). vm_compute. reflexivity.
  - refine (byte_check (fun x => xor4 (gmul 0xe (gmul 1 x)) (gmul 0xb (gmul 3 x)) (gmul 0xd (gmul 2 x)) (gmul 0x9 (gmul 1 x)) =? 0) _ _ H). vm_compute. reflexivity.
  - refine (byte_check (fun x => xor4 (gmul 0xe (gmul 1 x)) (gmul 0xb (gmul 1 x)) (gmul 0xd (gmul 3 x)) (gmul 0x9 (gmul 2 x)) =? 0) _ _ H). vm_compute. reflexivity.
Qed.
Lemma xor4_perm a b c d : xor4 a b c d = xor4 b c d a.
Proof. unfold xor4. rewrite !(Z.lxor_comm _ a), <- !Z.lxor_assoc. reflexivity. Qed.
Lemma xor4_0 x : xor4 x 0 0 0 = x /\ xor4 0 x 0 0 = x /\ xor4 0 0 x 0 = x /\ xor4 0 0 0 x = x.
Proof. unfold xor4. rewrite !Z.lxor_0_r, !Z.lxor_0_l. auto. Qed.
Lemma inv_mix_mix_col x y z t : byte x -> byte y -> byte z -> byte t ->
  mix_column 0xe 0xb 0xd 0x9 (mix_column 2 3 1 1 [x; y; z; t]) = [x; y; z; t].
Proof.
  intros Hx Hy Hz Ht. cbn [mix_column].
  destruct (inv_mix_col_pieces x Hx) as (X0 & X1 & X2 & X3). destruct (inv_mix_col_pieces y Hy) as (Y0 & Y1 & Y2 & Y3).
  destruct (inv_mix_col_pieces z Hz) as (Z0 & Z1 & Z2 & Z3). destruct (inv_mix_col_pieces t Ht) as (T0 & T1 & T2 & T3).
  rewrite !gmul_xor4.
  assert (P2 : forall a b c d, xor4 a b c d = xor4 c d a b) by (intros; rewrite xor4_perm, xor4_perm; reflexivity).
  assert (P3 : forall a b c d, xor4 a b c d = xor4 d a b c) by (intros; rewrite P2, xor4_perm; reflexivity).
  f_equal; [|f_equal; [|f_equal; [|f_equal]]]; rewrite xor4_transpose.
  - rewrite X0, Y1, Z2, T3. apply xor4_0.
  - rewrite (xor4_perm _ _ _ (gmul 0xd (gmul 3 x))), (xor4_perm _ _ _ (gmul 0xd (gmul 1 y))), (xor4_perm _ _ _ (gmul 0xd (gmul 1 z))), (xor4_perm _ _ _ (gmul 0xd (gmul 2 t))).
    rewrite X3, Y0, Z1, T2. apply xor4_0.
  - rewrite (P2 _ _ _ (gmul 0xb (gmul 3 x))), (P2 _ _ _ (gmul 0xb (gmul 1 y))), (P2 _ _ _ (gmul 0xb (gmul 1 z))), (P2 _ _ _ (gmul 0xb (gmul 2 t))).
    rewrite X2, Y3, Z0, T1. apply xor4_0.
  - rewrite (P3 _ _ _ (gmul 0xe (gmul 3 x))), (P3 _ _ _ (gmul 0xe (gmul 1 y))), (P3 _ _ _ (gmul 0xe (gmul 1 z))), (P3 _ _ _ (gmul 0xe (gmul 2 t))).
    rewrite X1, Y2, Z3, T0. apply xor4_0.
Qed.
