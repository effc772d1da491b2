(** C89: which RSA signatures are accepted. *)
From Coq Require Import Znumtheory Zpow_facts.
From Verif Require Import Base BytesSpec MpiModel MpiAlgModel MpiIOModel MpiSpec MpiTextSpec PkModel PkSpec NumTh Pk Rsa Rsa2 RsaForge PropPk.

(** With PKCS#1 v1.5 padding a signature of the length of the modulus is accepted for
    exactly the messages for which its e-th power is a signature block, with any number
    of padding bytes. *)
Theorem C89_exact : forall n e d sg m, rsa_valid n e d -> bytes sg -> Z.of_nat (length sg) = rsa_len n -> bytes m ->
  rsa_verify (rkey n e d PV15) sg m = Ok 0 <->
  exists k, Z.of_nat (length (pkcs_block 1 (repeat 255 k) m)) = rsa_len n /\ be_val sg ^ e mod n = be_val (pkcs_block 1 (repeat 255 k) m).
Proof. intros n e d sg m V. rewrite <- (valid_len n e d V). revert V. exact (verify_iff n e d sg m). Qed.
Print Assumptions C89_exact.

(** RFC 2313, 8.1 requires at least eight padding bytes; fewer are accepted, even none. *)
Theorem C89_short_refuted : forall n e d m k, rsa_valid n e d -> bytes m -> Z.of_nat (length m) + Z.of_nat k = rsa_len n - 3 ->
  exists sg, bytes sg /\ Z.of_nat (length sg) = rsa_len n /\ be_val sg = be_val (pkcs_block 1 (repeat 255 k) m) ^ d mod n /\
    rsa_verify (rkey n e d PV15) sg m = Ok 0.
Proof. intros n e d m k V. rewrite <- (valid_len n e d V). revert V. exact (short_pad n e d m k). Qed.
Print Assumptions C89_short_refuted.
(** a signature block without padding bytes, nine bytes of message *)
Example C89_short_ex : exists sg, be_val sg = be_val (pkcs_block 1 [] [1; 2; 3; 4; 5; 6; 7; 8; 9]) ^ ex_d mod ex_n /\
  rsa_verify (rkey ex_n 65537 ex_d PV15) sg [1; 2; 3; 4; 5; 6; 7; 8; 9] = Ok 0.
Proof.
  destruct (C89_short_refuted ex_n 65537 ex_d [1; 2; 3; 4; 5; 6; 7; 8; 9] 0 ex_valid ltac:(repeat constructor; unfold byte; lia) ltac:(rewrite ex_len; reflexivity)) as (sg & _ & _ & A & B).
  exists sg. split; [exact A|exact B].
Qed.

(** The number of a signature is not checked to be below the modulus: adding the modulus
    gives another signature, and for decryption another ciphertext, treated alike. *)
Theorem C89_twin_refuted : forall n e d pad sg, rsa_valid n e d -> bytes sg -> Z.of_nat (length sg) = rsa_len n -> be_val sg + n < 256 ^ rsa_len n ->
  let sg' := be_bytes (Z.to_nat (rsa_len n)) (be_val sg + n) in
  sg' <> sg /\ length sg' = length sg /\ (forall m, rsa_verify (rkey n e d pad) sg' m = rsa_verify (rkey n e d pad) sg m) /\
  rsa_decrypt (rkey n e d pad) sg' = rsa_decrypt (rkey n e d pad) sg.
Proof. intros n e d pad sg V. rewrite <- (valid_len n e d V). revert V. exact (twin n e d pad sg). Qed.
Print Assumptions C89_twin_refuted.
(** Under a modulus whose first byte is 1 every signature has such a twin. *)
Definition tw_p : Z := 21990417104897.
Definition tw_q : Z := 21990651985921.
Definition tw_n : Z := 483583609579034340424155137.
Definition tw_d : Z := 14094151894767173633.
Lemma tw_valid : rsa_valid tw_n 65537 tw_d.
Proof.
  assert (P : prime tw_p). { apply (proth tw_p 1310731 24 3); [lia|lia|reflexivity|]. rewrite <- Zpow_mod_correct by discriminate. vm_compute. reflexivity. }
  assert (Q : prime tw_q). { apply (proth tw_q 1310745 24 7); [lia|lia|reflexivity|]. rewrite <- Zpow_mod_correct by discriminate. vm_compute. reflexivity. }
  exists tw_p, tw_q. split; [exact P|]. split; [exact Q|]. split; [discriminate|]. split; [reflexivity|]. split; [reflexivity|]. split; [reflexivity|].
  exists 32046. vm_compute. reflexivity.
Qed.
Example C89_twin_ex : exists sg sg', sg <> sg' /\ rsa_verify (rkey tw_n 65537 tw_d PV15) sg [200] = Ok 0 /\ rsa_verify (rkey tw_n 65537 tw_d PV15) sg' [200] = Ok 0.
Proof.
  assert (L : rsa_len tw_n = 12) by reflexivity.
  destruct (C89_short_refuted tw_n 65537 tw_d [200] 8 tw_valid ltac:(repeat constructor; unfold byte; lia) ltac:(rewrite L; reflexivity)) as (sg & A & B & C & D).
  assert (U : be_val sg + tw_n < 256 ^ rsa_len tw_n).
  { rewrite C, L. assert (H := Z.mod_pos_bound (be_val (pkcs_block 1 (repeat 255 8) [200]) ^ tw_d) tw_n ltac:(reflexivity)).
    assert (tw_n + tw_n < 256 ^ 12) by reflexivity. revert H. generalize (be_val (pkcs_block 1 (repeat 255 8) [200]) ^ tw_d mod tw_n). intros. lia. }
  destruct (C89_twin_refuted tw_n 65537 tw_d PV15 sg tw_valid A B U) as (N & _ & E & _).
  exists sg, (be_bytes (Z.to_nat (rsa_len tw_n)) (be_val sg + tw_n)). split; [intro Q; apply N; symmetry; exact Q|]. split; [exact D|]. rewrite E. exact D.
Qed.

(** Without padding every string of the length of the modulus is a signature, of the
    message that anyone computes from it with the public key. *)
Theorem C89_exist_refuted : forall n e d sg, rsa_valid n e d -> bytes sg -> Z.of_nat (length sg) = rsa_len n ->
  rsa_verify (rkey n e d PNone) sg (be_bytes (Z.to_nat (rsa_len n)) (be_val sg ^ e mod n)) = Ok 0.
Proof. intros n e d sg V. rewrite <- (valid_len n e d V). revert V. exact (none_exist n e d sg). Qed.
Print Assumptions C89_exist_refuted.
(** And anything of that length can be put in front of a signature. *)
Theorem C89_blocks_refuted : forall n e d a sg m, rsa_valid n e d -> bytes a -> bytes sg ->
  Z.of_nat (length a) = rsa_len n -> Z.of_nat (length sg) = rsa_len n -> Z.of_nat (length m) <= rsa_len n ->
  rsa_verify (rkey n e d PNone) (a ++ sg) m = rsa_verify (rkey n e d PNone) sg m.
Proof. intros n e d a sg m V. rewrite <- (valid_len n e d V). revert V. exact (none_prepend n e d a sg m). Qed.
Print Assumptions C89_blocks_refuted.
Example C89_blocks_ex : exists m, length m = 12%nat /\ rsa_verify (rkey ex_n 65537 ex_d PNone) (repeat 7 12) m = Ok 0 /\
  rsa_verify (rkey ex_n 65537 ex_d PNone) (repeat 1 12 ++ repeat 7 12) m = Ok 0.
Proof.
  assert (B : forall k, byte k -> bytes (repeat k 12)) by (intros k K; apply Forall_forall; intros x X; apply repeat_spec in X; subst; exact K).
  assert (E := C89_exist_refuted ex_n 65537 ex_d (repeat 7 12) ex_valid (B 7 ltac:(unfold byte; lia)) eq_refl).
  assert (L := Bytes.be_bytes_length (Z.to_nat (rsa_len ex_n)) (be_val (repeat 7 12) ^ 65537 mod ex_n)). revert E L.
  generalize (be_bytes (Z.to_nat (rsa_len ex_n)) (be_val (repeat 7 12) ^ 65537 mod ex_n)). intros m E L. rewrite ex_len in L.
  exists m. split; [exact L|]. split; [exact E|].
  exact (eq_trans (C89_blocks_refuted ex_n 65537 ex_d (repeat 1 12) (repeat 7 12) m ex_valid (B 1 ltac:(unfold byte; lia)) (B 7 ltac:(unfold byte; lia)) eq_refl eq_refl ltac:(rewrite ex_len, L; discriminate)) E).
Qed.

(** Two signatures one after the other, the second of the shorter message: comparing
    them with a message put together from the two reads memory that was never written. *)
Theorem C89_mixed_refuted : forall n e d sg1 sg2 m1 m2 x, rsa_valid n e d -> bytes sg1 -> bytes sg2 -> Z.of_nat (length sg1) = rsa_len n -> Z.of_nat (length sg2) = rsa_len n ->
  bytes m1 -> bytes m2 -> rsa_verify (rkey n e d PV15) sg1 m1 = Ok 0 -> rsa_verify (rkey n e d PV15) sg2 m2 = Ok 0 -> (0 < length m2 <= length m1)%nat -> length x = length m2 ->
  rsa_verify (rkey n e d PV15) (sg1 ++ sg2) (m2 ++ skipn (length m2) m1 ++ x) = UB.
Proof. intros n e d sg1 sg2 m1 m2 x V. rewrite <- (valid_len n e d V). revert V. exact (mixed n e d sg1 sg2 m1 m2 x). Qed.
Print Assumptions C89_mixed_refuted.
Example C89_mixed_ex : exists sg, rsa_verify (rkey ex_n 65537 ex_d PV15) sg [200] = Ok 0 /\ rsa_verify (rkey ex_n 65537 ex_d PV15) (sg ++ sg) [200; 17] = UB.
Proof.
  assert (M : bytes [200]) by (repeat constructor; unfold byte; lia).
  destruct (C89_short_refuted ex_n 65537 ex_d [200] 8 ex_valid M ltac:(rewrite ex_len; reflexivity)) as (sg & A & B & _ & D).
  exists sg. split; [exact D|]. exact (C89_mixed_refuted ex_n 65537 ex_d sg sg [200] [200] [17] ex_valid A A B B M M D D ltac:(cbn; lia) eq_refl).
Qed.

(** For an empty signature the result is a variable never set. *)
Theorem C89_empty_refuted : forall n e d pad m, rsa_verify (rkey n e d pad) [] m = UB.
Proof. exact (fun n e d pad m => eq_refl). Qed.
Print Assumptions C89_empty_refuted.
