(** C51 to C57: RSA, Diffie-Hellman, DSA and ElGamal.  [rkey n e d pad],
    [ofZ x], ... are contexts and objects holding those numbers. *)
From Coq Require Import Znumtheory Zpow_facts.
From Verif Require Import Base BytesSpec MpiModel MpiAlgModel MpiIOModel MpiSpec MpiTextSpec PkModel PkSpec NumTh Pk Rsa Rsa2.

(** * C51: RSA, one block *)
Theorem C51_rsa : forall n e d m rnd, rsa_valid n e d -> rsa_len n < 2 ^ 64 -> bytes m -> (0 < length m)%nat -> Z.of_nat (length m) <= rsa_len n - 11 -> rnd_ok (rnd O) ->
  exists ct, rsa_encrypt (rkey n e d PV15) m rnd = Ok ct /\ Z.of_nat (length ct) = rsa_len n /\ rsa_decrypt (rkey n e d PV15) ct = Ok (map Some m).
Proof. intros n e d m rnd V. rewrite <- (valid_len n e d V). revert V. exact (rsa_roundtrip n e d m rnd). Qed.
Print Assumptions C51_rsa.
(** Without padding the message comes back left justified in a modulus-sized
    block, provided the block is below the modulus. *)
Theorem C51_rsa_none : forall n e d m rnd, rsa_valid n e d -> bytes m -> (0 < length m)%nat -> Z.of_nat (length m) <= rsa_len n ->
  be_val (m ++ repeat 0 (Z.to_nat (rsa_len n) - length m)) < n ->
  exists ct, rsa_encrypt (rkey n e d PNone) m rnd = Ok ct /\ Z.of_nat (length ct) = rsa_len n /\
    rsa_decrypt (rkey n e d PNone) ct = Ok (map Some (m ++ repeat 0 (Z.to_nat (rsa_len n) - length m))).
Proof. intros n e d m rnd V. rewrite <- (valid_len n e d V). revert V. exact (none_gen n e d false m rnd). Qed.
Print Assumptions C51_rsa_none.
(** A modulus of fewer than 11 bytes: the size check wraps round and the padding
    is written out of bounds; of exactly 11 bytes: the loop does not end. *)
Theorem C51_short_modulus : forall n e d m rnd, rsa_valid n e d -> rsa_len n < 11 -> (0 < length m)%nat -> rsa_len n - 3 < Z.of_nat (length m) < 2 ^ 63 ->
  rsa_encrypt (rkey n e d PV15) m rnd = UB.
Proof. intros n e d m rnd V. rewrite <- (valid_len n e d V). revert V. exact (rsa_short n e d m rnd). Qed.
Print Assumptions C51_short_modulus.
Theorem C51_eleven : forall n e d m rnd, rsa_valid n e d -> rsa_len n = 11 -> bytes m -> m <> [] -> (forall i, rnd_ok (rnd i)) -> rsa_encrypt (rkey n e d PV15) m rnd = Fuel.
Proof. intros n e d m rnd V. rewrite <- (valid_len n e d V). revert V. exact (rsa_eleven n e d m rnd). Qed.
Print Assumptions C51_eleven.

(** * C52: RSA, several blocks.  Encryption is right: each block decrypts to its
    piece of the message. *)
Theorem C52_blocks_partial : forall n e d rnd m, rsa_valid n e d -> 11 < rsa_len n < 2 ^ 64 -> (forall i, rnd_ok (rnd i)) -> bytes m -> m <> [] ->
  exists cts, rsa_encrypt (rkey n e d PV15) m rnd = Ok (concat cts) /\
    Forall2 (fun ct x => Z.of_nat (length ct) = rsa_len n /\ rsa_decrypt (rkey n e d PV15) ct = Ok (map Some x)) cts (chunks (Z.to_nat (rsa_len n - 11)) m).
Proof. intros n e d rnd m V. rewrite <- (valid_len n e d V). revert V. exact (rsa_encrypt_blocks n e d rnd m). Qed.
Print Assumptions C52_blocks_partial.
(** Decryption of more than one block is never right: everything past the size
    of one block is memory never written. *)
Theorem C52_multi_wrong : forall n e d rnd m, rsa_valid n e d -> 11 < rsa_len n < 2 ^ 64 -> (forall i, rnd_ok (rnd i)) -> bytes m -> rsa_len n - 11 < Z.of_nat (length m) ->
  exists ct out, rsa_encrypt (rkey n e d PV15) m rnd = Ok ct /\ rsa_decrypt (rkey n e d PV15) ct = Ok out /\ length out = length m /\
    skipn (Z.to_nat (rsa_len n - 11)) out = repeat None (length m - Z.to_nat (rsa_len n - 11)) /\ out <> map Some m.
Proof. intros n e d rnd m V. rewrite <- (valid_len n e d V). revert V. exact (rsa_multi n e d rnd m). Qed.
Print Assumptions C52_multi_wrong.

(** A key: two 48-bit primes. *)
Definition ex_p : Z := 281474221735937.
Definition ex_q : Z := 281473953300481.
Definition ex_n : Z := 79227661944190365170397085697.
Definition ex_d : Z := 1461584700840574124033.
Lemma ex_valid : rsa_valid ex_n 65537 ex_d.
Proof.
  assert (P : prime ex_p). { apply (proth ex_p 16777171 24 3); [lia|lia|reflexivity|]. rewrite <- Zpow_mod_correct by discriminate. vm_compute. reflexivity. }
  assert (Q : prime ex_q). { apply (proth ex_q 16777155 24 11); [lia|lia|reflexivity|]. rewrite <- Zpow_mod_correct by discriminate. vm_compute. reflexivity. }
  exists ex_p, ex_q. split; [exact P|]. split; [exact Q|]. split; [discriminate|]. split; [reflexivity|]. split; [reflexivity|]. split; [reflexivity|].
  exists 20284. vm_compute. reflexivity.
Qed.
Lemma ex_len : rsa_len ex_n = 12. Proof. reflexivity. Qed.
Definition ex_rnd (i : nat) (j : nat) : list Z := repeat (Z.of_nat i mod 256) j.
Lemma ex_rnd_ok i : rnd_ok (ex_rnd i).
Proof.
  intro j. split; [|apply repeat_length]. apply Forall_forall. intros x Hx. apply repeat_spec in Hx. subst. unfold byte. apply Z.mod_pos_bound. lia.
Qed.
Example C51_ex : exists ct, rsa_encrypt (rkey ex_n 65537 ex_d PV15) [200] ex_rnd = Ok ct /\ length ct = 12%nat /\ rsa_decrypt (rkey ex_n 65537 ex_d PV15) ct = Ok [Some 200].
Proof.
  destruct (C51_rsa ex_n 65537 ex_d [200] ex_rnd ex_valid) as (ct & A & B & C); rewrite ?ex_len in *; [lia|repeat constructor; unfold byte; lia|cbn; lia|cbn; lia|apply ex_rnd_ok|].
  exists ct. split; [exact A|]. split; [lia|exact C].
Qed.
Theorem C52_refuted : exists n e d m rnd ct, rsa_valid n e d /\ 11 < rsa_len n < 2 ^ 64 /\ (forall i, rnd_ok (rnd i)) /\ bytes m /\
  rsa_encrypt (rkey n e d PV15) m rnd = Ok ct /\ rsa_decrypt (rkey n e d PV15) ct <> Ok (map Some m).
Proof.
  assert (M : bytes [1; 2]) by (repeat constructor; unfold byte; lia).
  destruct (C52_multi_wrong ex_n 65537 ex_d ex_rnd [1; 2] ex_valid ltac:(rewrite ex_len; lia) ex_rnd_ok M ltac:(rewrite ex_len; cbn; lia)) as (ct & out & A & B & _ & _ & N).
  exists ex_n, 65537, ex_d, [1; 2], ex_rnd, ct. split; [exact ex_valid|]. split; [rewrite ex_len; lia|]. split; [exact ex_rnd_ok|]. split; [exact M|]. split; [exact A|].
  rewrite B. intro E. inversion E. contradiction.
Qed.
Print Assumptions C52_refuted.

(** * C53: RSA signatures *)
Theorem C53_sign_verify : forall n e d m, rsa_valid n e d -> rsa_len n < 2 ^ 64 -> bytes m -> (0 < length m)%nat -> Z.of_nat (length m) <= rsa_len n - 11 ->
  exists sg, rsa_sign (rkey n e d PV15) m = Ok sg /\ Z.of_nat (length sg) = rsa_len n /\ rsa_verify (rkey n e d PV15) sg m = Ok 0.
Proof. intros n e d m V. rewrite <- (valid_len n e d V). revert V. exact (rsa_sign_verify n e d m). Qed.
Print Assumptions C53_sign_verify.
(** An accepted signature is a root of the padded message, ... *)
Theorem C53_sound : forall n e d sg m, rsa_valid n e d -> bytes sg -> Z.of_nat (length sg) = rsa_len n -> bytes m ->
  rsa_verify (rkey n e d PV15) sg m = Ok 0 ->
  exists k, Z.of_nat (length (pkcs_block 1 (repeat 255 k) m)) = rsa_len n /\ be_val sg ^ e mod n = be_val (pkcs_block 1 (repeat 255 k) m).
Proof. intros n e d sg m V. rewrite <- (valid_len n e d V). revert V. exact (rsa_verify_sound n e d sg m). Qed.
Print Assumptions C53_sound.
(** ... hence good for one message only. *)
Theorem C53_one_message : forall n e d sg m m', rsa_valid n e d -> bytes sg -> Z.of_nat (length sg) = rsa_len n -> bytes m -> bytes m' ->
  rsa_verify (rkey n e d PV15) sg m = Ok 0 -> rsa_verify (rkey n e d PV15) sg m' = Ok 0 -> m = m'.
Proof. intros n e d sg m m' V. rewrite <- (valid_len n e d V). revert V. exact (rsa_one_message n e d sg m m'). Qed.
Print Assumptions C53_one_message.
(** A signature of a message longer than one block is not accepted. *)
Theorem C53_multi_wrong : forall n e d m, rsa_valid n e d -> 11 < rsa_len n < 2 ^ 64 -> bytes m -> rsa_len n - 11 < Z.of_nat (length m) ->
  exists sg, rsa_sign (rkey n e d PV15) m = Ok sg /\ rsa_verify (rkey n e d PV15) sg m <> Ok 0.
Proof. intros n e d m V. rewrite <- (valid_len n e d V). revert V. exact (rsa_sign_multi n e d m). Qed.
Print Assumptions C53_multi_wrong.
(** Without padding a signature is accepted for every prefix of the message. *)
Theorem C53_none_prefix : forall n e d m k, rsa_valid n e d -> bytes m -> (0 < length m)%nat -> Z.of_nat (length m) <= rsa_len n ->
  be_val (m ++ repeat 0 (Z.to_nat (rsa_len n) - length m)) < n ->
  exists sg, rsa_sign (rkey n e d PNone) m = Ok sg /\ rsa_verify (rkey n e d PNone) sg (firstn k m) = Ok 0.
Proof. intros n e d m k V. rewrite <- (valid_len n e d V). revert V. exact (rsa_none_prefix n e d m k). Qed.
Print Assumptions C53_none_prefix.
Theorem C53_refuted :
  (exists n e d m sg, rsa_valid n e d /\ 11 < rsa_len n < 2 ^ 64 /\ bytes m /\ rsa_sign (rkey n e d PV15) m = Ok sg /\ rsa_verify (rkey n e d PV15) sg m <> Ok 0) /\
  (exists n e d m m' sg, rsa_valid n e d /\ m <> m' /\ rsa_sign (rkey n e d PNone) m = Ok sg /\ rsa_verify (rkey n e d PNone) sg m = Ok 0 /\ rsa_verify (rkey n e d PNone) sg m' = Ok 0).
Proof.
  assert (M : bytes [1; 2]) by (repeat constructor; unfold byte; lia). split.
  - destruct (C53_multi_wrong ex_n 65537 ex_d [1; 2] ex_valid ltac:(rewrite ex_len; lia) M ltac:(rewrite ex_len; cbn; lia)) as (sg & A & B).
    exists ex_n, 65537, ex_d, [1; 2], sg. split; [exact ex_valid|]. split; [rewrite ex_len; lia|]. auto.
  - assert (L : be_val ([1; 2] ++ repeat 0 (Z.to_nat (rsa_len ex_n) - length [1; 2])) < ex_n) by (vm_compute; reflexivity).
    destruct (C53_none_prefix ex_n 65537 ex_d [1; 2] 2 ex_valid M ltac:(cbn; lia) ltac:(rewrite ex_len; cbn; lia) L) as (sg & A & B).
    destruct (C53_none_prefix ex_n 65537 ex_d [1; 2] 0 ex_valid M ltac:(cbn; lia) ltac:(rewrite ex_len; cbn; lia) L) as (sg' & A' & B').
    assert (sg' = sg) by congruence. subst sg'. exists ex_n, 65537, ex_d, [1; 2], [], sg. split; [exact ex_valid|]. split; [discriminate|]. auto.
Qed.
Print Assumptions C53_refuted.

(** * C54: Diffie-Hellman *)
Theorem C54_dh : forall p g a b Y1 Z1 Y2 Z2 len, 1 < p -> 0 <= a -> 0 <= b -> rsa_len p <= len ->
  dh_exchange {| dh_p := ofZ p; dh_g := ofZ g; dh_e := ofZ a; dh_Y := Y1; dh_Z := Z1 |}
              {| dh_p := ofZ p; dh_g := ofZ g; dh_e := ofZ b; dh_Y := Y2; dh_Z := Z2 |} len
  = Ok (be_bytes (Z.to_nat len) (g ^ (a * b) mod p), be_bytes (Z.to_nat len) (g ^ (a * b) mod p)).
Proof. intros p g a b Y1 Z1 Y2 Z2 len Hp. rewrite <- (mlen_len p) by (apply Z.lt_trans with 1; [reflexivity|exact Hp]). revert Hp. exact (dh_ok p g a b Y1 Z1 Y2 Z2 len). Qed.
Print Assumptions C54_dh.
Example C54_ex : dh_exchange {| dh_p := ofZ 3329; dh_g := ofZ 3; dh_e := ofZ 5; dh_Y := ofZ 0; dh_Z := ofZ 0 |}
    {| dh_p := ofZ 3329; dh_g := ofZ 3; dh_e := ofZ 7; dh_Y := ofZ 0; dh_Z := ofZ 0 |} 2 = Ok (be_bytes 2 (3 ^ 35 mod 3329), be_bytes 2 (3 ^ 35 mod 3329)).
Proof. rewrite C54_dh; [reflexivity|lia|lia|lia|]. vm_compute. discriminate. Qed.

(** * C55: DSA signatures verify *)
Theorem C55_dsa : forall p q g x bin m r0 s0, dsa_domain p q g -> q < 2 ^ 512 -> 0 <= x -> draw_for q bin -> bytes m ->
  let c := {| dsa_p := ofZ p; dsa_q := ofZ q; dsa_g := ofZ g; dsa_pvt := ofZ x; dsa_pub := ofZ (g ^ x mod p) |} in
  exists r s, dsa_sign c r0 s0 bin m = Ok (0, r, s) /\ dsa_verify c r s m = Ok 0.
Proof. exact dsa_complete. Qed.
Print Assumptions C55_dsa.
(** What is signed: FIPS 186-4, 4.6, with r and s possibly 0. *)
Theorem C55_sign : forall p q g x pub r0 s0 bin m, 1 < p -> prime q -> q < 2 ^ 512 -> draw_for q bin -> bytes m ->
  let z := be_val (firstn (8 * used (ofZ q)) m) in
  exists k ki, 0 < k < q /\ (k * ki) mod q = 1 /\
  let r := (g ^ k mod p) mod q in let s := ((x * r + z) * ki) mod q in
  dsa_sign {| dsa_p := ofZ p; dsa_q := ofZ q; dsa_g := ofZ g; dsa_pvt := ofZ x; dsa_pub := pub |} r0 s0 bin m = Ok (0, ofZ r, ofZ s).
Proof. exact dsa_sign_form. Qed.
Print Assumptions C55_sign.
Lemma prime_3329 : prime 3329.
Proof. apply (proth 3329 13 8 3); [lia|lia|reflexivity|]. rewrite <- Zpow_mod_correct by discriminate. vm_compute. reflexivity. Qed.
Lemma prime_13 : prime 13.
Proof. apply (proth 13 3 2 2); [lia|lia|reflexivity|]. reflexivity. Qed.
Example C55_ex : dsa_domain 3329 13 (3 ^ 256 mod 3329) /\ 3 ^ 256 mod 3329 <> 1 /\ draw_for 13 [7].
Proof.
  split; [|split].
  - split; [exact prime_3329|]. split; [exact prime_13|]. split; [exists 256; reflexivity|].
    rewrite <- Zpower_mod by lia. rewrite <- Z.pow_mul_r, <- Zpow_mod_correct by lia. vm_compute. reflexivity.
  - rewrite <- Zpow_mod_correct by lia. vm_compute. discriminate.
  - split; [repeat constructor; unfold byte; lia|]. vm_compute. reflexivity.
Qed.

(** * C56: DSA verification.  When s is invertible the code compares r with the
    v of FIPS 186-4, 4.7; ... *)
Theorem C56_verify_partial : forall p q g pvt y m r s, 1 < p -> 1 < q -> bytes m -> Z.gcd s q = 1 ->
  let z := be_val (firstn (8 * used (ofZ q)) m) in
  exists w, 0 <= w < q /\ (s * w) mod q = 1 /\
  dsa_verify {| dsa_p := ofZ p; dsa_q := ofZ q; dsa_g := ofZ g; dsa_pvt := pvt; dsa_pub := ofZ y |} (ofZ r) (ofZ s) m =
  Ok (if dsa_v p q g y z r w =? Z.abs r then 0 else -1).
Proof. exact dsa_verify_form. Qed.
Print Assumptions C56_verify_partial.
(** ... when it is not, every signature is accepted, for every message and key. *)
Theorem C56_forgery : forall p q g pvt y m r s, 0 < q -> Z.gcd s q <> 1 ->
  dsa_verify {| dsa_p := p; dsa_q := ofZ q; dsa_g := g; dsa_pvt := pvt; dsa_pub := y |} r (ofZ s) m = Ok 0.
Proof. exact dsa_verify_err. Qed.
Print Assumptions C56_forgery.
Theorem C56_refuted : exists p q g y r m, dsa_domain p q g /\
  dsa_verify {| dsa_p := ofZ p; dsa_q := ofZ q; dsa_g := ofZ g; dsa_pvt := ofZ 0; dsa_pub := ofZ y |} (ofZ r) (ofZ 0) m = Ok 0.
Proof. exists 3329, 13, (3 ^ 256 mod 3329), 17, 5, [1; 2; 3]. split; [apply C55_ex|]. apply C56_forgery; [lia|discriminate]. Qed.
Print Assumptions C56_refuted.
(** The range 0 < s < q is not checked: s and s + q are accepted alike. *)
Theorem C56_malleable : forall p q g pvt y m r s s', 1 < p -> 1 < q -> bytes m -> s mod q = s' mod q ->
  dsa_verify {| dsa_p := ofZ p; dsa_q := ofZ q; dsa_g := ofZ g; dsa_pvt := pvt; dsa_pub := ofZ y |} (ofZ r) (ofZ s) m =
  dsa_verify {| dsa_p := ofZ p; dsa_q := ofZ q; dsa_g := ofZ g; dsa_pvt := pvt; dsa_pub := ofZ y |} (ofZ r) (ofZ s') m.
Proof. exact dsa_malleable. Qed.
Print Assumptions C56_malleable.

(** * C57: ElGamal signatures.  One entry of [draws] per attempt to draw k. *)
Theorem C57_elgamal : forall p g d ss jx jy draws m r s, prime p -> ~ (p | g) -> 0 <= d -> bytes m -> Forall (fun x => draw_for (p - 1) (snd x)) draws ->
  let c := {| eg_p := ofZ p; eg_g := ofZ g; eg_y := ofZ (g ^ d mod p); eg_d := ofZ d |} in
  eg_sign2 c ss jx jy draws m = Ok (r, s) -> eg_verify2 c r s m = Ok 0.
Proof. exact eg_complete. Qed.
Print Assumptions C57_elgamal.
Theorem C57_elgamal_bytes : forall p g d jx jy draws m sg, prime p -> ~ (p | g) -> 0 <= d -> bytes m -> Forall (fun x => draw_for (p - 1) (snd x)) draws ->
  let c := {| eg_p := ofZ p; eg_g := ofZ g; eg_y := ofZ (g ^ d mod p); eg_d := ofZ d |} in
  eg_sign c jx jy draws m = Ok sg -> eg_verify c sg m = Ok 0.
Proof. exact eg_complete_bytes. Qed.
Print Assumptions C57_elgamal_bytes.
(** Signing succeeds as soon as a usable k is drawn. *)
Theorem C57_succeeds : forall p g y d ss jx jy al bin rest m k, prime p -> bytes m -> Z.of_nat (length m) <= rsa_len p ->
  rand_range false al (ofZ (p - 1)) bin = Ok (ofZ k) -> 0 < k -> Z.gcd k (p - 1) = 1 -> 2 < p ->
  exists r s, eg_sign2 {| eg_p := ofZ p; eg_g := ofZ g; eg_y := y; eg_d := ofZ d |} ss jx jy ((al, bin) :: rest) m = Ok (r, s).
Proof. intros p g y d ss jx jy al bin rest m k P. rewrite <- (mlen_len p (prime_pos p P)). revert P. exact (eg_sign_ok p g y d ss jx jy al bin rest m k). Qed.
Print Assumptions C57_succeeds.
(** What verification accepts: the ElGamal equation. *)
Theorem C57_verify : forall p g y d r s m, prime p -> 0 <= r -> 0 <= s -> bytes m -> Z.of_nat (length m) <= rsa_len p ->
  eg_verify2 {| eg_p := ofZ p; eg_g := ofZ g; eg_y := ofZ y; eg_d := d |} (ofZ r) (ofZ s) m =
  if (y ^ r * r ^ s) mod p =? g ^ be_val m mod p then Ok 0 else Err (-1).
Proof. intros p g y d r s m P. rewrite <- (mlen_len p (prime_pos p P)), (eg_verify_any_d (ofZ p)). revert P. exact (eg_verify_eq p g y r s m). Qed.
Print Assumptions C57_verify.
Example C57_ex : prime 3329 /\ ~ (3329 | 3) /\ Forall (fun x => draw_for (3329 - 1) (snd x)) [(8%nat, [1; 7])] /\
  exists r s, eg_sign2 {| eg_p := ofZ 3329; eg_g := ofZ 3; eg_y := ofZ (3 ^ 5 mod 3329); eg_d := ofZ 5 |} false 0 0 [(8%nat, [1; 7])] [9] = Ok (r, s).
Proof.
  split; [exact prime_3329|]. split; [intros D; apply Z.divide_pos_le in D; lia|]. split; [constructor; [|constructor]; split; [repeat constructor; unfold byte; lia|vm_compute; reflexivity]|].
  apply (C57_succeeds 3329 3 _ 5 false 0 0 8 [1; 7] [] [9] 2311); [exact prime_3329|repeat constructor; unfold byte; lia|vm_compute; discriminate|vm_compute; reflexivity|lia|reflexivity|lia].
Qed.
