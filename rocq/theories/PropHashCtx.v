(** Property C84: the life of a hash context, and HMAC over one that is used
    again and again.  [c] is whatever the context holds before. *)
From Verif Require Import Base HashModel HashSpec HmacSpec HashCtxModel HashCtxSpec HashCtx.

(** *** C84: every digest call that follows an init with only updates between them
    writes the hash of those updates, whatever calls were made before *)
Theorem C84_sha256 : forall c l, Forall (fun k => bytes (call_data k)) l ->
  exists c' os, hash_calls sha256_ops c (CInit :: l) = Ok (c', os) /\ Forall2 meets os (expected (fun m => Some (SHA256 m)) None (CInit :: l)).
Proof. exact sha256_life. Qed.
Print Assumptions C84_sha256.

Theorem C84_sha1 : forall c l, Forall (fun k => bytes (call_data k)) l -> Forall (fun k => Z.of_nat (length (call_data k)) < 2 ^ 32) l ->
  exists c' os, hash_calls sha1_ops c l = Ok (c', os) /\ Forall2 meets os (expected (fun m => Some (SHA1 m)) None l).
Proof. exact sha1_life. Qed.
Print Assumptions C84_sha1.

Theorem C84_md5 : forall c l, Forall (fun k => bytes (call_data k)) l -> Forall (fun k => Z.of_nat (length (call_data k)) < 2 ^ 32) l ->
  exists c' os, hash_calls md5_ops c l = Ok (c', os) /\ Forall2 meets os (expected (fun m => Some (MD5 m)) None l).
Proof. exact md5_life. Qed.
Print Assumptions C84_md5.

(** SHA-512 and SHA-384 where C48 holds *)
Theorem C84_sha512 : forall is384 c l, Forall (fun k => bytes (call_data k)) l -> Forall (fun k => Z.of_nat (length (call_data k)) < 2 ^ 32) l ->
  exists c' os, hash_calls (sha512_ops is384) c l = Ok (c', os) /\
    Forall2 meets os (expected (fun m => if Nat.ltb (length m mod 128) 112 then Some (if is384 then SHA384 m else SHA512 m) else None) None l).
Proof. exact sha512_life. Qed.
Print Assumptions C84_sha512.

(** SHA-256 from a context that was never initialised is safe only if its count of
    buffered bytes happens to be below 64 *)
Theorem C84_sha256_no_init : forall c l, (s2_datalen c < 64)%nat -> Forall (fun k => bytes (call_data k)) l ->
  exists c' os, hash_calls sha256_ops c l = Ok (c', os) /\ Forall2 meets os (expected (fun m => Some (SHA256 m)) None l).
Proof. exact sha256_life_any. Qed.
Print Assumptions C84_sha256_no_init.

Theorem C84_sha256_no_init_refuted : exists c, hash_calls sha256_ops c [CUpdate [1]] = UB /\ hash_calls sha256_ops c [CDigest] = UB.
Proof. exact sha256_uninit_refuted. Qed.
Print Assumptions C84_sha256_no_init_refuted.

(** a second digest call without an init between does not give the digest again *)
Theorem C84_digest_twice_refuted : exists m, bytes m /\
  (forall c c' a b, hash_calls sha256_ops c [CInit; CUpdate m; CDigest; CDigest] = Ok (c', [a; b]) -> a = SHA256 m /\ b <> a) /\
  (forall c c' a b, hash_calls sha1_ops c [CInit; CUpdate m; CDigest; CDigest] = Ok (c', [a; b]) -> a = SHA1 m /\ b <> a) /\
  (forall c c' a b, hash_calls md5_ops c [CInit; CUpdate m; CDigest; CDigest] = Ok (c', [a; b]) -> a = MD5 m /\ b <> a) /\
  (forall c c' a b, hash_calls (sha512_ops false) c [CInit; CUpdate m; CDigest; CDigest] = Ok (c', [a; b]) -> a = SHA512 m /\ b <> a).
Proof. exact twice_refuted. Qed.
Print Assumptions C84_digest_twice_refuted.

(** *** C84, HMAC: any number of messages with their keys over one hash context *)
Theorem C84_hmac_sha256 : forall c l, Forall (fun p => bytes (fst p) /\ Forall bytes (snd p)) l ->
  exists c', hmac_runs_c sha256_ops 32 c l = Ok (c', map (fun p => HMAC 64 SHA256 (fst p) (concat (snd p))) l).
Proof. exact sha256_runs. Qed.
Print Assumptions C84_hmac_sha256.

Theorem C84_hmac_sha1 : forall c l, Forall (fun p => bytes (fst p) /\ Forall bytes (snd p)) l ->
  Forall (fun p => Z.of_nat (length (fst p)) < 2 ^ 32 /\ Forall (fun d => Z.of_nat (length d) < 2 ^ 32) (snd p)) l ->
  exists c', hmac_runs_c sha1_ops 20 c l = Ok (c', map (fun p => HMAC 64 SHA1 (fst p) (concat (snd p))) l).
Proof. exact sha1_runs. Qed.
Print Assumptions C84_hmac_sha1.

Theorem C84_hmac_md5 : forall c l, Forall (fun p => bytes (fst p) /\ Forall bytes (snd p)) l ->
  Forall (fun p => Z.of_nat (length (fst p)) < 2 ^ 32 /\ Forall (fun d => Z.of_nat (length d) < 2 ^ 32) (snd p)) l ->
  exists c', hmac_runs_c md5_ops 16 c l = Ok (c', map (fun p => HMAC 64 MD5 (fst p) (concat (snd p))) l).
Proof. exact md5_runs. Qed.
Print Assumptions C84_hmac_md5.

(** The header calls init and clear optional.  Without init and with the library's
    own clear, or none, the MAC is wrong even on a context the caller initialised;
    it is right if clear puts the context back to the initial one. *)
Theorem C84_hmac_null_init_refuted : forall clear, clear = None \/ clear = Some sha256_clear_c ->
  exists key m, bytes key /\ bytes m /\
    forall c, hmac_run_c {| ho_init := None; ho_clear := clear; ho_update := sha256_update_c; ho_digest := sha256_digest_c |} 32 sha256_init key [m]
      <> Ok (c, HMAC 64 SHA256 key m).
Proof. exact no_init_refuted. Qed.
Print Assumptions C84_hmac_null_init_refuted.

Theorem C84_hmac_null_init : forall l, Forall (fun p => bytes (fst p) /\ Forall bytes (snd p)) l ->
  exists c', hmac_runs_c {| ho_init := None; ho_clear := Some sha256_init_c; ho_update := sha256_update_c; ho_digest := sha256_digest_c |} 32 sha256_init l =
    Ok (c', map (fun p => HMAC 64 SHA256 (fst p) (concat (snd p))) l).
Proof. exact sha256_runs_no_init. Qed.
Print Assumptions C84_hmac_null_init.

(** two messages on one context that held something else before, with a digest
    that was never asked for between them *)
Example C84_ex : forall c, exists c' x,
  hash_calls sha256_ops c [CInit; CUpdate [97]; CUpdate [98; 99]; CDigest; CDigest; CUpdate [1]; CInit; CUpdate [97; 98; 99]; CDigest; CClear] =
    Ok (c', [SHA256 [97; 98; 99]; x; SHA256 [97; 98; 99]]).
Proof.
  intro c. destruct (C84_sha256 c [CUpdate [97]; CUpdate [98; 99]; CDigest; CDigest; CUpdate [1]; CInit; CUpdate [97; 98; 99]; CDigest; CClear]) as (c' & os & E & F).
  { repeat constructor; unfold byte; lia. }
  cbn [expected app] in F. inversion F as [|a ? ? ? M1 F1]. subst. inversion F1 as [|b ? ? ? _ F2]. subst. inversion F2 as [|d ? ? ? M3 F3]. subst.
  inversion F3. subst. cbn [meets] in M1, M3. subst. exists c', b. exact E.
Qed.
Example C84_ex_hmac : Forall (fun p => bytes (fst p) /\ Forall bytes (snd p)) [(repeat 170 131, [[97; 98; 99]]); ([1], [[2]; []; [3]])].
Proof. repeat constructor; unfold byte; lia. Qed.
