(** Contexts of src/crypt/gcm.c and src/crypt/cmac.c after a digest, and histories of
    calls on a GCM context. *)
From Verif Require Import Base ModesModel GcmModel.

(** src/crypt/gcm.c:200: cry_gcm_digest hashes the lengths into the context; the tag
    itself is GcmModel.gcm_digest *)
Definition gcm_digested (c : gcm) : gcm :=
  {| g_iv := g_iv c; g_ctr := g_ctr c; g_hs := gcm_hash_sizes (g_hs c) (g_key c) (g_auth c) (g_ciph c); g_key := g_key c;
     g_auth := g_auth c; g_ciph := g_ciph c |}.

(** src/crypt/cmac.c:108-118: cry_cmac_digest leaves the tag in [mac] and the last
    input of the cipher in [blk]; blklen stays, and the model keeps that many bytes.
    The tag itself is GcmModel.cmac_digest. *)
Definition cmac_digested (E : list Z -> list Z) (c : cmac) : cmac :=
  let '(k1, k2) := cmac_subkeys E in
  let last := if Nat.eqb (length (cm_blk c)) 16 then xorl (cm_blk c) k1
              else xorl (cm_blk c ++ 128 :: repeat 0 (15 - length (cm_blk c))) k2 in
  {| cm_blk := firstn (length (cm_blk c)) (xorl (cm_mac c) last); cm_mac := cmac_digest E c |}.

(** One call on a GCM context after cry_gcm_key_set. *)
Inductive gop := GIv (iv : list Z) | GUpdate (aad : list Z) | GEncrypt (m : list Z) | GDecrypt (m : list Z) | GDigest.
Definition gop_step (E : list Z -> list Z) (c : gcm) (o : gop) : res gcm :=
  match o with
  | GIv iv => gcm_iv_set c iv
  | GUpdate aad => Ok (gcm_update c aad)
  | GEncrypt m => do ' (c, _) <- gcm_encrypt E c m; Ok c
  | GDecrypt m => do ' (c, _) <- gcm_decrypt E c m; Ok c
  | GDigest => Ok (gcm_digested c)
  end.
Fixpoint gop_run (E : list Z -> list Z) (c : gcm) (l : list gop) : res gcm :=
  match l with
  | [] => Ok c
  | o :: l => do c <- gop_step E c o; gop_run E c l
  end.
(** A history from the key on, and the tag then. *)
Definition gop_tag (E : list Z -> list Z) (l : list gop) (t : nat) : res (list Z) :=
  do c <- gop_run E (gcm_key_set E) l; gcm_digest E c t.
