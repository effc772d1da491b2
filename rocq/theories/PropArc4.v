(** Properties C32, C65 (ARC4) and C35 (affine cipher). *)
From Coq Require Import Permutation.
From Verif Require Import Base Arc4Model Arc4Spec Arc4.

(** Crypting twice from the same state gives the data back (and leaves the
    same state behind). *)
Theorem C32_involution : forall c m, arc4_crypt c (snd (arc4_crypt c m)) = (fst (arc4_crypt c m), m).
Proof. exact crypt_twice. Qed.
Print Assumptions C32_involution.

(** A message processed in any pieces. *)
Theorem C32_chunks : forall ls c, arc4_crypt c (concat ls) = (fst (arc4_calls c ls), concat (snd (arc4_calls c ls))).
Proof. exact calls_concat. Qed.
Print Assumptions C32_chunks.

(** In every state that can arise the table is a permutation of 0..255. *)
Theorem C32_permutation : forall c, arc4_reach c -> Permutation (a4s c) (map Z.of_nat (seq 0 256)).
Proof. exact reach_perm. Qed.
Print Assumptions C32_permutation.
Example C32_ex : exists c, arc4_key_set [75; 101; 121] = Ok c /\ arc4_reach (fst (arc4_crypt c [1; 2; 3])).
Proof. eexists. split; [reflexivity|]. apply reach_crypt. apply (reach_key [75; 101; 121]). reflexivity. Qed.

(** The key stream is the published one. *)
Theorem C65_rc4 : forall key c m, arc4_key_set key = Ok c ->
  snd (arc4_crypt c m) = xorl m (rc4_stream key (length m)).
Proof. exact arc4_is_rc4. Qed.
Print Assumptions C65_rc4.
Theorem C65_every_key : forall key, key <> [] -> exists c, arc4_key_set key = Ok c.
Proof. intros [|k key] H; [congruence|]. eexists. reflexivity. Qed.
Print Assumptions C65_every_key.
(** "Plaintext" under "Key" *)
Example C65_ex : match arc4_key_set [75; 101; 121] with
  | Ok c => snd (arc4_crypt c [80; 108; 97; 105; 110; 116; 101; 120; 116]) = [187; 243; 22; 232; 217; 64; 175; 10; 211]
  | _ => False end.
Proof. vm_compute. reflexivity. Qed.

Theorem C35_affine : forall ka kb, (length ka <= 32)%nat -> length kb = length ka -> (1 <= length ka)%nat -> bytes ka ->
  (forallb Z.odd ka = true -> exists c, affine_init ka kb = Ok c /\
     forall m, bytes m -> exists e, affine_encrypt c m = Ok e /\ length e = length m /\ affine_decrypt c e = Ok m) /\
  (forallb Z.odd ka = false -> affine_init ka kb = Err (-1)).
Proof. exact affine_short. Qed.
Print Assumptions C35_affine.
(** Longer keys are cut to 32 bytes: still decrypted correctly, but an even
    multiplier beyond them goes unnoticed. *)
Theorem C35_long_roundtrip : forall ka kb, bytes ka -> length kb = length ka -> (1 <= length ka)%nat ->
  forallb Z.odd (firstn 32 ka) = true ->
  exists c, affine_init ka kb = Ok c /\ forall m, bytes m -> exists e, affine_encrypt c m = Ok e /\ length e = length m /\ affine_decrypt c e = Ok m.
Proof. exact affine_ok. Qed.
Print Assumptions C35_long_roundtrip.
Theorem C35_long_key_refuted : exists ka kb c, bytes ka /\ length kb = length ka /\
  forallb Z.odd ka = false /\ affine_init ka kb = Ok c.
Proof.
  exists (repeat 1 32 ++ [2]), (repeat 0 33). eexists. split.
  { repeat constructor; unfold byte; auto with zarith. }
  split; [reflexivity|]. split; [reflexivity|]. vm_compute. reflexivity.
Qed.
Print Assumptions C35_long_key_refuted.
Example C35_ex : bytes [3; 255] /\ forallb Z.odd [3; 255] = true /\
  match affine_init [3; 255] [7; 9] with
  | Ok c => affine_encrypt c [1; 2; 3] = Ok [10; 7; 16] /\ affine_decrypt c [10; 7; 16] = Ok [1; 2; 3]
  | _ => False end.
Proof. split; [repeat constructor; unfold byte; lia|]. vm_compute. auto. Qed.
