(** C36: the Hill cipher.  [mat_of n l] is the matrix whose rows are in l. *)
From Verif Require Import Base Modes ModesModel DetSpec HillModel HillSpec Hill.

(** A given key is accepted exactly when its matrix is invertible modulo 256, and
    then the stored inverse is one. *)
Theorem C36_init : forall n key draws, (n <= 10)%nat -> length key = (n * n)%nat -> bytes key ->
  exists rc c, hill_init (Some key) None (n * n) draws = Ok (rc, c) /\ hn c = n /\ hkey c = key /\
    (rc = 0 <-> invertible256 n (mat_of n key)) /\ (rc = 0 -> inverse256 n (mat_of n (hikey c)) (mat_of n key)) /\ (rc <> 0 -> rc = -1).
Proof. exact init_key. Qed.
Print Assumptions C36_init.
(** A generated key: accepted exactly when one of 100 draws is invertible. *)
Theorem C36_random : forall n draws, (n <= 10)%nat -> Forall bytes draws ->
  exists rc c, hill_init None None (n * n) draws = Ok (rc, c) /\ hn c = n /\
    (rc = 0 -> inverse256 n (mat_of n (hikey c)) (mat_of n (hkey c))) /\
    (rc = 0 <-> exists d, In d (firstn 100 draws) /\ invertible256 n (mat_of n d)) /\ (rc <> 0 -> rc = -1).
Proof. exact init_random. Qed.
Print Assumptions C36_random.
(** The dimension is the integer square root of the key length, at most 10. *)
Theorem C36_dimension : forall k, (keylen_trim k <= 10)%nat /\ keylen_trim k = Nat.sqrt (Nat.min k 100).
Proof. exact trim_ok. Qed.
Print Assumptions C36_dimension.
(** With an inverse matrix in place, decryption restores every message, completed
    by zeros to whole blocks; ... *)
Theorem C36_roundtrip : forall c l, (0 < hn c)%nat -> inverse256 (hn c) (mat_of (hn c) (hikey c)) (mat_of (hn c) (hkey c)) -> bytes l ->
  exists ct, hill_encrypt c l = Ok ct /\ length ct = length (hill_pad (hn c) l) /\ bytes ct /\ hill_decrypt c ct = Ok (hill_pad (hn c) l).
Proof. intros c l Hn I Hl. exact (hill_messages (hn c) _ _ (hkey c) (hikey c) l Hn I eq_refl eq_refl Hl). Qed.
Print Assumptions C36_roundtrip.
(** ... and a block is encrypted as the product with the key matrix. *)
Theorem C36_block : forall c v, (0 < hn c)%nat -> length v = hn c -> hill_encrypt c v = Ok (hill_block (hn c) (mat_of (hn c) (hkey c)) v).
Proof. exact hill_one_block. Qed.
Print Assumptions C36_block.
(** Whole blocks need no completion. *)
Theorem C36_whole : forall n l, (0 < n)%nat -> (length l mod n = 0)%nat -> hill_pad n l = l.
Proof. exact pad_id. Qed.
Print Assumptions C36_whole.
(** An empty key is accepted, and encryption then does not end. *)
Theorem C36_empty_refuted : exists c l, hill_init (Some []) None 0 [] = Ok (0, c) /\ hill_encrypt c l = Fuel.
Proof. exists {| hkey := []; hikey := []; hn := 0 |}, [1]. split; reflexivity. Qed.
Print Assumptions C36_empty_refuted.
(** A message that is not a whole number of blocks gives more bytes than it has. *)
Theorem C36_overrun_refuted : exists c l ct, hill_init (Some [1; 2; 3; 5]) None 4 [] = Ok (0, c) /\ hill_encrypt c l = Ok ct /\ (length l < length ct)%nat.
Proof. eexists. exists [7; 8; 9]. eexists. split; [vm_compute; reflexivity|]. split; [vm_compute; reflexivity|]. cbn. lia. Qed.
Print Assumptions C36_overrun_refuted.
(** A caller's inverse is not checked. *)
Theorem C36_ikey_refuted : exists key ikey c l ct, hill_init (Some key) (Some ikey) 4 [] = Ok (0, c) /\ hill_encrypt c l = Ok ct /\ hill_decrypt c ct <> Ok l.
Proof. exists [1; 2; 3; 5], [1; 0; 0; 1]. eexists. exists [7; 8]. eexists. split; [vm_compute; reflexivity|]. split; [vm_compute; reflexivity|]. vm_compute. discriminate. Qed.
Print Assumptions C36_ikey_refuted.

(** A 3 x 3 key: accepted, and the round trip at work; a singular one: refused. *)
Example C36_ex : exists c ct, hill_init (Some [6; 24; 1; 13; 16; 10; 20; 17; 15]) None 9 [] = Ok (0, c) /\
  hill_encrypt c [65; 67; 84; 1; 2; 3] = Ok ct /\ ct <> [65; 67; 84; 1; 2; 3] /\ hill_decrypt c ct = Ok [65; 67; 84; 1; 2; 3].
Proof. eexists. eexists. split; [vm_compute; reflexivity|]. split; [vm_compute; reflexivity|]. split; [vm_compute; discriminate|vm_compute; reflexivity]. Qed.
Example C36_ex_singular : ~ invertible256 2 (mat_of 2 [1; 2; 3; 4]).
Proof.
  destruct (C36_init 2 [1; 2; 3; 4] []) as (rc & c & E & _ & _ & I & _); [lia|reflexivity|repeat constructor; unfold byte; lia|].
  intro H. apply I in H. subst rc. vm_compute in E. discriminate.
Qed.
