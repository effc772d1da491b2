(** C33, C34: Trivium.  [fold_left tri_do ops tri_init] is a context after any
    history of key, IV and data calls. *)
From Verif Require Import Base BytesSpec TriviumModel TriviumSpec Trivium2.

(** * C34: after key and IV set-up, successive calls give the messages xored with
    the specification's key stream; each call starts at a new 32-bit word. *)
Theorem C34_trivium : forall ops key iv ms, Forall op_bytes ops -> bytes key -> length key = 10%nat -> bytes iv -> length iv = 10%nat -> Forall bytes ms ->
  tri_calls (tri_iv_set (tri_key_set (fold_left tri_do ops tri_init) key) iv) ms = trivium_calls (zbit key iv) 0 ms.
Proof. exact trivium_history10. Qed.
Print Assumptions C34_trivium.

(** * C33: nothing of the history matters, for keys and IVs of any length (they
    are cut or zero padded to ten bytes); the same calls again restore the data. *)
Theorem C33_history : forall ops key iv ms, Forall op_bytes ops -> bytes key -> bytes iv -> Forall bytes ms ->
  tri_calls (tri_iv_set (tri_key_set (fold_left tri_do ops tri_init) key) iv) ms = trivium_calls (zbit (padded 10 key) (padded 10 iv)) 0 ms.
Proof. exact trivium_history. Qed.
Print Assumptions C33_history.
Theorem C33_roundtrip : forall ops ops' key iv ms, Forall op_bytes ops -> Forall op_bytes ops' -> bytes key -> bytes iv -> Forall bytes ms ->
  let start o := tri_iv_set (tri_key_set (fold_left tri_do o tri_init) key) iv in
  tri_calls (start ops') (tri_calls (start ops) ms) = ms.
Proof. exact trivium_roundtrip. Qed.
Print Assumptions C33_roundtrip.
(** A message may be cut at a multiple of four bytes, ... *)
Theorem C33_cut : forall ops key iv a b, Forall op_bytes ops -> bytes key -> bytes iv -> bytes a -> bytes b -> (length a mod 4 = 0)%nat ->
  let start := tri_iv_set (tri_key_set (fold_left tri_do ops tri_init) key) iv in
  concat (tri_calls start [a; b]) = concat (tri_calls start [a ++ b]).
Proof. exact trivium_cut. Qed.
Print Assumptions C33_cut.

Definition ex_key : list Z := [0x80; 0; 0; 0; 0; 0; 0; 0; 0; 0].
(** ... but not elsewhere: the rest of the key stream word is lost. *)
Theorem C33_cut_refuted : exists key iv a b, length key = 10%nat /\ length iv = 10%nat /\ let start := tri_iv_set (tri_key_set tri_init key) iv in
  concat (tri_calls start [a; b]) <> concat (tri_calls start [a ++ b]).
Proof. exists ex_key, (repeat 0 10), [0; 0; 0], [0]. split; [reflexivity|]. split; [reflexivity|]. vm_compute. discriminate. Qed.
Print Assumptions C33_cut_refuted.

(** Set 1, vector 0 of the eSTREAM submission (test/trivium_ecrypt.data): 7B75CECC... *)
Example C34_ex : trivium_calls (zbit ex_key (repeat 0 10)) 0 [[0; 0; 0; 0]] = [[0x7B; 0x75; 0xCE; 0xCC]].
Proof.
  rewrite <- (C34_trivium []); [vm_compute; reflexivity|constructor| |reflexivity| |reflexivity|]; repeat (apply Forall_cons; [try (unfold byte; lia)|]); try constructor.
Qed.
Example C34_ex_hyps : Forall op_bytes [TKey ex_key; TIv [1; 2; 3]; TCrypt [4; 5; 6]] /\ bytes ex_key /\ length ex_key = 10%nat /\
  tri_s (fold_left tri_do [TKey ex_key; TIv [1; 2; 3]; TCrypt [4; 5; 6]] tri_init) <> tri_s tri_init.
Proof.
  split; [|split; [|split; [reflexivity|vm_compute; discriminate]]].
  - repeat (apply Forall_cons; [cbn [op_bytes]; repeat (apply Forall_cons; [unfold byte; lia|]); constructor|]). constructor.
  - repeat (apply Forall_cons; [unfold byte; lia|]). constructor.
Qed.
