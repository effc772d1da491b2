(** C49, C50: the pseudo random generators. *)
From Verif Require Import Base BytesSpec AesModel AesSpec PrngModel PrngSpec Prng Lfsr.

(** * C49: seeding, then requests of any sizes: the answers put end to end are the
    first bytes of the counter mode stream of the seed. *)
Theorem C49_stream : forall lo seed sizes, bytes seed ->
  exists p outs, prng_init lo seed = Ok p /\ prng_rands (Some p) sizes = Ok outs /\ map (@length Z) outs = sizes /\
    concat outs = map (ctr_byte (fips_cipher (seed_part 0 seed)) (be_val (seed_part 1 seed))) (seq 0 (list_sum sizes)).
Proof. exact prng_stream. Qed.
Print Assumptions C49_stream.
(** Without seeding: the stream of the empty seed. *)
Theorem C49_unseeded : forall sizes, sizes <> [] ->
  exists p outs, prng_init (repeat 0 16) [] = Ok p /\ prng_rands (Some p) sizes = Ok outs /\ prng_rands None sizes = Ok outs.
Proof. exact prng_uninit. Qed.
Print Assumptions C49_unseeded.

(** * C50 *)
(** Generation keeps the documented minimum ... *)
Theorem C50_keeps : forall z n, lfsr_good z -> lfsr_good (Nat.iter n lfsr_next z).
Proof. exact (fun z n => iter_good n z). Qed.
Print Assumptions C50_keeps.
(** ... requests of multiples of four bytes read one stream ... *)
Theorem C50_stream : forall z sizes, Forall (fun n => n mod 4 = 0)%nat sizes ->
  exists outs, lfsr_rands (Some z) sizes = Ok outs /\ map (@length Z) outs = sizes /\ concat outs = map (lfsr_byte z) (seq 0 (list_sum sizes)).
Proof. exact lfsr_stream. Qed.
Print Assumptions C50_stream.
(** ... and a request of any size reads from the current word on and leaves the
    state at the next whole word. *)
Theorem C50_request : forall z siz, lfsr_rand (Some z) siz = Ok (Nat.iter ((siz + 3) / 4) lfsr_next z, map (lfsr_byte z) (seq 0 siz)).
Proof. exact rand1. Qed.
Print Assumptions C50_request.
(** Seeding only ensures the minimum minus one, in each register: the documented
    condition holds except for the values 1, 7, 15 and 127. *)
Theorem C50_init_partial : forall z seed, bytes seed -> (length seed <= 16)%nat -> exists z0 z1 z2 z3, lfsr_init z seed = Ok (z0, z1, z2, z3) /\
  (1 <= z0 /\ 7 <= z1 /\ 15 <= z2 /\ 127 <= z3) /\ lfsr_words32 (z0, z1, z2, z3) /\
  (lfsr_good (z0, z1, z2, z3) <-> z0 <> 1 /\ z1 <> 7 /\ z2 <> 15 /\ z3 <> 127).
Proof. exact init_bounds. Qed.
Print Assumptions C50_init_partial.
(** A full seed determines the state. *)
Theorem C50_full_seed : forall z z' seed, length seed = 16%nat -> lfsr_init z seed = lfsr_init z' seed.
Proof. exact init_full. Qed.
Print Assumptions C50_full_seed.
(** A seed of 16 bytes after which only zeros are ever produced. *)
Theorem C50_init_refuted : exists seed z, length seed = 16%nat /\ bytes seed /\ (forall z0, lfsr_init z0 seed = Ok z) /\ ~ lfsr_good z /\
  forall sizes, lfsr_rands (Some z) sizes = Ok (map (repeat 0) sizes).
Proof.
  exists weak_seed, (1, 7, 15, 127). split; [reflexivity|]. split; [repeat constructor; unfold byte; cbn; lia|].
  split; [exact weak_init|]. split; [unfold lfsr_good; lia|exact weak_rands].
Qed.
Print Assumptions C50_init_refuted.
(** A shorter seed leaves a part of the old state; a longer one writes beyond it. *)
Theorem C50_short_seed_refuted : exists z z' seed, bytes seed /\ lfsr_init z seed <> lfsr_init z' seed.
Proof. exists (200, 200, 200, 200), (300, 300, 300, 300), [5; 6; 7]. split; [repeat constructor; unfold byte; lia|]. vm_compute. discriminate. Qed.
Print Assumptions C50_short_seed_refuted.
Theorem C50_long_seed_refuted : forall z seed, (16 < length seed)%nat -> lfsr_init z seed = UB.
Proof. intros z seed H. unfold lfsr_init. apply Nat.ltb_lt in H. rewrite H. reflexivity. Qed.
Print Assumptions C50_long_seed_refuted.
(** Requests of other sizes lose bytes of the stream. *)
Theorem C50_cut_refuted : exists z, lfsr_good z /\ exists a b, lfsr_rands (Some z) [3; 1]%nat = Ok a /\ lfsr_rands (Some z) [4]%nat = Ok b /\ concat a <> concat b.
Proof.
  exists (default_seed, default_seed, default_seed, default_seed). split; [unfold lfsr_good, default_seed; lia|].
  do 2 eexists. split; [vm_compute; reflexivity|]. split; [vm_compute; reflexivity|]. vm_compute. discriminate.
Qed.
Print Assumptions C50_cut_refuted.

Example C49_ex : exists p, prng_init [] [1; 2; 3] = Ok p /\
  (do a <- prng_rands (Some p) [5; 20; 7]%nat; Ok (concat a)) = (do b <- prng_rands (Some p) [32]%nat; Ok (concat b)).
Proof. eexists. split; [vm_compute; reflexivity|]. vm_compute. reflexivity. Qed.
Example C50_ex : exists z, lfsr_init (0, 0, 0, 0) [1; 2; 3; 4; 5; 6; 7; 8; 9; 10; 11; 12; 13; 14; 15; 16] = Ok z /\ lfsr_good z.
Proof. eexists. split; [vm_compute; reflexivity|]. unfold lfsr_good. lia. Qed.
