(** C92: who owns the digit buffers.  [gr k]: whether the k-th request for memory is
    granted; [sets_up], [gives_back], [well_owned], [allowed_run]: LifeSpec.v. *)
From Verif Require Import Base LifeModel LifeSpec Life Life2.

(** Setting up a context, a point or a curve gives a block of its own to every member,
    or fails and leaves no block in use. *)
Theorem C92_init : forall gr c,
  sets_up (dh_init gr c) c 5 /\ sets_up (dsa_init gr c) c 5 /\ sets_up (rsa_init gr c) c 5 /\ sets_up (elgamal_init gr c) c 4 /\
  sets_up (pt_init gr c) c 3 /\ sets_up (grp_init gr c) c 7 /\ sets_up (ecdsa_init gr c None) c 11.
Proof. exact (fun gr c => conj (dh_up gr c) (conj (dsa_up gr c) (conj (rsa_up gr c) (conj (elgamal_up gr c) (conj (pt_up gr c) (conj (grp_up gr c) (ecdsa_up gr c))))))). Qed.
Print Assumptions C92_init.

(** With a named curve, the private key and the public point get blocks and the curve
    stands for constant tables. *)
Theorem C92_named : forall gr c s, well_owned s -> (forall o, member c 11 o -> idle s o) ->
  exists rc s', ecdsa_init gr c (Some true) s = Done rc s' /\ well_owned s' /\ (forall o, ~ member c 11 o -> objs s' o = objs s o) /\
    (rc = 0 /\ (forall o, member (c + 7) 4 o -> exists b, objs s' o = mkobj (Some (Heap b)) (Some quantum) /\ live s b = false) /\
       (forall o, member c 7 o -> objs s' o = mkobj (Some Static) (Some 0%nat)) \/
     rc = -1 /\ (forall o, member c 11 o -> idle s' o) /\ forall b, live s' b = live s b).
Proof. exact ecdsa_named. Qed.
Print Assumptions C92_named.
(** A number that names no curve is refused, and nothing is kept. *)
Theorem C92_unknown : forall gr c s, well_owned s -> (forall o, member c 11 o -> idle s o) ->
  exists s', ecdsa_init gr c (Some false) s = Done (-1) s' /\ well_owned s' /\ (forall o, ~ member c 11 o -> objs s' o = objs s o) /\ forall b, live s' b = live s b.
Proof. exact ecdsa_unknown. Qed.
Print Assumptions C92_unknown.

(** Clearing gives back exactly the blocks the members hold, whatever they went through
    since, and can be repeated. *)
Theorem C92_clear : forall c,
  gives_back (dh_clear c) c 5 /\ gives_back (dsa_clear c) c 5 /\ gives_back (rsa_clear c) c 5 /\ gives_back (elgamal_clear c) c 4 /\
  gives_back (pt_clear c) c 3 /\ gives_back (grp_clear c) c 7 /\ gives_back (ecdsa_clear c) c 11 /\ gives_back (ecdh_clear c) c 14.
Proof. exact (fun c => conj (dh_down c) (conj (dsa_down c) (conj (rsa_down c) (conj (elgamal_down c) (conj (pt_down c) (conj (grp_down c) (conj (ecdsa_down c) (ecdh_down c)))))))). Qed.
Print Assumptions C92_clear.

(** Through any history of calls that obeys the rules, no call is undefined (no block is
    freed twice, no table is freed or resized) and every block in use has exactly one owner. *)
Theorem C92_history : forall gr l s, well_owned s -> allowed_run gr l s -> exists s', run gr l s = Done 0 s' /\ well_owned s'.
Proof. exact run_ok. Qed.
Print Assumptions C92_history.

Example C92_ex : let gr := fun k => negb (Nat.eqb k 2) in
  well_owned start /\ allowed_run gr [Init 0; Init 1; Grow 0 9; Swap 0 1; Load 2; Swap 1 2; Grow 2 20; Clear 1; Clear 0; Clear 2; Clear 2] start /\
  after (dh_init gr 0) start (fun rc s => rc = -1 /\ map (live s) (seq 0 5) = repeat false 5) /\
  after (dh_init gr 0) (mkst (objs start) (live start) 3) (fun rc s => rc = 0 /\ map (live s) (seq 3 5) = repeat true 5) /\
  after (fun s => call (_, s) <- dh_init gr 0 s; dh_clear 0 s) (mkst (objs start) (live start) 3) (fun rc s => rc = 0 /\ map (live s) (seq 3 5) = repeat false 5).
Proof.
  split; [exact start_owned|]. split; [|split].
  - cbn [allowed_run]. repeat (split; [unfold allowed, idle, owns; cbn; try (split; [|split]); try exact I; intros; discriminate|]; intros ? ? X; cbn in X; injection X as <- <-). exact I.
  - vm_compute. auto.
  - split; vm_compute; auto.
Qed.

(** Key agreement on curves: with memory enough, all fourteen members get blocks. *)
Theorem C92_ecdh_partial : forall gr c s, (forall k, gr k = true) -> well_owned s -> (forall o, member c 14 o -> idle s o) ->
  exists s', ecdh_init gr c s = Done 0 s' /\ well_owned s' /\ (forall o, ~ member c 14 o -> objs s' o = objs s o) /\
    (forall o, member c 14 o -> exists b, objs s' o = mkobj (Some (Heap b)) (Some quantum) /\ live s b = false).
Proof. exact ecdh_full. Qed.
Print Assumptions C92_ecdh_partial.
(** Without, success is reported all the same, and clearing the context is undefined. *)
Theorem C92_ecdh_refuted : forall gr c s, well_owned s -> (forall o, member c 14 o -> idle s o) -> data (objs s (c + 1)) = None -> gr (asked s) = false ->
  exists s', ecdh_init gr c s = Done 0 s' /\ ecdh_clear c s' = Undef.
Proof. exact ecdh_bad. Qed.
Print Assumptions C92_ecdh_refuted.
Example C92_ecdh_ex : exists s', ecdh_init (fun k => negb (Nat.eqb k 0)) 5 start = Done 0 s' /\ ecdh_clear 5 s' = Undef.
Proof. apply ecdh_bad; [exact start_owned|intros o _ b; discriminate|reflexivity|reflexivity]. Qed.

(** A curve that holds no block can be loaded from the tables. *)
Theorem C92_load : forall g s, well_owned s -> (forall o, member g 7 o -> idle s o) ->
  exists s', grp_load g true s = Done 0 s' /\ well_owned s' /\ live s' = live s /\
    (forall o, member g 7 o -> objs s' o = mkobj (Some Static) (Some 0%nat)) /\ (forall o, ~ member g 7 o -> objs s' o = objs s o).
Proof. exact grp_load_wo. Qed.
Print Assumptions C92_load.
(** Loading a curve that was set up loses its blocks: no later call can give them back. *)
Theorem C92_load_refuted : forall gr g s o b, well_owned s -> member g 7 o -> owns s o b -> exists s', grp_load g true s = Done 0 s' /\
  forall l rc s2, run gr l s' = Done rc s2 -> live s2 b = true /\ forall y, ~ owns s2 y b.
Proof. exact grp_load_lost. Qed.
Print Assumptions C92_load_refuted.
(** A loaded curve cannot take new parameters: making room in a member is undefined. *)
Theorem C92_table_refuted : forall gr g s o n, member g 7 o -> (0 < n)%nat -> exists s', grp_load g true s = Done 0 s' /\ mpi_grow gr o n s' = Undef.
Proof. exact grp_load_grow. Qed.
Print Assumptions C92_table_refuted.

Example C92_load_ex : let gr := fun _ => true in
  after (ecdsa_init gr 0 None) start (fun rc s => rc = 0 /\ owns s 0 4) /\
  after (fun s => call (_, s) <- ecdsa_init gr 0 None s; call (_, s) <- grp_load 0 true s; ecdsa_clear 0 s) start
    (fun rc s => rc = 0 /\ map (live s) (seq 0 11) = repeat false 4 ++ repeat true 7).
Proof. split; vm_compute; auto. Qed.
