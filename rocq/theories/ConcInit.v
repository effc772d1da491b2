(** Proofs for PropConc.v: a generator that nobody initialised. *)
From Verif Require Import Base Lists BytesSpec Bytes AesModel AesSpec ModesModel ModesSpec Modes Modes2 Aes4 Wrap2 PrngModel PrngSpec Trivium Prng ConcModel Conc Conc2.

Local Notation zstream := (ctr_byte (fips_cipher (repeat 0 16)) 0).
Lemma zseed : seed_part 0 [] = repeat 0 16 /\ be_val (seed_part 1 []) = 0.
Proof. split; reflexivity. Qed.
Lemma zlen b : length b = 16%nat -> length (fips_cipher (repeat 0 16) b) = 16%nat.
Proof. exact (seed_cipher_len [] b (Forall_nil _)). Qed.
Lemma zinit lo : exists p, prng_init lo [] = Ok p /\ at_pos (repeat 0 16) 0 0 p.
Proof. exact (init_ok lo [] (Forall_nil _)). Qed.
Lemma at_ix k c0 pos p : at_pos k c0 pos p -> (pix p < 16)%nat.
Proof. intros (_ & _ & -> & _). apply Nat.mod_upper_bound. lia. Qed.
(** the thread that initialises *)
Lemma initing p siz K : (4 * siz + 8 <= K)%nat -> exists p1, solo prng_step K p (PInit siz) = Ok ((true, p1), PDone (map zstream (seq 0 siz))) /\ at_pos (repeat 0 16) 0 siz p1.
Proof.
  intro H. destruct p as [i p]. destruct (zinit (plo p)) as (q & Eq & A).
  destruct (rand_step _ _ zlen 0 q siz A) as (p1 & Er & A1). exists p1. split; [|exact A1].
  assert (S := rand_solo q siz p1 _ K (at_ix _ _ _ _ A) Er H). destruct K as [|K]; [lia|].
  cbn [solo prng_step bind] in *. rewrite Eq. cbn [bind]. exact S.
Qed.
Lemma first_solo p siz K : (4 * siz + 9 <= K)%nat -> exists p1, solo prng_step K (false, p) (PStart siz) = Ok ((true, p1), PDone (map zstream (seq 0 siz))) /\ at_pos (repeat 0 16) 0 siz p1.
Proof.
  intro H. destruct K as [|K]; [lia|]. destruct (initing (false, p) siz K ltac:(lia)) as (p1 & S & A). exists p1. split; [|exact A].
  change (solo prng_step (1 + K) (false, p) (PStart siz) = Ok ((true, p1), PDone (map zstream (seq 0 siz)))). rewrite solo_add. exact S.
Qed.
Lemma prng_first p sizes order K : NoDup order -> (forall i, In i order -> i < length sizes)%nat -> (forall n, In n sizes -> 4 * n + 9 <= K)%nat ->
  exists g ts', sched prng_step (false, p) (map PStart sizes) (concat (map (fun i => repeat i K) order)) = Ok (g, ts') /\
    forall j i, nth_error order j = Some i ->
      nth_error ts' i = Some (PDone (map zstream (seq (list_sum (map (fun i => nth i sizes 0%nat) (firstn j order))) (nth i sizes 0%nat)))).
Proof.
  intros Nd Hi HK. destruct order as [|i order]; [eexists; eexists; split; [reflexivity|intros [|j] i E; discriminate]|].
  assert (Q : forall j, In j (i :: order) -> nth_error (map PStart sizes) j = Some (PStart (nth j sizes 0%nat)) /\ (4 * nth j sizes 0 + 9 <= K)%nat).
  { intros j H. specialize (Hi j H). split; [|apply HK, nth_In; auto]. rewrite nth_error_map, (nth_error_nth' sizes 0%nat Hi). reflexivity. }
  inversion_clear Nd as [|? ? Ni Nd']. destruct (Q i (or_introl eq_refl)) as [Ei Li]. destruct (first_solo p _ K Li) as (p1 & S & A).
  cbn [map concat]. rewrite (sched_repeat prng_step K i (false, p) _ _ _ _ _ Ei S).
  destruct (locked _ _ (fun i => nth i sizes 0%nat) K zlen order _ p1 (upd (map PStart sizes) i (PDone (map zstream (seq 0 (nth i sizes 0%nat))))) A Nd') as (p' & ts' & E & P1 & P2).
  { intros j Hj. destruct (Q j (or_intror Hj)) as [Ej Lj]. split; [|lia]. rewrite nth_error_upd. destruct (Nat.eqb_spec i j); [subst; contradiction|exact Ej]. }
  exists (true, p'), ts'. split; [exact E|]. intros [|j] i' E'; cbn [nth_error] in E'.
  - injection E' as <-. rewrite P2 by exact Ni. rewrite nth_error_upd, Nat.eqb_refl, Ei. reflexivity.
  - rewrite (P1 j i' E'). cbn [firstn map list_sum fold_right]. unfold list_sum. reflexivity.
Qed.
(** one thread sees that nobody initialised, and is overtaken *)
Lemma prng_twice p siz : exists sch g b, sched prng_step (false, p) [PStart siz; PStart siz] sch = Ok (g, [PDone b; PDone b]) /\ length b = siz /\ exists k, sch = [1]%nat ++ repeat 0%nat k ++ repeat 1%nat k.
Proof.
  set (K := (4 * siz + 9)%nat). destruct (first_solo p siz K (Nat.le_refl _)) as (p1 & S & _).
  destruct (initing (true, p1) siz K) as (p2 & S2 & _); [unfold K; lia|].
  exists ([1] ++ repeat 0 K ++ repeat 1 K)%nat, (true, p2), (map zstream (seq 0 siz)). split; [|split].
  - cbn [app sched nth_error prng_step bind upd].
    rewrite (sched_repeat prng_step K 0 (false, p) [PStart siz; PInit siz] _ _ _ _ eq_refl S). cbn [upd].
    rewrite <- (app_nil_r (repeat 1%nat K)). rewrite (sched_repeat prng_step K 1 (true, p1) [_; PInit siz] _ _ _ _ eq_refl S2). reflexivity.
  - rewrite map_length. apply seq_length.
  - exists K. reflexivity.
Qed.
