(** Proofs for PropHashCtx.v. *)
From Verif Require Import Base BytesSpec Bytes HashModel HashSpec HashMd HashMd2 HmacModel HmacSpec Hmac Hmac2 HashCtxModel HashCtxSpec.

(** [h] acts on the contexts in [valid] as the functions of [itf] *)
Record acts {C} (h : hash_ops C) (itf : hash_itf C) (valid : C -> Prop) : Prop := {
  ac_update : forall c d, valid c -> ho_update h c d = Ok (hi_update itf c d) /\ valid (hi_update itf c d);
  ac_digest : forall c, valid c -> exists c', ho_digest h c = Ok (c', hi_digest itf c) /\ valid c' }.
Definition starts {C} (h : hash_ops C) (itf : hash_itf C) : Prop := exists i, ho_init h = Some i /\ forall c, i c = hi_init itf.

Section Life.
  Context {C : Type} (h : hash_ops C) (itf : hash_itf C) (valid : C -> Prop) (ok : list Z -> Prop) (H : list Z -> option (list Z)).
  Hypothesis A : acts h itf valid.
  Hypothesis St : starts h itf.
  Hypothesis Vi : valid (hi_init itf).
  Hypothesis Vc : forall c, valid c -> valid (opt_call (ho_clear h) c).
  Hypothesis HH : forall ds x, Forall bytes ds -> Forall ok ds -> H (concat ds) = Some x ->
    hi_digest itf (fold_left (hi_update itf) ds (hi_init itf)) = x.
  Definition tracks (c : C) (cur : option (list Z)) : Prop :=
    match cur with
    | Some m => exists ds, Forall bytes ds /\ Forall ok ds /\ concat ds = m /\ c = fold_left (hi_update itf) ds (hi_init itf)
    | None => True
    end.
  Lemma init_call c : opt_call (ho_init h) c = hi_init itf.
  Proof. destruct St as (i & E & I). rewrite E. apply I. Qed.
  Lemma life l : forall c cur, valid c -> tracks c cur ->
    Forall (fun k => bytes (call_data k)) l -> Forall (fun k => ok (call_data k)) l ->
    exists c' os, hash_calls h c l = Ok (c', os) /\ Forall2 meets os (expected H cur l).
  Proof.
    induction l as [|k l IH]; intros c cur V T B O.
    { exists c, []. split; [reflexivity|constructor]. }
    inversion_clear B as [|? ? B1 B2]. inversion_clear O as [|? ? O1 O2].
    destruct k as [|d| |]; cbn [hash_calls expected].
    - rewrite init_call. apply IH; auto. exists []. repeat split; constructor.
    - destruct (proj1 (conj (ac_update _ _ _ A c d V) I)) as [E V']. rewrite E. cbn [bind].
      apply IH; auto. destruct cur as [m|]; [|exact I]. destruct T as (ds & D1 & D2 & D3 & D4).
      exists (ds ++ [d]). cbn [call_data] in *.
      split; [apply Forall_app; split; auto|]. split; [apply Forall_app; split; auto|].
      split; [rewrite concat_app; cbn [concat]; rewrite app_nil_r, D3; reflexivity|].
      rewrite fold_left_app. cbn [fold_left]. rewrite <- D4. reflexivity.
    - destruct (ac_digest _ _ _ A c V) as (c1 & E & V1). rewrite E. cbn [bind].
      destruct (IH c1 None V1 I B2 O2) as (c2 & os & E2 & F). rewrite E2. cbn [bind].
      exists c2, (hi_digest itf c :: os). split; [reflexivity|]. constructor; auto.
      destruct cur as [m|]; [|exact I]. destruct T as (ds & D1 & D2 & D3 & D4). subst m c.
      unfold meets. destruct (H (concat ds)) as [x|] eqn:Hx; [|exact I]. apply HH; auto.
    - apply IH; auto. exact I.
  Qed.
  Lemma life_init c l : Forall (fun k => bytes (call_data k)) l -> Forall (fun k => ok (call_data k)) l ->
    exists c' os, hash_calls h c (CInit :: l) = Ok (c', os) /\ Forall2 meets os (expected H None (CInit :: l)).
  Proof.
    intros B O. cbn [hash_calls expected]. rewrite init_call. apply life; auto. exists []. repeat split; constructor.
  Qed.
End Life.

(** * the four hashes *)
Lemma sha256_byte_len c b : (s2_datalen c < 64)%nat -> (s2_datalen (sha256_byte c b) < 64)%nat.
Proof. intro L. unfold sha256_byte. cbv zeta. destruct (Nat.eqb_spec (s2_datalen c + 1) 64); cbn [s2_datalen]; lia. Qed.
Lemma sha256_update_len d : forall c, (s2_datalen c < 64)%nat -> (s2_datalen (sha256_update c d) < 64)%nat.
Proof.
  induction d as [|b d IH]; intros c L; [exact L|]. unfold sha256_update in *. cbn [fold_left]. apply IH. apply sha256_byte_len. auto.
Qed.
Lemma sha256_acts : acts sha256_ops sha256_itf (fun c => (s2_datalen c < 64)%nat).
Proof.
  split.
  - intros c d V. split; [|apply sha256_update_len; auto]. cbn [sha256_ops sha256_itf ho_update hi_update]. unfold sha256_update_c.
    destruct d as [|b d]; [reflexivity|]. destruct (Nat.ltb_spec (s2_datalen c) 64); [reflexivity|lia].
  - intros c V. cbn [sha256_ops sha256_itf ho_digest hi_digest]. unfold sha256_digest_c, sha256_digest. cbv zeta.
    destruct (Nat.leb_spec 64 (s2_datalen c)); [lia|].
    destruct (Nat.ltb (s2_datalen c) 56); eexists; (split; [reflexivity|cbn [s2_datalen]; auto]).
Qed.
Lemma sha1_acts : acts sha1_ops sha1_itf (fun _ => True).
Proof. split; [intros c d _; split; [reflexivity|auto]|]. intros c _. eexists. split; [reflexivity|auto]. Qed.
Lemma md5_acts : acts md5_ops md5_itf (fun _ => True).
Proof. split; [intros c d _; split; [reflexivity|auto]|]. intros c _. eexists. split; [reflexivity|auto]. Qed.
Lemma sha512_acts is384 : acts (sha512_ops is384) (sha512_itf is384) (fun _ => True).
Proof. split; [intros c d _; split; [reflexivity|auto]|]. intros c _. eexists. split; [reflexivity|auto]. Qed.

Lemma sha256_life c l : Forall (fun k => bytes (call_data k)) l ->
  exists c' os, hash_calls sha256_ops c (CInit :: l) = Ok (c', os) /\ Forall2 meets os (expected (fun m => Some (SHA256 m)) None (CInit :: l)).
Proof.
  intro B. apply (life_init sha256_ops sha256_itf (fun c => (s2_datalen c < 64)%nat) (fun _ => True)); auto.
  - exact sha256_acts.
  - eexists. split; [reflexivity|reflexivity].
  - cbn. lia.
  - intros c' _. cbn. lia.
  - intros ds x Bd _ E. injection E as <-. apply sha256_ok. auto.
  - apply Forall_forall. auto.
Qed.
Lemma sha256_life_any c l : (s2_datalen c < 64)%nat -> Forall (fun k => bytes (call_data k)) l ->
  exists c' os, hash_calls sha256_ops c l = Ok (c', os) /\ Forall2 meets os (expected (fun m => Some (SHA256 m)) None l).
Proof.
  intros L B. apply (life sha256_ops sha256_itf (fun c => (s2_datalen c < 64)%nat) (fun _ => True)); auto.
  - exact sha256_acts.
  - eexists. split; [reflexivity|reflexivity].
  - cbn. lia.
  - intros c' _. cbn. lia.
  - intros ds x Bd _ E. injection E as <-. apply sha256_ok. auto.
  - exact I.
  - apply Forall_forall. auto.
Qed.
Lemma sha1_life c l : Forall (fun k => bytes (call_data k)) l -> Forall (fun k => Z.of_nat (length (call_data k)) < 2 ^ 32) l ->
  exists c' os, hash_calls sha1_ops c l = Ok (c', os) /\ Forall2 meets os (expected (fun m => Some (SHA1 m)) None l).
Proof.
  intros B O. apply (life sha1_ops sha1_itf (fun _ => True) (fun d => Z.of_nat (length d) < 2 ^ 32)); auto.
  - exact sha1_acts.
  - eexists. split; [reflexivity|reflexivity].
  - intros ds x Bd Od E. injection E as <-. apply sha1_ok; auto.
  - exact I.
Qed.
Lemma md5_life c l : Forall (fun k => bytes (call_data k)) l -> Forall (fun k => Z.of_nat (length (call_data k)) < 2 ^ 32) l ->
  exists c' os, hash_calls md5_ops c l = Ok (c', os) /\ Forall2 meets os (expected (fun m => Some (MD5 m)) None l).
Proof.
  intros B O. apply (life md5_ops md5_itf (fun _ => True) (fun d => Z.of_nat (length d) < 2 ^ 32)); auto.
  - exact md5_acts.
  - eexists. split; [reflexivity|reflexivity].
  - intros ds x Bd Od E. injection E as <-. apply md5_ok; auto.
  - exact I.
Qed.
Lemma sha512_life is384 c l : Forall (fun k => bytes (call_data k)) l -> Forall (fun k => Z.of_nat (length (call_data k)) < 2 ^ 32) l ->
  exists c' os, hash_calls (sha512_ops is384) c l = Ok (c', os) /\
    Forall2 meets os (expected (fun m => if Nat.ltb (length m mod 128) 112 then Some (if is384 then SHA384 m else SHA512 m) else None) None l).
Proof.
  intros B O. apply (life (sha512_ops is384) (sha512_itf is384) (fun _ => True) (fun d => Z.of_nat (length d) < 2 ^ 32)); auto.
  - apply sha512_acts.
  - eexists. split; [reflexivity|reflexivity].
  - intros ds x Bd Od E. destruct (Nat.ltb_spec (length (concat ds) mod 128) 112) as [L|L]; [|discriminate]. injection E as <-.
    destruct (sha512_ok ds Bd Od L) as [E1 E2]. destruct is384; [exact E2|exact E1].
  - exact I.
Qed.

(** * HMAC *)
Section Hm.
  Context {C : Type} (h : hash_ops C) (itf : hash_itf C) (valid : C -> Prop) (n : nat).
  Hypothesis A : acts h itf valid.
  Hypothesis Vi : valid (hi_init itf).
  (** where a use of the hash starts, from the contexts in [fresh] *)
  Variable fresh : C -> Prop.
  Hypothesis Fi : forall c, fresh c -> opt_call (ho_init h) c = hi_init itf.
  (** a digest and a clear leave such a context *)
  Hypothesis Fd : forall c c' o, valid c -> ho_digest h c = Ok (c', o) -> fresh (opt_call (ho_clear h) c').

  Lemma hm_updates ds : forall c, valid c -> hmac_updates_c h c ds = Ok (fold_left (hi_update itf) ds c) /\ valid (fold_left (hi_update itf) ds c).
  Proof.
    induction ds as [|d ds IH]; intros c V; [split; auto; reflexivity|].
    cbn [hmac_updates_c fold_left]. destruct (ac_update _ _ _ A c d V) as [E V']. rewrite E. cbn [bind]. apply IH. auto.
  Qed.
  Lemma hm_digest c key : valid c -> exists c', hmac_digest_c h n c key = (do m <- hmac_digest itf n {| hm_ctx := c; hm_key := key |}; Ok (c', m)) /\ fresh c'.
  Proof.
    intro V. unfold hmac_digest_c, hmac_digest. cbv zeta. cbn [hm_ctx hm_key].
    destruct (ac_digest _ _ _ A c V) as (c1 & E & V1). rewrite E. cbn [bind].
    assert (F1 := Fd c c1 _ V E). rewrite (Fi _ F1).
    destruct (ac_update _ _ _ A (hi_init itf) (hmac_pad 92 key) Vi) as [E2 V2]. rewrite E2. cbn [bind].
    destruct (Nat.ltb_spec (length (hi_digest itf c)) n) as [L|L].
    - cbn [bind]. eexists. split; [reflexivity|exact F1].
    - destruct (ac_update _ _ _ A _ (firstn n (hi_digest itf c)) V2) as [E3 V3]. rewrite E3. cbn [bind].
      destruct (ac_digest _ _ _ A _ V3) as (c4 & E4 & V4). rewrite E4. cbn [bind].
      exists (opt_call (ho_clear h) c4). split; [reflexivity|]. apply (Fd _ _ _ V3 E4).
  Qed.
  Lemma hm_init c key : fresh c -> (exists c1, hmac_init_c h n c key = Ok (c1, match hmac_init itf n key with Ok k => hm_key k | _ => [] end) /\ valid c1 /\
      hmac_init itf n key = Ok {| hm_ctx := c1; hm_key := match hmac_init itf n key with Ok k => hm_key k | _ => [] end |}) \/
    (hmac_init_c h n c key = UB /\ hmac_init itf n key = UB).
  Proof.
    intro F. unfold hmac_init_c, hmac_init. cbv zeta. destruct (Nat.leb (length key) 64).
    - left. cbn [bind hm_key]. rewrite (Fi _ F). destruct (ac_update _ _ _ A (hi_init itf) (hmac_pad 54 key) Vi) as [E V]. rewrite E. cbn [bind].
      eexists. split; [reflexivity|]. split; [auto|reflexivity].
    - rewrite (Fi _ F). destruct (ac_update _ _ _ A (hi_init itf) key Vi) as [E V]. rewrite E. cbn [bind].
      destruct (ac_digest _ _ _ A _ V) as (c1 & E1 & V1). rewrite E1. cbn [bind].
      assert (F1 := Fd _ _ _ V E1).
      destruct (Nat.ltb 64 (length (hi_digest itf (hi_update itf (hi_init itf) key))) || Nat.ltb (length (hi_digest itf (hi_update itf (hi_init itf) key))) n)%bool.
      + right. split; reflexivity.
      + left. cbn [bind hm_key]. rewrite (Fi _ F1).
        destruct (ac_update _ _ _ A (hi_init itf) (hmac_pad 54 (firstn n (hi_digest itf (hi_update itf (hi_init itf) key)))) Vi) as [E2 V2]. rewrite E2. cbn [bind].
        eexists. split; [reflexivity|]. split; [auto|reflexivity].
  Qed.
  Lemma hm_run c key ds m : fresh c -> hmac_run itf n key ds = Ok m -> exists c', hmac_run_c h n c key ds = Ok (c', m) /\ fresh c'.
  Proof.
    intros F R. unfold hmac_run in R. unfold hmac_run_c.
    destruct (hm_init c key F) as [(c1 & E & V & E1)|[_ E1]]; [|rewrite E1 in R; discriminate].
    rewrite E. cbn [bind]. set (k := match hmac_init itf n key with Ok k => hm_key k | _ => [] end) in *. clearbody k. rewrite E1 in R. cbn [bind] in R.
    rewrite hmac_ctx_fold in R. cbn [hm_ctx hm_key] in R.
    destruct (hm_updates ds c1 V) as [E2 V2]. rewrite E2. cbn [bind].
    destruct (hm_digest _ k V2) as (c' & E3 & F3). exists c'. split; [|exact F3]. rewrite E3, R. reflexivity.
  Qed.
  Lemma hm_runs l : forall c (f : list Z * list (list Z) -> list Z), fresh c -> Forall (fun p => hmac_run itf n (fst p) (snd p) = Ok (f p)) l ->
    exists c', hmac_runs_c h n c l = Ok (c', map f l) /\ fresh c'.
  Proof.
    induction l as [|[key ds] l IH]; intros c f F Q; [exists c; split; [reflexivity|auto]|].
    inversion_clear Q as [|? ? Q1 Q2]. cbn [fst snd] in Q1. cbn [hmac_runs_c map].
    destruct (hm_run c key ds _ F Q1) as (c1 & E1 & F1). rewrite E1. cbn [bind].
    destruct (IH c1 f F1 Q2) as (c2 & E2 & F2). rewrite E2. exists c2. split; [reflexivity|auto].
  Qed.
End Hm.

(** with an init entry, from any context *)
Lemma hm_runs_init {C} (h : hash_ops C) (itf : hash_itf C) valid n l c f : acts h itf valid -> starts h itf -> valid (hi_init itf) ->
  Forall (fun p => hmac_run itf n (fst p) (snd p) = Ok (f p)) l -> exists c', hmac_runs_c h n c l = Ok (c', map f l).
Proof.
  intros A St Vi Q. destruct (hm_runs h itf valid n A Vi (fun _ => True)) with (l := l) (c := c) (f := f) as (c' & E & _); auto.
  - intros c' _. apply init_call; auto.
  - exists c'. exact E.
Qed.
Lemma sha256_runs c l : Forall (fun p => bytes (fst p) /\ Forall bytes (snd p)) l ->
  exists c', hmac_runs_c sha256_ops 32 c l = Ok (c', map (fun p => HMAC 64 SHA256 (fst p) (concat (snd p))) l).
Proof.
  intro Q. apply (hm_runs_init sha256_ops sha256_itf (fun c => (s2_datalen c < 64)%nat)).
  - exact sha256_acts.
  - eexists. split; [reflexivity|reflexivity].
  - cbn. lia.
  - eapply Forall_impl; [|exact Q]. intros [k ds] [B1 B2]. apply hmac_sha256; auto.
Qed.
Lemma sha1_runs c l : Forall (fun p => bytes (fst p) /\ Forall bytes (snd p)) l ->
  Forall (fun p => Z.of_nat (length (fst p)) < 2 ^ 32 /\ Forall (fun d => Z.of_nat (length d) < 2 ^ 32) (snd p)) l ->
  exists c', hmac_runs_c sha1_ops 20 c l = Ok (c', map (fun p => HMAC 64 SHA1 (fst p) (concat (snd p))) l).
Proof.
  intros Q S. apply (hm_runs_init sha1_ops sha1_itf (fun _ => True)); auto using sha1_acts.
  - eexists. split; [reflexivity|reflexivity].
  - rewrite Forall_forall in *. intros [k ds] Hp. destruct (Q _ Hp), (S _ Hp). apply hmac_sha1; auto.
Qed.
Lemma md5_runs c l : Forall (fun p => bytes (fst p) /\ Forall bytes (snd p)) l ->
  Forall (fun p => Z.of_nat (length (fst p)) < 2 ^ 32 /\ Forall (fun d => Z.of_nat (length d) < 2 ^ 32) (snd p)) l ->
  exists c', hmac_runs_c md5_ops 16 c l = Ok (c', map (fun p => HMAC 64 MD5 (fst p) (concat (snd p))) l).
Proof.
  intros Q S. apply (hm_runs_init md5_ops md5_itf (fun _ => True)); auto using md5_acts.
  - eexists. split; [reflexivity|reflexivity].
  - rewrite Forall_forall in *. intros [k ds] Hp. destruct (Q _ Hp), (S _ Hp). apply hmac_md5; auto.
Qed.

(** without an init entry *)
Definition no_init (clear : option (sha256 -> sha256)) : hash_ops sha256 :=
  {| ho_init := None; ho_clear := clear; ho_update := sha256_update_c; ho_digest := sha256_digest_c |}.
Lemma sha256_runs_no_init l : Forall (fun p => bytes (fst p) /\ Forall bytes (snd p)) l ->
  exists c', hmac_runs_c {| ho_init := None; ho_clear := Some sha256_init_c; ho_update := sha256_update_c; ho_digest := sha256_digest_c |} 32 sha256_init l =
    Ok (c', map (fun p => HMAC 64 SHA256 (fst p) (concat (snd p))) l).
Proof.
  intro Q. destruct (hm_runs (no_init (Some sha256_init_c)) sha256_itf (fun c => (s2_datalen c < 64)%nat) 32) with (fresh := fun c => c = sha256_init) (l := l) (c := sha256_init)
    (f := fun p => HMAC 64 SHA256 (fst p) (concat (snd p))) as (c' & E & _); auto.
  - destruct sha256_acts as [U D]. split; [exact U|exact D].
  - cbn. lia.
  - eapply Forall_impl; [|exact Q]. intros [k ds] [B1 B2]. apply hmac_sha256; auto.
  - exists c'. exact E.
Qed.

Lemma no_init_refuted clear : clear = None \/ clear = Some sha256_clear_c ->
  exists key m, bytes key /\ bytes m /\
    forall c, hmac_run_c {| ho_init := None; ho_clear := clear; ho_update := sha256_update_c; ho_digest := sha256_digest_c |} 32 sha256_init key [m] <> Ok (c, HMAC 64 SHA256 key m).
Proof.
  intro Hc. exists [1], [2]. split; [constructor; [unfold byte; lia|constructor]|]. split; [constructor; [unfold byte; lia|constructor]|].
  intros c E.
  assert (E' : (do '(_, o) <- hmac_run_c {| ho_init := None; ho_clear := clear; ho_update := sha256_update_c; ho_digest := sha256_digest_c |} 32 sha256_init [1] [[2]]; Ok o) = hmac_run sha256_itf 32 [1] [[2]]).
  { rewrite E. cbn [bind]. rewrite hmac_sha256; [reflexivity| |]; repeat constructor; unfold byte; lia. }
  clear E. revert E'. destruct Hc as [-> | ->]; vm_compute; discriminate.
Qed.
Definition outs {C} (r : res (C * list (list Z))) : res (list (list Z)) := do '(_, o) <- r; Ok o.
Definition differ (r : res (list (list Z))) : bool :=
  match r with Ok [a; b] => negb (forallb (fun p => fst p =? snd p) (combine a b)) | _ => true end.
Lemma differ_ne {C} (r : res (C * list (list Z))) c a b : r = Ok (c, [a; b]) -> differ (outs r) = true -> b <> a.
Proof.
  intros -> D ->. cbn [outs bind differ] in D. apply negb_true_iff in D.
  assert (T : forallb (fun p => fst p =? snd p) (combine a a) = true); [|congruence].
  clear D. induction a as [|x a IH]; [reflexivity|]. cbn [combine forallb fst snd]. rewrite Z.eqb_refl. exact IH.
Qed.
Lemma twice_refuted : exists m, bytes m /\
  (forall c c' a b, hash_calls sha256_ops c [CInit; CUpdate m; CDigest; CDigest] = Ok (c', [a; b]) -> a = SHA256 m /\ b <> a) /\
  (forall c c' a b, hash_calls sha1_ops c [CInit; CUpdate m; CDigest; CDigest] = Ok (c', [a; b]) -> a = SHA1 m /\ b <> a) /\
  (forall c c' a b, hash_calls md5_ops c [CInit; CUpdate m; CDigest; CDigest] = Ok (c', [a; b]) -> a = MD5 m /\ b <> a) /\
  (forall c c' a b, hash_calls (sha512_ops false) c [CInit; CUpdate m; CDigest; CDigest] = Ok (c', [a; b]) -> a = SHA512 m /\ b <> a).
Proof.
  exists [1]. assert (B : bytes [1]) by (constructor; [unfold byte; lia|constructor]). split; [exact B|].
  assert (P : forall (C : Type) (h : hash_ops C) c c' a b H o, 
    (exists c1 os, hash_calls h c [CInit; CUpdate [1]; CDigest; CDigest] = Ok (c1, os) /\ Forall2 meets os (expected H None [CInit; CUpdate [1]; CDigest; CDigest])) ->
    H [1] = Some o -> hash_calls h c [CInit; CUpdate [1]; CDigest; CDigest] = Ok (c', [a; b]) -> a = o).
  { intros C h c c' a b H o (c1 & os & E & F) Ho E'. rewrite E in E'. injection E' as _ ->. cbn [expected app] in F. inversion_clear F as [|? ? ? ? M _]. rewrite Ho in M. exact M. }
  assert (Q : forall k, In k [CInit; CUpdate [1]; CDigest; CDigest] -> bytes (call_data k) /\ Z.of_nat (length (call_data k)) < 2 ^ 32).
  { intros k [<-|[<-|[<-|[<-|[]]]]]; cbn [call_data length]; (split; [first [exact B|constructor]|lia]). }
  assert (Q1 : Forall (fun k => bytes (call_data k)) [CInit; CUpdate [1]; CDigest; CDigest]) by (apply Forall_forall; intros k Hk; apply (Q k Hk)).
  assert (Q2 : Forall (fun k => Z.of_nat (length (call_data k)) < 2 ^ 32) [CInit; CUpdate [1]; CDigest; CDigest]) by (apply Forall_forall; intros k Hk; apply (Q k Hk)).
  split; [|split; [|split]]; intros c c' a b E.
  - split; [eapply (P _ sha256_ops c); [apply sha256_life; inversion_clear Q1; auto|reflexivity|exact E]|].
    apply (differ_ne _ _ _ _ E). vm_compute. reflexivity.
  - split; [eapply (P _ sha1_ops c); [apply sha1_life; auto|reflexivity|exact E]|].
    apply (differ_ne _ _ _ _ E). vm_compute. reflexivity.
  - split; [eapply (P _ md5_ops c); [apply md5_life; auto|reflexivity|exact E]|].
    apply (differ_ne _ _ _ _ E). vm_compute. reflexivity.
  - split; [eapply (P _ (sha512_ops false) c); [apply sha512_life; auto|reflexivity|exact E]|].
    apply (differ_ne _ _ _ _ E). vm_compute. reflexivity.
Qed.
Lemma sha256_uninit_refuted : exists c, hash_calls sha256_ops c [CUpdate [1]] = UB /\ hash_calls sha256_ops c [CDigest] = UB.
Proof. exists {| s2_data := repeat 0 64; s2_datalen := 64; s2_bitlen := 0; s2_state := repeat 0 8 |}. split; reflexivity. Qed.
