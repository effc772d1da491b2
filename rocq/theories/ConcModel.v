(** Several threads inside the library at once, over what they share: one AES
    context, or the static variables of the AES generator.  Memory is taken to be
    sequentially consistent and a step does at least one access to what is shared,
    often several, so that the model has fewer interleavings than the program: a
    schedule of the model is one of the program.  (C calls every such unsynchronised
    write a data race, with undefined behaviour.) *)
From Verif Require Import Base AesModel PrngModel.

(** [step] is one step of one thread over the shared state *)
Section Threads.
  Context {S L : Type} (step : S -> L -> res (S * L)).
  (** the threads [ts], scheduled in the order [sch]; a number that is no thread is
      skipped *)
  Fixpoint sched (s : S) (ts : list L) (sch : list nat) : res (S * list L) :=
    match sch with
    | [] => Ok (s, ts)
    | i :: sch =>
        match nth_error ts i with
        | None => sched s ts sch
        | Some l => do ' (s, l) <- step s l; sched s (upd ts i l) sch
        end
    end.
  (** one thread alone *)
  Fixpoint solo (n : nat) (s : S) (l : L) : res (S * L) :=
    match n with
    | O => Ok (s, l)
    | Datatypes.S n => do ' (s, l) <- step s l; solo n s l
    end.
End Threads.

(** * cry_aes_encrypt and cry_aes_decrypt *)
(** src/crypt/aes.c:411-509: where a thread is; [enc] tells the two functions apart,
    [src] is what is left of the source, [out] what is written *)
Inductive aes_at :=
| AStart (enc : bool) (src : list Z)
| AFlag (enc : bool) (src : list Z)
| ALoop (enc : bool) (src out : list Z)
| ARound (enc : bool) (src out : list Z) (i : nat) (w : Z * Z * Z * Z)
| ADone (out : list Z).
(** src/crypt/aes.c:434 i < ctx->nr and 484 i < (ctx->nr & ~DECRYPT_STATE), where
    DECRYPT_STATE is 0x80 *)
Definition rounds_seen (enc : bool) (c : aes) : nat := if (enc && dec c)%bool then (nr c + 128)%nat else nr c.
Definition aes_step (c : aes) (l : aes_at) : res (aes * aes_at) :=
  match l with
  | AStart enc src =>
      (* 418-419, 468-469: the test, and key_invert in one step *)
      if Bool.eqb (dec c) enc then Ok ({| keys := aes_key_invert (nr c) (keys c); nr := nr c; dec := dec c |}, AFlag enc src)
      else Ok (c, ALoop enc src [])
  | AFlag enc src => (* 420, 470 *) Ok ({| keys := keys c; nr := nr c; dec := negb enc |}, ALoop enc src [])
  | ALoop enc src out =>
      (* 423-432, 473-482 *)
      if Nat.leb 16 (length src)
      then Ok (c, ARound enc src out 1 (Z.lxor (read32le src 0) (nth 0 (keys c) 0), Z.lxor (read32le src 4) (nth 1 (keys c) 0),
                                        Z.lxor (read32le src 8) (nth 2 (keys c) 0), Z.lxor (read32le src 12) (nth 3 (keys c) 0)))
      else Ok (c, ADone out)
  | ARound enc src out i w =>
      (* keys has 60 elements *)
      if Nat.ltb 60 (4 * i + 4) then UB
      else if Nat.ltb i (rounds_seen enc c)
      then (* 435-443, 485-493 *) Ok (c, ARound enc src out (i + 1) (aes_rounds (if enc then fround else rround) 1 i (keys c) w))
      else (* 445-457, 495-507 *)
        let '(w0, w1, w2, w3) := aes_rounds (if enc then ffinal else rfinal) 1 i (keys c) w in
        Ok (c, ALoop enc (skipn 16 src) (out ++ write32le w0 ++ write32le w1 ++ write32le w2 ++ write32le w3))
  | ADone out => Ok (c, ADone out)
  end.

(** * cry_prng_aes_rand *)
(** src/prng/prng_aes.c:48-76: where a thread is; [siz] bytes are still to be given *)
Inductive prng_at :=
| PStart (siz : nat)
| PInit (siz : nat)
| PRes (siz : nat) (out : list Z)
| PMod (siz : nat) (out : list Z)
| PMain (siz : nat) (out : list Z)
| PInc (siz : nat) (out : list Z)
| PTailInc (siz : nat) (out : list Z)
| PTailIx (siz : nat) (out : list Z)
| PTailCopy (siz : nat) (out : list Z)
| PDone (out : list Z).
(** src/prng/prng_aes.c:15-16 prng_ctx and init *)
Definition prng_glob : Type := (bool * prng)%type.
Definition with_ix (p : prng) (ix : nat) : prng := {| paes := paes p; pix := ix; pctr := pctr p; plo := plo p |}.
Definition with_ctr (p : prng) (ctr : list Z) : prng := {| paes := paes p; pix := pix p; pctr := ctr; plo := plo p |}.
Definition prng_step (g : prng_glob) (l : prng_at) : res (prng_glob * prng_at) :=
  let '(i, p) := g in
  match l with
  | PStart siz => (* 50 *) Ok (g, if i then PRes siz [] else PInit siz)
  | PInit siz => (* 51, in one step *) do p <- prng_init (plo p) []; Ok ((true, p), PRes siz [])
  | PRes siz out =>
      (* 54-55; lo has 16 elements *)
      if (negb (Nat.eqb (pix p) 0) && negb (Nat.eqb siz 0))%bool
      then if Nat.leb 16 (pix p) then UB
           else Ok ((i, with_ix p (pix p + 1)), PMod (siz - 1) (out ++ [nth (pix p) (plo p) 0]))
      else Ok (g, PMain siz out)
  | PMod siz out => (* 56 *) Ok ((i, with_ix p (Nat.modulo (pix p) 16)), PRes siz out)
  | PMain siz out =>
      if Nat.leb 16 siz
      then (* 61 *) let '(c, b) := aes_encrypt (paes p) (pctr p) in
                    Ok ((i, {| paes := c; pix := pix p; pctr := pctr p; plo := plo p |}), PInc (siz - 16) (out ++ b))
      else match siz with
           | O => Ok (g, PDone out)
           | _ => (* 69 *) let '(c, b) := aes_encrypt (paes p) (pctr p) in
                           Ok ((i, {| paes := c; pix := pix p; pctr := pctr p; plo := b |}), PTailInc siz out)
           end
  | PInc siz out => (* 62-64 *) Ok ((i, with_ctr p (ctr_inc (pctr p))), PMain siz out)
  | PTailInc siz out => (* 70 *) Ok ((i, with_ctr p (ctr_inc (pctr p))), PTailIx siz out)
  | PTailIx siz out => (* 71 *) Ok ((i, with_ix p siz), PTailCopy siz out)
  | PTailCopy siz out => (* 72-73 *) Ok (g, PDone (out ++ firstn siz (plo p)))
  | PDone out => Ok (g, PDone out)
  end.
