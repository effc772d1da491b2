(** Executable model of the Hill cipher (src/crypt/hill.c).  A matrix is its
    rows in a list of bytes, as in the code; reads beyond the list give 0 and do
    not happen for lists of n * n bytes. *)
From Verif Require Import Base MpiAlgModel.

(** The idiom x %= 256; if (x < 0) x += 256 on a long.  No intermediate value
    exceeds 10 * 255 * 255 in absolute value, so long does not overflow. *)
Definition norm256 (x : Z) : Z := let r := Z.rem x 256 in if r <? 0 then r + 256 else r.
(** in[k] *)
Definition at_ (m : list Z) (k : nat) : Z := nth k m 0.
(** The indices 0 .. n-1 without i: the loops of mtx_minor with their continue. *)
Definition without (i n : nat) : list nat := filter (fun r => negb (Nat.eqb r i)) (seq 0 n).
(** src/crypt/hill.c:7-25 mtx_minor: out is filled in order *)
Definition mtx_minor (m : list Z) (i j n : nat) : list Z :=
  concat (map (fun r => map (fun c => at_ m (r * n + c)) (without j n)) (without i n)).
(** src/crypt/hill.c:27-53 mtx_det *)
Fixpoint mtx_det (n : nat) (m : list Z) : Z :=
  match n with
  | O => 1
  | S n' =>
      match n' with
      | O => at_ m 0
      | S O => norm256 (at_ m 0 * at_ m 3 - at_ m 1 * at_ m 2)
      | _ => fold_left (fun det i => norm256 (det + at_ m i * (if Nat.odd i then -1 else 1) * mtx_det n' (mtx_minor m 0 i n))) (seq 0 n) 0
      end
  end.
(** src/crypt/hill.c:57-65 mtx_transpose *)
Definition mtx_transpose (m : list Z) (n : nat) : list Z :=
  concat (map (fun i => map (fun j => at_ m (j * n + i)) (seq 0 n)) (seq 0 n)).
(** src/crypt/hill.c:67-89 mtx_invert *)
Definition mtx_invert (m : list Z) (n : nat) (idet : Z) : list Z :=
  let t := mtx_transpose m n in
  concat (map (fun i => map (fun j =>
    let c := mtx_det (n - 1) (mtx_minor t i j n) in
    let c := if Nat.odd (i + j) then - c else c in
    norm256 (c * idet)) (seq 0 n)) (seq 0 n)).
(** src/crypt/hill.c:91-106 mtx_vec_mul *)
Definition mtx_vec_mul (m v : list Z) (n : nat) : list Z :=
  map (fun i => norm256 (fold_left (fun res j => res + at_ m (i * n + j) * at_ v j) (seq 0 n) 0)) (seq 0 n).
(** src/crypt/hill.c:114-119: the loop from n on and the correction; the values
    n and n * n.  [keylen] is at most 100, so 11 rounds are enough. *)
Fixpoint trim_loop (fuel n keylen : nat) : nat :=
  match fuel with
  | O => n
  | S f => if Nat.ltb (n * n) keylen then trim_loop f (S n) keylen
           else if Nat.ltb keylen (n * n) then n - 1 else n
  end.
(** src/crypt/hill.c:108-121 keylen_trim: the dimension; *keylen becomes its
    square.  CRY_HILL_KEYLEN_MAX is 100. *)
Definition keylen_trim (keylen : nat) : nat := trim_loop 11 1 (Nat.min keylen 100).

(** include/cry/hill.h:39-43 *)
Record hill := { hkey : list Z; hikey : list Z; hn : nat }.
(** src/crypt/hill.c:123-140 hill_operate: all the bytes written at out.  For a
    last piece shorter than n that is n bytes, whatever the length asked for.
    With n = 0 the loop does not end: [Fuel]. *)
Definition hill_operate (n : nat) (key inp : list Z) : res (list Z) :=
  match n, inp with
  | O, [] => Ok []
  | O, _ => Fuel
  | _, _ => Ok (concat (map (fun v => mtx_vec_mul key (v ++ repeat 0 (n - length v)) n) (chunks n inp)))
  end.
(** src/crypt/hill.c:142-153 *)
Definition hill_encrypt (c : hill) (inp : list Z) : res (list Z) := hill_operate (hn c) (hkey c) inp.
Definition hill_decrypt (c : hill) (inp : list Z) : res (list Z) := hill_operate (hn c) (hikey c) inp.
(** src/crypt/hill.c:171-181: the inverse, if the determinant is odd; idet is an
    unsigned char *)
Definition hill_try (n : nat) (key : list Z) : res (option (list Z)) :=
  let det := mtx_det n key in
  if Z.odd det then do i <- long_inv det 256; Ok (Some (mtx_invert key n (i mod 256)))
  else Ok None.
(** src/crypt/hill.c:156-185 keygen with trials > 0: one entry of [draws] per
    trial; code, key and inverse left behind ([ikey] if there is none). *)
Fixpoint hill_keygen (n : nat) (key ikey : list Z) (draws : list (list Z)) : res (Z * list Z * list Z) :=
  match draws with
  | [] => Ok (-1, key, ikey)
  | k :: rest =>
      do o <- hill_try n k;
      match o with
      | Some i => Ok (0, k, i)
      | None => hill_keygen n k ikey rest
      end
  end.
(** src/crypt/hill.c:187-209 cry_hill_init: return code and context.  A key or
    inverse shorter than n * n bytes is read out of bounds.  [draws] are the 100
    matrices the generator supplies when key is NULL.  Only the first n * n
    bytes of the two arrays are kept here, the rest is zero and never read. *)
Definition hill_init (key ikey : option (list Z)) (keylen : nat) (draws : list (list Z)) : res (Z * hill) :=
  let n := keylen_trim keylen in
  let z := repeat 0 (n * n) in
  let short o := match o with Some k => Nat.ltb (length k) (n * n) | None => false end in
  if (short key || match key with Some _ => short ikey | None => false end)%bool then UB
  else
    match key, ikey with
    | Some k, None =>
        let k := firstn (n * n) k in
        do o <- hill_try n k;
        match o with
        | Some i => Ok (0, {| hkey := k; hikey := i; hn := n |})
        | None => Ok (-1, {| hkey := k; hikey := z; hn := n |})
        end
    | None, None =>
        do ' (rc, k, i) <- hill_keygen n z z (firstn 100 draws);
        Ok (rc, {| hkey := k; hikey := i; hn := n |})
    | Some k, Some i => Ok (0, {| hkey := firstn (n * n) k; hikey := firstn (n * n) i; hn := n |})
    | None, Some _ => Ok (-1, {| hkey := z; hikey := z; hn := n |})
    end.
