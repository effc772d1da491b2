(** Trivium, eSTREAM specification (De Canniere and Preneel): 288 bits s1..s288. *)
From Verif Require Import Base.

Definition tbit (s : list bool) (i : nat) : bool := nth (i - 1) s false.
(** one clock: key stream bit and new state *)
Definition clock (s : list bool) : bool * list bool :=
  let b := tbit s in
  let t1 := xorb (b 66%nat) (b 93%nat) in
  let t2 := xorb (b 162%nat) (b 177%nat) in
  let t3 := xorb (b 243%nat) (b 288%nat) in
  let z := xorb (xorb t1 t2) t3 in
  let t1 := xorb t1 (xorb (b 91%nat && b 92%nat) (b 171%nat)) in
  let t2 := xorb t2 (xorb (b 175%nat && b 176%nat) (b 264%nat)) in
  let t3 := xorb t3 (xorb (b 286%nat && b 287%nat) (b 69%nat)) in
  (z, (t3 :: firstn 92 s) ++ (t1 :: firstn 83 (skipn 93 s)) ++ (t2 :: firstn 110 (skipn 177 s))).
(** K1..K80 and IV1..IV80: bit j of byte i is number 8 i + j + 1 *)
Definition lsb_bits (l : list Z) : list bool := concat (map (fun b => map (fun j => Z.odd (b / 2 ^ j)) [0; 1; 2; 3; 4; 5; 6; 7]) l).
Definition setup (key iv : list Z) : list bool :=
  (lsb_bits key ++ repeat false 13) ++ (lsb_bits iv ++ repeat false 4) ++ (repeat false 108 ++ [true; true; true]).
(** the state after n clocks, and the n-th key stream bit, counted from 0 after
    the 1152 blank clocks *)
Definition after (n : nat) (s : list bool) : list bool := Nat.iter n (fun s => snd (clock s)) s.
Definition zbit (key iv : list Z) (n : nat) : bool := fst (clock (after (36 * 32 + n) (setup key iv))).
(** The first key stream bit of each 32 is the top bit of a little-endian word. *)
Definition zword (z : nat -> bool) (k : nat) : Z := fold_left (fun v i => 2 * v + (if z (32 * k + i)%nat then 1 else 0)) (seq 0 32) 0.
Definition zbytes (z : nat -> bool) (k : nat) : list Z := map (fun j => (zword z k / 2 ^ (8 * Z.of_nat j)) mod 256) (seq 0 4).
(** key stream bytes from word k on *)
Definition stream (z : nat -> bool) (k n : nat) : list Z := concat (map (zbytes z) (seq k n)).
(** Messages given in successive calls: each call starts at a new word. *)
Fixpoint trivium_calls (z : nat -> bool) (k : nat) (ms : list (list Z)) : list (list Z) :=
  match ms with
  | [] => []
  | m :: ms => let n := ((length m + 3) / 4)%nat in xorl m (stream z k n) :: trivium_calls z (k + n) ms
  end.
