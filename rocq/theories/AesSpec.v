(** FIPS 197.  A state is the list of its 16 bytes, column by column: byte i is
    row (i mod 4) of column (i / 4). *)
From Verif Require Import Base Poly2Spec.

(** 4.2: product of polynomials modulo x^8 + x^4 + x^3 + x + 1 *)
Fixpoint aes_rem (n : nat) (p : Z) : Z :=
  match n with
  | O => p
  | S n => aes_rem n (if Z.testbit p (8 + Z.of_nat n) then Z.lxor p (0x11b * 2 ^ Z.of_nat n) else p)
  end.
Definition gmul (a b : Z) : Z := aes_rem 7 (clmul a b).
Definition range256 : list Z := map Z.of_nat (seq 0 256).
(** the inverse, 0 for 0 *)
Definition ginv (b : Z) : Z := hd 0 (filter (fun c => gmul b c =? 1) range256).

(** 5.1.1 SubBytes *)
Definition bit (b : Z) (i : Z) : bool := Z.testbit b (i mod 8).
Definition of_bits (f : Z -> bool) : Z := fold_right (fun i s => s + (if f i then 2 ^ i else 0)) 0 [0; 1; 2; 3; 4; 5; 6; 7].
Definition sbox (b : Z) : Z :=
  let v := ginv b in
  of_bits (fun i => xorb (bit v i) (xorb (bit v (i + 4)) (xorb (bit v (i + 5)) (xorb (bit v (i + 6)) (xorb (bit v (i + 7)) (bit 0x63 i)))))).
Definition sub_bytes (s : list Z) : list Z := map sbox s.
(** 5.1.2 ShiftRows: row r moves left by r columns *)
Definition shift_rows (s : list Z) : list Z :=
  map (fun i => let r := (i mod 4)%nat in let c := (i / 4)%nat in nth (r + 4 * ((c + r) mod 4)) s 0) (seq 0 16).
(** 5.1.3 MixColumns *)
Definition xor4 (a b c d : Z) : Z := Z.lxor (Z.lxor (Z.lxor a b) c) d.
Definition mix_column (a b c d : Z) (col : list Z) : list Z :=
  match col with
  | [x; y; z; t] =>
      [xor4 (gmul a x) (gmul b y) (gmul c z) (gmul d t); xor4 (gmul d x) (gmul a y) (gmul b z) (gmul c t);
       xor4 (gmul c x) (gmul d y) (gmul a z) (gmul b t); xor4 (gmul b x) (gmul c y) (gmul d z) (gmul a t)]
  | _ => []
  end.
Definition mix_columns (s : list Z) : list Z := concat (map (mix_column 2 3 1 1) (chunks 4 s)).
(** 5.1.4 AddRoundKey *)
Definition add_round_key (k s : list Z) : list Z := xorl s k.

(** 5.3 *)
Definition inv_sbox (b : Z) : Z :=
  ginv (of_bits (fun i => xorb (bit b (i + 2)) (xorb (bit b (i + 5)) (xorb (bit b (i + 7)) (bit 0x05 i))))).
Definition inv_sub_bytes (s : list Z) : list Z := map inv_sbox s.
Definition inv_shift_rows (s : list Z) : list Z :=
  map (fun i => let r := (i mod 4)%nat in let c := (i / 4)%nat in nth (r + 4 * ((c + 4 - r) mod 4)) s 0) (seq 0 16).
Definition inv_mix_columns (s : list Z) : list Z := concat (map (mix_column 0xe 0xb 0xd 0x9) (chunks 4 s)).

(** 5.2 KeyExpansion: words are lists of four bytes; word i for i >= Nk *)
Definition rot_word (w : list Z) : list Z := match w with [a; b; c; d] => [b; c; d; a] | _ => [] end.
Definition sub_word (w : list Z) : list Z := map sbox w.
Definition rcon (i : nat) : list Z := [Nat.iter (i - 1) (gmul 2) 1; 0; 0; 0].
Definition next_word (nk : nat) (ws : list (list Z)) : list Z :=
  let i := length ws in
  let temp := nth (i - 1) ws [] in
  let temp := if Nat.eqb (i mod nk) 0 then xorl (sub_word (rot_word temp)) (rcon (i / nk))
              else if (Nat.ltb 6 nk && Nat.eqb (i mod nk) 4)%bool then sub_word temp
              else temp in
  xorl (nth (i - nk) ws []) temp.
Definition key_expansion (nk : nat) (key : list Z) : list (list Z) :=
  Nat.iter (4 * (nk + 6 + 1) - nk) (fun ws => ws ++ [next_word nk ws]) (chunks 4 key).
(** the round keys *)
Definition round_keys (key : list Z) : list (list Z) := chunks 16 (concat (key_expansion (length key / 4) key)).

(** 5.1 Cipher and 5.3 InvCipher; the last round leaves out (Inv)MixColumns *)
Fixpoint rounds (ks : list (list Z)) (s : list Z) : list Z :=
  match ks with
  | [] => s
  | [k] => add_round_key k (shift_rows (sub_bytes s))
  | k :: ks => rounds ks (add_round_key k (mix_columns (shift_rows (sub_bytes s))))
  end.
Definition fips_cipher (key : list Z) (inp : list Z) : list Z :=
  match round_keys key with
  | [] => []
  | k :: ks => rounds ks (add_round_key k inp)
  end.
Fixpoint inv_rounds (ks : list (list Z)) (s : list Z) : list Z :=
  match ks with
  | [] => s
  | [k] => add_round_key k (inv_sub_bytes (inv_shift_rows s))
  | k :: ks => inv_rounds ks (inv_mix_columns (add_round_key k (inv_sub_bytes (inv_shift_rows s))))
  end.
Definition fips_inv_cipher (key : list Z) (inp : list Z) : list Z :=
  match rev (round_keys key) with
  | [] => []
  | k :: ks => inv_rounds ks (add_round_key k inp)
  end.
