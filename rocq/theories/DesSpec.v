(** FIPS 46-3: DES and TDEA.  A block is a list of 64 bits, bit 1 of the
    standard first. *)
From Verif Require Import Base.

(** bytes as bits, most significant first *)
Definition byte_bits (b : Z) : list bool := map (fun i => Z.odd (b / 2 ^ i)) [7; 6; 5; 4; 3; 2; 1; 0].
Definition bits (l : list Z) : list bool := concat (map byte_bits l).
Definition bits_val (l : list bool) : Z := fold_left (fun v (b : bool) => 2 * v + (if b then 1 else 0)) l 0.
Definition unbits (l : list bool) : list Z := map (fun i => bits_val (firstn 8 (skipn (8 * i) l))) (seq 0 (length l / 8)).

(** "the permuted input has bit t of the input as its first bit ..." *)
Definition select (tab : list nat) (l : list bool) : list bool := map (fun t => nth (t - 1) l false) tab.
Definition IP : list nat :=
  [58; 50; 42; 34; 26; 18; 10; 2; 60; 52; 44; 36; 28; 20; 12; 4;
   62; 54; 46; 38; 30; 22; 14; 6; 64; 56; 48; 40; 32; 24; 16; 8;
   57; 49; 41; 33; 25; 17; 9; 1; 59; 51; 43; 35; 27; 19; 11; 3;
   61; 53; 45; 37; 29; 21; 13; 5; 63; 55; 47; 39; 31; 23; 15; 7]%nat.
Definition IP_inv : list nat :=
  [40; 8; 48; 16; 56; 24; 64; 32; 39; 7; 47; 15; 55; 23; 63; 31;
   38; 6; 46; 14; 54; 22; 62; 30; 37; 5; 45; 13; 53; 21; 61; 29;
   36; 4; 44; 12; 52; 20; 60; 28; 35; 3; 43; 11; 51; 19; 59; 27;
   34; 2; 42; 10; 50; 18; 58; 26; 33; 1; 41; 9; 49; 17; 57; 25]%nat.
(** E: blocks of 6 bits around each group of 4 *)
Definition E_tab : list nat :=
  [32; 1; 2; 3; 4; 5; 4; 5; 6; 7; 8; 9; 8; 9; 10; 11; 12; 13; 12; 13; 14; 15; 16; 17;
   16; 17; 18; 19; 20; 21; 20; 21; 22; 23; 24; 25; 24; 25; 26; 27; 28; 29; 28; 29; 30; 31; 32; 1]%nat.
Definition P_tab : list nat :=
  [16; 7; 20; 21; 29; 12; 28; 17; 1; 15; 23; 26; 5; 18; 31; 10;
   2; 8; 24; 14; 32; 27; 3; 9; 19; 13; 30; 6; 22; 11; 4; 25]%nat.
Definition PC1_C : list nat := [57; 49; 41; 33; 25; 17; 9; 1; 58; 50; 42; 34; 26; 18; 10; 2; 59; 51; 43; 35; 27; 19; 11; 3; 60; 52; 44; 36]%nat.
Definition PC1_D : list nat := [63; 55; 47; 39; 31; 23; 15; 7; 62; 54; 46; 38; 30; 22; 14; 6; 61; 53; 45; 37; 29; 21; 13; 5; 28; 20; 12; 4]%nat.
Definition PC2 : list nat :=
  [14; 17; 11; 24; 1; 5; 3; 28; 15; 6; 21; 10; 23; 19; 12; 4; 26; 8; 16; 7; 27; 20; 13; 2;
   41; 52; 31; 37; 47; 55; 30; 40; 51; 45; 33; 48; 44; 49; 39; 56; 34; 53; 46; 42; 50; 36; 29; 32]%nat.
(** number of left shifts, iterations 1 to 16 *)
Definition shifts : list nat := [1; 1; 2; 2; 2; 2; 2; 2; 1; 2; 2; 2; 2; 2; 2; 1]%nat.
(** the S boxes, four rows of sixteen each *)
Definition S_tab : list (list (list Z)) :=
  [[[14; 4; 13; 1; 2; 15; 11; 8; 3; 10; 6; 12; 5; 9; 0; 7]; [0; 15; 7; 4; 14; 2; 13; 1; 10; 6; 12; 11; 9; 5; 3; 8];
    [4; 1; 14; 8; 13; 6; 2; 11; 15; 12; 9; 7; 3; 10; 5; 0]; [15; 12; 8; 2; 4; 9; 1; 7; 5; 11; 3; 14; 10; 0; 6; 13]];
   [[15; 1; 8; 14; 6; 11; 3; 4; 9; 7; 2; 13; 12; 0; 5; 10]; [3; 13; 4; 7; 15; 2; 8; 14; 12; 0; 1; 10; 6; 9; 11; 5];
    [0; 14; 7; 11; 10; 4; 13; 1; 5; 8; 12; 6; 9; 3; 2; 15]; [13; 8; 10; 1; 3; 15; 4; 2; 11; 6; 7; 12; 0; 5; 14; 9]];
   [[10; 0; 9; 14; 6; 3; 15; 5; 1; 13; 12; 7; 11; 4; 2; 8]; [13; 7; 0; 9; 3; 4; 6; 10; 2; 8; 5; 14; 12; 11; 15; 1];
    [13; 6; 4; 9; 8; 15; 3; 0; 11; 1; 2; 12; 5; 10; 14; 7]; [1; 10; 13; 0; 6; 9; 8; 7; 4; 15; 14; 3; 11; 5; 2; 12]];
   [[7; 13; 14; 3; 0; 6; 9; 10; 1; 2; 8; 5; 11; 12; 4; 15]; [13; 8; 11; 5; 6; 15; 0; 3; 4; 7; 2; 12; 1; 10; 14; 9];
    [10; 6; 9; 0; 12; 11; 7; 13; 15; 1; 3; 14; 5; 2; 8; 4]; [3; 15; 0; 6; 10; 1; 13; 8; 9; 4; 5; 11; 12; 7; 2; 14]];
   [[2; 12; 4; 1; 7; 10; 11; 6; 8; 5; 3; 15; 13; 0; 14; 9]; [14; 11; 2; 12; 4; 7; 13; 1; 5; 0; 15; 10; 3; 9; 8; 6];
    [4; 2; 1; 11; 10; 13; 7; 8; 15; 9; 12; 5; 6; 3; 0; 14]; [11; 8; 12; 7; 1; 14; 2; 13; 6; 15; 0; 9; 10; 4; 5; 3]];
   [[12; 1; 10; 15; 9; 2; 6; 8; 0; 13; 3; 4; 14; 7; 5; 11]; [10; 15; 4; 2; 7; 12; 9; 5; 6; 1; 13; 14; 0; 11; 3; 8];
    [9; 14; 15; 5; 2; 8; 12; 3; 7; 0; 4; 10; 1; 13; 11; 6]; [4; 3; 2; 12; 9; 5; 15; 10; 11; 14; 1; 7; 6; 0; 8; 13]];
   [[4; 11; 2; 14; 15; 0; 8; 13; 3; 12; 9; 7; 5; 10; 6; 1]; [13; 0; 11; 7; 4; 9; 1; 10; 14; 3; 5; 12; 2; 15; 8; 6];
    [1; 4; 11; 13; 12; 3; 7; 14; 10; 15; 6; 8; 0; 5; 9; 2]; [6; 11; 13; 8; 1; 4; 10; 7; 9; 5; 0; 15; 14; 2; 3; 12]];
   [[13; 2; 8; 4; 6; 15; 11; 1; 10; 9; 3; 14; 5; 0; 12; 7]; [1; 15; 13; 8; 10; 3; 7; 4; 12; 5; 6; 11; 0; 14; 9; 2];
    [7; 11; 4; 1; 9; 12; 14; 2; 0; 6; 10; 13; 15; 3; 5; 8]; [2; 1; 14; 7; 4; 10; 8; 13; 15; 12; 9; 0; 3; 5; 6; 11]]].
(** six bits: the outer two give the row, the inner four the column *)
Definition S_out (k : nat) (b : list bool) : list bool :=
  match b with
  | [b1; b2; b3; b4; b5; b6] =>
      let v := nth (Z.to_nat (bits_val [b2; b3; b4; b5])) (nth (Z.to_nat (bits_val [b1; b6])) (nth k S_tab []) []) 0 in
      skipn 4 (byte_bits v)
  | _ => []
  end.
Definition xorb_list (a b : list bool) : list bool := map (fun p => xorb (fst p) (snd p)) (combine a b).
(** the cipher function f(R, K) *)
Definition f_des (R K : list bool) : list bool :=
  let x := xorb_list K (select E_tab R) in
  select P_tab (concat (map (fun k => S_out k (firstn 6 (skipn (6 * k) x))) (seq 0 8))).
(** key schedule *)
Definition rotl_bits (n : nat) (l : list bool) : list bool := skipn n l ++ firstn n l.
Definition subkeys (key : list bool) : list (list bool) :=
  map (fun i => let n := fold_right Nat.add 0%nat (firstn (S i) shifts) in
                select PC2 (rotl_bits n (select PC1_C key) ++ rotl_bits n (select PC1_D key))) (seq 0 16).
(** sixteen iterations L' = R, R' = L xor f(R, K), the preoutput being R16 L16 *)
Definition feistel (Ks : list (list bool)) (LR : list bool * list bool) : list bool * list bool :=
  fold_left (fun '(L, R) K => (R, xorb_list L (f_des R K))) Ks LR.
Definition des_core (Ks : list (list bool)) (block : list bool) : list bool :=
  let x := select IP block in
  let '(L, R) := feistel Ks (firstn 32 x, skipn 32 x) in
  select IP_inv (R ++ L).
Definition DES (key block : list Z) : list Z := unbits (des_core (subkeys (bits key)) (bits block)).
Definition DES_inv (key block : list Z) : list Z := unbits (des_core (rev (subkeys (bits key))) (bits block)).
(** TDEA with keys K1, K2, K3 *)
Definition TDEA (k1 k2 k3 block : list Z) : list Z := DES k3 (DES_inv k2 (DES k1 block)).
Definition TDEA_inv (k1 k2 k3 block : list Z) : list Z := DES_inv k1 (DES k2 (DES_inv k3 block)).
