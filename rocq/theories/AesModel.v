(** Model of src/crypt/aes.c. *)
From Verif Require Import Base AesTables.

(** src/misc.h CRY_READ32_LE / CRY_WRITE32_LE *)
Definition read32le (l : list Z) (o : nat) : Z :=
  Z.lor (Z.lor (Z.lor (Z.shiftl (nth (o + 3) l 0) 24) (Z.shiftl (nth (o + 2) l 0) 16)) (Z.shiftl (nth (o + 1) l 0) 8)) (nth o l 0).
Definition write32le (v : Z) : list Z := map (fun s => Z.land (Z.shiftr v s) 255) [0; 8; 16; 24].
(** src/misc.h:142-143 CRY_ROTL for 32-bit values *)
Definition rotl32 (v n : Z) : Z := Z.lor (Z.shiftl v n mod 2 ^ 32) (Z.shiftr v (32 - n)).
(** table lookup *)
Definition tab (t : list Z) (i : Z) : Z := nth (Z.to_nat i) t 0.

(** src/crypt/aes.c:325-328 *)
Definition I0 (x : Z) : Z := Z.land x 255.
Definition I1 (x : Z) : Z := Z.land (Z.shiftr x 8) 255.
Definition I2 (x : Z) : Z := Z.land (Z.shiftr x 16) 255.
Definition I3 (x : Z) : Z := Z.land (Z.shiftr x 24) 255.
(** src/crypt/aes.c:342-346 FINAL; SBOX (330-334) is FINAL with one word *)
Definition aes_final (sb : list Z) (a b c d : Z) : Z :=
  Z.lor (Z.lor (Z.lor (tab sb (I0 a)) (Z.shiftl (tab sb (I1 b)) 8)) (Z.shiftl (tab sb (I2 c)) 16)) (Z.shiftl (tab sb (I3 d)) 24).
Definition aes_sbox (x : Z) : Z := aes_final aes_fsbox x x x x.
(** src/crypt/aes.c:336-340 ROUND *)
Definition aes_round (t0 t1 t2 t3 : list Z) (a b c d : Z) : Z :=
  Z.lxor (Z.lxor (Z.lxor (tab t0 (I0 a)) (tab t1 (I1 b))) (tab t2 (I2 c))) (tab t3 (I3 d)).

(** include/cry/aes.h struct cry_aes_ctx.  [keys]: the words of the schedule that
    have been written; [dec]: bit DECRYPT_STATE of nr; [nr]: the other bits. *)
Record aes := { keys : list Z; nr : nat; dec : bool }.

(** src/misc.h:136-140 CRY_SWAP *)
Definition swap (l : list Z) (i j : nat) : list Z :=
  let l := upd l i (Z.lxor (nth i l 0) (nth j l 0)) in
  let l := upd l j (Z.lxor (nth j l 0) (nth i l 0)) in
  upd l i (Z.lxor (nth i l 0) (nth j l 0)).
(** src/crypt/aes.c:355-358; the fuel [j] exceeds the number of turns *)
Fixpoint aes_swaps (fuel : nat) (l : list Z) (i j : nat) : list Z :=
  match fuel with
  | O => l
  | S f => if Nat.ltb i j
           then aes_swaps f (fold_left (fun l k => swap l (i + k) (j + k)) [0; 1; 2; 3]%nat l) (i + 4) (j - 4)
           else l
  end.
(** src/crypt/aes.c:361-371 *)
Definition aes_mix (key : Z) : Z :=
  Z.lxor (Z.lxor (Z.lxor (tab aes_mtab (Z.land key 255))
    (rotl32 (tab aes_mtab (Z.land (Z.shiftr key 8) 255)) 8))
    (rotl32 (tab aes_mtab (Z.land (Z.shiftr (Z.shiftr key 8) 8) 255)) 16))
    (rotl32 (tab aes_mtab (Z.land (Z.shiftr (Z.shiftr (Z.shiftr key 8) 8) 8) 255)) 24).
(** src/crypt/aes.c:349-374 key_invert *)
Definition aes_key_invert (nr : nat) (ks : list Z) : list Z :=
  let ks := aes_swaps (4 * nr) ks 0 (4 * nr) in
  fold_left (fun ks i => upd ks i (aes_mix (nth i ks 0))) (seq 4 (4 * nr - 4)) ks.

(** src/crypt/aes.c:378-381; rp starts at rcon and is advanced at each multiple of nk *)
Definition aes_rcon : list Z := [0x01; 0x02; 0x04; 0x08; 0x10; 0x20; 0x40; 0x80; 0x1b; 0x36].
(** src/crypt/aes.c:401-408: from word [i] on, [n] words.  [rp]: what is left of rcon. *)
Fixpoint aes_expand (n nk i : nat) (rp : list Z) (ks : list Z) : res (list Z) :=
  match n with
  | O => Ok ks
  | S n =>
      let tmp := nth (i - 1) ks 0 in
      if Nat.eqb (i mod nk) 0 then
        match rp with
        | [] => UB
        | c :: rp => aes_expand n nk (i + 1) rp (ks ++ [Z.lxor (nth (i - nk) ks 0) (Z.lxor (aes_sbox (rotl32 tmp 24)) c)])
        end
      else
        let tmp := if (Nat.eqb nk 8 && Nat.eqb (i mod nk) 4)%bool then aes_sbox tmp else tmp in
        aes_expand n nk (i + 1) rp (ks ++ [Z.lxor (nth (i - nk) ks 0) tmp])
  end.
(** src/crypt/aes.c:376-409 cry_aes_key_set; a key of fewer than 16 bytes is read
    outside *)
Definition aes_key_set (key : list Z) : res aes :=
  let nk := if Nat.leb 32 (length key) then 8%nat else if Nat.leb 24 (length key) then 6%nat else 4%nat in
  if Nat.ltb (length key) 16 then UB
  else
    let nr := (nk + 6)%nat in
    do ks <- aes_expand (4 * (nr + 1) - nk) nk nk aes_rcon (map (fun i => read32le key (i * 4)) (seq 0 nk));
    Ok {| keys := ks; nr := nr; dec := false |}.

(** src/crypt/aes.c:434-444 and 484-494: [n] rounds from round [i] on.  [r]
    computes the four words before the key is added. *)
Fixpoint aes_rounds (r : Z -> Z -> Z -> Z -> Z * Z * Z * Z) (n i : nat) (ks : list Z) (w : Z * Z * Z * Z) : Z * Z * Z * Z :=
  match n with
  | O => w
  | S n =>
      let '(w0, w1, w2, w3) := w in
      let '(t0, t1, t2, t3) := r w0 w1 w2 w3 in
      aes_rounds r n (i + 1) ks
        (Z.lxor t0 (nth (4 * i) ks 0), Z.lxor t1 (nth (4 * i + 1) ks 0),
         Z.lxor t2 (nth (4 * i + 2) ks 0), Z.lxor t3 (nth (4 * i + 3) ks 0))
  end.
Definition fround (w0 w1 w2 w3 : Z) : Z * Z * Z * Z :=
  let r := aes_round aes_ftab0 aes_ftab1 aes_ftab2 aes_ftab3 in
  (r w0 w1 w2 w3, r w1 w2 w3 w0, r w2 w3 w0 w1, r w3 w0 w1 w2).
Definition ffinal (w0 w1 w2 w3 : Z) : Z * Z * Z * Z :=
  let r := aes_final aes_fsbox in
  (r w0 w1 w2 w3, r w1 w2 w3 w0, r w2 w3 w0 w1, r w3 w0 w1 w2).
Definition rround (w0 w1 w2 w3 : Z) : Z * Z * Z * Z :=
  let r := aes_round aes_rtab0 aes_rtab1 aes_rtab2 aes_rtab3 in
  (r w0 w3 w2 w1, r w1 w0 w3 w2, r w2 w1 w0 w3, r w3 w2 w1 w0).
Definition rfinal (w0 w1 w2 w3 : Z) : Z * Z * Z * Z :=
  let r := aes_final aes_rsbox in
  (r w0 w3 w2 w1, r w1 w0 w3 w2, r w2 w1 w0 w3, r w3 w2 w1 w0).
(** src/crypt/aes.c:423-454 and 473-504: one block *)
Definition aes_block (r f : Z -> Z -> Z -> Z -> Z * Z * Z * Z) (nr : nat) (ks : list Z) (src : list Z) : list Z :=
  let w := (Z.lxor (read32le src 0) (nth 0 ks 0), Z.lxor (read32le src 4) (nth 1 ks 0),
            Z.lxor (read32le src 8) (nth 2 ks 0), Z.lxor (read32le src 12) (nth 3 ks 0)) in
  let '(w0, w1, w2, w3) := aes_rounds f 1 nr ks (aes_rounds r (nr - 1) 1 ks w) in
  write32le w0 ++ write32le w1 ++ write32le w2 ++ write32le w3.
(** src/crypt/aes.c:422-458: whole blocks, the rest of the source is ignored *)
Definition whole_blocks (f : list Z -> list Z) (src : list Z) : list Z :=
  concat (map f (chunks 16 (firstn (16 * (length src / 16)) src))).
(** src/crypt/aes.c:411-459 cry_aes_encrypt *)
Definition aes_encrypt (c : aes) (src : list Z) : aes * list Z :=
  let c := if dec c then {| keys := aes_key_invert (nr c) (keys c); nr := nr c; dec := false |} else c in
  (c, whole_blocks (aes_block fround ffinal (nr c) (keys c)) src).
(** src/crypt/aes.c:461-509 cry_aes_decrypt *)
Definition aes_decrypt (c : aes) (src : list Z) : aes * list Z :=
  let c := if dec c then c else {| keys := aes_key_invert (nr c) (keys c); nr := nr c; dec := true |} in
  (c, whole_blocks (aes_block rround rfinal (nr c) (keys c)) src).
