(** Executable model of Diffie-Hellman, ElGamal signatures, DSA and RSA
    (src/crypt/dh.c, elgamal.c, dsa.c, rsa.c) over the multi-precision model.
    Allocation always succeeds, see MpiModel. *)
From Verif Require Import Base MpiModel MpiMulModel MpiDivModel MpiAlgModel MpiIOModel.

(** * Diffie-Hellman *)
(** include/cry/dh.h struct cry_dh_ctx *)
Record dh := { dh_p : mpi; dh_g : mpi; dh_e : mpi; dh_Y : mpi; dh_Z : mpi }.
(** src/crypt/dh.c:18-21 cry_dh_agree *)
Definition dh_agree (c : dh) : res dh :=
  do Y <- mod_exp (dh_g c) (dh_e c) (dh_p c);
  Ok {| dh_p := dh_p c; dh_g := dh_g c; dh_e := dh_e c; dh_Y := Y; dh_Z := dh_Z c |}.
(** src/crypt/dh.c:23-26 cry_dh_finalize *)
Definition dh_finalize (c : dh) : res dh :=
  do Z <- mod_exp (dh_Y c) (dh_e c) (dh_p c);
  Ok {| dh_p := dh_p c; dh_g := dh_g c; dh_e := dh_e c; dh_Y := dh_Y c; dh_Z := Z |}.
(** src/crypt/dh.c:28-31 cry_dh_get_tok *)
Definition dh_get_tok (c : dh) (out_len : Z) : res (list Z) := store_bin (dh_Y c) out_len true.
(** src/crypt/dh.c:33-36 cry_dh_set_tok *)
Definition dh_set_tok (c : dh) (inp : list Z) : dh :=
  {| dh_p := dh_p c; dh_g := dh_g c; dh_e := dh_e c; dh_Y := load_bin (neg (dh_Y c)) inp; dh_Z := dh_Z c |}.
(** src/crypt/dh.c:38-41 cry_dh_get_sec *)
Definition dh_get_sec (c : dh) (out_len : Z) : res (list Z) := store_bin (dh_Z c) out_len true.

(** * ElGamal *)
(** include/cry/elgamal.h struct cry_elgamal_ctx *)
Record elgamal := { eg_p : mpi; eg_g : mpi; eg_y : mpi; eg_d : mpi }.
(** src/crypt/elgamal.c:33-54 secret_gen.  One entry of [draws] per round: the
    capacity the secret's object has then, and the bytes of the generator.
    [jx], [jy] are the uninitialised digits of cry_mpi_gcd.  When the 1024
    rounds are used up, the code returns the 0 of the last gcd, with the last
    secret. *)
Fixpoint eg_secret (iter jx jy : Z) (t : mpi) (draws : list (nat * list Z)) : res mpi :=
  match draws with
  | [] => Fuel
  | (alloc, bin) :: rest =>
      do k <- rand_range false alloc t bin;
      do g <- gcd jx jy k t;
      if cmp g mone =? 0 then Ok k
      else if iter + 1 <? 1024 then eg_secret (iter + 1) jx jy t rest
      else Ok k
  end.
(** src/crypt/elgamal.c:56-94 cry_elgamal_sign2; [ss] is the sign sign->s had
    before. *)
Definition eg_sign2 (c : elgamal) (ss : bool) (jx jy : Z) (draws : list (nat * list Z)) (inp : list Z) : res (mpi * mpi) :=
  if count_bytes (eg_p c) <? Z.of_nat (length inp) then Err (-1)
  else
    do t <- sub (eg_p c) mone;
    do k <- eg_secret 0 jx jy t draws;
    do r <- mod_exp (eg_g c) k (eg_p c);
    let z := load_bin false inp in
    do s <- mul ss (eg_d c) r;
    do s <- sub z s;
    do s <- mod_ s t;
    do k <- inv k t;
    do s <- mul (neg s) s k;
    do s <- mod_ s t;
    Ok (r, s).
(** src/crypt/elgamal.c:96-122 cry_elgamal_verify2: the return code *)
Definition eg_verify2 (c : elgamal) (r s : mpi) (inp : list Z) : res Z :=
  if count_bytes (eg_p c) <? Z.of_nat (length inp) then Err (-1)
  else
    do u <- mod_exp (eg_y c) r (eg_p c);
    do z <- mod_exp r s (eg_p c);
    do u <- mul (neg u) u z;
    do u <- mod_ u (eg_p c);
    let z := load_bin (neg z) inp in
    do z <- mod_exp (eg_g c) z (eg_p c);
    if cmp u z =? 0 then Ok 0 else Err (-1).
(** src/crypt/elgamal.c:124-142 cry_elgamal_sign *)
Definition eg_sign (c : elgamal) (jx jy : Z) (draws : list (nat * list Z)) (inp : list Z) : res (list Z) :=
  do ' (r, s) <- eg_sign2 c false jx jy draws inp;
  do a <- store_bin r (count_bytes (eg_p c)) true;
  do b <- store_bin s (count_bytes (eg_p c)) true;
  Ok (a ++ b).
(** src/crypt/elgamal.c:144-162 cry_elgamal_verify; [sign] has two halves of the
    size of p *)
Definition eg_verify (c : elgamal) (sign inp : list Z) : res Z :=
  let siz := Z.to_nat (count_bytes (eg_p c)) in
  if Nat.ltb (length sign) (siz + siz) then UB
  else eg_verify2 c (load_bin false (firstn siz sign)) (load_bin false (firstn siz (skipn siz sign))) inp.

(** * DSA *)
(** include/cry/dsa.h struct cry_dsa_ctx *)
Record dsa := { dsa_p : mpi; dsa_q : mpi; dsa_g : mpi; dsa_pvt : mpi; dsa_pub : mpi }.
(** src/crypt/dsa.c:5 and src/misc.h CRY_CHK: a failing call jumps to the exit
    label, but its code is not stored in [res], so the function returns the 0
    [res] got from cry_mpi_init_list. *)
Definition chk {A T} (m : res A) (k : A -> res T) (at_exit : T) : res T :=
  match m with Ok x => k x | Err _ => Ok at_exit | UB => UB | Fuel => Fuel end.
(** src/crypt/dsa.c:30-51 secret_gen.  k is a fresh object of 8 digits, see
    src/mpi/mpi_core.c:26-38; [bin] the bytes of the generator. *)
Definition dsa_secret (q : mpi) (bin : list Z) : res mpi :=
  chk (sub q mone) (fun t =>
  chk (rand false 8 (count_bits q) bin) (fun k =>
  chk (mod_ k t) (fun k' =>
  chk (add k' mone) (fun k'' => Ok k'') k') k) mzero) mzero.
(** src/crypt/dsa.c:60-63 and 94-96 *)
Definition dsa_trunc (q : mpi) (inp : list Z) : list Z := firstn (8 * used q) inp.
(** src/crypt/dsa.c:53-83 cry_dsa_sign: return code and the signature.  [r0],
    [s0] are the values the signature object had. *)
Definition dsa_sign (c : dsa) (r0 s0 : mpi) (bin inp : list Z) : res (Z * mpi * mpi) :=
  let z := load_bin false (dsa_trunc (dsa_q c) inp) in
  chk (dsa_secret (dsa_q c) bin) (fun k =>
  chk (mod_exp (dsa_g c) k (dsa_p c)) (fun r1 =>
  chk (mod_ r1 (dsa_q c)) (fun r =>
  chk (inv k (dsa_q c)) (fun k =>
  chk (mul (neg s0) (dsa_pvt c) r) (fun s1 =>
  chk (add s1 z) (fun s2 =>
  chk (mul (neg s2) s2 k) (fun s3 =>
  chk (mod_ s3 (dsa_q c)) (fun s => Ok (0, r, s))
    (0, r, s3)) (0, r, s2)) (0, r, s1)) (0, r, s0)) (0, r, s0)) (0, r1, s0)) (0, r0, s0)) (0, r0, s0).
(** src/crypt/dsa.c:85-122 cry_dsa_verify: return code *)
Definition dsa_verify (c : dsa) (r s : mpi) (inp : list Z) : res Z :=
  let z := load_bin false (dsa_trunc (dsa_q c) inp) in
  chk (inv s (dsa_q c)) (fun w =>
  chk (mul (neg z) z w) (fun z =>
  chk (mod_ z (dsa_q c)) (fun z =>
  chk (mul (neg w) r w) (fun w =>
  chk (mod_ w (dsa_q c)) (fun w =>
  chk (mod_exp (dsa_g c) z (dsa_p c)) (fun u1 =>
  chk (mod_exp (dsa_pub c) w (dsa_p c)) (fun u2 =>
  chk (mul (neg u1) u1 u2) (fun u1 =>
  chk (mod_ u1 (dsa_p c)) (fun u1 =>
  chk (mod_ u1 (dsa_q c)) (fun u1 =>
  Ok (if cmp_abs u1 r =? 0 then 0 else -1)) 0) 0) 0) 0) 0) 0) 0) 0) 0) 0.

(** * RSA *)
(** include/cry/rsa.h:11-28.  Other values of the padding field are not
    modelled. *)
Inductive padding := PNone | PV15 | PV21.
Record rsa := { rsa_n : mpi; rsa_e : mpi; rsa_d : mpi; rsa_pad : padding }.
(** src/crypt/rsa.c:8-19 nozero_rand, [l] being the generator's bytes *)
Definition nozero (l : list Z) : list Z := map (fun b => if b =? 0 then 1 else b) l.
(** src/crypt/rsa.c:21-60 padding_add; dlen - 11 is computed modulo 2^64.
    [rnd n] are the n bytes the generator supplies.  Used with a padding other
    than PNone. *)
Definition padding_add (dlen : Z) (src : list Z) (pad : padding) (sign : bool) (rnd : nat -> list Z) : res (list Z) :=
  let slen := Z.of_nat (length src) in
  if (dlen - 11) mod 2 ^ 64 <? slen then Err (-1)
  else match pad with
       | PV21 => Err (-1)
       | _ =>
           if dlen - 3 <? slen then UB
           else
             let j := Z.to_nat (dlen - 3 - slen) in
             Ok (if sign then 0 :: 1 :: repeat 255 j ++ 0 :: src
                 else 0 :: 2 :: nozero (rnd j) ++ 0 :: src)
       end.
(** src/crypt/rsa.c:79-85: the bytes after the first zero byte *)
Fixpoint padding_scan (sign : bool) (l : list Z) : res (list Z) :=
  match l with
  | [] => Err (-1)
  | c :: r => if c =? 0 then Ok r
              else if (sign && negb (c =? 255))%bool then Err (-1)
              else padding_scan sign r
  end.
(** src/crypt/rsa.c:62-90 padding_del: the bytes copied to dst.  dlen = slen in
    the only use, so the minimum of lines 86-87 is slen - i. *)
Definition padding_del (src : list Z) (sign : bool) : res (list Z) :=
  match src with
  | a :: b :: r =>
      if (negb (a =? 0) || negb (b =? (if sign then 1 else 2)))%bool then Err (-1)
      else padding_scan sign r
  | [a] => if a =? 0 then UB else Err (-1)
  | [] => UB
  end.
(** src/crypt/rsa.c:92-131 encrypt_block *)
Definition rsa_encrypt_block (c : rsa) (inp : list Z) (sign : bool) (rnd : nat -> list Z) : res (list Z) :=
  let key := if sign then rsa_d c else rsa_e c in
  let mod_len := count_bytes (rsa_n c) in
  do buf <- match rsa_pad c with
            | PNone => Ok (inp ++ repeat 0 (Z.to_nat mod_len - length inp))
            | pad => padding_add mod_len inp pad sign rnd
            end;
  let m := load_bin false buf in
  do x <- mod_exp m key (rsa_n c);
  store_bin x mod_len true.
(** src/crypt/rsa.c:133-171 decrypt_block: the bytes written at out *)
Definition rsa_decrypt_block (c : rsa) (inp : list Z) (sign : bool) : res (list Z) :=
  let key := if sign then rsa_e c else rsa_d c in
  let mod_len := count_bytes (rsa_n c) in
  if negb (Z.of_nat (length inp) =? mod_len) then Err (-1)
  else
    let x := load_bin false inp in
    do m <- mod_exp x key (rsa_n c);
    do buf <- store_bin m mod_len true;
    match rsa_pad c with
    | PNone => Ok buf
    | _ => padding_del buf sign
    end.
(** src/crypt/rsa.c:186-204: the loop; [block] is block_siz, [i] counts the
    blocks, [rnd i] is the generator while block i is padded.  With a block size
    of 0 (a modulus of 11 bytes) the loop does not end: [Fuel]. *)
Fixpoint rsa_enc_loop (fuel : nat) (c : rsa) (block : Z) (inp : list Z) (sign : bool) (i : nat) (rnd : nat -> nat -> list Z) : res (list Z) :=
  match inp with
  | [] => Ok []
  | _ =>
      match fuel with
      | O => Fuel
      | S f =>
          let block := if Z.of_nat (length inp) <? block then Z.of_nat (length inp) else block in
          do o <- rsa_encrypt_block c (firstn (Z.to_nat block) inp) sign (rnd i);
          do r <- rsa_enc_loop f c block (skipn (Z.to_nat block) inp) sign (S i) rnd;
          Ok (o ++ r)
      end
  end.
(** src/crypt/rsa.c:174-214 encrypt: the bytes of *out.  With an empty input
    [res] is never assigned. *)
Definition rsa_encrypt_gen (c : rsa) (inp : list Z) (sign : bool) (rnd : nat -> nat -> list Z) : res (list Z) :=
  let mod_siz := count_bytes (rsa_n c) in
  let block := match rsa_pad c with PNone => mod_siz | _ => (mod_siz - 11) mod 2 ^ 64 end in
  match inp with
  | [] => UB
  | _ => rsa_enc_loop (length inp) c block inp sign 0 rnd
  end.
(** A heap buffer: bytes never written are [None].  src/crypt/rsa.c:234-241:
    realloc to [siz] bytes, then [o] copied to its start. *)
Definition overlay (buf : list (option Z)) (siz : nat) (o : list Z) : list (option Z) :=
  map Some o ++ skipn (length o) (firstn siz buf ++ repeat None (siz - length buf)).
(** src/crypt/rsa.c:227-248: the loop *)
Fixpoint rsa_dec_loop (fuel : nat) (c : rsa) (inp : list Z) (sign : bool) (buf : list (option Z)) (outlen : nat) : res (list (option Z) * nat) :=
  match inp with
  | [] => Ok (buf, outlen)
  | _ =>
      match fuel with
      | O => Fuel
      | S f =>
          let mod_siz := Z.to_nat (count_bytes (rsa_n c)) in
          if Nat.ltb (length inp) mod_siz then Err (-1)
          else
            do o <- rsa_decrypt_block c (firstn mod_siz inp) sign;
            rsa_dec_loop f c (skipn mod_siz inp) sign (overlay buf (outlen + mod_siz) o) (outlen + length o)
      end
  end.
(** src/crypt/rsa.c:216-258 decrypt: the first outlen bytes of *out *)
Definition rsa_decrypt_gen (c : rsa) (inp : list Z) (sign : bool) : res (list (option Z)) :=
  match inp with
  | [] => UB
  | _ => do ' (buf, n) <- rsa_dec_loop (length inp) c inp sign [] 0;
         Ok (firstn n buf)
  end.
(** src/crypt/rsa.c:261-278 *)
Definition rsa_encrypt (c : rsa) (inp : list Z) (rnd : nat -> nat -> list Z) : res (list Z) := rsa_encrypt_gen c inp false rnd.
Definition rsa_decrypt (c : rsa) (inp : list Z) : res (list (option Z)) := rsa_decrypt_gen c inp false.
Definition rsa_sign (c : rsa) (inp : list Z) : res (list Z) := rsa_encrypt_gen c inp true (fun _ _ => []).
(** memcmp of [in] with a buffer at least as long: true when equal; a byte never
    written has no definite value. *)
Fixpoint memcmp_eq (out : list (option Z)) (inp : list Z) : res bool :=
  match inp, out with
  | [], _ => Ok true
  | x :: i, Some y :: o => if x =? y then memcmp_eq o i else Ok false
  | _ :: _, _ => UB
  end.
(** src/crypt/rsa.c:280-297 cry_rsa_verify *)
Definition rsa_verify (c : rsa) (sig inp : list Z) : res Z :=
  do out <- rsa_decrypt_gen c sig true;
  if match rsa_pad c with
     | PNone => Nat.ltb (length out) (length inp)
     | _ => negb (Nat.eqb (length out) (length inp))
     end
  then Err (-1)
  else do eq <- memcmp_eq out inp; if eq then Ok 0 else Err (-1).
