(** Memory-level model of Diffie-Hellman, ElGamal, DSA and RSA
    (src/crypt/dh.c, elgamal.c, dsa.c, rsa.c): allocations that may be refused.
    [n] is the first number free for the automatic variables of the routine.

    A context is named by the number [c] of its first object; the others follow in
    the order of the structure (include/cry/dh.h:12-18, elgamal.h:14-19,
    dsa.h:11-17, rsa.h:21-28).
    Simplification: byte buffers are not objects, so that their release is not
    seen; that one of them could not be allocated is. *)
From Verif Require Import Base MpiModel MpiMulModel MpiDivModel MpiAlgModel MpiIOModel PkModel MemModel MemMulModel MemDivModel MemAlgModel MemEcpModel.

(** The one-digit constant of a routine (src/crypt/dsa.c:33-39,
    elgamal.c:60-70): an object on the stack, gone when the routine ends.  Its
    field alloc, 0 in dsa.c, is not read. *)
Definition with_one (x : nat) (body : cmd Z) : cmd Z :=
  call set x (Some (mkobj false 1 [1]));
  finally body (set x (Some void)).

(** * src/crypt/dh.c.  The context is p, g, e, Y, Z. *)
(** lines 18-21 cry_dh_agree *)
Definition dh_agree_m (n c : nat) : cmd Z := mod_exp_m n (c + 3) (c + 1) (c + 2) (Some c).
(** lines 23-26 cry_dh_finalize *)
Definition dh_finalize_m (n c : nat) : cmd Z := mod_exp_m n (c + 4) (c + 3) (c + 2) (Some c).
(** lines 33-36 cry_dh_set_tok *)
Definition dh_set_tok_m (c : nat) (inp : list Z) : cmd Z := load_bin_m (c + 3) inp.

(** * src/crypt/elgamal.c.  The context is p, g, y, d. *)
(** lines 33-54 secret_gen for a given number of rounds done.  The local r is
    [n]; one entry of [draws] per round. *)
Fixpoint eg_rounds_m (iter : Z) (n k t one : nat) (draws : list (list Z)) : cmd Z :=
  match draws with
  | [] => outoffuel
  | bin :: rest =>
      chk rand_range_m (n + 1) k t bin;
      chk gcd_m (n + 1) n k t;
      run r <- peek n;
      run o <- peek one;
      if cmp r o =? 0 then ret 0
      else if iter + 1 <? 1024 then eg_rounds_m (iter + 1) n k t one rest
      else ret 0
  end.
Definition eg_secret_m (n k t one : nat) (draws : list (list Z)) : cmd Z :=
  chk init n;
  finally (eg_rounds_m 0 n k t one draws) (clear n).
(** lines 56-94 cry_elgamal_sign2.  Locals: k, z, t, one. *)
Definition eg_sign2_m (n c r s : nat) (draws : list (list Z)) (inp : list Z) : cmd Z :=
  run p <- peek c;
  if count_bytes p <? Z.of_nat (length inp) then ret (-1)
  else
    with_one (n + 3)
      (chk init_list [] (locals n 3);
       finally
         (chk copy (n + 2) c;
          chk sub_m (n + 2) (n + 2) (n + 3);
          chk eg_secret_m (n + 4) n (n + 2) (n + 3) draws;
          chk mod_exp_m (n + 4) r (c + 1) n (Some c);
          chk load_bin_m (n + 1) inp;
          chk mul_m (n + 4) s (c + 3) r;
          chk sub_m s (n + 1) s;
          chk mod_m (n + 4) s s (n + 2);
          chk inv_m (n + 4) n n (n + 2);
          chk mul_m (n + 4) s s n;
          mod_m (n + 4) s s (n + 2))
         (clear_list (locals n 3))).
(** lines 96-122 cry_elgamal_verify2.  Locals: r, z. *)
Definition eg_verify2_m (n c r s : nat) (inp : list Z) : cmd Z :=
  run p <- peek c;
  if count_bytes p <? Z.of_nat (length inp) then ret (-1)
  else
    chk init_list [] (locals n 2);
    finally
      (chk mod_exp_m (n + 2) n (c + 2) r (Some c);
       chk mod_exp_m (n + 2) (n + 1) r s (Some c);
       chk mul_m (n + 2) n n (n + 1);
       chk mod_m (n + 2) n n c;
       chk load_bin_m (n + 1) inp;
       chk mod_exp_m (n + 2) (n + 1) (c + 1) (n + 1) (Some c);
       run u <- peek n;
       run v <- peek (n + 1);
       ret (if cmp u v =? 0 then 0 else -1))
      (clear_list (locals n 2)).

(** * src/crypt/dsa.c.  The context is p, q, g, pvt, pub. *)
(** line 5 and src/misc.h CRY_CHK: a failing call ends the routine, but its code
    is not kept: res still has the 0 of the initialisation. *)
Definition lossy (m : cmd Z) (f : cmd Z) : cmd Z :=
  run rc <- m; if rc =? 0 then f else ret 0.
Notation "'try' m ; f" := (lossy m f)
  (at level 200, m at level 100, f at level 200, right associativity).
(** lines 30-51 secret_gen.  Locals: t, one. *)
Definition dsa_secret_m (n k q : nat) (bin : list Z) : cmd Z :=
  with_one (n + 1)
    (chk init n;
     finally
       (try copy n q;
        try sub_m n n (n + 1);
        run vq <- peek q;
        try rand_m k (count_bits vq) bin;
        try mod_m (n + 2) k k n;
        try add_m k k (n + 1);
        ret 0)
       (clear n)).
(** lines 53-83 cry_dsa_sign.  Locals: k, z. *)
Definition dsa_sign_m (n c r s : nat) (bin inp : list Z) : cmd Z :=
  chk init_list [] (locals n 2);
  finally
    (run o <- get (c + 1);
     try load_bin_m (n + 1) (firstn (8 * o_us o) inp);
     try dsa_secret_m (n + 2) n (c + 1) bin;
     try mod_exp_m (n + 2) r (c + 2) n (Some c);
     try mod_m (n + 2) r r (c + 1);
     try inv_m (n + 2) n n (c + 1);
     try mul_m (n + 2) s (c + 3) r;
     try add_m s s (n + 1);
     try mul_m (n + 2) s s n;
     try mod_m (n + 2) s s (c + 1);
     ret 0)
    (clear_list (locals n 2)).
(** lines 85-122 cry_dsa_verify.  Locals: z, w, u1, u2. *)
Definition dsa_verify_m (n c r s : nat) (inp : list Z) : cmd Z :=
  chk init_list [] (locals n 4);
  finally
    (run o <- get (c + 1);
     try load_bin_m n (firstn (8 * o_us o) inp);
     try copy (n + 1) s;
     try inv_m (n + 4) (n + 1) (n + 1) (c + 1);
     try mul_m (n + 4) n n (n + 1);
     try mod_m (n + 4) n n (c + 1);
     try mul_m (n + 4) (n + 1) r (n + 1);
     try mod_m (n + 4) (n + 1) (n + 1) (c + 1);
     try mod_exp_m (n + 4) (n + 2) (c + 2) n (Some c);
     try mod_exp_m (n + 4) (n + 3) (c + 4) (n + 1) (Some c);
     try mul_m (n + 4) (n + 2) (n + 2) (n + 3);
     try mod_m (n + 4) (n + 2) (n + 2) c;
     try mod_m (n + 4) (n + 2) (n + 2) (c + 1);
     run u <- peek (n + 2);
     run v <- peek r;
     ret (if cmp_abs u v =? 0 then 0 else -1))
    (clear_list (locals n 4)).

(** * src/crypt/rsa.c.  The context is n, e, d (p and q are not used here).  The
    routines give the bytes they write, or their return code as [Err]. *)
Definition lift {A} (m : res A) : cmd (res A) :=
  match m with Ok a => ret (Ok a) | Err c => ret (Err c) | UB => undefined | Fuel => outoffuel end.
(** the continuation of a step that gives bytes, and of one that gives a code *)
Definition onward {A T} (m : cmd (res A)) (f : A -> cmd (res T)) : cmd (res T) :=
  run r <- m; match r with Ok a => f a | Err c => ret (Err c) | UB => undefined | Fuel => outoffuel end.
Definition need {T} (m : cmd Z) (f : cmd (res T)) : cmd (res T) :=
  run rc <- m; if rc =? 0 then f else ret (Err rc).
Definition closing {T} (body : cmd T) (cl : cmd unit) : cmd T :=
  run r <- body; call cl; ret r.
(** malloc or realloc of a byte buffer *)
Definition room {T} (f : cmd (res T)) : cmd (res T) :=
  run b <- alloc 0; match b with None => ret (Err (-1)) | Some _ => f end.

(** lines 92-131 encrypt_block.  Locals: c, m. *)
Definition rsa_enc_block_m (n c : nat) (pad : padding) (inp : list Z) (sign : bool) (rnd : nat -> list Z) : cmd (res (list Z)) :=
  run vn <- peek c;
  let mod_len := count_bytes vn in
  room (
    need (init_list [] (locals n 2))
      (closing
         (onward (lift (match pad with
                        | PNone => Ok (inp ++ repeat 0 (Z.to_nat mod_len - length inp))
                        | _ => padding_add mod_len inp pad sign rnd
                        end)) (fun buf =>
          need (load_bin_m (n + 1) buf) (
          need (mod_exp_m (n + 2) n (n + 1) (if sign then c + 2 else c + 1)%nat (Some c)) (
          run x <- peek n;
          lift (store_bin x mod_len true)))))
         (clear_list (locals n 2)))).
(** lines 133-171 decrypt_block.  Locals: c, m. *)
Definition rsa_dec_block_m (n c : nat) (pad : padding) (inp : list Z) (sign : bool) : cmd (res (list Z)) :=
  run vn <- peek c;
  let mod_len := count_bytes vn in
  if negb (Z.of_nat (length inp) =? mod_len) then ret (Err (-1))
  else
    room (
      need (init_list [] (locals n 2))
        (closing
           (need (load_bin_m n inp) (
            need (mod_exp_m (n + 2) (n + 1) n (if sign then c + 1 else c + 2)%nat (Some c)) (
            run x <- peek (n + 1);
            onward (lift (store_bin x mod_len true)) (fun buf =>
            lift (match pad with PNone => Ok buf | _ => padding_del buf sign end)))))
           (clear_list (locals n 2)))).
(** lines 186-204: the loop, as PkModel.rsa_enc_loop, with the realloc *)
Fixpoint rsa_enc_loop_m (fuel n c : nat) (pad : padding) (block : Z) (inp : list Z) (sign : bool) (i : nat) (rnd : nat -> nat -> list Z) : cmd (res (list Z)) :=
  match inp with
  | [] => ret (Ok [])
  | _ =>
      match fuel with
      | O => outoffuel
      | S f =>
          let block := if Z.of_nat (length inp) <? block then Z.of_nat (length inp) else block in
          room (
          onward (rsa_enc_block_m n c pad (firstn (Z.to_nat block) inp) sign (rnd i)) (fun o =>
          onward (rsa_enc_loop_m f n c pad block (skipn (Z.to_nat block) inp) sign (S i) rnd) (fun r =>
          ret (Ok (o ++ r)))))
      end
  end.
(** lines 174-214 encrypt *)
Definition rsa_encrypt_gen_m (n c : nat) (pad : padding) (inp : list Z) (sign : bool) (rnd : nat -> nat -> list Z) : cmd (res (list Z)) :=
  run vn <- peek c;
  let mod_siz := count_bytes vn in
  let block := match pad with PNone => mod_siz | _ => (mod_siz - 11) mod 2 ^ 64 end in
  match inp with
  | [] => undefined
  | _ => rsa_enc_loop_m (length inp) n c pad block inp sign 0 rnd
  end.
(** lines 227-248: the loop, as PkModel.rsa_dec_loop, with the realloc *)
Fixpoint rsa_dec_loop_m (fuel n c : nat) (pad : padding) (inp : list Z) (sign : bool) (buf : list (option Z)) (outlen : nat) : cmd (res (list (option Z) * nat)) :=
  match inp with
  | [] => ret (Ok (buf, outlen))
  | _ =>
      match fuel with
      | O => outoffuel
      | S f =>
          run vn <- peek c;
          let mod_siz := Z.to_nat (count_bytes vn) in
          if Nat.ltb (length inp) mod_siz then ret (Err (-1))
          else
            room (
            onward (rsa_dec_block_m n c pad (firstn mod_siz inp) sign) (fun o =>
            rsa_dec_loop_m f n c pad (skipn mod_siz inp) sign (overlay buf (outlen + mod_siz) o) (outlen + length o)))
      end
  end.
(** lines 216-258 decrypt *)
Definition rsa_decrypt_gen_m (n c : nat) (pad : padding) (inp : list Z) (sign : bool) : cmd (res (list (option Z))) :=
  match inp with
  | [] => undefined
  | _ => onward (rsa_dec_loop_m (length inp) n c pad inp sign [] 0) (fun b => ret (Ok (firstn (snd b) (fst b))))
  end.
(** lines 261-278 *)
Definition rsa_encrypt_m (n c : nat) (pad : padding) (inp : list Z) (rnd : nat -> nat -> list Z) : cmd (res (list Z)) := rsa_encrypt_gen_m n c pad inp false rnd.
Definition rsa_decrypt_m (n c : nat) (pad : padding) (inp : list Z) : cmd (res (list (option Z))) := rsa_decrypt_gen_m n c pad inp false.
Definition rsa_sign_m (n c : nat) (pad : padding) (inp : list Z) : cmd (res (list Z)) := rsa_encrypt_gen_m n c pad inp true (fun _ _ => []).
(** lines 280-297 cry_rsa_verify *)
Definition rsa_verify_m (n c : nat) (pad : padding) (sig inp : list Z) : cmd (res Z) :=
  onward (rsa_decrypt_gen_m n c pad sig true) (fun out =>
  if match pad with
     | PNone => Nat.ltb (length out) (length inp)
     | _ => negb (Nat.eqb (length out) (length inp))
     end
  then ret (Err (-1))
  else onward (lift (memcmp_eq out inp)) (fun eq => if eq : bool then ret (Ok 0) else ret (Err (-1)))).
