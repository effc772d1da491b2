(** Model of src/crypt/memxor.c.  Memory is a function from addresses to bytes,
    all buffers live in it at arbitrary addresses and may overlap. *)
From Verif Require Import Base.

Definition mem := Z -> Z.
Definition put (m : mem) (a v : Z) : mem := fun x => if x =? a then v else m x.

(** src/crypt/memxor.c:103-116 cry_memxor; lines 109-110 and 112-113. *)
Fixpoint xor_up (n : nat) (m : mem) (dst src : Z) : mem :=
  match n with
  | O => m
  | S n' => xor_up n' (put m dst (Z.lxor (m dst) (m src))) (dst + 1) (src + 1)
  end.
Fixpoint xor_down (n : nat) (m : mem) (dst src : Z) : mem :=
  match n with
  | O => m
  | S n' => xor_down n' (put m (dst + Z.of_nat n') (Z.lxor (m (dst + Z.of_nat n')) (m (src + Z.of_nat n')))) dst src
  end.
Definition memxor (m : mem) (dst src : Z) (n : nat) : mem :=
  if dst <=? src then xor_up n m dst src else xor_down n m dst src.

(** src/crypt/memxor.c:66-67: case 1. *)
Fixpoint up2 (n : nat) (m : mem) (dst a b : Z) : mem :=
  match n with
  | O => m
  | S n' => up2 n' (put m dst (Z.lxor (m a) (m b))) (dst + 1) (a + 1) (b + 1)
  end.
(** src/crypt/memxor.c:70-73: case 2. *)
Fixpoint down2 (n : nat) (m : mem) (dst a b : Z) : mem :=
  match n with
  | O => m
  | S n' => down2 n' (put m (dst + Z.of_nat n') (Z.lxor (m (a + Z.of_nat n')) (m (b + Z.of_nat n')))) dst a b
  end.
(** src/crypt/memxor.c:77-81: case 3, first loop; [k] rounds left. *)
Fixpoint rot_fill (k : nat) (n j : Z) (m : mem) (dst a b : Z) : mem :=
  match k with
  | O => m
  | S k' =>
      let m := put m (dst + j) (Z.lxor (m a) (m b)) in
      let j := if j + 1 =? n then 0 else j + 1 in
      rot_fill k' n j m dst (a + 1) (b + 1)
  end.
(** src/crypt/memxor.c:84-90: case 3, second loop. *)
Fixpoint rot_shift (k : nat) (n i j : Z) (m : mem) (dst : Z) : mem :=
  match k with
  | O => m
  | S k' =>
      let t := m (dst + j) in
      let m := put m (dst + j) (m (dst + i)) in
      let m := put m (dst + i) t in
      rot_shift k' n (i + 1) (if j <? n - 1 then j + 1 else j) m dst
  end.
(** memcpy between buffers that do not overlap *)
Fixpoint copy (n : nat) (m : mem) (dst src : Z) : mem :=
  match n with
  | O => m
  | S n' => copy n' (put m dst (m src)) (dst + 1) (src + 1)
  end.

(** src/crypt/memxor.c:52-101 cry_memxor2.  [tmp] is what malloc returns in case
    4: the address of a block, or nothing.  Fuel: the routine calls itself at
    most once, with a destination outside both sources. *)
Fixpoint memxor2_f (fuel : nat) (tmp : option Z) (m : mem) (dst s1 s2 : Z) (n : nat) : res mem :=
  match fuel with
  | O => Fuel
  | S f =>
    let '(s1, s2) := if s2 <? s1 then (s2, s1) else (s1, s2) in
    let N := Z.of_nat n in
    if ((dst <=? s1) || ((s1 + N <=? dst) && (dst <=? s2)))%bool then Ok (up2 n m dst s1 s2)
    else if ((s2 <=? dst) || ((s1 <=? dst) && (dst + N <=? s2)))%bool then Ok (down2 n m dst s1 s2)
    else if s1 + N <? s2 then
      let j := s1 + N - dst in
      let m := rot_fill n N j m dst s1 s2 in
      Ok (rot_shift (n - 1) N 0 j m dst)
    else match tmp with
         | None => Ok m
         | Some t => do m <- memxor2_f f tmp m t s1 s2 n; Ok (copy n m dst t)
         end
  end.
Definition memxor2 := memxor2_f 2.
