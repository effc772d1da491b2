(** Placement of buffers in memory. *)
From Verif Require Import Base MemxorModel BufModel.

(** The areas of [n] bytes at [a] and of [k] bytes at [b] share no byte. *)
Definition sep (a : Z) (n : nat) (b : Z) (k : nat) : Prop := a + Z.of_nat n <= b \/ b + Z.of_nat k <= a.
(** The destination does not start inside the source behind its first byte: the
    same place, below it (with or without overlap), or apart. *)
Definition forward (dst src : Z) (n : nat) : Prop := dst <= src \/ src + Z.of_nat n <= dst.
(** The same place, or apart. *)
Definition same_or_sep (dst src : Z) (n : nat) : Prop := dst = src \/ sep dst n src n.
(** [x] is outside the [n] bytes at [a]. *)
Definition outside (x a : Z) (n : nat) : Prop := x < a \/ a + Z.of_nat n <= x.
(** [m'] has [l] at [dst] and is otherwise [m], except for the scratch areas
    (the chaining value in the context and local buffers). *)
Definition wrote (m m' : mem) (dst : Z) (l : list Z) (scratch : list (Z * nat)) : Prop :=
  read m' dst (length l) = l /\
  forall x, outside x dst (length l) -> Forall (fun s => outside x (fst s) (snd s)) scratch -> m' x = m x.
(** The same place, at least a block below, or above without overlap. *)
Definition gcm_place (d s : Z) (size : nat) : Prop := d = s \/ d + 16 <= s \/ s + Z.of_nat size <= d.
(** Local and heap buffers of CBC decryption, needed only when the data is
    decrypted in place: [I] for the previous chaining value, and the block [H]
    from malloc or, without memory, [F] of 16 bytes. *)
Definition cbc_scratch (d s : Z) (z n : nat) (I F : Z) (H : option Z) : list (Z * nat) :=
  if d =? s then [(I, n); match H with Some b => (b, Nat.min z 512) | None => (F, 16%nat) end] else [].
(** Every area of the list is apart from the [n] bytes at [a]. *)
Definition all_sep (a : Z) (n : nat) (l : list (Z * nat)) : Prop := Forall (fun s => sep (fst s) (snd s) a n) l.
