(** Relations between DES keys. *)
From Verif Require Import Base.
(** The last bit of each byte of a DES key is a parity bit: keys that agree in all
    other bits. *)
Definition same_but_parity (k k' : list Z) : Prop := map (fun b => b / 2) k = map (fun b => b / 2) k'.
(** Every bit of every byte inverted. *)
Definition flip (l : list Z) : list Z := map (fun b => 255 - b) l.
(** Keys under which encryption is its own inverse, and pairs of which one undoes
    the other. *)
Definition weak_keys : list (list Z) :=
  [[0x01; 0x01; 0x01; 0x01; 0x01; 0x01; 0x01; 0x01]; [0xFE; 0xFE; 0xFE; 0xFE; 0xFE; 0xFE; 0xFE; 0xFE];
   [0xE0; 0xE0; 0xE0; 0xE0; 0xF1; 0xF1; 0xF1; 0xF1]; [0x1F; 0x1F; 0x1F; 0x1F; 0x0E; 0x0E; 0x0E; 0x0E]].
Definition semi_weak_keys : list (list Z * list Z) :=
  [([0x01; 0xFE; 0x01; 0xFE; 0x01; 0xFE; 0x01; 0xFE], [0xFE; 0x01; 0xFE; 0x01; 0xFE; 0x01; 0xFE; 0x01]);
   ([0x1F; 0xE0; 0x1F; 0xE0; 0x0E; 0xF1; 0x0E; 0xF1], [0xE0; 0x1F; 0xE0; 0x1F; 0xF1; 0x0E; 0xF1; 0x0E]);
   ([0x01; 0xE0; 0x01; 0xE0; 0x01; 0xF1; 0x01; 0xF1], [0xE0; 0x01; 0xE0; 0x01; 0xF1; 0x01; 0xF1; 0x01]);
   ([0x1F; 0xFE; 0x1F; 0xFE; 0x0E; 0xFE; 0x0E; 0xFE], [0xFE; 0x1F; 0xFE; 0x1F; 0xFE; 0x0E; 0xFE; 0x0E]);
   ([0x01; 0x1F; 0x01; 0x1F; 0x01; 0x0E; 0x01; 0x0E], [0x1F; 0x01; 0x1F; 0x01; 0x0E; 0x01; 0x0E; 0x01]);
   ([0xE0; 0xFE; 0xE0; 0xFE; 0xF1; 0xFE; 0xF1; 0xFE], [0xFE; 0xE0; 0xFE; 0xE0; 0xFE; 0xF1; 0xFE; 0xF1])].
