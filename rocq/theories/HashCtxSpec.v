(** What a caller expects of the calls on one hash context, for a hash that is
    [H m] on the message [m] ([None]: nothing is said about [m]). *)
From Verif Require Import Base HashCtxModel.

(** [cur]: the message so far, [None] before an init and after a digest or a clear.
    One entry for each digest call: the digest it must write, or [None]. *)
Fixpoint expected (H : list Z -> option (list Z)) (cur : option (list Z)) (l : list hcall) : list (option (list Z)) :=
  match l with
  | [] => []
  | CInit :: l => expected H (Some []) l
  | CUpdate d :: l => expected H (match cur with Some m => Some (m ++ d) | None => None end) l
  | CDigest :: l => match cur with Some m => H m | None => None end :: expected H None l
  | CClear :: l => expected H None l
  end.
Definition meets (o : list Z) (e : option (list Z)) : Prop := match e with Some h => o = h | None => True end.
(** the data of a call *)
Definition call_data (k : hcall) : list Z := match k with CUpdate d => d | _ => [] end.
