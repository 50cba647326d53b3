(** Specification of string reading and writing. *)
From Verif Require Import M_Base M_Text M_TypeStr M_Header M_Serialize S_Text S_Elem.
Open Scope N_scope.

(** The bytes of a value that can be stored as a byte string [S]. *)
Definition byte_content (v : val) : option bytes :=
  match v with XBytes bs => Some bs | XStr s => Some (utf8_string s) | _ => None end.
(** The code units of a value that can be stored as a unicode string [U]. *)
Definition unit_content (v : val) : option (list N) :=
  match v with XUnits us => Some us | XStr s => Some s | _ => None end.

(** [l] is [item] without its trailing NULs, and without any other change. *)
Definition trimmed (item l : list N) : Prop := (exists k, item = l ++ repeatN 0 k) /\ no_final_zero l.

(** What a type allows in a unit of a [U] string: all scalar values, or anything up to 0x10FFFF. *)
Definition unit_allowed (t : rty) (u : N) : Prop :=
  match t with RVecU32 | RArrU32 _ => u < 0x110000 | _ => scalar_value u = true end.

(** [s] is the longest prefix of [full] that takes at most [cap] bytes of UTF-8, in whole characters. *)
Definition longest_prefix (cap : N) (full s : text) : Prop :=
  lenN (utf8_string s) <= cap
  /\ (exists tail, full = s ++ tail)
  /\ forall s' tail', full = s' ++ tail' -> lenN (utf8_string s') <= cap -> lenN s' <= lenN s.
(** [s] is the longest prefix of [full] of at most [cap] elements. *)
Definition first_elements (cap : N) (full s : list N) : Prop :=
  lenN s <= cap /\ exists tail, full = s ++ tail /\ (tail = [] \/ lenN s = cap).
