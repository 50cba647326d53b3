(** Unicode scalar values, UTF-8 and decimal numerals, as the standards define them; independent of the model's text functions. *)
From Verif Require Import M_Base.
Open Scope N_scope.

(** Unicode: code points up to 0x10FFFF except the surrogates 0xD800 to 0xDFFF. *)
Definition scalar_value (c : N) : bool := (c <? 0x110000) && negb ((0xD800 <=? c) && (c <=? 0xDFFF)).

(** RFC 3629, section 3: the number of octets depends on the range, the bits of the number fill the octets. *)
Definition utf8_octets (c : N) : bytes :=
  if c <? 0x80 then [c]
  else if c <? 0x800 then [0xC0 + c / 64; 0x80 + c mod 64]
  else if c <? 0x10000 then [0xE0 + c / 4096; 0x80 + (c / 64) mod 64; 0x80 + c mod 64]
  else [0xF0 + c / 262144; 0x80 + (c / 4096) mod 64; 0x80 + (c / 64) mod 64; 0x80 + c mod 64].
Definition utf8_string (s : text) : bytes := flat_map utf8_octets s.

(** The shortest decimal numeral: digits only, no leading zero (except zero itself), right value. *)
Fixpoint decimal_value (ds : text) : N :=
  match ds with
  | [] => 0
  | d :: r => (d - 48) * 10 ^ N.of_nat (List.length r) + decimal_value r
  end.
Definition shortest_numeral (ds : text) (n : N) : Prop :=
  Forall (fun d => 48 <= d <= 57) ds /\ decimal_value ds = n /\ (ds = [48] \/ exists d r, ds = d :: r /\ d <> 48).
