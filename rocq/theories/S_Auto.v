(** The dtypes that types choose for themselves (src/type_matchup_docs.rs). *)
From Verif Require Import M_Base M_TypeStr M_Header M_Serialize S_Elem.
Open Scope N_scope.

Definition order_of (c : cfg) : endianness := if c_big c then Big else Little.
Definition simple (e : endianness) (code : type_char) (n : N) : dtype := DPlain {| ts_endianness := e; ts_char := code; ts_size := n; ts_units := None |}.

(** [default_of e t d] on a machine with byte order [e]. *)
Inductive default_of (e : endianness) : rty -> dtype -> Prop :=
| default_i8 : default_of e (RInt true W1) (simple Irrelevant TInt 1)
| default_u8 : default_of e (RInt false W1) (simple Irrelevant TUint 1)
| default_int w : w <> W1 -> default_of e (RInt true w) (simple e TInt (int_bytes w))
| default_uint w : w <> W1 -> default_of e (RInt false w) (simple e TUint (int_bytes w))
| default_float w : default_of e (RFloat w) (simple e TFloat (float_bytes w))
| default_complex w : default_of e (RComplex w) (simple e TComplex (2 * part_bytes w))
| default_bool : default_of e RBool (simple Irrelevant TBool 1)
| default_units n : default_of e (RArrU32 n) (simple e TUnicodeStr n)
| default_chars n : default_of e (RArrChar n) (simple e TUnicodeStr n)
| default_string n : default_of e (RArrString n) (simple Irrelevant TByteStr n)
| default_array n t d : default_of e t d -> default_of e (RArray n t) (DArray n d)
| default_empty : default_of e (RStruct []) (DRecord [])
| default_field name t d fs ds : default_of e t d -> default_of e (RStruct fs) (DRecord ds) -> default_of e (RStruct ((name, t) :: fs)) (DRecord ((name, d) :: ds)).

(** Types that have none, or a part of which has none. *)
Inductive without_default : rty -> Prop :=
| without_bytes : without_default RVecU8
| without_units : without_default RVecU32
| without_chars : without_default RVecChar
| without_string : without_default RString
| without_fixed n : without_default (RFixedBytes n)
| without_arrayvec n : without_default (RArrU8 n)
| without_array n t : without_default t -> without_default (RArray n t)
| without_field fs name t : In (name, t) fs -> without_default t -> without_default (RStruct fs).
