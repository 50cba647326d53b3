(** Types with a capacity and their unlimited counterparts. *)
From Verif Require Import M_Base M_TypeStr M_Header M_Serialize.
Open Scope N_scope.

(** [roomy t t' d]: [t'] is [t] with types of the arrayvec crate replaced by [Vec]s and [String]s, and their capacities are large
    enough for the strings that [d] has in their places. *)
Inductive roomy : rty -> rty -> dtype -> Prop :=
| roomy_same t d : roomy t t d
| roomy_bytes n ts : ts_char ts = TByteStr -> ts_size ts <= n -> roomy (RArrU8 n) RVecU8 (DPlain ts)
| roomy_raw n ts : ts_char ts = TRawData -> ts_size ts = n -> roomy (RArrU8 n) RVecU8 (DPlain ts)
| roomy_units n ts : ts_size ts <= n -> roomy (RArrU32 n) RVecU32 (DPlain ts)
| roomy_chars n ts : ts_size ts <= n -> roomy (RArrChar n) RVecChar (DPlain ts)
| roomy_string n ts : ts_char ts = TByteStr -> ts_size ts <= n -> roomy (RArrString n) RString (DPlain ts)
| roomy_array n t t' d : roomy t t' d -> roomy (RArray n t) (RArray n t') (DArray n d)
| roomy_field name t t' fs fs' name' d ds : roomy t t' d -> roomy (RStruct fs) (RStruct fs') (DRecord ds) ->
    roomy (RStruct ((name, t) :: fs)) (RStruct ((name, t') :: fs')) (DRecord ((name', d) :: ds)).

(** The values both hold are the same ones, but [t] holds only some of those of [t'].  For writing the capacities do not matter. *)
Inductive unlimited : rty -> rty -> Prop :=
| unlimited_same t : unlimited t t
| unlimited_bytes n : unlimited (RArrU8 n) RVecU8
| unlimited_units n : unlimited (RArrU32 n) RVecU32
| unlimited_chars n : unlimited (RArrChar n) RVecChar
| unlimited_string n : unlimited (RArrString n) RString
| unlimited_array n t t' : unlimited t t' -> unlimited (RArray n t) (RArray n t')
| unlimited_field name t t' fs fs' : unlimited t t' -> unlimited (RStruct fs) (RStruct fs') ->
    unlimited (RStruct ((name, t) :: fs)) (RStruct ((name, t') :: fs')).

(** The capacity [n] is smaller than the strings of the type string. *)
Inductive cramped (n : N) : rty -> rty -> type_str -> Prop :=
| cramped_bytes ts : n < ts_size ts -> ts_char ts = TByteStr -> cramped n (RArrU8 n) RVecU8 ts
| cramped_units ts : n < ts_size ts -> ts_char ts = TUnicodeStr -> cramped n (RArrU32 n) RVecU32 ts
| cramped_chars ts : n < ts_size ts -> ts_char ts = TUnicodeStr -> cramped n (RArrChar n) RVecChar ts
| cramped_string ts : n < ts_size ts -> ts_char ts = TByteStr -> cramped n (RArrString n) RString ts.
