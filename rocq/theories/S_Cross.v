(** One file seen through different Rust types. *)
From Verif Require Import M_Base M_Text M_TypeStr M_Header M_Serialize S_Text S_Elem S_Strings.
Open Scope N_scope.

(** Values of possibly different types with the same contents: equal, or strings of the same bytes (those of a [String] are its UTF-8), or
    strings of the same code points; arrays and structs element by element. *)
Inductive same : val -> val -> Prop :=
| same_value v : same v v
| same_bytes v v' bs : byte_content v = Some bs -> byte_content v' = Some bs -> same v v'
| same_units v v' us : unit_content v = Some us -> unit_content v' = Some us -> same v v'
| same_array l l' : Forall2 same l l' -> same (XSeq l) (XSeq l')
| same_struct l l' : Forall2 same l l' -> same (XRec l) (XRec l').

(** Types of the arrayvec crate inside [t] have the capacity for the strings that [d] has in their places.  (For raw data exactly that: see C24.) *)
Fixpoint room (t : rty) (d : dtype) {struct t} : Prop :=
  match t, d with
  | RArrU8 n, DPlain ts => match ts_char ts with TRawData => n = ts_size ts | _ => ts_size ts <= n end
  | (RArrU32 n | RArrChar n | RArrString n), DPlain ts => ts_size ts <= n
  | RArray _ t', DArray _ d' => room t' d'
  | RStruct fs, DRecord ds =>
    (fix go (fs : list (text * rty)) (ds : list (text * dtype)) : Prop :=
       match fs, ds with
       | (_, t') :: fs', (_, d') :: ds' => room t' d' /\ go fs' ds'
       | _, _ => True
       end) fs ds
  | _, _ => True
  end.

(** [laxer t t' d]: where [d] holds strings, [t] does not ask more of them than [t'].  Byte vectors ask nothing, strings ask for UTF-8; of code
    points, [u32]s ask less than [char]s and strings, which ask the same. *)
Inductive laxer : rty -> rty -> dtype -> Prop :=
| laxer_same t d : laxer t t d
| laxer_bytes t t' ts : t = RVecU8 \/ (exists n, t = RArrU8 n) \/ (exists n, t = RFixedBytes n) -> laxer t t' (DPlain ts)
| laxer_strings t t' ts : ts_char ts = TByteStr -> t = RString \/ (exists n, t = RArrString n) -> t' = RString \/ (exists n, t' = RArrString n) -> laxer t t' (DPlain ts)
| laxer_units t t' ts : ts_char ts = TUnicodeStr -> t = RVecU32 \/ (exists n, t = RArrU32 n) -> laxer t t' (DPlain ts)
| laxer_chars t t' ts : ts_char ts = TUnicodeStr -> t' = RString \/ t' = RVecChar \/ (exists n, t' = RArrChar n) -> laxer t t' (DPlain ts)
| laxer_array n t t' d : laxer t t' d -> laxer (RArray n t) (RArray n t') (DArray n d)
| laxer_field name t t' fs fs' d ds : laxer t t' d -> laxer (RStruct fs) (RStruct fs') (DRecord ds) ->
    laxer (RStruct ((name, t) :: fs)) (RStruct ((name, t') :: fs')) (DRecord ((name, d) :: ds)).
