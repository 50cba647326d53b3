(** Specification of the type-string language (NumPy array interface, as documented in src/type_str.rs:1-60,128-191).
    Uses only the data types of the model, none of its functions except string literals. *)
From Verif Require Import M_Base M_TypeStr.
Open Scope N_scope.

Definition mark_table : list (string * endianness) := [("<", Little); (">", Big); ("|", Irrelevant)]%string.

Definition code_table : list (string * type_char) :=
  [("b", TBool); ("i", TInt); ("u", TUint); ("f", TFloat); ("c", TComplex); ("m", TTimeDelta); ("M", TDateTime);
   ("S", TByteStr); ("a", TByteStr); ("U", TUnicodeStr); ("O", TObject); ("V", TRawData)]%string.

Definition unit_table : list (string * time_units) :=
  [("Y", Year); ("M", Month); ("W", Week); ("D", Day); ("h", Hour); ("m", Minute); ("s", Second);
   ("ms", Millisecond); ("us", Microsecond); ("ns", Nanosecond); ("ps", Picosecond); ("fs", Femtosecond);
   ("as", Attosecond)]%string.

(** Value of a digit string in positional notation. *)
Fixpoint positional (ds : text) : N :=
  match ds with
  | [] => 0
  | d :: r => (d - 48) * 10 ^ N.of_nat (List.length r) + positional r
  end.

(** A decimal numeral for [n]: one or more digits, redundant leading zeros allowed. *)
Definition numeral (ds : text) (n : N) : Prop :=
  ds <> [] /\ (forall d, In d ds -> 48 <= d <= 57) /\ positional ds = n.

(** Legal combinations of mark, code, size and unit. *)
Definition legal (t : type_str) : Prop :=
  let ordered := ts_endianness t <> Irrelevant in
  let n := ts_size t in
  match ts_char t with
  | TBool => n = 1 /\ ts_units t = None
  | TInt | TUint => (n = 1 \/ (n = 2 \/ n = 4 \/ n = 8) /\ ordered) /\ ts_units t = None
  | TFloat => (n = 2 \/ n = 4 \/ n = 8 \/ n = 16) /\ ordered /\ ts_units t = None
  | TComplex => (n = 8 \/ n = 16 \/ n = 32) /\ ordered /\ ts_units t = None
  | TTimeDelta | TDateTime => n = 8 /\ ordered /\ ts_units t <> None
  | TByteStr | TRawData => n < 2 ^ 64 /\ ts_units t = None
  | TUnicodeStr => n < 2 ^ 64 /\ ordered /\ ts_units t = None
  | TObject => n = 0 /\ ts_units t = None
  end.

(** [s] is a spelling of [t]. *)
Definition spells (s : text) (t : type_str) : Prop :=
  exists mark code size unit,
    s = lit mark ++ lit code ++ size ++ unit
    /\ In (mark, ts_endianness t) mark_table
    /\ In (code, ts_char t) code_table
    /\ (if match ts_char t with TObject => true | _ => false end then size = [] else numeral size (ts_size t))
    /\ match ts_units t with
       | None => unit = []
       | Some u => exists name, In (name, u) unit_table /\ unit = lit "[" ++ lit name ++ lit "]"
       end
    /\ legal t.

(** The syntax alone: what the parser must see before it looks at the size at all. *)
Definition well_spelled (s : text) : Prop :=
  exists mark code size unit e c,
    s = lit mark ++ lit code ++ size ++ unit
    /\ In (mark, e) mark_table /\ In (code, c) code_table
    /\ (if match c with TObject => true | _ => false end then size = [] else exists n, numeral size n)
    /\ (unit = [] \/ exists name u, In (name, u) unit_table /\ unit = lit "[" ++ lit name ++ lit "]").

(** The one spelling without redundant zeros and without the alias [a]. *)
Definition canonical (s : text) : Prop :=
  (forall m r, s <> m :: chr "a" :: r) /\ (forall m c d r, s = m :: c :: 48 :: d :: r -> ~ (48 <= d <= 57)).
