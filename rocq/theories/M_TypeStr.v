(** src/type_str.rs: NumPy array-interface type strings. *)
From Verif Require Import M_Base M_Text.
Open Scope N_scope.

(** src/type_str.rs:62-74 *)
Inductive endianness := Little | Big | Irrelevant.

(** src/type_str.rs:128-191 *)
Inductive type_char :=
| TBool | TInt | TUint | TFloat | TComplex | TTimeDelta | TDateTime
| TByteStr | TUnicodeStr | TObject | TRawData.

(** src/type_str.rs:322-349 *)
Inductive time_units :=
| Year | Month | Week | Day | Hour | Minute | Second
| Millisecond | Microsecond | Nanosecond | Picosecond | Femtosecond | Attosecond.

(** src/type_str.rs:23-28 *)
Record type_str := {
  ts_endianness : endianness;
  ts_char : type_char;
  ts_size : N;
  ts_units : option time_units
}.

(** src/type_str.rs:78-85 *)
Definition endianness_from_char (c : N) : option endianness :=
  if c =? chr "<" then Some Little
  else if c =? chr ">" then Some Big
  else if c =? chr "|" then Some Irrelevant
  else None.

(** src/type_str.rs:88-94 *)
Definition endianness_to_str (e : endianness) : text :=
  match e with Little => lit "<" | Big => lit ">" | Irrelevant => lit "|" end.

(** src/type_str.rs:99-105 (the machine is a parameter of the model) *)
Definition of_machine (c : cfg) : endianness := if c_big c then Big else Little.

(** src/type_str.rs:109-116 *)
Definition requires_swap (a b : endianness) : bool :=
  match a, b with
  | Little, Big | Big, Little => true
  | _, _ => false
  end.

(** src/type_str.rs:195-210 *)
Definition type_char_from_char (c : N) : option type_char :=
  if c =? chr "b" then Some TBool
  else if c =? chr "i" then Some TInt
  else if c =? chr "u" then Some TUint
  else if c =? chr "f" then Some TFloat
  else if c =? chr "c" then Some TComplex
  else if c =? chr "m" then Some TTimeDelta
  else if c =? chr "M" then Some TDateTime
  else if (c =? chr "S") || (c =? chr "a") then Some TByteStr
  else if c =? chr "U" then Some TUnicodeStr
  else if c =? chr "O" then Some TObject
  else if c =? chr "V" then Some TRawData
  else None.

(** src/type_str.rs:213-227 *)
Definition type_char_to_str (t : type_char) : text :=
  match t with
  | TBool => lit "b" | TInt => lit "i" | TUint => lit "u" | TFloat => lit "f"
  | TComplex => lit "c" | TTimeDelta => lit "m" | TDateTime => lit "M"
  | TByteStr => lit "S" | TUnicodeStr => lit "U" | TObject => lit "O" | TRawData => lit "V"
  end.

(** src/type_str.rs:232-256; [None]: all sizes are valid *)
Definition valid_sizes (t : type_char) : option (list N) :=
  match t with
  | TBool => Some [1]
  | TInt | TUint => Some [1; 2; 4; 8]
  | TFloat => Some [2; 4; 8; 16]
  | TComplex => Some [8; 16; 32]
  | TTimeDelta | TDateTime => Some [8]
  | TByteStr | TUnicodeStr | TObject | TRawData => None
  end.

(** src/type_str.rs:259-275 *)
Definition requires_endianness (t : type_char) (size : N) : bool :=
  match t with
  | TBool | TInt | TUint | TFloat | TTimeDelta | TDateTime | TComplex => negb (size =? 1)
  | TUnicodeStr => true
  | TByteStr | TObject | TRawData => false
  end.

(** src/type_str.rs:278-285 *)
Definition has_units (t : type_char) : bool :=
  match t with TTimeDelta | TDateTime => true | _ => false end.

(** src/type_str.rs:353-370 *)
Definition time_units_from_str (s : text) : option time_units :=
  if eqb_list s (lit "Y") then Some Year
  else if eqb_list s (lit "M") then Some Month
  else if eqb_list s (lit "W") then Some Week
  else if eqb_list s (lit "D") then Some Day
  else if eqb_list s (lit "h") then Some Hour
  else if eqb_list s (lit "m") then Some Minute
  else if eqb_list s (lit "s") then Some Second
  else if eqb_list s (lit "ms") then Some Millisecond
  else if eqb_list s (lit "us") then Some Microsecond
  else if eqb_list s (lit "ns") then Some Nanosecond
  else if eqb_list s (lit "ps") then Some Picosecond
  else if eqb_list s (lit "fs") then Some Femtosecond
  else if eqb_list s (lit "as") then Some Attosecond
  else None.

(** src/type_str.rs:373-389 *)
Definition time_units_to_str (u : time_units) : text :=
  match u with
  | Year => lit "Y" | Month => lit "M" | Week => lit "W" | Day => lit "D" | Hour => lit "h"
  | Minute => lit "m" | Second => lit "s" | Millisecond => lit "ms" | Microsecond => lit "us"
  | Nanosecond => lit "ns" | Picosecond => lit "ps" | Femtosecond => lit "fs" | Attosecond => lit "as"
  end.

(** src/type_str.rs:57 *)
Definition ts_pickled (t : type_str) : bool :=
  match ts_char t with TObject => true | _ => false end.

(** src/type_str.rs:410-421 *)
Definition type_str_display (t : type_str) : text :=
  endianness_to_str (ts_endianness t) ++ type_char_to_str (ts_char t)
  ++ (if ts_pickled t then [] else dec (ts_size t))
  ++ match ts_units t with
     | Some u => lit "[" ++ time_units_to_str u ++ lit "]"
     | None => []
     end.

(** src/type_str.rs:431-438 (ErrorKind) *)
Inductive ts_error :=
| SyntaxError
| ParseIntError
| InvalidEndianness (t : type_str)
| InvalidSize (t : type_str)
| MissingOrUnexpectedUnits (t : type_str).

(** Result of the type string parser: a value, a documented error, or a panic ([unwrap] on [None]). *)
Inductive ts_result := TsOk (t : type_str) | TsErr (e : ts_error) | TsPanic.

(** src/type_str.rs:532-552 *)
Definition validate (t : type_str) : ts_result :=
  if requires_endianness (ts_char t) (ts_size t)
     && match ts_endianness t with Irrelevant => true | _ => false end
  then TsErr (InvalidEndianness t)
  else if match valid_sizes (ts_char t) with
          | Some l => negb (existsb (N.eqb (ts_size t)) l)
          | None => false
          end
  then TsErr (InvalidSize t)
  else if xorb (has_units (ts_char t)) (match ts_units t with Some _ => true | None => false end)
  then TsErr (MissingOrUnexpectedUnits t)
  else TsOk t.

(** src/type_str.rs:511-524: the part after the size.  [Some None] is "no units". *)
Definition parse_units (rem : text) : option (option time_units) :=
  match rem with
  | [] => Some None
  | c :: r =>
    match rev r with
    | [] => None
    | l :: m =>
      if (c =? chr "[") && (l =? chr "]")
      then option_map Some (time_units_from_str (rev m))
      else None
    end
  end.

(** src/type_str.rs:475-528.  The Rust code splits the remainder at the first byte that is not an ASCII
    digit; on a list of characters that is the first non-digit character, since the bytes of a
    multi-byte character are never ASCII digits. *)
Definition type_str_parse (input : text) : ts_result :=
  if lenN (utf8 input) <? 2 then TsErr SyntaxError
  else match input with
  | [] => TsPanic                                         (* chars.next().unwrap() *)
  | c0 :: r0 =>
    match endianness_from_char c0 with
    | None => TsErr SyntaxError
    | Some e =>
      match r0 with
      | [] => TsPanic                                     (* chars.next().unwrap() *)
      | c1 :: r1 =>
        match type_char_from_char c1 with
        | None => TsErr SyntaxError
        | Some t =>
          let '(digits, rem) := span is_digit r1 in
          let size :=
            match t, digits with
            | TObject, [] => inr 0
            | TObject, _ => inl SyntaxError
            | _, [] => inl SyntaxError
            | _, _ => match parse_u64 digits with Some n => inr n | None => inl ParseIntError end
            end in
          match size with
          | inl err => TsErr err
          | inr n =>
            match parse_units rem with
            | None => TsErr SyntaxError
            | Some u => validate {| ts_endianness := e; ts_char := t; ts_size := n; ts_units := u |}
            end
          end
        end
      end
    end
  end.

(** src/type_str.rs:289-295 ([validate().unwrap()]) *)
Definition with_auto_endianness (c : cfg) (t : type_char) (size : N) (u : option time_units) : ts_result :=
  let e := if requires_endianness t size then of_machine c else Irrelevant in
  match validate {| ts_endianness := e; ts_char := t; ts_size := size; ts_units := u |} with
  | TsOk ts => TsOk ts
  | TsErr _ | TsPanic => TsPanic
  end.

(** src/type_str.rs:298-315 *)
Definition ts_num_bytes (c : cfg) (t : type_str) : option N :=
  match usize_try_from c (ts_size t) with
  | None => None
  | Some size =>
    match ts_char t with
    | TBool | TInt | TUint | TFloat | TComplex | TTimeDelta | TDateTime | TByteStr | TRawData => Some size
    | TUnicodeStr => usize_checked_mul c size 4
    | TObject => None
    end
  end.
