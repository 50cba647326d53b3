(** Python literals: the [py_literal::Value] type and its [FromStr] parser, used by src/header.rs:233-242.

    py_literal is an external crate whose source is not available here.  This is a parser for its grammar as
    documented (a PEG: ordered choice, blanks allowed between tokens).  SIMPLIFICATIONS: bytes literals, floats,
    complex numbers, numeric sums, non-decimal integers and [\N{...}] escapes are rejected; blanks are space, tab and
    form feed.  npyz itself only ever writes short single-quoted strings, decimal integers, tuples, lists, dicts and
    booleans, all of which are covered. *)
From Verif Require Import M_Base M_Text.
Open Scope N_scope.

(** py_literal::Value (restricted as said above). *)
Inductive value :=
| VString (s : text)
| VInteger (z : Z)
| VTuple (l : list value)
| VList (l : list value)
| VDict (l : list (value * value))
| VSet (l : list value)
| VBool (b : bool)
| VNone.

Definition is_blank (c : N) : bool := (c =? 32) || (c =? 9) || (c =? 12).

Fixpoint skip_ws (s : text) : text :=
  match s with
  | c :: r => if is_blank c then skip_ws r else s
  | [] => []
  end.

Definition hex_val (c : N) : option N :=
  if (48 <=? c) && (c <=? 57) then Some (c - 48)
  else if (65 <=? c) && (c <=? 70) then Some (c - 55)
  else if (97 <=? c) && (c <=? 102) then Some (c - 87)
  else None.
Definition is_oct (c : N) : bool := (48 <=? c) && (c <=? 55).

Definition cons1 (c : N) (p : option (text * text)) : option (text * text) :=
  match p with Some (a, b) => Some (c :: a, b) | None => None end.
(** A numeric escape must denote a scalar value. *)
Definition cons_scalar (c : N) (p : option (text * text)) : option (text * text) :=
  if is_scalar c then cons1 c p else None.
Definition cons_opt (c : option N) (p : option (text * text)) : option (text * text) :=
  match c with Some n => cons_scalar n p | None => None end.

Definition hex_digits (l : list N) : option N :=
  fold_left (fun acc c => match acc, hex_val c with Some a, Some d => Some (a * 16 + d) | _, _ => None end) l (Some 0).

(** Simple one-character escapes. *)
Definition simple_escape (e : N) : option N :=
  if e =? 92 then Some 92          (* backslash *)
  else if e =? 39 then Some 39     (* single quote *)
  else if e =? 34 then Some 34     (* double quote *)
  else if e =? chr "a" then Some 7
  else if e =? chr "b" then Some 8
  else if e =? chr "f" then Some 12
  else if e =? chr "n" then Some 10
  else if e =? chr "r" then Some 13
  else if e =? chr "t" then Some 9
  else if e =? chr "v" then Some 11
  else None.

(** Body of a string literal after its opening quote(s).  [long] is a triple-quoted string. *)
Fixpoint p_str (long : bool) (q : N) (s : text) : option (text * text) :=
  match s with
  | [] => None
  | c :: r =>
    if c =? 92 then
      match r with
      | [] => None
      | e :: r1 =>
        match simple_escape e with
        | Some x => cons1 x (p_str long q r1)
        | None =>
          if e =? 10 then p_str long q r1                       (* line continuation *)
          else if is_oct e then
            match r1 with
            | e2 :: r2 =>
              if is_oct e2 then
                match r2 with
                | e3 :: r3 =>
                  if is_oct e3 then cons_scalar ((e - 48) * 64 + (e2 - 48) * 8 + (e3 - 48)) (p_str long q r3)
                  else cons_scalar ((e - 48) * 8 + (e2 - 48)) (p_str long q r2)
                | [] => None
                end
              else cons_scalar (e - 48) (p_str long q r1)
            | [] => None
            end
          else if e =? chr "x" then
            match r1 with
            | h1 :: h2 :: r2 => cons_opt (hex_digits [h1; h2]) (p_str long q r2)
            | _ => None
            end
          else if e =? chr "u" then
            match r1 with
            | h1 :: h2 :: h3 :: h4 :: r2 => cons_opt (hex_digits [h1; h2; h3; h4]) (p_str long q r2)
            | _ => None
            end
          else if e =? chr "U" then
            match r1 with
            | h1 :: h2 :: h3 :: h4 :: h5 :: h6 :: h7 :: h8 :: r2 =>
              cons_opt (hex_digits [h1; h2; h3; h4; h5; h6; h7; h8]) (p_str long q r2)
            | _ => None
            end
          else if e =? chr "N" then None
          else cons1 92 (cons1 e (p_str long q r1))               (* unknown escapes are kept *)
        end
      end
    else if c =? q then
      if long then
        match r with
        | c2 :: c3 :: r3 => if (c2 =? q) && (c3 =? q) then Some ([], r3) else cons1 c (p_str long q r)
        | _ => None
        end
      else Some ([], r)
    else if negb long && ((c =? 10) || (c =? 13)) then None
    else cons1 c (p_str long q r)
  end.

(** A string literal: long form is tried first. *)
Definition p_string (s : text) : option (text * text) :=
  match s with
  | q :: r =>
    if (q =? 39) || (q =? 34) then
      match r with
      | q2 :: q3 :: r3 => if (q2 =? q) && (q3 =? q) then p_str true q r3 else p_str false q r
      | _ => p_str false q r
      end
    else None
  | [] => None
  end.

(** Digits with optional single underscores between them. *)
Fixpoint p_digits (ok : N -> bool) (s : text) : text * text :=
  match s with
  | c :: r =>
    if ok c then let '(a, b) := p_digits ok r in (c :: a, b)
    else if c =? 95 then
      match r with
      | c2 :: r2 => if ok c2 then let '(a, b) := p_digits ok r2 in (c2 :: a, b) else ([], s)
      | [] => ([], s)
      end
    else ([], s)
  | [] => ([], s)
  end.

(** Decimal integer without redundant leading zeros. *)
Definition p_nat (s : text) : option (N * text) :=
  match s with
  | c :: r =>
    if c =? 48 then let '(_, rest) := p_digits (N.eqb 48) r in Some (0, rest)
    else if is_digit c then let '(ds, rest) := p_digits is_digit r in Some (dec_value (c :: ds), rest)
    else None
  | [] => None
  end.

(** Signed integer: any number of signs, blanks allowed after each. *)
Fixpoint p_int (neg : bool) (s : text) : option (Z * text) :=
  match s with
  | c :: r =>
    if c =? chr "-" then p_int (negb neg) r
    else if c =? chr "+" then p_int neg r
    else if is_blank c then p_int neg r
    else match p_nat s with
         | Some (n, rest) => Some (if neg then (- Z.of_N n)%Z else Z.of_N n, rest)
         | None => None
         end
  | [] => None
  end.

(** Match a keyword. *)
Fixpoint p_word (w s : text) : option text :=
  match w with
  | [] => Some s
  | c :: w' => match s with d :: s' => if c =? d then p_word w' s' else None | [] => None end
  end.

(** Values; [fuel] bounds the recursion depth (see [parse_literal]). *)
Fixpoint p_value (fuel : nat) (s : text) : option (value * text) :=
  match fuel with
  | O => None
  | S f =>
    match s with
    | [] => None
    | c :: r =>
      if (c =? 39) || (c =? 34) then
        match p_string s with Some (t, rest) => Some (VString t, rest) | None => None end
      else if (c =? chr "u") || (c =? chr "U") then
        match p_string r with Some (t, rest) => Some (VString t, rest) | None => None end
      else if is_digit c || (c =? chr "+") || (c =? chr "-") then
        match p_int false s with Some (z, rest) => Some (VInteger z, rest) | None => None end
      else if c =? chr "(" then
        match skip_ws r with
        | [] => None
        | c1 :: r1 =>
          if c1 =? chr ")" then Some (VTuple [], r1)
          else match p_value f (c1 :: r1) with
          | None => None
          | Some (v, r2) =>
            match skip_ws r2 with
            | c3 :: r3 =>
              if c3 =? chr "," then
                match p_items f (chr ")") (skip_ws r3) with
                | Some (vs, r4) => Some (VTuple (v :: vs), r4)
                | None => None
                end
              else None
            | [] => None
            end
          end
        end
      else if c =? chr "[" then
        match p_items f (chr "]") (skip_ws r) with
        | Some (vs, rest) => Some (VList vs, rest)
        | None => None
        end
      else if c =? chr "{" then
        match skip_ws r with
        | [] => None
        | c1 :: r1 =>
          if c1 =? chr "}" then Some (VDict [], r1)
          else match p_value f (c1 :: r1) with
          | None => None
          | Some (k, r2) =>
            match skip_ws r2 with
            | [] => None
            | c3 :: r3 =>
              if c3 =? chr ":" then
                match p_value f (skip_ws r3) with
                | None => None
                | Some (v, r4) =>
                  match skip_ws r4 with
                  | [] => None
                  | c5 :: r5 =>
                    if c5 =? chr "}" then Some (VDict [(k, v)], r5)
                    else if c5 =? chr "," then
                      match p_dict f (skip_ws r5) with
                      | Some (kvs, r6) => Some (VDict ((k, v) :: kvs), r6)
                      | None => None
                      end
                    else None
                  end
                end
              else if c3 =? chr "}" then Some (VSet [k], r3)
              else if c3 =? chr "," then
                match p_items f (chr "}") (skip_ws r3) with
                | Some (vs, r4) => Some (VSet (k :: vs), r4)
                | None => None
                end
              else None
            end
          end
        end
      else if c =? chr "T" then
        match p_word (lit "True") s with Some rest => Some (VBool true, rest) | None => None end
      else if c =? chr "F" then
        match p_word (lit "False") s with Some rest => Some (VBool false, rest) | None => None end
      else if c =? chr "N" then
        match p_word (lit "None") s with Some rest => Some (VNone, rest) | None => None end
      else None
    end
  end
(** Comma-separated values with an optional trailing comma, up to a closing character. *)
with p_items (fuel : nat) (close : N) (s : text) : option (list value * text) :=
  match fuel with
  | O => None
  | S f =>
    match s with
    | [] => None
    | c :: r =>
      if c =? close then Some ([], r)
      else match p_value f s with
      | None => None
      | Some (v, r1) =>
        match skip_ws r1 with
        | [] => None
        | c2 :: r2 =>
          if c2 =? close then Some ([v], r2)
          else if c2 =? chr "," then
            match p_items f close (skip_ws r2) with
            | Some (vs, r3) => Some (v :: vs, r3)
            | None => None
            end
          else None
        end
      end
    end
  end
(** Comma-separated [key: value] pairs with an optional trailing comma, up to the closing brace. *)
with p_dict (fuel : nat) (s : text) : option (list (value * value) * text) :=
  match fuel with
  | O => None
  | S f =>
    match s with
    | [] => None
    | c :: r =>
      if c =? chr "}" then Some ([], r)
      else match p_value f s with
      | None => None
      | Some (k, r1) =>
        match skip_ws r1 with
        | [] => None
        | c2 :: r2 =>
          if c2 =? chr ":" then
            match p_value f (skip_ws r2) with
            | None => None
            | Some (v, r3) =>
              match skip_ws r3 with
              | [] => None
              | c4 :: r4 =>
                if c4 =? chr "}" then Some ([(k, v)], r4)
                else if c4 =? chr "," then
                  match p_dict f (skip_ws r4) with
                  | Some (kvs, r5) => Some ((k, v) :: kvs, r5)
                  | None => None
                  end
                else None
              end
            end
          else None
        end
      end
    end
  end.

(** [str::parse::<py_literal::Value>()].  The fuel is more than any derivation over [s] needs: every second
    nested call consumes at least one character (theorem C34_parser_depth). *)
Definition parse_literal (s : text) : option value :=
  match p_value (2 * List.length s + 2) (skip_ws s) with
  | Some (v, rest) => match skip_ws rest with [] => Some v | _ => None end
  | None => None
  end.
