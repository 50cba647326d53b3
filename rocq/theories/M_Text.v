(** Text: UTF-8 (Rust [str::as_bytes], [std::str::from_utf8]) and decimal numbers
    ([format!("{}", n)], [str::parse::<u64>]).  These are std functions; they are modelled because
    src/header.rs:233-242, src/write.rs:405-434,597-629 and src/type_str.rs:410-421,475-528 rely on them. *)
From Verif Require Import M_Base.
Open Scope N_scope.

(** UTF-8 encoding of one scalar value (RFC 3629; [char::encode_utf8]). *)
Definition utf8_char (c : N) : bytes :=
  if c <? 0x80 then [c]
  else if c <? 0x800 then [0xC0 + c / 64; 0x80 + c mod 64]
  else if c <? 0x10000 then [0xE0 + c / 4096; 0x80 + (c / 64) mod 64; 0x80 + c mod 64]
  else [0xF0 + c / 262144; 0x80 + (c / 4096) mod 64; 0x80 + (c / 64) mod 64; 0x80 + c mod 64].

Definition utf8 (s : text) : bytes := flat_map utf8_char s.

Definition is_cont (b : N) : bool := (0x80 <=? b) && (b <? 0xC0).

(** [std::str::from_utf8]: rejects overlong forms, surrogates, values above 0x10FFFF and truncated
    sequences.  The std implementation uses a table of second-byte ranges; testing the decoded value is
    the same condition. *)
Fixpoint from_utf8 (bs : bytes) : option text :=
  match bs with
  | [] => Some []
  | b0 :: r0 =>
    if b0 <? 0x80 then option_map (cons b0) (from_utf8 r0)
    else if b0 <? 0xC0 then None
    else match r0 with
    | [] => None
    | b1 :: r1 =>
      if negb (is_cont b1) then None
      else if b0 <? 0xE0 then
        let c := (b0 - 0xC0) * 64 + (b1 - 0x80) in
        if 0x80 <=? c then option_map (cons c) (from_utf8 r1) else None
      else match r1 with
      | [] => None
      | b2 :: r2 =>
        if negb (is_cont b2) then None
        else if b0 <? 0xF0 then
          let c := (b0 - 0xE0) * 4096 + (b1 - 0x80) * 64 + (b2 - 0x80) in
          if (0x800 <=? c) && negb (is_surrogate c) then option_map (cons c) (from_utf8 r2) else None
        else match r2 with
        | [] => None
        | b3 :: r3 =>
          if negb (is_cont b3) then None
          else if b0 <? 0xF8 then
            let c := (b0 - 0xF0) * 262144 + (b1 - 0x80) * 4096 + (b2 - 0x80) * 64 + (b3 - 0x80) in
            if (0x10000 <=? c) && (c <? 0x110000) then option_map (cons c) (from_utf8 r3) else None
          else None
        end
      end
    end
  end.

(** Decimal digits of a number, most significant first, "0" for zero ([u64] Display). *)
Fixpoint dec_aux (fuel : nat) (n : N) (acc : list N) : list N :=
  match fuel with
  | O => acc
  | S f =>
    let acc' := (48 + n mod 10) :: acc in
    if n / 10 =? 0 then acc' else dec_aux f (n / 10) acc'
  end.
Definition dec (n : N) : text := dec_aux (S (N.to_nat (N.log2 n))) n [].

(** Hexadecimal digits of a number, most significant first, "0" for zero ([{:x}] and [{:X}]); [ten] is the letter for the digit ten. *)
Definition hex_digit (ten : N) (d : N) : N := if d <? 10 then 48 + d else ten + (d - 10).
Fixpoint hex_aux (ten : N) (fuel : nat) (n : N) (acc : list N) : list N :=
  match fuel with
  | O => acc
  | S f =>
    let acc' := hex_digit ten (n mod 16) :: acc in
    if n / 16 =? 0 then acc' else hex_aux ten f (n / 16) acc'
  end.
Definition hex (n : N) : text := hex_aux 97 (S (N.to_nat (N.log2 n))) n [].
(** [{:02X}] of a byte. *)
Definition hex_byte (b : N) : text := [hex_digit 65 (b / 16); hex_digit 65 (b mod 16)].

Definition is_digit (c : N) : bool := (48 <=? c) && (c <=? 57).

(** Value of a string of decimal digits. *)
Definition dec_value (s : text) : N := fold_left (fun acc c => acc * 10 + (c - 48)) s 0.

(** [str::parse::<u64>()] on a non-empty all-digit string: [None] on overflow.  std checks overflow at every
    digit; since the accumulator never decreases that is the same as checking the final value. *)
Definition parse_u64 (s : text) : option N :=
  if dec_value s <? 2 ^ 64 then Some (dec_value s) else None.

(** Longest prefix satisfying a test. *)
Fixpoint span {A} (f : A -> bool) (l : list A) : list A * list A :=
  match l with
  | [] => ([], [])
  | x :: l' => if f x then let '(a, b) := span f l' in (x :: a, b) else ([], l)
  end.
