(** What is wrong with a value that cannot be stored, or with an item that cannot be read, and what is said about it. *)
From Verif Require Import M_Base M_Text M_TypeStr M_Header M_Serialize S_Text S_TypeStr S_TypeErr S_Shape S_Header S_Elem.
Open Scope N_scope.

(** Hexadecimal numerals with small letters, without redundant zeros. *)
Definition hex_digit_value (d : N) : N := if d <? 58 then d - 48 else d - 87.
Fixpoint hex_value (ds : text) : N :=
  match ds with
  | [] => 0
  | d :: r => hex_digit_value d * 16 ^ N.of_nat (List.length r) + hex_value r
  end.
Definition hex_numeral (ds : text) (n : N) : Prop :=
  Forall (fun d => 48 <= d <= 57 \/ 97 <= d <= 102) ds /\ hex_value ds = n /\ (ds = [48] \/ exists d r, ds = d :: r /\ d <> 48).

(** Which Rust types hold what. *)
Definition byte_vector (t : rty) : Prop := t = RVecU8 \/ exists n, t = RArrU8 n.
Definition unit_vector (t : rty) : Prop := t = RVecU32 \/ exists n, t = RArrU32 n.
Definition char_vector (t : rty) : Prop := t = RVecChar \/ exists n, t = RArrChar n.
Definition string_type (t : rty) : Prop := t = RString \/ exists n, t = RArrString n.

(** [unstorable t d v out msg]: [v] cannot be stored; [out] is written nevertheless before this is noticed, and [msg] is said. *)
Inductive unstorable : rty -> dtype -> val -> bytes -> text -> Prop :=
| bytes_count t ts bs n w : byte_vector t ->
    (ts_char ts = TByteStr /\ ts_size ts < lenN bs \/ ts_char ts <> TByteStr /\ lenN bs <> ts_size ts) -> shortest_numeral n (lenN bs) -> shown ts w ->
    unstorable t (DPlain ts) (XBytes bs) [] (lit "bad item length " ++ n ++ lit " for type-string '" ++ w ++ lit "'")
| units_count t ts us n w : unit_vector t \/ char_vector t -> ts_size ts < lenN us -> shortest_numeral n (lenN us) -> shown ts w ->
    unstorable t (DPlain ts) (XUnits us) [] (lit "bad item length " ++ n ++ lit " for type-string '" ++ w ++ lit "'")
| units_value t ts before u after h : unit_vector t -> lenN (before ++ u :: after) <= ts_size ts ->
    Forall (fun u => u < 0x110000) before -> 0x110000 <= u -> hex_numeral h u ->
    unstorable t (DPlain ts) (XUnits (before ++ u :: after)) (utf32 (ts_endianness ts) before) (lit "codepoint 0x" ++ h ++ lit " is out of range")
| string_units t ts s n w : string_type t -> ts_char ts = TUnicodeStr -> ts_size ts < lenN s -> shortest_numeral n (lenN s) -> shown ts w ->
    unstorable t (DPlain ts) (XStr s) (utf32 (ts_endianness ts) (takeN (ts_size ts) s))
      (lit "string has too many code units (" ++ n ++ lit ") for type-string '" ++ w ++ lit "'")
| string_bytes t ts s n w : string_type t -> ts_char ts <> TUnicodeStr -> ts_size ts < lenN (utf8_string s) -> shortest_numeral n (lenN s) -> shown ts w ->
    unstorable t (DPlain ts) (XStr s) [] (lit "string has too many code units (" ++ n ++ lit ") for type-string '" ++ w ++ lit "'")
| element n t m d before x after bs out msg : encode (RArray n t) (DArray m d) (XSeq before) = Some bs -> unstorable t d x out msg ->
    unstorable (RArray n t) (DArray m d) (XSeq (before ++ x :: after)) (bs ++ out) msg
| member fs name t fs' ds name' d ds' before x after bs out msg :
    encode (RStruct fs) (DRecord ds) (XRec before) = Some bs -> unstorable t d x out msg ->
    unstorable (RStruct (fs ++ (name, t) :: fs')) (DRecord (ds ++ (name', d) :: ds')) (XRec (before ++ x :: after)) (bs ++ out) msg.

(** [unreadable t d bs msg]: no item begins with the bytes [bs]; they have been read when this is noticed, and [msg] is said. *)
Inductive unreadable : rty -> dtype -> bytes -> text -> Prop :=
| bool_value ts b n : 2 <= b -> shortest_numeral n b -> unreadable RBool (DPlain ts) [b] (lit "invalid value for bool: " ++ n)
| unit_value t ts k before piece h : unit_vector t -> k < ts_size ts -> lenN before = 4 * k -> lenN piece = 4 ->
    Forall (fun u => u < 0x110000) (utf32_units (ts_endianness ts) k before) -> 0x110000 <= number_of (ts_endianness ts) piece ->
    hex_numeral h (number_of (ts_endianness ts) piece) ->
    unreadable t (DPlain ts) (before ++ piece) (lit "codepoint 0x" ++ h ++ lit " is out of range")
| char_value t ts k before piece h : char_vector t \/ t = RString /\ ts_char ts = TUnicodeStr -> k < ts_size ts -> lenN before = 4 * k -> lenN piece = 4 ->
    Forall (fun u => scalar_value u = true) (utf32_units (ts_endianness ts) k before) -> scalar_value (number_of (ts_endianness ts) piece) = false ->
    hex_numeral h (number_of (ts_endianness ts) piece) ->
    unreadable t (DPlain ts) (before ++ piece) (lit "invalid UTF-32 code unit: " ++ h)
| text_value t ts bs : string_type t -> ts_char ts <> TUnicodeStr -> lenN bs = ts_size ts ->
    (forall s, Forall (fun ch => scalar_value ch = true) s -> utf8_string s <> strip bs) ->
    unreadable t (DPlain ts) bs (lit "invalid utf-8: ")
| element_value n t m d blocks bs msg : lenN blocks < n -> Forall (fun b => lenN b = size d /\ exists v, decode t d b = Some v) blocks ->
    unreadable t d bs msg -> unreadable (RArray n t) (DArray m d) (List.concat blocks ++ bs) msg
| member_value fs name t fs' ds name' d ds' before v bs msg : lenN before = size (DRecord ds) -> decode (RStruct fs) (DRecord ds) before = Some v ->
    unreadable t d bs msg -> unreadable (RStruct (fs ++ (name, t) :: fs')) (DRecord (ds ++ (name', d) :: ds')) (before ++ bs) msg.
