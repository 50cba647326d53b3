(** Specification of single items: sizes, which Rust types go with which dtypes, and the byte layout.  Nothing here depends on the machine. *)
From Verif Require Import M_Base M_Text M_TypeStr M_Header M_Serialize S_Text S_Shape S_Header.
Open Scope N_scope.

(** Lists of numbers that are lists of bytes. *)
Definition bytes_ok (bs : bytes) : Prop := Forall (fun b => b < 256) bs.

(** Widths in bytes: of integers, of floats, and of each half of a complex number. *)
Definition int_bytes (w : width) : N := match w with W1 => 1 | W2 => 2 | W4 => 4 | W8 => 8 end.
Definition float_bytes (w : fwidth) : N := match w with F2 => 2 | F4 => 4 | F8 => 8 end.
Definition part_bytes (w : cwidth) : N := match w with X4 => 4 | X8 => 8 end.

(** Values that a Rust type can actually hold. *)
Definition int_min (signed : bool) (w : width) : Z := if signed then (- 2 ^ (8 * Z.of_N (int_bytes w) - 1))%Z else 0%Z.
Definition int_max (signed : bool) (w : width) : Z :=
  if signed then (2 ^ (8 * Z.of_N (int_bytes w) - 1) - 1)%Z else (2 ^ (8 * Z.of_N (int_bytes w)) - 1)%Z.
Fixpoint has_type (t : rty) (v : val) {struct t} : Prop :=
  match t, v with
  | RInt s w, XInt z => (int_min s w <= z <= int_max s w)%Z
  | RFloat w, XFloat b => b < 2 ^ (8 * float_bytes w)
  | RBool, XBool _ => True
  | RComplex w, XComplex re im => re < 2 ^ (8 * part_bytes w) /\ im < 2 ^ (8 * part_bytes w)
  | RVecU8, XBytes l => Forall (fun b => b < 256) l
  | RFixedBytes n, XBytes l => Forall (fun b => b < 256) l /\ lenN l = n
  | RArrU8 n, XBytes l => Forall (fun b => b < 256) l /\ lenN l <= n
  | RVecU32, XUnits l => Forall (fun u => u < 2 ^ 32) l
  | RVecChar, XUnits l => Forall (fun u => scalar_value u = true) l
  | RString, XStr l => Forall (fun u => scalar_value u = true) l
  | RArrU32 n, XUnits l => Forall (fun u => u < 2 ^ 32) l /\ lenN l <= n
  | RArrChar n, XUnits l => Forall (fun u => scalar_value u = true) l /\ lenN l <= n
  | RArrString n, XStr l => Forall (fun u => scalar_value u = true) l /\ lenN (utf8_string l) <= n
  | RArray n inner, XSeq l => lenN l = n /\ Forall (has_type inner) l
  | RStruct fs, XRec l =>
    (fix go (fs : list (text * rty)) (l : list val) : Prop :=
       match fs, l with
       | [], [] => True
       | (_, t) :: fs', x :: l' => has_type t x /\ go fs' l'
       | _, _ => False
       end) fs l
  | _, _ => False
  end.

(** * Sizes *)
Definition scalar_size (t : type_str) : N := match ts_char t with TUnicodeStr => 4 * ts_size t | _ => ts_size t end.
(** Size in bytes of one item, as a mathematical number.  (Object references have none; [has_object] tells.) *)
Fixpoint size (d : dtype) : N :=
  match d with
  | DPlain t => scalar_size t
  | DArray n inner => n * size inner
  | DRecord fields =>
    (fix go (fs : list (text * dtype)) : N := match fs with [] => 0 | (_, ty) :: fs' => size ty + go fs' end) fields
  end.
(** Python objects anywhere inside. *)
Inductive has_object : dtype -> Prop :=
| obj_plain t : ts_char t = TObject -> has_object (DPlain t)
| obj_array n d : has_object d -> has_object (DArray n d)
| obj_field name ty fs : In (name, ty) fs -> has_object ty -> has_object (DRecord fs).

(** Every size and array length occurring in the dtype is at most [m]. *)
Fixpoint sizes_fit (m : N) (d : dtype) : Prop :=
  match d with
  | DPlain t => ts_size t <= m /\ scalar_size t <= m
  | DArray n inner => n <= m /\ sizes_fit m inner /\ n * size inner <= m
  | DRecord fields =>
    (fix go (fs : list (text * dtype)) : Prop := match fs with [] => True | (_, ty) :: fs' => sizes_fit m ty /\ go fs' end) fields
    /\ size (DRecord fields) <= m
  end.

(** No byte string or raw field takes more than half of the address space, that is, each of them fits into a vector of bytes.
    [m] is the largest [usize]. *)
Fixpoint strings_fit (m : N) (d : dtype) : Prop :=
  match d with
  | DPlain t => match ts_char t with TByteStr | TRawData => 2 * ts_size t <= m | _ => True end
  | DArray _ inner => strings_fit m inner
  | DRecord fields =>
    (fix go (fs : list (text * dtype)) : Prop := match fs with [] => True | (_, ty) :: fs' => strings_fit m ty /\ go fs' end) fields
  end.

(** * The support matrix (src/type_matchup_docs.rs) *)
Inductive direction := Reading | Writing.
(** [scalar_ok dir t code m]: Rust type [t] against a type string with type code [code] and size [m]. *)
Definition scalar_ok (dir : direction) (t : rty) (code : type_char) (m : N) : Prop :=
  match t with
  | RInt true w => m = int_bytes w /\ (code = TInt \/ (w = W8 /\ (code = TTimeDelta \/ code = TDateTime)))
  | RInt false w => m = int_bytes w /\ code = TUint
  | RFloat w => m = float_bytes w /\ code = TFloat
  | RBool => m = 1 /\ code = TBool
  | RComplex w => m = 2 * part_bytes w /\ code = TComplex
  | RString => code = TByteStr \/ code = TUnicodeStr
  | RVecU8 => code = TRawData \/ code = TByteStr
  | RVecU32 | RVecChar => code = TUnicodeStr
  | RFixedBytes n => code = TRawData /\ n = m
  | RArrU8 n => code = TRawData /\ m <= n \/ code = TByteStr
  | RArrU32 _ | RArrChar _ => code = TUnicodeStr
  | RArrString _ => code = TByteStr \/ (code = TUnicodeStr /\ dir = Writing)
  | RArray _ _ | RStruct _ => False
  end.
(** Types whose size is not fixed by the Rust type; their size must be a [usize] of the machine. *)
Definition is_string_type (t : rty) : bool :=
  match t with
  | RString | RVecU8 | RVecU32 | RVecChar | RFixedBytes _ | RArrU8 _ | RArrU32 _ | RArrChar _ | RArrString _ => true
  | _ => false
  end.
Fixpoint accepts (usize_max : N) (dir : direction) (t : rty) (d : dtype) {struct t} : Prop :=
  match t, d with
  | RArray n t', DArray m d' => n = m /\ accepts usize_max dir t' d'
  | RStruct fs, DRecord ds =>
    (fix go (fs : list (text * rty)) (ds : list (text * dtype)) : Prop :=
       match fs, ds with
       | [], [] => True
       | (name, t') :: fs', (name', d') :: ds' => name = name' /\ accepts usize_max dir t' d' /\ go fs' ds'
       | _, _ => False
       end) fs ds
  | _, DPlain ts => scalar_ok dir t (ts_char ts) (ts_size ts) /\ (is_string_type t = true -> ts_size ts <= usize_max)
  | _, _ => False
  end.

(** * Byte layout *)
(** [n] bytes of the number [v], in the order named by a type string. *)
Definition number (e : endianness) (n v : N) : bytes :=
  let least_significant_first := map (fun i => v / 256 ^ i mod 256) (upto n) in
  match e with Big => rev least_significant_first | _ => least_significant_first end.
(** Pad with zeros to a fixed length, if it fits. *)
Definition padded (n : N) (l : list N) : option (list N) :=
  if lenN l <=? n then Some (l ++ repeatN 0 (n - lenN l)) else None.
Definition utf32 (e : endianness) (l : list N) : bytes := flat_map (number e 4) l.
Definition omap {A B} (f : A -> B) (o : option A) : option B := match o with Some a => Some (f a) | None => None end.

(** The bytes of one value; [None] if the value cannot be stored. *)
Fixpoint encode (t : rty) (d : dtype) (v : val) {struct t} : option bytes :=
  match t, d, v with
  | RInt _ w, DPlain s, XInt z => Some (number (ts_endianness s) (int_bytes w) (Z.to_N (z mod 2 ^ (8 * Z.of_N (int_bytes w)))))
  | RFloat w, DPlain s, XFloat b => Some (number (ts_endianness s) (float_bytes w) b)
  | RBool, DPlain _, XBool b => Some [if b then 1 else 0]
  | RComplex w, DPlain s, XComplex re im => Some (number (ts_endianness s) (part_bytes w) re ++ number (ts_endianness s) (part_bytes w) im)
  | RFixedBytes _, DPlain _, XBytes bs => Some bs
  | (RVecU8 | RArrU8 _), DPlain s, XBytes bs =>
    match ts_char s with
    | TByteStr => padded (ts_size s) bs
    | _ => if lenN bs =? ts_size s then Some bs else None
    end
  | (RVecU32 | RArrU32 _), DPlain s, XUnits us =>
    if forallb (fun u => u <? 0x110000) us then omap (utf32 (ts_endianness s)) (padded (ts_size s) us) else None
  | (RVecChar | RArrChar _), DPlain s, XUnits us => omap (utf32 (ts_endianness s)) (padded (ts_size s) us)
  | (RString | RArrString _), DPlain s, XStr str =>
    match ts_char s with
    | TUnicodeStr => omap (utf32 (ts_endianness s)) (padded (ts_size s) str)
    | _ => padded (ts_size s) (utf8_string str)
    end
  | RArray _ t', DArray _ d', XSeq l =>
    (fix go (l : list val) : option bytes :=
       match l with
       | [] => Some []
       | x :: l' => match encode t' d' x, go l' with Some a, Some b => Some (a ++ b) | _, _ => None end
       end) l
  | RStruct fs, DRecord ds, XRec l =>
    (fix go (fs : list (text * rty)) (ds : list (text * dtype)) (l : list val) : option bytes :=
       match fs, ds, l with
       | [], [], [] => Some []
       | (_, t') :: fs', (_, d') :: ds', x :: l' =>
         match encode t' d' x, go fs' ds' l' with Some a, Some b => Some (a ++ b) | _, _ => None end
       | _, _, _ => None
       end) fs ds l
  | _, _, _ => None
  end.

(** * Reading *)
Definition number_of (e : endianness) (bs : bytes) : N :=
  match e with Big => little_endian (rev bs) | _ => little_endian bs end.
(** Two's complement. *)
Definition signed_of (bits : N) (v : N) : Z := if 2 * v <? 2 ^ bits then Z.of_N v else (Z.of_N v - 2 ^ Z.of_N bits)%Z.
(** Consecutive pieces of [n] bytes. *)
Fixpoint pieces (k : nat) (n : N) (bs : bytes) : list bytes :=
  match k with O => [] | S k' => takeN n bs :: pieces k' n (dropN n bs) end.
Definition utf32_units (e : endianness) (m : N) (bs : bytes) : list N := map (number_of e) (pieces (N.to_nat m) 4 bs).
(** Without trailing zeros. *)
Fixpoint drop_zeros (l : list N) : list N := match l with 0 :: l' => drop_zeros l' | _ => l end.
Definition strip (l : list N) : list N := rev (drop_zeros (rev l)).
(** Longest prefix of whole characters taking at most [cap] bytes of UTF-8. *)
Fixpoint fit_chars (cap : N) (s : text) : text :=
  match s with
  | [] => []
  | ch :: s' => if lenN (utf8_octets ch) <=? cap then ch :: fit_chars (cap - lenN (utf8_octets ch)) s' else []
  end.
Fixpoint all_some {A} (l : list (option A)) : option (list A) :=
  match l with
  | [] => Some []
  | x :: l' => match x, all_some l' with Some a, Some r => Some (a :: r) | _, _ => None end
  end.

(** The value of an item's bytes; [None] if they are not a value of the type.  [from_utf8] inverts [utf8] (P_Text.v). *)
Fixpoint decode (t : rty) (d : dtype) (bs : bytes) {struct t} : option val :=
  match t, d with
  | RInt s w, DPlain ts =>
    let v := number_of (ts_endianness ts) bs in
    Some (XInt (if s then signed_of (8 * int_bytes w) v else Z.of_N v))
  | RFloat _, DPlain ts => Some (XFloat (number_of (ts_endianness ts) bs))
  | RBool, DPlain _ => match bs with [0] => Some (XBool false) | [1] => Some (XBool true) | _ => None end
  | RComplex w, DPlain ts =>
    Some (XComplex (number_of (ts_endianness ts) (takeN (part_bytes w) bs)) (number_of (ts_endianness ts) (dropN (part_bytes w) bs)))
  | RFixedBytes _, DPlain _ => Some (XBytes bs)
  | RVecU8, DPlain ts => Some (XBytes (match ts_char ts with TByteStr => strip bs | _ => bs end))
  | RArrU8 cap, DPlain ts =>
    Some (XBytes (match ts_char ts with
                  | TByteStr => strip (takeN cap bs)
                  | _ => bs ++ repeatN 0 (cap - lenN bs)          (* as the code does; see C24 *)
                  end))
  | (RVecU32 | RArrU32 _), DPlain ts =>
    let us := utf32_units (ts_endianness ts) (ts_size ts) bs in
    if forallb (fun u => u <? 0x110000) us
    then Some (XUnits (strip (match t with RArrU32 cap => takeN cap us | _ => us end))) else None
  | (RVecChar | RArrChar _), DPlain ts =>
    let us := utf32_units (ts_endianness ts) (ts_size ts) bs in
    if forallb scalar_value us then Some (XUnits (strip (match t with RArrChar cap => takeN cap us | _ => us end))) else None
  | RString, DPlain ts =>
    match ts_char ts with
    | TUnicodeStr =>
      let us := utf32_units (ts_endianness ts) (ts_size ts) bs in
      if forallb scalar_value us then Some (XStr (strip us)) else None
    | _ => omap XStr (from_utf8 (strip bs))
    end
  | RArrString cap, DPlain _ => omap (fun s => XStr (fit_chars cap s)) (from_utf8 (strip bs))
  | RArray n t', DArray _ d' => omap XSeq (all_some (map (decode t' d') (pieces (N.to_nat n) (size d') bs)))
  | RStruct fs, DRecord ds =>
    omap XRec
      ((fix go (fs : list (text * rty)) (ds : list (text * dtype)) (bs : bytes) : option (list val) :=
          match fs, ds with
          | [], [] => Some []
          | (_, t') :: fs', (_, d') :: ds' =>
            match decode t' d' (takeN (size d') bs), go fs' ds' (dropN (size d') bs) with
            | Some v, Some vs => Some (v :: vs)
            | _, _ => None
            end
          | _, _ => None
          end) fs ds bs)
  | _, _ => None
  end.

(** What reading gives back for a value that was written: strings lose their trailing NULs, everything else is unchanged
    (except raw data read into a longer [ArrayVec], see C24). *)
Fixpoint read_back (t : rty) (d : dtype) (v : val) {struct t} : val :=
  match t, d, v with
  | RVecU8, DPlain s, XBytes bs => match ts_char s with TByteStr => XBytes (strip bs) | _ => v end
  | RArrU8 cap, DPlain s, XBytes bs =>
    match ts_char s with TByteStr => XBytes (strip bs) | _ => XBytes (bs ++ repeatN 0 (cap - lenN bs)) end
  | (RVecU32 | RArrU32 _ | RVecChar | RArrChar _), _, XUnits us => XUnits (strip us)
  | (RString | RArrString _), _, XStr str => XStr (strip str)
  | RArray _ t', DArray _ d', XSeq l => XSeq (map (read_back t' d') l)
  | RStruct fs, DRecord ds, XRec l =>
    XRec ((fix go (fs : list (text * rty)) (ds : list (text * dtype)) (l : list val) : list val :=
             match fs, ds, l with
             | (_, t') :: fs', (_, d') :: ds', x :: l' => read_back t' d' x :: go fs' ds' l'
             | _, _, _ => []
             end) fs ds l)
  | _, _, _ => v
  end.
(** Values that survive unchanged: no string in them ends in NUL, no [ArrayVec] stored as raw data has room left. *)
Definition no_final_zero (l : list N) : Prop := forall l', l <> l' ++ [0].
Fixpoint survives (t : rty) (d : dtype) (v : val) {struct t} : Prop :=
  match t, d, v with
  | RVecU8, DPlain s, XBytes bs => ts_char s = TByteStr -> no_final_zero bs
  | RArrU8 cap, DPlain s, XBytes bs => if match ts_char s with TByteStr => true | _ => false end then no_final_zero bs else lenN bs = cap
  | (RVecU32 | RArrU32 _ | RVecChar | RArrChar _), _, XUnits us => no_final_zero us
  | (RString | RArrString _), _, XStr str => no_final_zero str
  | RArray _ t', DArray _ d', XSeq l => Forall (survives t' d') l
  | RStruct fs, DRecord ds, XRec l =>
    (fix go (fs : list (text * rty)) (ds : list (text * dtype)) (l : list val) : Prop :=
       match fs, ds, l with
       | (_, t') :: fs', (_, d') :: ds', x :: l' => survives t' d' x /\ go fs' ds' l'
       | _, _, _ => True
       end) fs ds l
  | _, _, _ => True
  end.

(** Types made of integers, floats and complex numbers only. *)
Fixpoint numeric (t : rty) : Prop :=
  match t with
  | RInt _ _ | RFloat _ | RComplex _ => True
  | RArray _ t' => numeric t'
  | RStruct fs =>
    (fix go (fs : list (text * rty)) : Prop := match fs with [] => True | (_, t') :: fs' => numeric t' /\ go fs' end) fs
  | _ => False
  end.

(** * Default dtypes *)
(** The types with [AutoSerialize], with capacities and lengths that exist on the machine.  (An [ArrayString] contains its
    bytes, and no Rust type takes more than half of the address space.) *)
Fixpoint has_default (usize_max : N) (t : rty) : Prop :=
  match t with
  | RInt _ _ | RFloat _ | RBool | RComplex _ => True
  | RArrU32 n | RArrChar n => n <= usize_max
  | RArrString n => 2 * n <= usize_max
  | RArray n t' => n <= usize_max /\ has_default usize_max t'
  | RStruct fs =>
    (fix go (fs : list (text * rty)) : Prop :=
       match fs with
       | [] => True
       | (name, t') :: fs' => Forall (fun ch => scalar_value ch = true) name /\ has_default usize_max t' /\ go fs'
       end) fs
  | _ => False
  end.
(** All byte orders in the dtype are [e] or not applicable. *)
Inductive all_orders (e : endianness) : dtype -> Prop :=
| ao_plain t : ts_endianness t = e \/ ts_endianness t = Irrelevant -> all_orders e (DPlain t)
| ao_array n d : all_orders e d -> all_orders e (DArray n d)
| ao_record fs : Forall (fun f => all_orders e (snd f)) fs -> all_orders e (DRecord fs).
(** No number in the value is too big for a code point (the only values of these types that cannot be stored). *)
Fixpoint units_ok (v : val) : Prop :=
  match v with
  | XUnits us => Forall (fun u => u < 0x110000) us
  | XSeq l | XRec l => (fix go (l : list val) : Prop := match l with [] => True | x :: l' => units_ok x /\ go l' end) l
  | _ => True
  end.
