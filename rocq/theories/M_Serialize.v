(** src/serialize/*.rs and derive/src/lib.rs: reading and writing single items. *)
From Verif Require Import M_Base M_Text M_TypeStr M_PyLit M_IO M_Header.
Open Scope N_scope.

(** The Rust types implementing [Serialize]/[Deserialize].  References, boxes, [Rc], [Arc], [Cow] and the [dyn] wrappers
    forward to the type they point to (src/serialize/traits.rs:146-191,311-376) and are not distinguished from it;
    [[u8]]/[Vec<u8>], [[u32]]/[Vec<u32>], [[char]]/[Vec<char>], [str]/[String] likewise (src/serialize/slice.rs:789-810).
    Simplification: [[T; N]] is allowed for every [T]; Rust additionally demands [T: Copy + Default] for reading. *)
Inductive width := W1 | W2 | W4 | W8.
Definition wbytes (w : width) : N := match w with W1 => 1 | W2 => 2 | W4 => 4 | W8 => 8 end.
Inductive fwidth := F2 | F4 | F8.
Definition fbytes (w : fwidth) : N := match w with F2 => 2 | F4 => 4 | F8 => 8 end.
Inductive cwidth := X4 | X8.
Definition cbytes (w : cwidth) : N := match w with X4 => 4 | X8 => 8 end.

Inductive rty :=
| RInt (signed : bool) (w : width)      (* i8..i64, u8..u64 *)
| RFloat (w : fwidth)                   (* half::f16, f32, f64 *)
| RBool
| RComplex (w : cwidth)                 (* num_complex::Complex<f32>, Complex<f64> *)
| RVecU8                                (* Vec<u8> *)
| RFixedBytes (n : N)                   (* FixedSizeBytes<N> *)
| RArrU8 (n : N)                        (* ArrayVec<u8, N> *)
| RVecU32                               (* Vec<u32> *)
| RVecChar                              (* Vec<char> *)
| RString                               (* String *)
| RArrU32 (n : N)                       (* ArrayVec<u32, N> *)
| RArrChar (n : N)                      (* ArrayVec<char, N> *)
| RArrString (n : N)                    (* ArrayString<N> *)
| RArray (n : N) (inner : rty)          (* [T; N] *)
| RStruct (fields : list (text * rty)). (* a struct deriving the traits *)

(** Rust values of these types. *)
Inductive val :=
| XInt (z : Z)
| XFloat (bits : N)
| XBool (b : bool)
| XComplex (re im : N)
| XBytes (bs : list N)
| XUnits (us : list N)      (* sequences of u32 or of char *)
| XStr (s : text)
| XSeq (l : list val)
| XRec (l : list val).      (* fields in declaration order *)

(** [std::any::type_name] of the types an error can name (traits.rs:242, mod.rs:32), as rustc prints them; std promises no particular
    text.  Arrays and structs are never named. *)
Definition type_name (t : rty) : text :=
  match t with
  | RInt true w => lit "i" ++ dec (8 * wbytes w)
  | RInt false w => lit "u" ++ dec (8 * wbytes w)
  | RFloat F2 => lit "half::binary16::f16"
  | RFloat F4 => lit "f32"
  | RFloat F8 => lit "f64"
  | RBool => lit "bool"
  | RComplex w => lit "num_complex::Complex<f" ++ dec (8 * cbytes w) ++ lit ">"
  | RVecU8 => lit "alloc::vec::Vec<u8>"
  | RFixedBytes n => lit "npyz::serialize::slice::fixed_size::FixedSizeBytes<" ++ dec n ++ lit ">"
  | RArrU8 n => lit "arrayvec::arrayvec::ArrayVec<u8, " ++ dec n ++ lit ">"
  | RVecU32 => lit "alloc::vec::Vec<u32>"
  | RVecChar => lit "alloc::vec::Vec<char>"
  | RString => lit "alloc::string::String"
  | RArrU32 n => lit "arrayvec::arrayvec::ArrayVec<u32, " ++ dec n ++ lit ">"
  | RArrChar n => lit "arrayvec::arrayvec::ArrayVec<char, " ++ dec n ++ lit ">"
  | RArrString n => lit "arrayvec::array_string::ArrayString<" ++ dec n ++ lit ">"
  | RArray _ _ | RStruct _ => []
  end.
(** [verb] and [Self] of a call: readers name their own type, writers the type the call is forwarded to (slice.rs:69-76,706-742,789-810). *)
Record site := { s_verb : text; s_type : text }.
Definition reading (t : rty) : site := {| s_verb := lit "read"; s_type := type_name t |}.
Definition writing (t : rty) : site :=
  {| s_verb := lit "write";
     s_type := match t with
       | RVecU8 => lit "[u8]"
       | RVecU32 | RArrU32 _ => lit "[u32]"
       | RVecChar | RArrChar _ => lit "[char]"
       | RString | RArrString _ => lit "str"
       | _ => type_name t
       end |}.

(** src/serialize/traits.rs:201-229 (ErrorKind).  Where the code keeps the text of a dtype the model keeps the dtype.  [Custom], which only
    implementations outside the crate use, is left out. *)
Inductive dterr :=
| ExpectedScalar (d : dtype) (rust_type : text)
| ExpectedArray (got : text)
| WrongArrayLen (expected actual : N)
| ExpectedRecord (d : dtype)
| WrongFields (expected actual : list text)
| BadScalar (t : type_str) (rust_type verb : text)
| UsizeOverflow (n : N)
| RequiresPickle.
Inductive dres (A : Type) := DOk (a : A) | DErr (e : dterr).
Arguments DOk {A}. Arguments DErr {A}.
Definition dbind {A B} (m : dres A) (k : A -> dres B) : dres B :=
  match m with DOk a => k a | DErr e => DErr e end.
Notation "'let?' x ':=' e 'in' k" := (dbind e (fun x => k))
  (at level 200, x name, e at level 100, k at level 200, right associativity).

(** src/serialize/mod.rs:29-33 *)
Definition expect_scalar_dtype (s : site) (d : dtype) : dres type_str :=
  match as_scalar d with Some t => DOk t | None => DErr (ExpectedScalar d (s_type s)) end.

(** src/serialize/traits.rs:240-244 *)
Definition bad_scalar (s : site) (t : type_str) : dterr := BadScalar t (s_type s) (s_verb s).

(** src/serialize/slice.rs:770-772 *)
Definition size_field_as_usize (c : cfg) (t : type_str) : dres N :=
  match usize_try_from c (ts_size t) with Some n => DOk n | None => DErr (UsizeOverflow (ts_size t)) end.

(** Scalar readers and writers of src/serialize/primitive.rs. *)
Inductive prim := PInt (signed : bool) (w : width) | PFloat (w : fwidth) | PBool.

(** The [TypeReader] types. *)
Inductive treader :=
| RdPrim (p : prim) (swap : bool)                    (* PrimitiveReader, primitive.rs:97-100 *)
| RdComplex (w : cwidth) (swap : bool)               (* ComplexReader, primitive.rs:147 *)
| RdBytes (size : N) (is_byte_str : bool)            (* BytesReader, slice.rs:16-18 *)
| RdArrBytes (cap size : N) (is_byte_str : bool)     (* ArrayVecBytesReader, slice.rs:81-83 *)
| RdFixed (n : N)                                    (* FixedSizeBytesReader, slice.rs:217 *)
| RdU32s (size : N) (swap : bool)                    (* Utf32WithSurrogatesReader, slice.rs:277-280 *)
| RdChars (size : N) (swap : bool)                   (* Utf32Reader, slice.rs:283-286 *)
| RdStr32 (size : N) (swap : bool)                   (* StringReader::Utf32, slice.rs:303-306 *)
| RdStr8 (size : N)                                  (* StringReader::Utf8, slice.rs:309-311 *)
| RdArrU32 (cap size : N) (swap : bool)              (* Utf32WithSurrogatesArrayVecReader, slice.rs:290-293 *)
| RdArrChar (cap size : N) (swap : bool)             (* Utf32ArrayVecReader, slice.rs:297-300 *)
| RdArrStr (cap size : N)                            (* Utf8ArrayStringReader, slice.rs:315-317 *)
| RdArray (n : N) (inner : treader)                  (* ArrayReader, array_member.rs:26 *)
| RdStruct (l : list treader).                       (* GeneratedReader, derive/src/lib.rs:143-149 *)

(** The [TypeWriter] types. *)
Inductive twriter :=
| WrPrim (p : prim) (swap : bool)                    (* PrimitiveWriter, primitive.rs:104-107 *)
| WrComplex (w : cwidth) (swap : bool)               (* ComplexWriter, primitive.rs:150 *)
| WrBytes (ts : type_str) (size : N) (is_byte_str : bool)  (* BytesWriter and ArrayVecBytesWriter, slice.rs:45-47,118-120 *)
| WrFixed (n : N)                                    (* FixedSizeBytesWriter, slice.rs:244 *)
| WrU32s (ts : type_str) (size : N) (swap : bool)    (* Utf32WithSurrogatesWriter, slice.rs:586-590 *)
| WrChars (ts : type_str) (size : N) (swap : bool)   (* Utf32Writer, slice.rs:593-597 *)
| WrStr32 (ts : type_str) (size : N) (swap : bool)   (* StrWriter::Utf32, slice.rs:600-604 *)
| WrStr8 (ts : type_str) (size : N)                  (* StrWriter::Utf8, slice.rs:607-610 *)
| WrArray (n : N) (inner : twriter)                  (* ArrayWriter, array_member.rs:27 *)
| WrStruct (l : list twriter).                       (* GeneratedWriter, derive/src/lib.rs:92-98 *)

(** primitive.rs:109-125 *)
Definition swap_for (c : cfg) (t : type_str) : bool := requires_swap (ts_endianness t) (of_machine c).

(** primitive.rs:176-249: which type strings a primitive supports. *)
Definition prim_supports (p : prim) (t : type_str) : bool :=
  match p with
  | PInt true W8 => (ts_size t =? 8) && match ts_char t with TInt | TTimeDelta | TDateTime => true | _ => false end
  | PInt true w => (ts_size t =? wbytes w) && match ts_char t with TInt => true | _ => false end
  | PInt false w => (ts_size t =? wbytes w) && match ts_char t with TUint => true | _ => false end
  | PFloat w => (ts_size t =? fbytes w) && match ts_char t with TFloat => true | _ => false end
  | PBool => (ts_size t =? 1) && match ts_char t with TBool => true | _ => false end
  end.

(** primitive.rs:184-195 and 201-209: same condition for reading and writing *)
Definition prim_swap (s : site) (c : cfg) (p : prim) (d : dtype) : dres bool :=
  let? t := expect_scalar_dtype s d in
  if prim_supports p t then DOk (swap_for c t) else DErr (bad_scalar s t).

(** primitive.rs:258-267 and 275-284 *)
Definition complex_swap (s : site) (c : cfg) (w : cwidth) (d : dtype) : dres bool :=
  let? t := expect_scalar_dtype s d in
  if (ts_size t =? 2 * cbytes w) && match ts_char t with TComplex => true | _ => false end
  then DOk (swap_for c t) else DErr (bad_scalar s t).

(** slice.rs:142-152: size and is_byte_str *)
Definition check_byte_vec_dtype (s : site) (c : cfg) (d : dtype) : dres (N * bool * type_str) :=
  let? t := expect_scalar_dtype s d in
  let? size := size_field_as_usize c t in
  match ts_char t with
  | TByteStr => DOk (size, true, t)
  | TRawData => DOk (size, false, t)
  | _ => DErr (bad_scalar s t)
  end.

(** slice.rs:155-162 *)
Definition check_array_byte_vec_dtype (s : site) (c : cfg) (n : N) (d : dtype) : dres (N * bool * type_str) :=
  let? info := check_byte_vec_dtype s c d in
  let '(size, is_bs, t) := info in
  if negb is_bs && (n <? size) then DErr (bad_scalar s t) else DOk info.

(** slice.rs:232-239 and 257-264 *)
Definition check_fixed_bytes (s : site) (c : cfg) (n : N) (d : dtype) : dres unit :=
  let? t := expect_scalar_dtype s d in
  let? size := size_field_as_usize c t in
  match ts_char t with
  | TRawData => if size =? n then DOk tt else DErr (bad_scalar s t)
  | _ => DErr (bad_scalar s t)
  end.

(** slice.rs:489-498, 504-513, 709-719, 725-735: type code first, then size *)
Definition check_unicode (s : site) (c : cfg) (d : dtype) : dres (N * bool * type_str) :=
  let? t := expect_scalar_dtype s d in
  match ts_char t with
  | TUnicodeStr => let? n := size_field_as_usize c t in DOk (n, swap_for c t, t)
  | _ => DErr (bad_scalar s t)
  end.

(** slice.rs:537-547, 555-565: size first, then type code *)
Definition check_unicode_arr (s : site) (c : cfg) (d : dtype) : dres (N * bool) :=
  let? t := expect_scalar_dtype s d in
  let? n := size_field_as_usize c t in
  match ts_char t with
  | TUnicodeStr => DOk (n, swap_for c t)
  | _ => DErr (bad_scalar s t)
  end.

(** slice.rs:456-469: [None] means "not a byte string" *)
Definition utf8_try_from_dtype (c : cfg) (d : dtype) : option (dres N) :=
  match check_byte_vec_dtype (reading RVecU8) c d with
  | DErr (UsizeOverflow n) => Some (DErr (UsizeOverflow n))
  | DErr _ => None
  | DOk (size, is_bs, _) => if is_bs then Some (DOk size) else None
  end.

(** slice.rs:471-484; the error of [expect_scalar_dtype] is dropped *)
Definition utf32_try_from_dtype (c : cfg) (d : dtype) : option (dres (N * bool)) :=
  match as_scalar d with
  | None => None
  | Some t =>
    match ts_char t with
    | TUnicodeStr =>
      match size_field_as_usize c t with
      | DErr e => Some (DErr e)
      | DOk n => Some (DOk (n, swap_for c t))
      end
    | _ => None
    end
  end.

(** slice.rs:519-529 *)
Definition string_reader (c : cfg) (d : dtype) : dres treader :=
  match utf32_try_from_dtype c d with
  | Some r => let? p := r in DOk (RdStr32 (fst p) (snd p))
  | None =>
    match utf8_try_from_dtype c d with
    | Some r => let? size := r in DOk (RdStr8 size)
    | None => let? t := expect_scalar_dtype (reading RString) d in DErr (bad_scalar (reading RString) t)
    end
  end.

(** slice.rs:573-581 *)
Definition array_string_reader (c : cfg) (n : N) (d : dtype) : dres treader :=
  match utf8_try_from_dtype c d with
  | Some r => let? size := r in DOk (RdArrStr n size)
  | None => let? t := expect_scalar_dtype (reading (RArrString n)) d in DErr (bad_scalar (reading (RArrString n)) t)
  end.

(** slice.rs:741-757 *)
Definition str_writer (s : site) (c : cfg) (d : dtype) : dres twriter :=
  let? t := expect_scalar_dtype s d in
  match ts_char t with
  | TUnicodeStr => let? n := size_field_as_usize c t in DOk (WrStr32 t n (swap_for c t))
  | TByteStr => let? n := size_field_as_usize c t in DOk (WrStr8 t n)
  | _ => DErr (bad_scalar s t)
  end.

(** array_member.rs:8-23 *)
Definition array_inner_dtype (d : dtype) (expected_len : N) : dres dtype :=
  match d with
  | DArray len ty => if len =? expected_len then DOk ty else DErr (WrongArrayLen expected_len len)
  | DRecord _ => DErr (ExpectedArray (lit "a record"))
  | DPlain _ => DErr (ExpectedArray (lit "a scalar"))
  end.

Fixpoint eqb_texts (a b : list text) : bool :=
  match a, b with
  | [], [] => true
  | x :: a', y :: b' => eqb_list x y && eqb_texts a' b'
  | _, _ => false
  end.

(** derive/src/lib.rs:212-236: the dtypes of the fields, in order.  The arguments of [wrong_fields] are passed in the
    order in which the source passes them (the record's names where the constructor expects the struct's). *)
Definition extract_field_dtypes (names : list text) (d : dtype) : dres (list dtype) :=
  match d with
  | DRecord fields =>
    if eqb_texts (map fst fields) names
    then DOk (map snd fields)
    else DErr (WrongFields (map fst fields) names)
  | _ => DErr (ExpectedRecord d)
  end.

(** [Deserialize::reader] *)
Fixpoint reader (c : cfg) (t : rty) (d : dtype) {struct t} : dres treader :=
  match t with
  | RInt s w => let? sw := prim_swap (reading t) c (PInt s w) d in DOk (RdPrim (PInt s w) sw)
  | RFloat w => let? sw := prim_swap (reading t) c (PFloat w) d in DOk (RdPrim (PFloat w) sw)
  | RBool => let? sw := prim_swap (reading t) c PBool d in DOk (RdPrim PBool sw)
  | RComplex w => let? sw := complex_swap (reading t) c w d in DOk (RdComplex w sw)
  | RVecU8 => let? i := check_byte_vec_dtype (reading t) c d in DOk (RdBytes (fst (fst i)) (snd (fst i)))        (* slice.rs:38-41 *)
  | RFixedBytes n => let? _u := check_fixed_bytes (reading t) c n d in DOk (RdFixed n)
  | RArrU8 n => let? i := check_array_byte_vec_dtype (reading t) c n d in DOk (RdArrBytes n (fst (fst i)) (snd (fst i)))  (* slice.rs:110-113 *)
  | RVecU32 => let? p := check_unicode (reading t) c d in DOk (RdU32s (fst (fst p)) (snd (fst p)))
  | RVecChar => let? p := check_unicode (reading t) c d in DOk (RdChars (fst (fst p)) (snd (fst p)))
  | RString => string_reader c d
  | RArrU32 n => let? p := check_unicode_arr (reading t) c d in DOk (RdArrU32 n (fst p) (snd p))
  | RArrChar n => let? p := check_unicode_arr (reading t) c d in DOk (RdArrChar n (fst p) (snd p))
  | RArrString n => array_string_reader c n d
  | RArray n inner =>                                        (* array_member.rs:72-76 *)
    let? ty := array_inner_dtype d n in
    let? r := reader c inner ty in DOk (RdArray n r)
  | RStruct fields =>                                        (* derive/src/lib.rs:169-176 *)
    let? dts := extract_field_dtypes (map fst fields) d in
    let? rs :=
      (fix go (fs : list (text * rty)) (dts : list dtype) : dres (list treader) :=
         match fs, dts with
         | (_, t) :: fs', d :: dts' => let? r := reader c t d in let? rs := go fs' dts' in DOk (r :: rs)
         | _, _ => DOk []
         end) fields dts in
    DOk (RdStruct rs)
  end.

(** [Serialize::writer] *)
Fixpoint writer (c : cfg) (t : rty) (d : dtype) {struct t} : dres twriter :=
  match t with
  | RInt s w => let? sw := prim_swap (writing t) c (PInt s w) d in DOk (WrPrim (PInt s w) sw)
  | RFloat w => let? sw := prim_swap (writing t) c (PFloat w) d in DOk (WrPrim (PFloat w) sw)
  | RBool => let? sw := prim_swap (writing t) c PBool d in DOk (WrPrim PBool sw)
  | RComplex w => let? sw := complex_swap (writing t) c w d in DOk (WrComplex w sw)
  | RVecU8 => let? i := check_byte_vec_dtype (writing t) c d in DOk (WrBytes (snd i) (fst (fst i)) (snd (fst i)))        (* slice.rs:72-75 *)
  | RFixedBytes n => let? _u := check_fixed_bytes (writing t) c n d in DOk (WrFixed n)
  | RArrU8 n => let? i := check_array_byte_vec_dtype (writing t) c n d in DOk (WrBytes (snd i) (fst (fst i)) (snd (fst i)))  (* slice.rs:136-139 *)
  | RVecU32 | RArrU32 _ => let? p := check_unicode (writing t) c d in DOk (WrU32s (snd p) (fst (fst p)) (snd (fst p)))
  | RVecChar | RArrChar _ => let? p := check_unicode (writing t) c d in DOk (WrChars (snd p) (fst (fst p)) (snd (fst p)))
  | RString | RArrString _ => str_writer (writing t) c d
  | RArray n inner =>                                        (* array_member.rs:83-86 *)
    let? ty := array_inner_dtype d n in
    let? w := writer c inner ty in DOk (WrArray n w)
  | RStruct fields =>                                        (* derive/src/lib.rs:118-125 *)
    let? dts := extract_field_dtypes (map fst fields) d in
    let? ws :=
      (fix go (fs : list (text * rty)) (dts : list dtype) : dres (list twriter) :=
         match fs, dts with
         | (_, t) :: fs', d :: dts' => let? w := writer c t d in let? ws := go fs' dts' in DOk (w :: ws)
         | _, _ => DOk []
         end) fields dts in
    DOk (WrStruct ws)
  end.

(** Integer bit patterns as bytes in memory: [from_ne_bytes], [to_ne_bytes], [swap_bytes]. *)
Definition from_ne_bytes (c : cfg) (bs : bytes) : N := if c_big c then le_value (rev bs) else le_value bs.
Definition to_ne_bytes (c : cfg) (n : nat) (v : N) : bytes := if c_big c then rev (le_bytes n v) else le_bytes n v.
Definition swap_bytes (n : nat) (v : N) : N := le_value (rev (le_bytes n v)).
(** Two's complement of width [w]. *)
Definition to_bits (w : width) (z : Z) : N := Z.to_N (z mod 2 ^ (8 * Z.of_N (wbytes w)))%Z.
Definition of_bits (signed : bool) (w : width) (b : N) : Z :=
  if signed && (2 ^ (8 * wbytes w - 1) <=? b)
  then (Z.of_N b - 2 ^ (8 * Z.of_N (wbytes w)))%Z
  else Z.of_N b.

(** primitive.rs:28-39: an unsigned pattern of [n] bytes *)
Definition read_bits (c : cfg) (n : N) (swap : bool) : rprog N :=
  let! buf := read_exact n in
  RRet (let out := from_ne_bytes c buf in if swap then swap_bytes (N.to_nat n) out else out).

(** primitive.rs:42-51 *)
Definition write_bits (c : cfg) (n : N) (swap : bool) (v : N) : bytes :=
  to_ne_bytes c (N.to_nat n) (if swap then swap_bytes (N.to_nat n) v else v).

(** primitive.rs:28-39, 60-63, 81-88, 131-133 *)
Definition read_prim (c : cfg) (p : prim) (swap : bool) : rprog val :=
  match p with
  | PInt s w => let! b := read_bits c (wbytes w) swap in RRet (XInt (of_bits s w b))
  | PFloat w => let! b := read_bits c (fbytes w) swap in RRet (XFloat b)
  | PBool =>
    let! buf := read_exact 1 in
    let b := nth 0 buf 0 in
    if 2 <=? b then RErr (EData (lit "invalid value for bool: " ++ dec b)) else RRet (XBool (negb (b =? 0)))
  end.

(** slice.rs:774-777 (also 780-783 and 380-382) *)
Fixpoint truncate_trailing_nuls (l : list N) : list N :=
  match l with
  | [] => []
  | x :: l' =>
    match truncate_trailing_nuls l' with
    | [] => if x =? 0 then [] else [x]
    | r => x :: r
    end
  end.

(** slice.rs:766 *)
Definition out_of_range (u : N) : err := EData (lit "codepoint 0x" ++ hex u ++ lit " is out of range").
(** slice.rs:324-331 and 762-768 *)
Definition read_codepoint (c : cfg) (swap : bool) : rprog N :=
  let! u := read_bits c 4 swap in
  if u <? 0x110000 then RRet u else RErr (out_of_range u).
(** slice.rs:333-342 *)
Definition read_char (c : cfg) (swap : bool) : rprog N :=
  let! u := read_bits c 4 swap in
  if is_scalar u then RRet u else RErr (EData (lit "invalid UTF-32 code unit: " ++ hex u)).

(** slice.rs:449-451: drop whole characters from the end until the UTF-8 length fits.  Written on the reversed string. *)
Fixpoint pop_until (cap : N) (rs : text) : text :=
  match rs with
  | [] => []
  | _ :: rs' => if cap <? lenN (utf8 (rev rs)) then pop_until cap rs' else rs
  end.

(** [TypeRead::read_one] *)
Fixpoint read_one (c : cfg) (r : treader) {struct r} : rprog val :=
  match r with
  | RdPrim p swap => read_prim c p swap
  | RdComplex w swap =>                                          (* primitive.rs:157-161 *)
    let! re := read_bits c (cbytes w) swap in
    let! im := read_bits c (cbytes w) swap in
    RRet (XComplex re im)
  | RdBytes size is_bs =>                                        (* slice.rs:23-32 *)
    let! v := read_vec c size in
    RRet (XBytes (if is_bs then truncate_trailing_nuls v else v))
  | RdArrBytes cap size is_bs =>                                 (* slice.rs:89-102 *)
    let! b := read_exact (N.min cap size) in
    let! _u := (if cap <? size then read_vec c (size - cap) else RRet []) in
    let buffer := b ++ repeatN 0 (cap - lenN b) in
    RRet (XBytes (if is_bs then truncate_trailing_nuls buffer else buffer))
  | RdFixed n => let! a := read_exact n in RRet (XBytes a)       (* slice.rs:222-226 *)
  | RdU32s size swap =>                                          (* slice.rs:347-355 *)
    let! v := rreplicate (N.to_nat size) (read_codepoint c swap) in
    RRet (XUnits (truncate_trailing_nuls v))
  | RdChars size swap =>                                         (* slice.rs:361-369 *)
    let! v := rreplicate (N.to_nat size) (read_char c swap) in
    RRet (XUnits (truncate_trailing_nuls v))
  | RdStr32 size swap =>                                         (* slice.rs:375-384 *)
    let! v := rreplicate (N.to_nat size) (read_char c swap) in
    RRet (XStr (truncate_trailing_nuls v))
  | RdStr8 size =>                                               (* slice.rs:424-429 *)
    let! v := read_vec c size in
    match from_utf8 (truncate_trailing_nuls v) with
    | Some s => RRet (XStr s)
    | None => RErr (EData (lit "invalid utf-8: "))
    end
  | RdArrU32 cap size swap =>                                    (* slice.rs:391-401 *)
    let! v := rreplicate (N.to_nat (N.min size cap)) (read_codepoint c swap) in
    let! _u := rreplicate (N.to_nat (size - cap)) (read_codepoint c swap) in
    RRet (XUnits (truncate_trailing_nuls v))
  | RdArrChar cap size swap =>                                   (* slice.rs:408-418 *)
    let! v := rreplicate (N.to_nat (N.min size cap)) (read_char c swap) in
    let! _u := rreplicate (N.to_nat (size - cap)) (read_char c swap) in
    RRet (XUnits (truncate_trailing_nuls v))
  | RdArrStr cap size =>                                         (* slice.rs:447-453 *)
    let! v := read_vec c size in
    match from_utf8 (truncate_trailing_nuls v) with
    | Some s => RRet (XStr (rev (pop_until cap (rev s))))
    | None => RErr (EData (lit "invalid utf-8: "))
    end
  | RdArray n inner =>                                           (* array_member.rs:35-42 *)
    let! l := rreplicate (N.to_nat n) (read_one c inner) in RRet (XSeq l)
  | RdStruct rs =>                                               (* derive/src/lib.rs:157-163 *)
    let! l :=
      (fix go (rs : list treader) : rprog (list val) :=
         match rs with
         | [] => RRet []
         | r :: rs' => let! x := read_one c r in let! xs := go rs' in RRet (x :: xs)
         end) rs in
    RRet (XRec l)
  end.

(** Output of a writer on a stream that accepts everything: the bytes it emits and how it ends. *)
Definition wout := (bytes * res unit)%type.
Definition wemit (bs : bytes) : wout := (bs, Ok tt).
Definition wfail (e : err) : wout := ([], Err e).
Definition wbad : wout := ([], Panic).            (* value of the wrong type: excluded by Rust's typing *)
Definition wseq (a b : wout) : wout :=
  match a with
  | (bs, Ok _) => (bs ++ fst b, snd b)
  | _ => a
  end.

(** [w.write_all(&vec![0; n])] *)
Definition wzeros (c : cfg) (n : N) : wout := if isize_max c <? n then ([], Panic) else wemit (repeatN 0 n).

(** slice.rs:626-632, 645-651: one unit after another; [check] may reject a unit after its predecessors were written *)
Fixpoint write_units (c : cfg) (swap : bool) (check : N -> bool) (l : list N) : wout :=
  match l with
  | [] => wemit []
  | u :: l' =>
    if check u then wseq (wemit (write_bits c 4 swap u)) (write_units c swap check l')
    else wfail (out_of_range u)
  end.
(** slice.rs:785-787; [len] is the length of the slice *)
Definition bad_length (len : N) (ts : type_str) : err :=
  EData (lit "bad item length " ++ dec len ++ lit " for type-string '" ++ type_str_display ts ++ lit "'").
(** slice.rs:663-666 and 682-685; [chars] is the number of characters of the string *)
Definition too_many_units (chars : N) (ts : type_str) : err :=
  EData (lit "string has too many code units (" ++ dec chars ++ lit ") for type-string '" ++ type_str_display ts ++ lit "'").
(** slice.rs:660-672: [room] units may still be written; [e] is the error when there is no more room *)
Fixpoint write_str32 (c : cfg) (swap : bool) (e : err) (l : text) (room : N) : wout :=
  match l with
  | [] => write_units c swap (fun _ => true) (repeatN 0 room)
  | u :: l' =>
    if room =? 0 then wfail e
    else wseq (wemit (write_bits c 4 swap u)) (write_str32 c swap e l' (room - 1))
  end.

(** [TypeWrite::write_one] *)
Fixpoint write_one (c : cfg) (w : twriter) (v : val) {struct w} : wout :=
  match w with
  | WrPrim p swap =>
    match p, v with
    | PInt s wd, XInt z => wemit (write_bits c (wbytes wd) swap (to_bits wd z))     (* primitive.rs:42-51 *)
    | PFloat wd, XFloat b => wemit (write_bits c (fbytes wd) swap b)               (* primitive.rs:66-68 *)
    | PBool, XBool b => wemit [if b then 1 else 0]                                (* primitive.rs:90-92 *)
    | _, _ => wbad
    end
  | WrComplex wd swap =>                                                          (* primitive.rs:169-173 *)
    match v with
    | XComplex re im => wseq (wemit (write_bits c (cbytes wd) swap re)) (wemit (write_bits c (cbytes wd) swap im))
    | _ => wbad
    end
  | WrBytes ts size is_bs =>                                                      (* slice.rs:52-66 *)
    match v with
    | XBytes bs =>
      if (size <? lenN bs) || ((lenN bs <? size) && negb is_bs) then wfail (bad_length (lenN bs) ts)
      else wseq (wemit bs) (if is_bs then wzeros c (size - lenN bs) else wemit [])
    | _ => wbad
    end
  | WrFixed _ => match v with XBytes bs => wemit bs | _ => wbad end               (* slice.rs:249-251 *)
  | WrU32s ts size swap =>                                                        (* slice.rs:621-634 *)
    match v with
    | XUnits us =>
      if size <? lenN us then wfail (bad_length (lenN us) ts)
      else wseq (write_units c swap (fun u => u <? 0x110000) us)
                (write_units c swap (fun _ => true) (repeatN 0 (size - lenN us)))
    | _ => wbad
    end
  | WrChars ts size swap =>                                                       (* slice.rs:640-652 *)
    match v with
    | XUnits us =>
      if size <? lenN us then wfail (bad_length (lenN us) ts)
      else wseq (write_units c swap (fun _ => true) us)
                (write_units c swap (fun _ => true) (repeatN 0 (size - lenN us)))
    | _ => wbad
    end
  | WrStr32 ts size swap =>                                                       (* slice.rs:658-674 *)
    match v with XStr s => write_str32 c swap (too_many_units (lenN s) ts) s size | _ => wbad end
  | WrStr8 ts size =>                                                             (* slice.rs:680-692 *)
    match v with
    | XStr s =>
      if size <? lenN (utf8 s) then wfail (too_many_units (lenN s) ts)
      else wseq (wemit (utf8 s))
                (if lenN (utf8 s) <? size then wzeros c (size - lenN (utf8 s)) else wemit [])
    | _ => wbad
    end
  | WrArray n inner =>                                                            (* array_member.rs:51-58 *)
    match v with
    | XSeq l => fold_right (fun x rest => wseq (write_one c inner x) rest) (wemit []) l
    | _ => wbad
    end
  | WrStruct ws =>                                                                (* derive/src/lib.rs:106-112 *)
    match v with
    | XRec l =>
      (fix go (ws : list twriter) (l : list val) : wout :=
         match ws, l with
         | [], [] => wemit []
         | w :: ws', x :: l' => wseq (write_one c w x) (go ws' l')
         | _, _ => wbad
         end) ws l
    | _ => wbad
    end
  end.

(** [AutoSerialize::default_dtype]; [None] for types without it, [Some Panic] if the [unwrap] inside
    [TypeStr::with_auto_endianness] fails. *)
Definition auto_scalar (c : cfg) (t : type_char) (size : N) : option (res dtype) :=
  Some match with_auto_endianness c t size None with TsOk ts => Ok (DPlain ts) | _ => Panic end.
Fixpoint default_dtype (c : cfg) (t : rty) : option (res dtype) :=
  match t with
  | RInt true w => auto_scalar c TInt (wbytes w)               (* primitive.rs:212-216 *)
  | RInt false w => auto_scalar c TUint (wbytes w)
  | RFloat w => auto_scalar c TFloat (fbytes w)
  | RBool => auto_scalar c TBool 1
  | RComplex w => auto_scalar c TComplex (2 * cbytes w)        (* primitive.rs:289-293 *)
  | RVecU8 | RFixedBytes _ | RArrU8 _ | RVecU32 | RVecChar | RString => None
  | RArrU32 n | RArrChar n => auto_scalar c TUnicodeStr n      (* slice.rs:813-826 *)
  | RArrString n => auto_scalar c TByteStr n                   (* slice.rs:829-834 *)
  | RArray n inner =>                                          (* array_member.rs:61-66 *)
    match default_dtype c inner with
    | Some r => Some (let* d := r in Ok (DArray n d))
    | None => None
    end
  | RStruct fields =>                                          (* derive/src/lib.rs:189-196 *)
    match
      (fix go (fs : list (text * rty)) : option (res (list (text * dtype))) :=
         match fs with
         | [] => Some (Ok [])
         | (name, t) :: fs' =>
           match default_dtype c t, go fs' with
           | Some r, Some rs => Some (let* d := r in let* ds := rs in Ok ((name, d) :: ds))
           | _, _ => None
           end
         end) fields
    with
    | Some r => Some (let* fs := r in Ok (DRecord fs))
    | None => None
    end
  end.
