(** Basic vocabulary of the model: numbers, byte and text lists, results, build configuration. *)
From Coq Require Export NArith ZArith List Bool String Ascii.
Export ListNotations.
Open Scope N_scope.

(** Rust's [u8], [char], [u32], [u64], [usize] are [N]; a [&str] is the list of its
    Unicode scalar values; a [&[u8]] is the list of its bytes. *)
Notation byte := N (only parsing).
Definition bytes := list N.
Definition text := list N.

(** A string literal as a list of character codes.  Used both for Rust [b"..."] byte strings and for
    ASCII [&str] literals. *)
Fixpoint lit (s : string) : list N :=
  match s with
  | EmptyString => []
  | String a r => N_of_ascii a :: lit r
  end.

(** One character code from a one-character literal. *)
Definition chr (s : string) : N :=
  match s with
  | EmptyString => 0
  | String a _ => N_of_ascii a
  end.

Definition is_surrogate (c : N) : bool := (0xD800 <=? c) && (c <=? 0xDFFF).
Definition is_scalar (c : N) : bool := (c <? 0x110000) && negb (is_surrogate c).

(** Lists with [N] lengths. *)
Definition lenN {A} (l : list A) : N := N.of_nat (List.length l).
Definition takeN {A} (n : N) (l : list A) : list A := firstn (N.to_nat n) l.
Definition dropN {A} (n : N) (l : list A) : list A := skipn (N.to_nat n) l.
Definition repeatN {A} (x : A) (n : N) : list A := repeat x (N.to_nat n).

Fixpoint eqb_list (a b : list N) : bool :=
  match a, b with
  | [], [] => true
  | x :: a', y :: b' => (x =? y) && eqb_list a' b'
  | _, _ => false
  end.

(** Errors, by [std::io::ErrorKind]; data errors with their message.  (Parts of messages that come from the [py_literal] parser or
    from Rust's name of a type are left out; where that happens the definition says so.) *)
Inductive err :=
| EData (msg : text)            (* ErrorKind::InvalidData *)
| EUnexpectedEof                (* ErrorKind::UnexpectedEof, from [read_exact] *)
| EUnsupported                  (* ErrorKind::Unsupported *)
| EInvalidInput                 (* ErrorKind::InvalidInput, from seeking *)
| ESink.                        (* an error returned by the underlying output *)

(** Result of running Rust code: [Ok], [Err], or a panic. *)
Inductive res (A : Type) :=
| Ok (a : A)
| Err (e : err)
| Panic.
Arguments Ok {A}. Arguments Err {A}. Arguments Panic {A}.

Definition bind {A B} (m : res A) (k : A -> res B) : res B :=
  match m with
  | Ok a => k a
  | Err e => Err e
  | Panic => Panic
  end.
Notation "'let*' x ':=' e 'in' k" := (bind e (fun x => k))
  (at level 200, x name, e at level 100, k at level 200, right associativity).
Notation "'let*' ' p ':=' e 'in' k" := (bind e (fun p => k))
  (at level 200, p strict pattern, e at level 100, k at level 200, right associativity).

(** Sequence a fallible function over a list ([Iterator::collect::<Result<Vec<_>>>]). *)
Fixpoint mapM {A B} (f : A -> res B) (l : list A) : res (list B) :=
  match l with
  | [] => Ok []
  | x :: l' => let* y := f x in let* ys := mapM f l' in Ok (y :: ys)
  end.

(** Target and build profile: machine byte order, [usize::MAX], whether arithmetic overflow panics
    (debug profile) or wraps (release profile). *)
Record cfg := {
  c_big : bool;
  c_usize_max : N;
  c_ovf_panics : bool
}.
Definition usize64 : N := 2 ^ 64 - 1.
Definition usize32 : N := 2 ^ 32 - 1.
Definition wf_cfg (c : cfg) : Prop := c_usize_max c + 1 = 2 ^ 64 \/ c_usize_max c + 1 = 2 ^ 32.

(** Plain Rust arithmetic on [u64]: panics or wraps. *)
Definition u64_mul (c : cfg) (a b : N) : res N :=
  if a * b <? 2 ^ 64 then Ok (a * b)
  else if c_ovf_panics c then Panic else Ok ((a * b) mod 2 ^ 64).
Definition u64_add (c : cfg) (a b : N) : res N :=
  if a + b <? 2 ^ 64 then Ok (a + b)
  else if c_ovf_panics c then Panic else Ok ((a + b) mod 2 ^ 64).

(** [isize::MAX]: the most bytes a [Vec] can hold; asking for more panics with "capacity overflow".  (Failing to get
    memory within this limit is not modelled.) *)
Definition isize_max (c : cfg) : N := c_usize_max c / 2.

(** [usize::try_from], [usize::checked_mul], [usize::checked_add]. *)
Definition usize_try_from (c : cfg) (n : N) : option N :=
  if n <=? c_usize_max c then Some n else None.
Definition usize_checked_mul (c : cfg) (a b : N) : option N :=
  if a * b <=? c_usize_max c then Some (a * b) else None.
Definition usize_checked_add (c : cfg) (a b : N) : option N :=
  if a + b <=? c_usize_max c then Some (a + b) else None.
