(** What reading demands of memory: the buffers made for [read_exact]. *)
From Verif Require Import M_Base M_IO.
Open Scope N_scope.

(** The sizes of the buffers that are filled by successive [read_exact] calls on this input.  Each is made before it is known whether the bytes are there:
    src/header.rs:227-228 (text of the header), 249-274; src/serialize/primitive.rs:28-33, 81-84; src/serialize/slice.rs:23-32, 89-102, 222-226.
    (Simplified: buffers on the stack and on the heap are not distinguished, and neither the vectors the items are collected into nor the decoded values are counted.) *)
Fixpoint buffers {A} (p : rprog A) (input : bytes) : list N :=
  match p with
  | RRead n _ k => n :: (if n <=? lenN input then buffers (k (takeN n input)) (dropN n input) else [])
  | _ => []
  end.
