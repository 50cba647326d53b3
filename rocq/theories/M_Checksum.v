(** Reading an array out of an archive entry that has a checksum: src/npz_feature.rs:42-50 with src/read.rs. *)
From Verif Require Import M_Base M_IO M_Source.
Open Scope N_scope.

(** What the [ZipFile] inside the [NpyFile] of src/npz_feature.rs:42-50 delivers.  zip 0.6 is not part of /repo; taken from its documented behaviour: the
    bytes arrive in pieces as they are unpacked, and the checksum is compared when a [read] finds the end: [Ok(0)] if it agrees, an error ([bad_checksum]) if not.
    (Simplified: no interruptions, no other errors.) *)
Definition bad_checksum : N := 32.
Definition entry_source (pieces : list bytes) (agrees : bool) : source := map Chunk pieces ++ (if agrees then [] else [Fault bad_checksum]).
