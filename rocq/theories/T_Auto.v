(** Theorems about the dtypes that types choose for themselves. *)
From Coq Require Import String.
From Verif Require Import M_Base M_Text M_TypeStr M_IO M_Header M_Serialize S_TypeStr S_DType S_Elem S_Auto.
From Verif Require Import P_Base P_Header P_Elem P_Auto T_Elem.
Open Scope N_scope.

(** [AutoSerialize::default_dtype] gives the documented dtype, *)
Theorem C68_exact : forall c t d, default_dtype c t = Some (Ok d) <-> default_of (order_of c) t d.
Proof. exact default_exact. Qed.
Print Assumptions C68_exact.
(** and never panics: it is missing for exactly these types. *)
Theorem C68_missing : forall c t, default_dtype c t = None <-> without_default t.
Proof. exact default_total. Qed.
Print Assumptions C68_missing.
Theorem C68_total : forall c t, (exists d, default_of (order_of c) t d) \/ without_default t.
Proof.
  exact (fun c t => match default_kinds c t with
                    | or_introl (ex_intro _ d H) => or_introl (ex_intro _ d (proj1 (default_exact c t d) H))
                    | or_intror H => or_intror (proj2 H)
                    end).
Qed.
Print Assumptions C68_total.
(** The documentation promises [VN] for [FixedSizeBytes<N>] (src/type_matchup_docs.rs:82), which it could be written as, but there is no such impl. *)
Theorem C68_fixed_bytes_refuted : exists c n w, default_dtype c (RFixedBytes n) = None /\ writer c (RFixedBytes n) (simple Irrelevant TRawData n) = DOk w.
Proof. exists le64, 3. eexists. split; reflexivity. Qed.
Print Assumptions C68_fixed_bytes_refuted.

Example C68_case : default_of (order_of be64) C44_type (DRecord [(lit "x", simple Irrelevant TByteStr 3); (lit "y", DArray 2 (DRecord [(lit "z", simple Big TFloat 8)]))])
  /\ without_default (RStruct [(lit "x", RBool); (lit "y", RArray 2 RString)]).
Proof.
  split.
  - constructor; [ constructor | ]. constructor; [ constructor; constructor; [ apply (default_float Big F8) | constructor ] | constructor ].
  - apply (without_field _ (lit "y") (RArray 2 RString)); [ right; left; reflexivity | repeat constructor ].
Qed.
