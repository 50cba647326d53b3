(** Specification of the NPY container layout (numpy's format description, versions 1.0 to 3.0), independent of the model. *)
From Verif Require Import M_Base M_Text M_TypeStr M_Header M_Read.
Open Scope N_scope.

Fixpoint little_endian (bs : bytes) : N :=
  match bs with [] => 0 | b :: r => b + 256 * little_endian r end.

Record npy_layout (hdr : bytes) (major minor : N) (txt : bytes) : Prop := {
  (* magic, version, length field, text *)
  layout_split : exists len,
    hdr = 0x93 :: lit "NUMPY" ++ [major; minor] ++ len ++ txt
    /\ lenN len = (if major =? 1 then 2 else 4)
    /\ Forall (fun b => b < 256) len
    /\ little_endian len = lenN txt;
  layout_newline : exists t, txt = t ++ [10];
  layout_aligned : lenN hdr mod 64 = 0;
  layout_version : minor = 0 /\ (major = 1 \/ major = 2 \/ major = 3);
  (* version 3 (UTF-8) exactly for text that is not ASCII *)
  layout_encoding : major = 3 <-> Exists (fun b => 128 <= b) txt
}.

(** The header dictionary for a fixed shape. *)
Definition header_dict (d : dtype) (o : order) (shape : list N) : text :=
  lit "{'descr': " ++ descr d
  ++ lit ", 'fortran_order': " ++ (match o with OrderC => lit "False" | OrderFortran => lit "True" end)
  ++ lit ", 'shape': (" ++ flat_map (fun n => dec n ++ lit ", ") shape ++ lit "), }".
