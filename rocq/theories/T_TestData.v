(** The files of /repo/test-data, byte for byte; of an archive, the entries unpacked by Python (name and contents), in the order of its directory. *)
From Verif Require Import M_Base M_Text M_Npz.
Open Scope N_scope.

(** /repo/test-data/plain.npy *)
Definition file_plain : list N :=
  [147;78;85;77;80;89;1;0;70;0;123;39;100;101;115;99;114;39;58;32;39;60;102;56;39;44;32;39;102;111;114;116;114;97;110;95;111;114;100;101;114;39;58;32;70;
   97;108;115;101;44;32;39;115;104;97;112;101;39;58;32;40;52;44;41;44;32;125;32;32;32;32;32;32;32;32;32;32;32;32;10;0;0;0;0;0;0;240;63;0;0;0;0;0;0;12;64;
   0;0;0;0;0;0;24;192;102;102;102;102;102;102;2;64].
(** /repo/test-data/structured.npy *)
Definition file_structured : list N :=
  [147;78;85;77;80;89;1;0;102;0;123;39;100;101;115;99;114;39;58;32;91;40;39;97;39;44;32;39;60;105;52;39;41;44;32;40;39;98;39;44;32;39;60;102;52;39;41;44;
   32;40;39;99;39;44;32;39;60;105;56;39;41;93;44;32;39;102;111;114;116;114;97;110;95;111;114;100;101;114;39;58;32;70;97;108;115;101;44;32;39;115;104;97;
   112;101;39;58;32;40;50;44;41;44;32;125;32;32;32;32;32;32;32;10;1;0;0;0;0;0;32;64;4;0;0;0;0;0;0;0;2;0;0;0;102;102;70;64;5;0;0;0;0;0;0;0].
(** /repo/test-data/c-order.npy *)
Definition file_c_order : list N :=
  [147;78;85;77;80;89;1;0;118;0;123;39;100;101;115;99;114;39;58;32;39;60;105;56;39;44;32;39;102;111;114;116;114;97;110;95;111;114;100;101;114;39;58;32;
   70;97;108;115;101;44;32;39;115;104;97;112;101;39;58;32;40;50;44;32;51;44;32;52;41;44;32;125;32;32;32;32;32;32;32;32;32;32;32;32;32;32;32;32;32;32;32;
   32;32;32;32;32;32;32;32;32;32;32;32;32;32;32;32;32;32;32;32;32;32;32;32;32;32;32;32;32;32;32;32;32;32;32;32;10;1;0;0;0;0;0;0;0;1;0;0;0;0;0;0;0;1;0;0;0;
   0;0;0;0;1;0;0;0;0;0;0;0;2;0;0;0;0;0;0;0;2;0;0;0;0;0;0;0;2;0;0;0;0;0;0;0;2;0;0;0;0;0;0;0;3;0;0;0;0;0;0;0;3;0;0;0;0;0;0;0;3;0;0;0;0;0;0;0;3;0;0;0;0;0;0;
   0;4;0;0;0;0;0;0;0;4;0;0;0;0;0;0;0;4;0;0;0;0;0;0;0;4;0;0;0;0;0;0;0;5;0;0;0;0;0;0;0;5;0;0;0;0;0;0;0;5;0;0;0;0;0;0;0;5;0;0;0;0;0;0;0;6;0;0;0;0;0;0;0;6;0;
   0;0;0;0;0;0;6;0;0;0;0;0;0;0;6;0;0;0;0;0;0;0].
(** /repo/test-data/f-order.npy *)
Definition file_f_order : list N :=
  [147;78;85;77;80;89;1;0;118;0;123;39;100;101;115;99;114;39;58;32;39;60;105;56;39;44;32;39;102;111;114;116;114;97;110;95;111;114;100;101;114;39;58;32;
   84;114;117;101;44;32;39;115;104;97;112;101;39;58;32;40;50;44;32;51;44;32;52;41;44;32;125;32;32;32;32;32;32;32;32;32;32;32;32;32;32;32;32;32;32;32;32;
   32;32;32;32;32;32;32;32;32;32;32;32;32;32;32;32;32;32;32;32;32;32;32;32;32;32;32;32;32;32;32;32;32;32;32;32;10;1;0;0;0;0;0;0;0;4;0;0;0;0;0;0;0;2;0;0;0;
   0;0;0;0;5;0;0;0;0;0;0;0;3;0;0;0;0;0;0;0;6;0;0;0;0;0;0;0;1;0;0;0;0;0;0;0;4;0;0;0;0;0;0;0;2;0;0;0;0;0;0;0;5;0;0;0;0;0;0;0;3;0;0;0;0;0;0;0;6;0;0;0;0;0;0;
   0;1;0;0;0;0;0;0;0;4;0;0;0;0;0;0;0;2;0;0;0;0;0;0;0;5;0;0;0;0;0;0;0;3;0;0;0;0;0;0;0;6;0;0;0;0;0;0;0;1;0;0;0;0;0;0;0;4;0;0;0;0;0;0;0;2;0;0;0;0;0;0;0;5;0;
   0;0;0;0;0;0;3;0;0;0;0;0;0;0;6;0;0;0;0;0;0;0].
(** /repo/test-data/pickle.npy *)
Definition file_pickle : list N :=
  [147;78;85;77;80;89;1;0;118;0;123;39;100;101;115;99;114;39;58;32;39;124;79;39;44;32;39;102;111;114;116;114;97;110;95;111;114;100;101;114;39;58;32;70;
   97;108;115;101;44;32;39;115;104;97;112;101;39;58;32;40;50;44;32;51;41;44;32;125;32;32;32;32;32;32;32;32;32;32;32;32;32;32;32;32;32;32;32;32;32;32;32;
   32;32;32;32;32;32;32;32;32;32;32;32;32;32;32;32;32;32;32;32;32;32;32;32;32;32;32;32;32;32;32;32;32;32;32;32;10;128;3;99;110;117;109;112;121;46;99;111;
   114;101;46;109;117;108;116;105;97;114;114;97;121;10;95;114;101;99;111;110;115;116;114;117;99;116;10;113;0;99;110;117;109;112;121;10;110;100;97;114;114;
   97;121;10;113;1;75;0;133;113;2;67;1;98;113;3;135;113;4;82;113;5;40;75;1;75;2;75;3;134;113;6;99;110;117;109;112;121;10;100;116;121;112;101;10;113;7;88;
   2;0;0;0;79;56;113;8;75;0;75;1;135;113;9;82;113;10;40;75;3;88;1;0;0;0;124;113;11;78;78;78;74;255;255;255;255;74;255;255;255;255;75;63;116;113;12;98;137;
   93;113;13;40;75;1;71;64;12;0;0;0;0;0;0;88;6;0;0;0;110;117;109;98;101;114;113;14;125;113;15;125;113;16;78;101;116;113;17;98;46].
(** /repo/test-data/unicode/ok.npy *)
Definition file_unicode_ok : list N :=
  [147;78;85;77;80;89;1;0;118;0;123;39;100;101;115;99;114;39;58;32;39;60;85;56;39;44;32;39;102;111;114;116;114;97;110;95;111;114;100;101;114;39;58;32;70;
   97;108;115;101;44;32;39;115;104;97;112;101;39;58;32;40;49;44;41;44;32;125;32;32;32;32;32;32;32;32;32;32;32;32;32;32;32;32;32;32;32;32;32;32;32;32;32;
   32;32;32;32;32;32;32;32;32;32;32;32;32;32;32;32;32;32;32;32;32;32;32;32;32;32;32;32;32;32;32;32;32;32;32;10;177;3;0;0;178;3;0;0;111;0;0;0;117;0;0;0;
   116;0;0;0;0;0;0;0;0;0;0;0;0;0;0;0].
(** /repo/test-data/unicode/surrogate.npy *)
Definition file_unicode_surrogate : list N :=
  [147;78;85;77;80;89;1;0;118;0;123;39;100;101;115;99;114;39;58;32;39;60;85;49;39;44;32;39;102;111;114;116;114;97;110;95;111;114;100;101;114;39;58;32;70;
   97;108;115;101;44;32;39;115;104;97;112;101;39;58;32;40;49;44;41;44;32;125;32;32;32;32;32;32;32;32;32;32;32;32;32;32;32;32;32;32;32;32;32;32;32;32;32;
   32;32;32;32;32;32;32;32;32;32;32;32;32;32;32;32;32;32;32;32;32;32;32;32;32;32;32;32;32;32;32;32;32;32;32;10;5;216;0;0].
(** /repo/test-data/unicode/surrogate-pair.npy *)
Definition file_unicode_surrogate_pair : list N :=
  [147;78;85;77;80;89;1;0;118;0;123;39;100;101;115;99;114;39;58;32;39;60;85;50;39;44;32;39;102;111;114;116;114;97;110;95;111;114;100;101;114;39;58;32;70;
   97;108;115;101;44;32;39;115;104;97;112;101;39;58;32;40;49;44;41;44;32;125;32;32;32;32;32;32;32;32;32;32;32;32;32;32;32;32;32;32;32;32;32;32;32;32;32;
   32;32;32;32;32;32;32;32;32;32;32;32;32;32;32;32;32;32;32;32;32;32;32;32;32;32;32;32;32;32;32;32;32;32;32;10;52;216;0;0;30;221;0;0].
(** /repo/test-data/uncompressed.npz *)
Definition file_uncompressed : archive :=
  [(lit "ints.npy", [147;78;85;77;80;89;1;0;118;0;123;39;100;101;115;99;114;39;58;32;39;60;105;56;39;44;32;39;102;111;114;116;114;97;110;95;111;114;100;101;114;39;58;32;
   70;97;108;115;101;44;32;39;115;104;97;112;101;39;58;32;40;52;44;41;44;32;125;32;32;32;32;32;32;32;32;32;32;32;32;32;32;32;32;32;32;32;32;32;32;32;32;
   32;32;32;32;32;32;32;32;32;32;32;32;32;32;32;32;32;32;32;32;32;32;32;32;32;32;32;32;32;32;32;32;32;32;32;32;10;1;0;0;0;0;0;0;0;2;0;0;0;0;0;0;0;3;0;0;0;
   0;0;0;0;4;0;0;0;0;0;0;0]);
   (lit "floats.npy", [147;78;85;77;80;89;1;0;118;0;123;39;100;101;115;99;114;39;58;32;39;60;102;56;39;44;32;39;102;111;114;116;114;97;110;95;111;114;100;101;114;39;58;32;
   70;97;108;115;101;44;32;39;115;104;97;112;101;39;58;32;40;50;44;32;49;41;44;32;125;32;32;32;32;32;32;32;32;32;32;32;32;32;32;32;32;32;32;32;32;32;32;
   32;32;32;32;32;32;32;32;32;32;32;32;32;32;32;32;32;32;32;32;32;32;32;32;32;32;32;32;32;32;32;32;32;32;32;32;10;0;0;0;0;0;0;240;63;0;0;0;0;0;0;0;64])].
(** /repo/test-data/compressed.npz *)
Definition file_compressed : archive :=
  [(lit "ints.npy", [147;78;85;77;80;89;1;0;118;0;123;39;100;101;115;99;114;39;58;32;39;60;105;56;39;44;32;39;102;111;114;116;114;97;110;95;111;114;100;101;114;39;58;32;
   70;97;108;115;101;44;32;39;115;104;97;112;101;39;58;32;40;52;44;41;44;32;125;32;32;32;32;32;32;32;32;32;32;32;32;32;32;32;32;32;32;32;32;32;32;32;32;
   32;32;32;32;32;32;32;32;32;32;32;32;32;32;32;32;32;32;32;32;32;32;32;32;32;32;32;32;32;32;32;32;32;32;32;32;10;1;0;0;0;0;0;0;0;2;0;0;0;0;0;0;0;3;0;0;0;
   0;0;0;0;4;0;0;0;0;0;0;0]);
   (lit "floats.npy", [147;78;85;77;80;89;1;0;118;0;123;39;100;101;115;99;114;39;58;32;39;60;102;56;39;44;32;39;102;111;114;116;114;97;110;95;111;114;100;101;114;39;58;32;
   70;97;108;115;101;44;32;39;115;104;97;112;101;39;58;32;40;50;44;32;49;41;44;32;125;32;32;32;32;32;32;32;32;32;32;32;32;32;32;32;32;32;32;32;32;32;32;
   32;32;32;32;32;32;32;32;32;32;32;32;32;32;32;32;32;32;32;32;32;32;32;32;32;32;32;32;32;32;32;32;32;32;32;32;10;0;0;0;0;0;0;240;63;0;0;0;0;0;0;0;64])].
(** /repo/test-data/sparse/bsr-bad-ndim.npz *)
Definition file_sparse_bsr_bad_ndim : archive :=
  [(lit "indices.npy", [147;78;85;77;80;89;1;0;118;0;123;39;100;101;115;99;114;39;58;32;39;60;105;52;39;44;32;39;102;111;114;116;114;97;110;95;111;114;100;101;114;39;58;32;
   70;97;108;115;101;44;32;39;115;104;97;112;101;39;58;32;40;53;44;41;44;32;125;32;32;32;32;32;32;32;32;32;32;32;32;32;32;32;32;32;32;32;32;32;32;32;32;
   32;32;32;32;32;32;32;32;32;32;32;32;32;32;32;32;32;32;32;32;32;32;32;32;32;32;32;32;32;32;32;32;32;32;32;32;10;0;0;0;0;1;0;0;0;0;0;0;0;0;0;0;0;1;0;0;
   0]);
   (lit "indptr.npy", [147;78;85;77;80;89;1;0;118;0;123;39;100;101;115;99;114;39;58;32;39;60;105;52;39;44;32;39;102;111;114;116;114;97;110;95;111;114;100;101;114;39;58;32;
   70;97;108;115;101;44;32;39;115;104;97;112;101;39;58;32;40;52;44;41;44;32;125;32;32;32;32;32;32;32;32;32;32;32;32;32;32;32;32;32;32;32;32;32;32;32;32;
   32;32;32;32;32;32;32;32;32;32;32;32;32;32;32;32;32;32;32;32;32;32;32;32;32;32;32;32;32;32;32;32;32;32;32;32;10;0;0;0;0;2;0;0;0;3;0;0;0;5;0;0;0]);
   (lit "format.npy", [147;78;85;77;80;89;1;0;118;0;123;39;100;101;115;99;114;39;58;32;39;124;83;51;39;44;32;39;102;111;114;116;114;97;110;95;111;114;100;101;114;39;58;32;
   70;97;108;115;101;44;32;39;115;104;97;112;101;39;58;32;40;41;44;32;125;32;32;32;32;32;32;32;32;32;32;32;32;32;32;32;32;32;32;32;32;32;32;32;32;32;32;
   32;32;32;32;32;32;32;32;32;32;32;32;32;32;32;32;32;32;32;32;32;32;32;32;32;32;32;32;32;32;32;32;32;32;32;32;10;98;115;114]);
   (lit "shape.npy", [147;78;85;77;80;89;1;0;118;0;123;39;100;101;115;99;114;39;58;32;39;60;105;56;39;44;32;39;102;111;114;116;114;97;110;95;111;114;100;101;114;39;58;32;
   70;97;108;115;101;44;32;39;115;104;97;112;101;39;58;32;40;50;44;41;44;32;125;32;32;32;32;32;32;32;32;32;32;32;32;32;32;32;32;32;32;32;32;32;32;32;32;
   32;32;32;32;32;32;32;32;32;32;32;32;32;32;32;32;32;32;32;32;32;32;32;32;32;32;32;32;32;32;32;32;32;32;32;32;10;3;0;0;0;0;0;0;0;6;0;0;0;0;0;0;0]);
   (lit "data.npy", [147;78;85;77;80;89;1;0;118;0;123;39;100;101;115;99;114;39;58;32;39;60;105;56;39;44;32;39;102;111;114;116;114;97;110;95;111;114;100;101;114;39;58;32;
   70;97;108;115;101;44;32;39;115;104;97;112;101;39;58;32;40;53;44;32;50;41;44;32;125;32;32;32;32;32;32;32;32;32;32;32;32;32;32;32;32;32;32;32;32;32;32;
   32;32;32;32;32;32;32;32;32;32;32;32;32;32;32;32;32;32;32;32;32;32;32;32;32;32;32;32;32;32;32;32;32;32;32;32;10;1;0;0;0;0;0;0;0;0;0;0;0;0;0;0;0;4;0;0;0;
   0;0;0;0;0;0;0;0;0;0;0;0;0;0;0;0;0;0;0;0;2;0;0;0;0;0;0;0;6;0;0;0;0;0;0;0;0;0;0;0;0;0;0;0;7;0;0;0;0;0;0;0;0;0;0;0;0;0;0;0])].
(** /repo/test-data/sparse/bsr-f-order.npz *)
Definition file_sparse_bsr_f_order : archive :=
  [(lit "indices.npy", [147;78;85;77;80;89;1;0;118;0;123;39;100;101;115;99;114;39;58;32;39;60;105;52;39;44;32;39;102;111;114;116;114;97;110;95;111;114;100;101;114;39;58;32;
   70;97;108;115;101;44;32;39;115;104;97;112;101;39;58;32;40;53;44;41;44;32;125;32;32;32;32;32;32;32;32;32;32;32;32;32;32;32;32;32;32;32;32;32;32;32;32;
   32;32;32;32;32;32;32;32;32;32;32;32;32;32;32;32;32;32;32;32;32;32;32;32;32;32;32;32;32;32;32;32;32;32;32;32;10;0;0;0;0;1;0;0;0;0;0;0;0;0;0;0;0;1;0;0;
   0]);
   (lit "indptr.npy", [147;78;85;77;80;89;1;0;118;0;123;39;100;101;115;99;114;39;58;32;39;60;105;52;39;44;32;39;102;111;114;116;114;97;110;95;111;114;100;101;114;39;58;32;
   70;97;108;115;101;44;32;39;115;104;97;112;101;39;58;32;40;52;44;41;44;32;125;32;32;32;32;32;32;32;32;32;32;32;32;32;32;32;32;32;32;32;32;32;32;32;32;
   32;32;32;32;32;32;32;32;32;32;32;32;32;32;32;32;32;32;32;32;32;32;32;32;32;32;32;32;32;32;32;32;32;32;32;32;10;0;0;0;0;2;0;0;0;3;0;0;0;5;0;0;0]);
   (lit "format.npy", [147;78;85;77;80;89;1;0;118;0;123;39;100;101;115;99;114;39;58;32;39;124;83;51;39;44;32;39;102;111;114;116;114;97;110;95;111;114;100;101;114;39;58;32;
   70;97;108;115;101;44;32;39;115;104;97;112;101;39;58;32;40;41;44;32;125;32;32;32;32;32;32;32;32;32;32;32;32;32;32;32;32;32;32;32;32;32;32;32;32;32;32;
   32;32;32;32;32;32;32;32;32;32;32;32;32;32;32;32;32;32;32;32;32;32;32;32;32;32;32;32;32;32;32;32;32;32;32;32;10;98;115;114]);
   (lit "shape.npy", [147;78;85;77;80;89;1;0;118;0;123;39;100;101;115;99;114;39;58;32;39;60;105;56;39;44;32;39;102;111;114;116;114;97;110;95;111;114;100;101;114;39;58;32;
   70;97;108;115;101;44;32;39;115;104;97;112;101;39;58;32;40;50;44;41;44;32;125;32;32;32;32;32;32;32;32;32;32;32;32;32;32;32;32;32;32;32;32;32;32;32;32;
   32;32;32;32;32;32;32;32;32;32;32;32;32;32;32;32;32;32;32;32;32;32;32;32;32;32;32;32;32;32;32;32;32;32;32;32;10;3;0;0;0;0;0;0;0;6;0;0;0;0;0;0;0]);
   (lit "data.npy", [147;78;85;77;80;89;1;0;118;0;123;39;100;101;115;99;114;39;58;32;39;60;105;56;39;44;32;39;102;111;114;116;114;97;110;95;111;114;100;101;114;39;58;32;
   84;114;117;101;44;32;39;115;104;97;112;101;39;58;32;40;53;44;32;49;44;32;50;41;44;32;125;32;32;32;32;32;32;32;32;32;32;32;32;32;32;32;32;32;32;32;32;
   32;32;32;32;32;32;32;32;32;32;32;32;32;32;32;32;32;32;32;32;32;32;32;32;32;32;32;32;32;32;32;32;32;32;32;32;10;1;0;0;0;0;0;0;0;4;0;0;0;0;0;0;0;0;0;0;0;
   0;0;0;0;6;0;0;0;0;0;0;0;7;0;0;0;0;0;0;0;0;0;0;0;0;0;0;0;0;0;0;0;0;0;0;0;2;0;0;0;0;0;0;0;0;0;0;0;0;0;0;0;0;0;0;0;0;0;0;0])].
(** /repo/test-data/sparse/bsr.npz *)
Definition file_sparse_bsr : archive :=
  [(lit "indices.npy", [147;78;85;77;80;89;1;0;118;0;123;39;100;101;115;99;114;39;58;32;39;60;105;52;39;44;32;39;102;111;114;116;114;97;110;95;111;114;100;101;114;39;58;32;
   70;97;108;115;101;44;32;39;115;104;97;112;101;39;58;32;40;53;44;41;44;32;125;32;32;32;32;32;32;32;32;32;32;32;32;32;32;32;32;32;32;32;32;32;32;32;32;
   32;32;32;32;32;32;32;32;32;32;32;32;32;32;32;32;32;32;32;32;32;32;32;32;32;32;32;32;32;32;32;32;32;32;32;32;10;0;0;0;0;1;0;0;0;0;0;0;0;0;0;0;0;1;0;0;
   0]);
   (lit "indptr.npy", [147;78;85;77;80;89;1;0;118;0;123;39;100;101;115;99;114;39;58;32;39;60;105;52;39;44;32;39;102;111;114;116;114;97;110;95;111;114;100;101;114;39;58;32;
   70;97;108;115;101;44;32;39;115;104;97;112;101;39;58;32;40;52;44;41;44;32;125;32;32;32;32;32;32;32;32;32;32;32;32;32;32;32;32;32;32;32;32;32;32;32;32;
   32;32;32;32;32;32;32;32;32;32;32;32;32;32;32;32;32;32;32;32;32;32;32;32;32;32;32;32;32;32;32;32;32;32;32;32;10;0;0;0;0;2;0;0;0;3;0;0;0;5;0;0;0]);
   (lit "format.npy", [147;78;85;77;80;89;1;0;118;0;123;39;100;101;115;99;114;39;58;32;39;124;83;51;39;44;32;39;102;111;114;116;114;97;110;95;111;114;100;101;114;39;58;32;
   70;97;108;115;101;44;32;39;115;104;97;112;101;39;58;32;40;41;44;32;125;32;32;32;32;32;32;32;32;32;32;32;32;32;32;32;32;32;32;32;32;32;32;32;32;32;32;
   32;32;32;32;32;32;32;32;32;32;32;32;32;32;32;32;32;32;32;32;32;32;32;32;32;32;32;32;32;32;32;32;32;32;32;32;10;98;115;114]);
   (lit "shape.npy", [147;78;85;77;80;89;1;0;118;0;123;39;100;101;115;99;114;39;58;32;39;60;105;56;39;44;32;39;102;111;114;116;114;97;110;95;111;114;100;101;114;39;58;32;
   70;97;108;115;101;44;32;39;115;104;97;112;101;39;58;32;40;50;44;41;44;32;125;32;32;32;32;32;32;32;32;32;32;32;32;32;32;32;32;32;32;32;32;32;32;32;32;
   32;32;32;32;32;32;32;32;32;32;32;32;32;32;32;32;32;32;32;32;32;32;32;32;32;32;32;32;32;32;32;32;32;32;32;32;10;3;0;0;0;0;0;0;0;6;0;0;0;0;0;0;0]);
   (lit "data.npy", [147;78;85;77;80;89;1;0;118;0;123;39;100;101;115;99;114;39;58;32;39;60;105;56;39;44;32;39;102;111;114;116;114;97;110;95;111;114;100;101;114;39;58;32;
   70;97;108;115;101;44;32;39;115;104;97;112;101;39;58;32;40;53;44;32;49;44;32;50;41;44;32;125;32;32;32;32;32;32;32;32;32;32;32;32;32;32;32;32;32;32;32;
   32;32;32;32;32;32;32;32;32;32;32;32;32;32;32;32;32;32;32;32;32;32;32;32;32;32;32;32;32;32;32;32;32;32;32;32;10;1;0;0;0;0;0;0;0;0;0;0;0;0;0;0;0;4;0;0;0;
   0;0;0;0;0;0;0;0;0;0;0;0;0;0;0;0;0;0;0;0;2;0;0;0;0;0;0;0;6;0;0;0;0;0;0;0;0;0;0;0;0;0;0;0;7;0;0;0;0;0;0;0;0;0;0;0;0;0;0;0])].
(** /repo/test-data/sparse/coo-dupes.npz *)
Definition file_sparse_coo_dupes : archive :=
  [(lit "row.npy", [147;78;85;77;80;89;1;0;118;0;123;39;100;101;115;99;114;39;58;32;39;60;105;52;39;44;32;39;102;111;114;116;114;97;110;95;111;114;100;101;114;39;58;32;
   70;97;108;115;101;44;32;39;115;104;97;112;101;39;58;32;40;50;44;41;44;32;125;32;32;32;32;32;32;32;32;32;32;32;32;32;32;32;32;32;32;32;32;32;32;32;32;
   32;32;32;32;32;32;32;32;32;32;32;32;32;32;32;32;32;32;32;32;32;32;32;32;32;32;32;32;32;32;32;32;32;32;32;32;10;2;0;0;0;2;0;0;0]);
   (lit "col.npy", [147;78;85;77;80;89;1;0;118;0;123;39;100;101;115;99;114;39;58;32;39;60;105;52;39;44;32;39;102;111;114;116;114;97;110;95;111;114;100;101;114;39;58;32;
   70;97;108;115;101;44;32;39;115;104;97;112;101;39;58;32;40;50;44;41;44;32;125;32;32;32;32;32;32;32;32;32;32;32;32;32;32;32;32;32;32;32;32;32;32;32;32;
   32;32;32;32;32;32;32;32;32;32;32;32;32;32;32;32;32;32;32;32;32;32;32;32;32;32;32;32;32;32;32;32;32;32;32;32;10;3;0;0;0;3;0;0;0]);
   (lit "format.npy", [147;78;85;77;80;89;1;0;118;0;123;39;100;101;115;99;114;39;58;32;39;124;83;51;39;44;32;39;102;111;114;116;114;97;110;95;111;114;100;101;114;39;58;32;
   70;97;108;115;101;44;32;39;115;104;97;112;101;39;58;32;40;41;44;32;125;32;32;32;32;32;32;32;32;32;32;32;32;32;32;32;32;32;32;32;32;32;32;32;32;32;32;
   32;32;32;32;32;32;32;32;32;32;32;32;32;32;32;32;32;32;32;32;32;32;32;32;32;32;32;32;32;32;32;32;32;32;32;32;10;99;111;111]);
   (lit "shape.npy", [147;78;85;77;80;89;1;0;118;0;123;39;100;101;115;99;114;39;58;32;39;60;105;56;39;44;32;39;102;111;114;116;114;97;110;95;111;114;100;101;114;39;58;32;
   70;97;108;115;101;44;32;39;115;104;97;112;101;39;58;32;40;50;44;41;44;32;125;32;32;32;32;32;32;32;32;32;32;32;32;32;32;32;32;32;32;32;32;32;32;32;32;
   32;32;32;32;32;32;32;32;32;32;32;32;32;32;32;32;32;32;32;32;32;32;32;32;32;32;32;32;32;32;32;32;32;32;32;32;10;5;0;0;0;0;0;0;0;5;0;0;0;0;0;0;0]);
   (lit "data.npy", [147;78;85;77;80;89;1;0;118;0;123;39;100;101;115;99;114;39;58;32;39;60;105;56;39;44;32;39;102;111;114;116;114;97;110;95;111;114;100;101;114;39;58;32;
   70;97;108;115;101;44;32;39;115;104;97;112;101;39;58;32;40;50;44;41;44;32;125;32;32;32;32;32;32;32;32;32;32;32;32;32;32;32;32;32;32;32;32;32;32;32;32;
   32;32;32;32;32;32;32;32;32;32;32;32;32;32;32;32;32;32;32;32;32;32;32;32;32;32;32;32;32;32;32;32;32;32;32;32;10;10;0;0;0;0;0;0;0;20;0;0;0;0;0;0;0])].
(** /repo/test-data/sparse/coo-long.npz *)
Definition file_sparse_coo_long : archive :=
  [(lit "row.npy", [147;78;85;77;80;89;1;0;118;0;123;39;100;101;115;99;114;39;58;32;39;60;105;56;39;44;32;39;102;111;114;116;114;97;110;95;111;114;100;101;114;39;58;32;
   70;97;108;115;101;44;32;39;115;104;97;112;101;39;58;32;40;50;44;41;44;32;125;32;32;32;32;32;32;32;32;32;32;32;32;32;32;32;32;32;32;32;32;32;32;32;32;
   32;32;32;32;32;32;32;32;32;32;32;32;32;32;32;32;32;32;32;32;32;32;32;32;32;32;32;32;32;32;32;32;32;32;32;32;10;0;0;0;0;4;0;0;0;3;0;0;0;0;0;0;0]);
   (lit "col.npy", [147;78;85;77;80;89;1;0;118;0;123;39;100;101;115;99;114;39;58;32;39;60;105;56;39;44;32;39;102;111;114;116;114;97;110;95;111;114;100;101;114;39;58;32;
   70;97;108;115;101;44;32;39;115;104;97;112;101;39;58;32;40;50;44;41;44;32;125;32;32;32;32;32;32;32;32;32;32;32;32;32;32;32;32;32;32;32;32;32;32;32;32;
   32;32;32;32;32;32;32;32;32;32;32;32;32;32;32;32;32;32;32;32;32;32;32;32;32;32;32;32;32;32;32;32;32;32;32;32;10;4;0;0;0;0;0;0;0;0;0;0;0;2;0;0;0]);
   (lit "format.npy", [147;78;85;77;80;89;1;0;118;0;123;39;100;101;115;99;114;39;58;32;39;124;83;51;39;44;32;39;102;111;114;116;114;97;110;95;111;114;100;101;114;39;58;32;
   70;97;108;115;101;44;32;39;115;104;97;112;101;39;58;32;40;41;44;32;125;32;32;32;32;32;32;32;32;32;32;32;32;32;32;32;32;32;32;32;32;32;32;32;32;32;32;
   32;32;32;32;32;32;32;32;32;32;32;32;32;32;32;32;32;32;32;32;32;32;32;32;32;32;32;32;32;32;32;32;32;32;32;32;10;99;111;111]);
   (lit "shape.npy", [147;78;85;77;80;89;1;0;118;0;123;39;100;101;115;99;114;39;58;32;39;60;105;56;39;44;32;39;102;111;114;116;114;97;110;95;111;114;100;101;114;39;58;32;
   70;97;108;115;101;44;32;39;115;104;97;112;101;39;58;32;40;50;44;41;44;32;125;32;32;32;32;32;32;32;32;32;32;32;32;32;32;32;32;32;32;32;32;32;32;32;32;
   32;32;32;32;32;32;32;32;32;32;32;32;32;32;32;32;32;32;32;32;32;32;32;32;32;32;32;32;32;32;32;32;32;32;32;32;10;0;0;0;0;8;0;0;0;0;0;0;0;16;0;0;0]);
   (lit "data.npy", [147;78;85;77;80;89;1;0;118;0;123;39;100;101;115;99;114;39;58;32;39;60;105;56;39;44;32;39;102;111;114;116;114;97;110;95;111;114;100;101;114;39;58;32;
   70;97;108;115;101;44;32;39;115;104;97;112;101;39;58;32;40;50;44;41;44;32;125;32;32;32;32;32;32;32;32;32;32;32;32;32;32;32;32;32;32;32;32;32;32;32;32;
   32;32;32;32;32;32;32;32;32;32;32;32;32;32;32;32;32;32;32;32;32;32;32;32;32;32;32;32;32;32;32;32;32;32;32;32;10;3;0;0;0;0;0;0;0;1;0;0;0;0;0;0;0])].
(** /repo/test-data/sparse/coo.npz *)
Definition file_sparse_coo : archive :=
  [(lit "row.npy", [147;78;85;77;80;89;1;0;118;0;123;39;100;101;115;99;114;39;58;32;39;60;105;52;39;44;32;39;102;111;114;116;114;97;110;95;111;114;100;101;114;39;58;32;
   70;97;108;115;101;44;32;39;115;104;97;112;101;39;58;32;40;53;44;41;44;32;125;32;32;32;32;32;32;32;32;32;32;32;32;32;32;32;32;32;32;32;32;32;32;32;32;
   32;32;32;32;32;32;32;32;32;32;32;32;32;32;32;32;32;32;32;32;32;32;32;32;32;32;32;32;32;32;32;32;32;32;32;32;10;0;0;0;0;0;0;0;0;1;0;0;0;2;0;0;0;2;0;0;
   0]);
   (lit "col.npy", [147;78;85;77;80;89;1;0;118;0;123;39;100;101;115;99;114;39;58;32;39;60;105;52;39;44;32;39;102;111;114;116;114;97;110;95;111;114;100;101;114;39;58;32;
   70;97;108;115;101;44;32;39;115;104;97;112;101;39;58;32;40;53;44;41;44;32;125;32;32;32;32;32;32;32;32;32;32;32;32;32;32;32;32;32;32;32;32;32;32;32;32;
   32;32;32;32;32;32;32;32;32;32;32;32;32;32;32;32;32;32;32;32;32;32;32;32;32;32;32;32;32;32;32;32;32;32;32;32;10;0;0;0;0;2;0;0;0;1;0;0;0;0;0;0;0;2;0;0;
   0]);
   (lit "format.npy", [147;78;85;77;80;89;1;0;118;0;123;39;100;101;115;99;114;39;58;32;39;124;83;51;39;44;32;39;102;111;114;116;114;97;110;95;111;114;100;101;114;39;58;32;
   70;97;108;115;101;44;32;39;115;104;97;112;101;39;58;32;40;41;44;32;125;32;32;32;32;32;32;32;32;32;32;32;32;32;32;32;32;32;32;32;32;32;32;32;32;32;32;
   32;32;32;32;32;32;32;32;32;32;32;32;32;32;32;32;32;32;32;32;32;32;32;32;32;32;32;32;32;32;32;32;32;32;32;32;10;99;111;111]);
   (lit "shape.npy", [147;78;85;77;80;89;1;0;118;0;123;39;100;101;115;99;114;39;58;32;39;60;105;56;39;44;32;39;102;111;114;116;114;97;110;95;111;114;100;101;114;39;58;32;
   70;97;108;115;101;44;32;39;115;104;97;112;101;39;58;32;40;50;44;41;44;32;125;32;32;32;32;32;32;32;32;32;32;32;32;32;32;32;32;32;32;32;32;32;32;32;32;
   32;32;32;32;32;32;32;32;32;32;32;32;32;32;32;32;32;32;32;32;32;32;32;32;32;32;32;32;32;32;32;32;32;32;32;32;10;3;0;0;0;0;0;0;0;6;0;0;0;0;0;0;0]);
   (lit "data.npy", [147;78;85;77;80;89;1;0;118;0;123;39;100;101;115;99;114;39;58;32;39;60;105;56;39;44;32;39;102;111;114;116;114;97;110;95;111;114;100;101;114;39;58;32;
   70;97;108;115;101;44;32;39;115;104;97;112;101;39;58;32;40;53;44;41;44;32;125;32;32;32;32;32;32;32;32;32;32;32;32;32;32;32;32;32;32;32;32;32;32;32;32;
   32;32;32;32;32;32;32;32;32;32;32;32;32;32;32;32;32;32;32;32;32;32;32;32;32;32;32;32;32;32;32;32;32;32;32;32;10;1;0;0;0;0;0;0;0;4;0;0;0;0;0;0;0;2;0;0;0;
   0;0;0;0;6;0;0;0;0;0;0;0;7;0;0;0;0;0;0;0])].
(** /repo/test-data/sparse/csc.npz *)
Definition file_sparse_csc : archive :=
  [(lit "indices.npy", [147;78;85;77;80;89;1;0;118;0;123;39;100;101;115;99;114;39;58;32;39;60;105;52;39;44;32;39;102;111;114;116;114;97;110;95;111;114;100;101;114;39;58;32;
   70;97;108;115;101;44;32;39;115;104;97;112;101;39;58;32;40;53;44;41;44;32;125;32;32;32;32;32;32;32;32;32;32;32;32;32;32;32;32;32;32;32;32;32;32;32;32;
   32;32;32;32;32;32;32;32;32;32;32;32;32;32;32;32;32;32;32;32;32;32;32;32;32;32;32;32;32;32;32;32;32;32;32;32;10;0;0;0;0;2;0;0;0;1;0;0;0;0;0;0;0;2;0;0;
   0]);
   (lit "indptr.npy", [147;78;85;77;80;89;1;0;118;0;123;39;100;101;115;99;114;39;58;32;39;60;105;52;39;44;32;39;102;111;114;116;114;97;110;95;111;114;100;101;114;39;58;32;
   70;97;108;115;101;44;32;39;115;104;97;112;101;39;58;32;40;55;44;41;44;32;125;32;32;32;32;32;32;32;32;32;32;32;32;32;32;32;32;32;32;32;32;32;32;32;32;
   32;32;32;32;32;32;32;32;32;32;32;32;32;32;32;32;32;32;32;32;32;32;32;32;32;32;32;32;32;32;32;32;32;32;32;32;10;0;0;0;0;2;0;0;0;3;0;0;0;5;0;0;0;5;0;0;0;
   5;0;0;0;5;0;0;0]);
   (lit "format.npy", [147;78;85;77;80;89;1;0;118;0;123;39;100;101;115;99;114;39;58;32;39;124;83;51;39;44;32;39;102;111;114;116;114;97;110;95;111;114;100;101;114;39;58;32;
   70;97;108;115;101;44;32;39;115;104;97;112;101;39;58;32;40;41;44;32;125;32;32;32;32;32;32;32;32;32;32;32;32;32;32;32;32;32;32;32;32;32;32;32;32;32;32;
   32;32;32;32;32;32;32;32;32;32;32;32;32;32;32;32;32;32;32;32;32;32;32;32;32;32;32;32;32;32;32;32;32;32;32;32;10;99;115;99]);
   (lit "shape.npy", [147;78;85;77;80;89;1;0;118;0;123;39;100;101;115;99;114;39;58;32;39;60;105;56;39;44;32;39;102;111;114;116;114;97;110;95;111;114;100;101;114;39;58;32;
   70;97;108;115;101;44;32;39;115;104;97;112;101;39;58;32;40;50;44;41;44;32;125;32;32;32;32;32;32;32;32;32;32;32;32;32;32;32;32;32;32;32;32;32;32;32;32;
   32;32;32;32;32;32;32;32;32;32;32;32;32;32;32;32;32;32;32;32;32;32;32;32;32;32;32;32;32;32;32;32;32;32;32;32;10;3;0;0;0;0;0;0;0;6;0;0;0;0;0;0;0]);
   (lit "data.npy", [147;78;85;77;80;89;1;0;118;0;123;39;100;101;115;99;114;39;58;32;39;60;105;56;39;44;32;39;102;111;114;116;114;97;110;95;111;114;100;101;114;39;58;32;
   70;97;108;115;101;44;32;39;115;104;97;112;101;39;58;32;40;53;44;41;44;32;125;32;32;32;32;32;32;32;32;32;32;32;32;32;32;32;32;32;32;32;32;32;32;32;32;
   32;32;32;32;32;32;32;32;32;32;32;32;32;32;32;32;32;32;32;32;32;32;32;32;32;32;32;32;32;32;32;32;32;32;32;32;10;1;0;0;0;0;0;0;0;6;0;0;0;0;0;0;0;2;0;0;0;
   0;0;0;0;4;0;0;0;0;0;0;0;7;0;0;0;0;0;0;0])].
(** /repo/test-data/sparse/csr-unsorted.npz *)
Definition file_sparse_csr_unsorted : archive :=
  [(lit "indices.npy", [147;78;85;77;80;89;1;0;118;0;123;39;100;101;115;99;114;39;58;32;39;60;105;52;39;44;32;39;102;111;114;116;114;97;110;95;111;114;100;101;114;39;58;32;
   70;97;108;115;101;44;32;39;115;104;97;112;101;39;58;32;40;53;44;41;44;32;125;32;32;32;32;32;32;32;32;32;32;32;32;32;32;32;32;32;32;32;32;32;32;32;32;
   32;32;32;32;32;32;32;32;32;32;32;32;32;32;32;32;32;32;32;32;32;32;32;32;32;32;32;32;32;32;32;32;32;32;32;32;10;2;0;0;0;0;0;0;0;1;0;0;0;2;0;0;0;0;0;0;
   0]);
   (lit "indptr.npy", [147;78;85;77;80;89;1;0;118;0;123;39;100;101;115;99;114;39;58;32;39;60;105;52;39;44;32;39;102;111;114;116;114;97;110;95;111;114;100;101;114;39;58;32;
   70;97;108;115;101;44;32;39;115;104;97;112;101;39;58;32;40;52;44;41;44;32;125;32;32;32;32;32;32;32;32;32;32;32;32;32;32;32;32;32;32;32;32;32;32;32;32;
   32;32;32;32;32;32;32;32;32;32;32;32;32;32;32;32;32;32;32;32;32;32;32;32;32;32;32;32;32;32;32;32;32;32;32;32;10;0;0;0;0;2;0;0;0;3;0;0;0;5;0;0;0]);
   (lit "format.npy", [147;78;85;77;80;89;1;0;118;0;123;39;100;101;115;99;114;39;58;32;39;124;83;51;39;44;32;39;102;111;114;116;114;97;110;95;111;114;100;101;114;39;58;32;
   70;97;108;115;101;44;32;39;115;104;97;112;101;39;58;32;40;41;44;32;125;32;32;32;32;32;32;32;32;32;32;32;32;32;32;32;32;32;32;32;32;32;32;32;32;32;32;
   32;32;32;32;32;32;32;32;32;32;32;32;32;32;32;32;32;32;32;32;32;32;32;32;32;32;32;32;32;32;32;32;32;32;32;32;10;99;115;114]);
   (lit "shape.npy", [147;78;85;77;80;89;1;0;118;0;123;39;100;101;115;99;114;39;58;32;39;60;105;56;39;44;32;39;102;111;114;116;114;97;110;95;111;114;100;101;114;39;58;32;
   70;97;108;115;101;44;32;39;115;104;97;112;101;39;58;32;40;50;44;41;44;32;125;32;32;32;32;32;32;32;32;32;32;32;32;32;32;32;32;32;32;32;32;32;32;32;32;
   32;32;32;32;32;32;32;32;32;32;32;32;32;32;32;32;32;32;32;32;32;32;32;32;32;32;32;32;32;32;32;32;32;32;32;32;10;3;0;0;0;0;0;0;0;3;0;0;0;0;0;0;0]);
   (lit "data.npy", [147;78;85;77;80;89;1;0;118;0;123;39;100;101;115;99;114;39;58;32;39;60;105;56;39;44;32;39;102;111;114;116;114;97;110;95;111;114;100;101;114;39;58;32;
   70;97;108;115;101;44;32;39;115;104;97;112;101;39;58;32;40;53;44;41;44;32;125;32;32;32;32;32;32;32;32;32;32;32;32;32;32;32;32;32;32;32;32;32;32;32;32;
   32;32;32;32;32;32;32;32;32;32;32;32;32;32;32;32;32;32;32;32;32;32;32;32;32;32;32;32;32;32;32;32;32;32;32;32;10;2;0;0;0;0;0;0;0;2;0;0;0;0;0;0;0;1;0;0;0;
   0;0;0;0;2;0;0;0;0;0;0;0;2;0;0;0;0;0;0;0])].
(** /repo/test-data/sparse/csr.npz *)
Definition file_sparse_csr : archive :=
  [(lit "indices.npy", [147;78;85;77;80;89;1;0;118;0;123;39;100;101;115;99;114;39;58;32;39;60;105;52;39;44;32;39;102;111;114;116;114;97;110;95;111;114;100;101;114;39;58;32;
   70;97;108;115;101;44;32;39;115;104;97;112;101;39;58;32;40;53;44;41;44;32;125;32;32;32;32;32;32;32;32;32;32;32;32;32;32;32;32;32;32;32;32;32;32;32;32;
   32;32;32;32;32;32;32;32;32;32;32;32;32;32;32;32;32;32;32;32;32;32;32;32;32;32;32;32;32;32;32;32;32;32;32;32;10;0;0;0;0;2;0;0;0;1;0;0;0;0;0;0;0;2;0;0;
   0]);
   (lit "indptr.npy", [147;78;85;77;80;89;1;0;118;0;123;39;100;101;115;99;114;39;58;32;39;60;105;52;39;44;32;39;102;111;114;116;114;97;110;95;111;114;100;101;114;39;58;32;
   70;97;108;115;101;44;32;39;115;104;97;112;101;39;58;32;40;52;44;41;44;32;125;32;32;32;32;32;32;32;32;32;32;32;32;32;32;32;32;32;32;32;32;32;32;32;32;
   32;32;32;32;32;32;32;32;32;32;32;32;32;32;32;32;32;32;32;32;32;32;32;32;32;32;32;32;32;32;32;32;32;32;32;32;10;0;0;0;0;2;0;0;0;3;0;0;0;5;0;0;0]);
   (lit "format.npy", [147;78;85;77;80;89;1;0;118;0;123;39;100;101;115;99;114;39;58;32;39;124;83;51;39;44;32;39;102;111;114;116;114;97;110;95;111;114;100;101;114;39;58;32;
   70;97;108;115;101;44;32;39;115;104;97;112;101;39;58;32;40;41;44;32;125;32;32;32;32;32;32;32;32;32;32;32;32;32;32;32;32;32;32;32;32;32;32;32;32;32;32;
   32;32;32;32;32;32;32;32;32;32;32;32;32;32;32;32;32;32;32;32;32;32;32;32;32;32;32;32;32;32;32;32;32;32;32;32;10;99;115;114]);
   (lit "shape.npy", [147;78;85;77;80;89;1;0;118;0;123;39;100;101;115;99;114;39;58;32;39;60;105;56;39;44;32;39;102;111;114;116;114;97;110;95;111;114;100;101;114;39;58;32;
   70;97;108;115;101;44;32;39;115;104;97;112;101;39;58;32;40;50;44;41;44;32;125;32;32;32;32;32;32;32;32;32;32;32;32;32;32;32;32;32;32;32;32;32;32;32;32;
   32;32;32;32;32;32;32;32;32;32;32;32;32;32;32;32;32;32;32;32;32;32;32;32;32;32;32;32;32;32;32;32;32;32;32;32;10;3;0;0;0;0;0;0;0;6;0;0;0;0;0;0;0]);
   (lit "data.npy", [147;78;85;77;80;89;1;0;118;0;123;39;100;101;115;99;114;39;58;32;39;60;105;56;39;44;32;39;102;111;114;116;114;97;110;95;111;114;100;101;114;39;58;32;
   70;97;108;115;101;44;32;39;115;104;97;112;101;39;58;32;40;53;44;41;44;32;125;32;32;32;32;32;32;32;32;32;32;32;32;32;32;32;32;32;32;32;32;32;32;32;32;
   32;32;32;32;32;32;32;32;32;32;32;32;32;32;32;32;32;32;32;32;32;32;32;32;32;32;32;32;32;32;32;32;32;32;32;32;10;1;0;0;0;0;0;0;0;4;0;0;0;0;0;0;0;2;0;0;0;
   0;0;0;0;6;0;0;0;0;0;0;0;7;0;0;0;0;0;0;0])].
(** /repo/test-data/sparse/dia-long.npz *)
Definition file_sparse_dia_long : archive :=
  [(lit "offsets.npy", [147;78;85;77;80;89;1;0;118;0;123;39;100;101;115;99;114;39;58;32;39;60;105;56;39;44;32;39;102;111;114;116;114;97;110;95;111;114;100;101;114;39;58;32;
   70;97;108;115;101;44;32;39;115;104;97;112;101;39;58;32;40;49;44;41;44;32;125;32;32;32;32;32;32;32;32;32;32;32;32;32;32;32;32;32;32;32;32;32;32;32;32;
   32;32;32;32;32;32;32;32;32;32;32;32;32;32;32;32;32;32;32;32;32;32;32;32;32;32;32;32;32;32;32;32;32;32;32;32;10;3;0;0;0;248;255;255;255]);
   (lit "format.npy", [147;78;85;77;80;89;1;0;118;0;123;39;100;101;115;99;114;39;58;32;39;124;83;51;39;44;32;39;102;111;114;116;114;97;110;95;111;114;100;101;114;39;58;32;
   70;97;108;115;101;44;32;39;115;104;97;112;101;39;58;32;40;41;44;32;125;32;32;32;32;32;32;32;32;32;32;32;32;32;32;32;32;32;32;32;32;32;32;32;32;32;32;
   32;32;32;32;32;32;32;32;32;32;32;32;32;32;32;32;32;32;32;32;32;32;32;32;32;32;32;32;32;32;32;32;32;32;32;32;10;100;105;97]);
   (lit "shape.npy", [147;78;85;77;80;89;1;0;118;0;123;39;100;101;115;99;114;39;58;32;39;60;105;56;39;44;32;39;102;111;114;116;114;97;110;95;111;114;100;101;114;39;58;32;
   70;97;108;115;101;44;32;39;115;104;97;112;101;39;58;32;40;50;44;41;44;32;125;32;32;32;32;32;32;32;32;32;32;32;32;32;32;32;32;32;32;32;32;32;32;32;32;
   32;32;32;32;32;32;32;32;32;32;32;32;32;32;32;32;32;32;32;32;32;32;32;32;32;32;32;32;32;32;32;32;32;32;32;32;10;0;0;0;0;8;0;0;0;2;0;0;0;0;0;0;0]);
   (lit "data.npy", [147;78;85;77;80;89;1;0;118;0;123;39;100;101;115;99;114;39;58;32;39;60;105;56;39;44;32;39;102;111;114;116;114;97;110;95;111;114;100;101;114;39;58;32;
   70;97;108;115;101;44;32;39;115;104;97;112;101;39;58;32;40;49;44;32;50;41;44;32;125;32;32;32;32;32;32;32;32;32;32;32;32;32;32;32;32;32;32;32;32;32;32;
   32;32;32;32;32;32;32;32;32;32;32;32;32;32;32;32;32;32;32;32;32;32;32;32;32;32;32;32;32;32;32;32;32;32;32;32;10;0;0;0;0;0;0;0;0;1;0;0;0;0;0;0;0])].
(** /repo/test-data/sparse/dia.npz *)
Definition file_sparse_dia : archive :=
  [(lit "offsets.npy", [147;78;85;77;80;89;1;0;118;0;123;39;100;101;115;99;114;39;58;32;39;60;105;52;39;44;32;39;102;111;114;116;114;97;110;95;111;114;100;101;114;39;58;32;
   70;97;108;115;101;44;32;39;115;104;97;112;101;39;58;32;40;51;44;41;44;32;125;32;32;32;32;32;32;32;32;32;32;32;32;32;32;32;32;32;32;32;32;32;32;32;32;
   32;32;32;32;32;32;32;32;32;32;32;32;32;32;32;32;32;32;32;32;32;32;32;32;32;32;32;32;32;32;32;32;32;32;32;32;10;254;255;255;255;0;0;0;0;2;0;0;0]);
   (lit "format.npy", [147;78;85;77;80;89;1;0;118;0;123;39;100;101;115;99;114;39;58;32;39;124;83;51;39;44;32;39;102;111;114;116;114;97;110;95;111;114;100;101;114;39;58;32;
   70;97;108;115;101;44;32;39;115;104;97;112;101;39;58;32;40;41;44;32;125;32;32;32;32;32;32;32;32;32;32;32;32;32;32;32;32;32;32;32;32;32;32;32;32;32;32;
   32;32;32;32;32;32;32;32;32;32;32;32;32;32;32;32;32;32;32;32;32;32;32;32;32;32;32;32;32;32;32;32;32;32;32;32;10;100;105;97]);
   (lit "shape.npy", [147;78;85;77;80;89;1;0;118;0;123;39;100;101;115;99;114;39;58;32;39;60;105;56;39;44;32;39;102;111;114;116;114;97;110;95;111;114;100;101;114;39;58;32;
   70;97;108;115;101;44;32;39;115;104;97;112;101;39;58;32;40;50;44;41;44;32;125;32;32;32;32;32;32;32;32;32;32;32;32;32;32;32;32;32;32;32;32;32;32;32;32;
   32;32;32;32;32;32;32;32;32;32;32;32;32;32;32;32;32;32;32;32;32;32;32;32;32;32;32;32;32;32;32;32;32;32;32;32;10;3;0;0;0;0;0;0;0;6;0;0;0;0;0;0;0]);
   (lit "data.npy", [147;78;85;77;80;89;1;0;118;0;123;39;100;101;115;99;114;39;58;32;39;60;105;56;39;44;32;39;102;111;114;116;114;97;110;95;111;114;100;101;114;39;58;32;
   70;97;108;115;101;44;32;39;115;104;97;112;101;39;58;32;40;51;44;32;51;41;44;32;125;32;32;32;32;32;32;32;32;32;32;32;32;32;32;32;32;32;32;32;32;32;32;
   32;32;32;32;32;32;32;32;32;32;32;32;32;32;32;32;32;32;32;32;32;32;32;32;32;32;32;32;32;32;32;32;32;32;32;32;10;6;0;0;0;0;0;0;0;0;0;0;0;0;0;0;0;0;0;0;0;
   0;0;0;0;1;0;0;0;0;0;0;0;2;0;0;0;0;0;0;0;7;0;0;0;0;0;0;0;0;0;0;0;0;0;0;0;0;0;0;0;0;0;0;0;4;0;0;0;0;0;0;0])].
