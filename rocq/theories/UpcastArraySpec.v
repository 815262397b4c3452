(** Owners of arrays in the standard library. *)
From Coq Require Import NArith.
From Verif Require Import TraitsModel UpcastModel UpcastSpec UpcastArrayModel.
Local Open Scope N_scope.

(** arrays of U are arrays of T with fewer qualifiers: U ( * )[] converts to T ( * )[] *)
Definition requalified (U T : obj) : Prop :=
  ob U = ob T /\ (is_c (oq U) = true -> is_c (oq T) = true) /\ (is_v (oq U) = true -> is_v (oq T) = true).
Inductive std_array : bool -> asource -> obj -> Prop :=
| sa_null d T : std_array d ANull T
| sa_new U T : requalified U T -> std_array true (ANew U) T
| sa_move d U T : requalified U T -> std_array d (AUnique U true) T.
(** what is not there *)
Inductive lacking_array : bool -> asource -> obj -> Prop :=
| la_null T : lacking_array false ANull T
| la_move d U T r : U <> T -> lacking_array d (AUnique U r) T.
