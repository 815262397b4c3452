(** The conversions between smart pointers in the standard library. *)
From stdpp Require Import list.
From Coq Require Import NArith.
From Verif Require Import TraitsModel TraitsSpec UpcastModel.
Local Open Scope N_scope.

Definition pointee (x : obj) : ty := TBase (oq x) (ob x).
(** U* converts to T* without a cast *)
Definition up (h : hierarchy) (U T : obj) : Prop := implicit (fun a b => reach h b a = true) (TPtr none (pointee U)) (TPtr none (pointee T)).

(** [std h direct s t]: with the classes of namespace std, P<T> p(e) or P<T> p = e compiles *)
Inductive std (h : hierarchy) : bool -> source -> target -> Prop :=
| std_unique_null d T : std h d SNull (PUnique T)
| std_unique_raw U T : up h U T -> std h true (SRaw U) (PUnique T)
| std_unique_unique d U T : up h U T -> std h d (SUnique U true) (PUnique T)
| std_shared_null d T : std h d SNull (PShared T)
| std_shared_raw U T : up h U T -> std h true (SRaw U) (PShared T)
| std_shared_shared d U T r : up h U T -> std h d (SShared U r) (PShared T)
| std_shared_unique d U T : up h U T -> std h d (SUnique U true) (PShared T)
| std_shared_weak U T r : up h U T -> std h true (SWeak U r) (PShared T)
| std_weak_shared d U T r : up h U T -> std h d (SShared U r) (PWeak T)
| std_weak_weak d U T r : up h U T -> std h d (SWeak U r) (PWeak T).

Definition is_class (x : obj) : Prop := exists n, ob x = Class n.
(** The same smart pointer, or a weak_ptr from a shared_ptr: conversions from one owner to another. *)
Inductive related : source -> target -> Prop :=
| rel_unique U T : related (SUnique U true) (PUnique T)
| rel_shared U T r : related (SShared U r) (PShared T)
| rel_weak U T r : related (SShared U r) (PWeak T).
Definition source_of (s : source) : option obj := match s with SNull => None | SRaw U | SUnique U _ | SShared U _ | SWeak U _ => Some U end.
Definition pointee_of (t : target) : obj := match t with PUnique T | PShared T | PWeak T => T end.
Definition object (x : obj) : Prop := ob x <> Void.

(** What the library lacks: *)
Inductive lacking : bool -> source -> target -> Prop :=
| lack_null T : lacking false SNull (PUnique T)
| lack_shared_unique d U T r : lacking d (SUnique U r) (PShared T)
| lack_shared_weak d U T r : lacking d (SWeak U r) (PShared T)
| lack_weak_weak d U T r : U <> T -> lacking d (SWeak U r) (PWeak T)
| lack_plain d s t U : source_of s = Some U -> related s t -> ~ is_class U -> U <> pointee_of t -> lacking d s t.
(** What it has beyond the standard: pointers are taken over silently, also by a shared_ptr that only lives until the weak_ptr is made. *)
Inductive beyond (h : hierarchy) : bool -> source -> target -> Prop :=
| bey_raw U T : up h U T -> beyond h false (SRaw U) (PShared T)
| bey_weak_null T : beyond h true SNull (PWeak T)
| bey_weak U T : up h U T -> beyond h true (SRaw U) (PWeak T).
(** public bases are bases *)
Definition sane (h : hierarchy) : Prop := forall a b, reach h a b = true -> base h a b = true.
(** U and T are the same class but for qualifiers, or T is a base of U, accessible or not *)
Definition derives (h : hierarchy) (U T : obj) : Prop :=
  exists b a, ob U = Class b /\ ob T = Class a /\ (a = b \/ base h a b = true).
(** the arguments for which a constructor is chosen by asking whether one class is a base of the other *)
Inductive asks_base : bool -> source -> target -> Prop :=
| ab_rel d s t : related s t -> asks_base d s t
| ab_raw d U T : asks_base d (SRaw U) (PShared T)
| ab_weak U T : asks_base true (SRaw U) (PWeak T).
