(** What lost updates and false reports would be, on traces alone. *)
From stdpp Require Import list.
From Coq Require Import NArith ZArith.
From Verif Require Import AtomicModel.
Local Open Scope Z_scope.

(** Calls that add to the value or leave it: additions, subtractions, loads, and
    compare-exchanges. *)
Definition adding (e : event) : Prop :=
  match ev_op e with
  | ALoad | AFetch Add _ | AFetch Sub _ | AApply Add _ | AApply Sub _ | ACas _ _ _ => True
  | _ => False
  end.
(** How much the call reported to have added. *)
Definition delta (e : event) : Z :=
  match ev_op e with
  | AFetch Add v | AApply Add v => Z.of_N v
  | AFetch Sub v | AApply Sub v => - Z.of_N v
  | ACas _ expect v => if rok (ev_res e) then Z.of_N v - Z.of_N expect else 0
  | _ => 0
  end.
Definition total (tr : list event) : Z := foldr (fun e s => delta e + s) 0 tr.

(** Arguments fit the type. *)
Definition fits (w : N) (e : event) : Prop :=
  match ev_op e with
  | ALoad => True
  | AStore v | AExchange v | AFetch _ v | AApply _ v => (v < 2 ^ w)%N
  | ACas _ a v => (a < 2 ^ w)%N /\ (v < 2 ^ w)%N
  end.

(** The fetch_add(1) calls of a trace. *)
Definition is_inc (e : event) : bool :=
  match ev_op e with AFetch Add 1%N => true | _ => false end.
Definition only_incs (tr : list event) : Prop := forall e, e ∈ tr -> is_inc e = true.

(** Calls that only read or overwrite the value, and the value the last of them left. *)
Definition plain (e : event) : Prop :=
  match ev_op e with ALoad | AStore _ | AExchange _ => True | _ => False end.
Definition written (e : event) : option N :=
  match ev_op e with AStore v | AExchange v => Some v | _ => None end.
Definition latest (x : N) (tr : list event) : N := default x (last (omap written tr)).
