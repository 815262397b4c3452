(** Registration when the null handler may be given too: it is no handler, so a line that is given it stays free, and a
    free line can be said to give it up. *)
From stdpp Require Import gmap list.
From Coq Require Import NArith.
From Verif Require Import GateModel.
Local Open Scope N_scope.

Definition null_spec (lines : N) (σ : gmap N (N * N)) (o : reg_op) : gmap N (N * N) * bool :=
  match o with
  | Reg l h d =>
      if l <? lines then match σ !! l with None => (if h =? 0 then σ else <[l := (h, d)]> σ, true) | Some _ => (σ, false) end
      else (σ, false)
  | Unreg l h =>
      match σ !! l with
      | Some (h0, _) => if h0 =? h then (delete l σ, true) else (σ, false)
      | None => (σ, (l <? lines) && (h =? 0))
      end
  end.
Fixpoint null_run (lines : N) (σ : gmap N (N * N)) (os : list reg_op) : gmap N (N * N) * list bool :=
  match os with
  | [] => (σ, [])
  | o :: os => let (σ1, b) := null_spec lines σ o in let (σ2, bs) := null_run lines σ1 os in (σ2, b :: bs)
  end.
