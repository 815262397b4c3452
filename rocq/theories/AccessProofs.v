(** C102: proofs. *)
From Coq Require Import List Bool Arith.
From Verif Require Import AccessSpec AccessModel.
Import ListNotations.

Lemma kind_eqb_refl k : kind_eqb k k = true.
Proof. destruct k; reflexivity. Qed.
Lemma ty_eqb_refl t : ty_eqb t t = true.
Proof.
  induction t; cbn; rewrite ?Nat.eqb_refl, ?kind_eqb_refl, ?Bool.eqb_reflx, ?IHt, ?IHt1, ?IHt2; reflexivity.
Qed.

Lemma call_S n m e : call (S n) m e =
  ibind (choose (mc e) (methods (mt e) m)) (fun f =>
  ibind (typ (call n) f (I Void) (m_body f)) (fun b =>
  if converts b (m_ret f) then Some (given (m_ret f)) else None)).
Proof. reflexivity. Qed.
Lemma inner_eqb_refl x : inner_eqb x x = true.
Proof. destruct x; cbn; rewrite ?ty_eqb_refl, ?Bool.eqb_reflx; reflexivity. Qed.
Ltac comp := repeat (progress (rewrite ?call_S; unfold converts, explicit, implicit, mty_eqb; cbn -[call]; rewrite ?ty_eqb_refl, ?inner_eqb_refl)).
Lemma step_exact m e : exists_ (type e) = true -> step m e = estl_step m e.
Proof.
  destruct e as [t c l]; cbn [type]; intros R; unfold step, deep.
  destruct t as [n|k t|a b|d t|d t|d t|k d t|k d t]; cbn in R.
  - destruct m; reflexivity.
  - destruct k, c, m; comp; reflexivity.
  - destruct m; reflexivity.
  - destruct m, c, l; reflexivity.
  - destruct m, c, d; comp; reflexivity.
  - destruct m, c, d; comp; reflexivity.
  - destruct k; try discriminate R; destruct m, c, d; try discriminate R; comp; reflexivity.
  - destruct k; try discriminate R; destruct m, c, d; comp; reflexivity.
Qed.
