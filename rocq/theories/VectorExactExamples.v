(** Examples for C09_exact. *)
From stdpp Require Import gmap list.
From Coq Require Import ZArith.
From Verif Require Import Base ObjModel VectorModel VectorSpec VectorExamples VectorExactSpec.
Local Open Scope Z_scope.

Section check.
Context {A : Type} (dflt : A) (smk : bool).
Definition len_b (s : gmap nat (list (option A))) (x : nat) (i : Z) : bool :=
  (0 <=? i) && match s !! x with Some l => i <=? zlen l | None => true end.
Definition formed_b (s : gmap nat (list (option A))) (c : vcmd A) : bool :=
  match c with
  | CFill _ n _ | CSized _ n | CResize _ n | CReserve _ n | CSet _ n _ => 0 <=? n
  | CInsert x i _ | CEmplace x i _ | CErase x i => len_b s x i
  | CEraseRange x i j => len_b s x i && len_b s x j
  | _ => true
  end.
Fixpoint formed_run_b (M : Z) (s : gmap nat (list (option A))) (cs : list (vcmd A)) : bool :=
  match cs with
  | [] => true
  | c :: cs' => formed_b s c && (requested c <=? M) &&
      match xstep dflt smk s c with Some s' => sizes_b M s' && formed_run_b M s' cs' | None => true end
  end.
Lemma len_b_ok s x i : len_b s x i = true -> 0 <= i /\ forall l, s !! x = Some l -> i <= zlen l.
Proof. unfold len_b. intros H. apply andb_true_iff in H as [H1 H2]. apply Z.leb_le in H1. split; [exact H1|]. intros l E. rewrite E in H2. apply Z.leb_le. exact H2. Qed.
Lemma formed_b_ok s c : formed_b s c = true -> formed s c.
Proof.
  destruct c; cbn [formed_b formed]; intros H; try exact I; try (apply Z.leb_le; exact H); try (apply len_b_ok; exact H).
  apply andb_true_iff in H as [H1 H2]. apply len_b_ok in H1 as [? ?], H2 as [? ?]. auto.
Qed.
Lemma formed_run_ok M cs : forall s, formed_run_b M s cs = true -> formed_run dflt smk M s cs.
Proof.
  induction cs as [|c cs IH]; intros s H; cbn [formed_run formed_run_b] in *; [exact I|].
  apply andb_true_iff in H as [H1 H2]. apply andb_true_iff in H1 as [H0 H1]. split; [exact (formed_b_ok _ _ H0)|].
  split; [apply Z.leb_le; exact H1|]. intros s' E. rewrite E in H2.
  apply andb_true_iff in H2 as [H2 H3]. split; [|apply IH; exact H3].
  intros x l Hx. unfold sizes_b in H2. rewrite forallb_forall in H2.
  apply Z.leb_le. apply (H2 (x, l)). apply elem_of_list_In, elem_of_map_to_list. exact Hx.
Qed.
End check.

Definition odd : list (vcmd Z) :=
  [CInit 0 [1; 2; 3; 4]; CErase 0 4; CEraseRange 0 1 1; CCopy 1 0; CSet 1 2 9; CPopBack 0].
Lemma odd_runs : formed_run 0 false 4 ∅ odd /\
  map_to_list <$> xrun 0 false ∅ odd = Some [(0%nat, [Some 1; None]); (1%nat, [Some 1; None; Some 9])] /\
  show (vrun 4 0 false (∅, mem0) odd) 1 = Ok [Some 1; None; Some 9].
Proof. split; [apply formed_run_ok; vm_compute; reflexivity|]. split; vm_compute; reflexivity. Qed.
Lemma undefined : formed_run 0 true 4 ∅ [CInit 0 [1; 2]; CEraseRange 0 2 1] /\
  vrun 4 0 true (∅, mem0) [CInit 0 [1; 2]; CEraseRange 0 2 1] = UB /\
  vrun 4 0 true (∅, mem0) [CNew 0; CErase 0 0] = UB /\ vrun 4 0 true (∅, mem0) [CSized 0 0; CPopBack 0] = UB.
Proof. split; [apply formed_run_ok; vm_compute; reflexivity|]. split; [|split]; vm_compute; reflexivity. Qed.
