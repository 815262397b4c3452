(** Concrete list programs for PropertiesList. *)
From stdpp Require Import gmap list.
From Coq Require Import ZArith.
From Verif Require Import Base ListModel ListSpec ListProofs ListRun ListFacts.
Local Open Scope Z_scope.
Global Instance mark_eq_dec : EqDecision mark. Proof. solve_decision. Defined.

(** The sequences (with the identities of the elements) after a program, by list. *)
Definition final (cs : list (lcmd Z)) : option (list (nat * list (nat * Z))) :=
  match srun world0 cs with Some w => Some (map_to_list (seqs w)) | None => None end.
Definition fwd (cs : list (lcmd Z)) (x : nat) : outcome (list Z) :=
  match lrun true (∅, heap0) cs with Ok (_, s) => forward true 20 x s | UB => UB | Fuel => Fuel end.
Definition bwd (cs : list (lcmd Z)) (x : nat) : outcome (list Z) :=
  match lrun true (∅, heap0) cs with Ok (_, s) => backward true 20 x s | UB => UB | Fuel => Fuel end.
Definition nodes (cs : list (lcmd Z)) : outcome (list loc) :=
  match lrun true (∅, heap0) cs with Ok (_, s) => Ok (fst <$> map_to_list (cells s)) | UB => UB | Fuel => Fuel end.

Definition demo : list (lcmd Z) :=
  [LNew 1; LPushBack 1 (AVal 10); LPushFront 1 (AVal 5); LInit 2 [1; 2; 3; 4]; LBegin 0 2; LNext 0 2;
   LInsert 2 0 (AIter 0 2) 1; LErase 2 0 0; LEnd 2 2; LPrev 2 2; LEraseRange 2 0 2 3; LSwap 1 2; LWrite 3 1 7;
   LAssign 2 1; LCopy 3 2; LPopFront 3; LMove 4 1; LPopBack 4; LMoveAssign 2 2; LDestroy 1].
Lemma demo_runs : final demo = Some [(3%nat, [(11%nat, 2); (12%nat, 7)]); (2%nat, [(7%nat, 1); (8%nat, 2); (9%nat, 7)]); (4%nat, [(2%nat, 1); (6%nat, 2)])] /\
  fwd demo 2 = Ok [1; 2; 7] /\ bwd demo 2 = Ok [7; 2; 1] /\ fwd demo 3 = Ok [2; 7] /\ fwd demo 4 = Ok [1; 2] /\ bwd demo 4 = Ok [2; 1].
Proof. repeat split; vm_compute; reflexivity. Qed.
Lemma demo_ends : final (demo ++ [LDestroy 2; LDestroy 3; LClear 4; LDestroy 4]) = Some [] /\
  nodes (demo ++ [LDestroy 2; LDestroy 3; LClear 4; LDestroy 4]) = Ok [].
Proof. split; vm_compute; reflexivity. Qed.

Lemma reach (cs : list (lcmd Z)) (P : world Z -> bool) : match srun world0 cs with Some w => P w | None => false end = true ->
  exists w e s, reached cs w e s /\ P w = true.
Proof.
  destruct (srun world0 cs) as [w|] eqn:E; [|done]. intros HP. destruct (run_ok cs _ _ _ _ related0 E) as (e & s & Er & _).
  exists w, e, s. done.
Qed.
Definition seq_is (x : nat) (l : list (nat * Z)) (w : world Z) : bool := bool_decide (seqs w !! x = Some l).

Lemma two_lists : exists w e s, reached [LInit 1 [4; 5]; LCopy 2 1] w e s /\
  seqs w !! 1%nat = Some [(0%nat, 4); (1%nat, 5)] /\ seqs w !! 2%nat = Some [(2%nat, 4); (3%nat, 5)].
Proof.
  destruct (reach [LInit 1 [4; 5]; LCopy 2 1] (fun w => seq_is 1 [(0%nat, 4); (1%nat, 5)] w && seq_is 2 [(2%nat, 4); (3%nat, 5)] w))
    as (w & e & s & R & E); [vm_compute; reflexivity|].
  apply andb_true_iff in E as [E1 E2]. apply bool_decide_eq_true in E1, E2. by exists w, e, s.
Qed.
Lemma some_list : exists w e s, reached [LInit 1 [4; 5]] w e s /\ seqs w !! 1%nat = Some [(0%nat, 4); (1%nat, 5)].
Proof.
  destruct (reach [LInit 1 [4; 5]] (seq_is 1 [(0%nat, 4); (1%nat, 5)])) as (w & e & s & R & E); [vm_compute; reflexivity|].
  apply bool_decide_eq_true in E. by exists w, e, s.
Qed.
Lemma one_list : exists w e s, reached [LInit 1 [4]] w e s /\ seqs w !! 1%nat = Some [(0%nat, 4)].
Proof.
  destruct (reach [LInit 1 [4]] (seq_is 1 [(0%nat, 4)])) as (w & e & s & R & E); [vm_compute; reflexivity|].
  apply bool_decide_eq_true in E. by exists w, e, s.
Qed.
Lemma no_list : exists w e s, reached [LInit 1 [4]; LPopBack 1] w e s /\ seqs w !! 1%nat = Some [].
Proof.
  destruct (reach [LInit 1 [4]; LPopBack 1] (seq_is 1 [])) as (w & e & s & R & E); [vm_compute; reflexivity|].
  apply bool_decide_eq_true in E. by exists w, e, s.
Qed.
Lemma self_swap_bad : match lrun true (∅, heap0) [LInit 1 [4; 5]; LSwap 1 1] with
    Ok (_, s) => forward true 100 1 s = Fuel /\ backward true 100 1 s = Fuel | _ => False end.
Proof. vm_compute. split; reflexivity. Qed.
Lemma strict_clear_ub : lrun false (∅, heap0) [LNew 1; LPushBack 1 (AVal 4)] <> UB /\
  final [LNew 1; LPushBack 1 (AVal 4); LClear 1] = Some [(1%nat, [])] /\
  lrun false (∅, heap0) [LNew 1; LPushBack 1 (AVal 4); LClear 1] = UB.
Proof. split; [vm_compute; discriminate|]. split; vm_compute; reflexivity. Qed.

(** Iterator 0 stands at the 5; iterator 1 at the 6. *)
Definition its : list (lcmd Z) := [LInit 1 [4; 5; 6; 7]; LBegin 0 1; LNext 0 1; LBegin 1 1; LNext 1 1; LNext 1 1; LEnd 2 1].
Definition some_step (c : lcmd Z) (w : world Z) : bool := match sstep w c with Some _ => true | None => false end.
Lemma step_exists cs c (P : world Z -> bool) : match srun world0 cs with Some w => P w && some_step c w | None => false end = true ->
  exists w e s w', reached cs w e s /\ sstep w c = Some w' /\ P w = true.
Proof.
  intros H. destruct (reach cs (fun w => P w && some_step c w) H) as (w & e & s & R & E). apply andb_true_iff in E as [E1 E2].
  unfold some_step in E2. destruct (sstep w c) as [w'|] eqn:Es; [|done]. by exists w, e, s, w'.
Qed.
Lemma its_insert : exists w e s w', reached its w e s /\ sstep w (LInsert 1 0 (AVal 9) 3) = Some w' /\ deref w 1 1 = Some 6.
Proof.
  destruct (step_exists its (LInsert 1 0 (AVal 9) 3) (fun w => bool_decide (deref w 1 1 = Some 6))) as (w & e & s & w' & R & E & P); [vm_compute; reflexivity|].
  apply bool_decide_eq_true in P. by exists w, e, s, w'.
Qed.
Lemma its_erase : exists w e s w', reached its w e s /\ sstep w (LErase 1 0 3) = Some w' /\ deref w 1 1 = Some 6 /\ marks w !! 0%nat <> marks w !! 1%nat.
Proof.
  destruct (step_exists its (LErase 1 0 3) (fun w => bool_decide (deref w 1 1 = Some 6) && bool_decide (marks w !! 0%nat = Some (At 1) /\ marks w !! 1%nat = Some (At 2))))
    as (w & e & s & w' & R & E & P); [vm_compute; reflexivity|].
  apply andb_true_iff in P as [P1 P2]. apply bool_decide_eq_true in P1, P2. exists w, e, s, w'. destruct P2 as [-> ->]. done.
Qed.
Lemma its_range : exists w e s w' l, reached its w e s /\ sstep w (LEraseRange 1 1 2 3) = Some w' /\ deref w 0 1 = Some 5 /\
  seqs w !! 1%nat = Some l /\ marks w !! 0%nat = Some (At 1) /\ pos 1 l (At 1) = Some 1%nat /\
  marks w !! 1%nat = Some (At 2) /\ pos 1 l (At 2) = Some 2%nat /\ marks w !! 2%nat = Some (End 1) /\ pos 1 l (End 1) = Some 4%nat.
Proof.
  destruct (step_exists its (LEraseRange 1 1 2 3) (fun w => bool_decide (deref w 0 1 = Some 5) && (seq_is 1 [(0%nat, 4); (1%nat, 5); (2%nat, 6); (3%nat, 7)] w &&
     bool_decide (marks w !! 0%nat = Some (At 1) /\ marks w !! 1%nat = Some (At 2) /\ marks w !! 2%nat = Some (End 1)))))
    as (w & e & s & w' & R & E & P); [vm_compute; reflexivity|].
  apply andb_true_iff in P as [P1 P2]. apply andb_true_iff in P2 as [P2 P3]. apply bool_decide_eq_true in P1, P2, P3.
  exists w, e, s, w', [(0%nat, 4); (1%nat, 5); (2%nat, 6); (3%nat, 7)]. destruct P3 as (-> & -> & ->). done.
Qed.
