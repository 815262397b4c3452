(** Concrete programs with objects that hold handles. *)
From stdpp Require Import gmap.
From Coq Require Import ZArith Lia.
From Verif Require Import Base GraphModel GraphSpec GraphProofs GraphRelease GraphOps GraphRun GraphSteps GraphThms.
Local Open Scope nat_scope.
Set Default Goal Selector "1".

(** Specification and model run side by side. *)
Definition easy (c : cmd) : bool := match c with SResetTo (inr _) _ | SAssignConv (inr _) _ => false | _ => true end.
Fixpoint sim (cs : list cmd) (w : spec) (s : state) : option (spec * state) :=
  match cs with
  | [] => Some (w, s)
  | c :: cs =>
      if proper c && easy c then
        match sstep c w, step c s with Some w1, Ok s => sim cs (abs (kinds w1) s) s | _, _ => None end
      else None
  end.
Lemma sim_ok cs w s w' s' : rel w s -> (Z.of_nat (total w + made cs) + 16 < 2 ^ 64)%Z -> sim cs w s = Some (w', s') ->
  srun cs w w' /\ run cs s = Ok s'.
Proof.
  revert w s. induction cs as [|c cs IH]; intros w s R Hb; cbn [sim].
  { intros [= <- <-]. split; [constructor|done]. }
  destruct (proper c && easy c) eqn:E; [|done]. apply andb_prop in E as [Pr Ea].
  destruct (sstep c w) as [w1|] eqn:St; [|done].
  unfold made in Hb. cbn [sum_list_with] in Hb. fold (made cs) in Hb.
  assert (Sv : survives c w) by (destruct c as [| | | | | |[]| | |[]| | | | | | | | | | | | | |]; done).
  destruct (step_ok c w s w1 R) as (s1 & w2 & Es & Se & R2); [|done|done|done|].
  { unfold room. rewrite <- (size_hc (shs s)), <- (size_hc (wks s)), (rel_es _ _ R), (rel_ew _ _ R). unfold total in *. lia. }
  rewrite Es. assert (Ew : abs (kinds w1) s1 = w2).
  { unfold abs. rewrite (rel_es _ _ R2), (rel_ew _ _ R2). destruct Se as (<- & _). by destruct w2. }
  rewrite Ew. intros H. pose proof (sstep_total _ _ _ St). pose proof (settled_total _ _ Se).
  destruct (IH w2 s1 R2) as [Q1 Q2]; [lia|done|]. split; [by econstructor|]. cbn [run]. rewrite Es. done.
Qed.
Definition spec_of (cs : list cmd) : spec := match sim cs spec0 state0 with Some (w, _) => w | None => spec0 end.
Lemma sim_srun cs : (Z.of_nat (made cs) + 16 < 2 ^ 64)%Z -> (if sim cs spec0 state0 then true else false) = true -> srun cs spec0 (spec_of cs).
Proof.
  unfold spec_of. intros Hb H. destruct (sim cs spec0 state0) as [[w s]|] eqn:E; [|done].
  destruct (sim_ok cs spec0 state0 w s rel_start) as [H1 _]; [|done|done]. by change (total spec0) with 0.
Qed.

Lemma ran (P : state -> Prop) cs : match run cs state0 with Ok s => P s | _ => False end -> exists s, run cs state0 = Ok s /\ P s.
Proof. destruct (run cs state0); [eauto|done..]. Qed.

(** A list of two nodes with a back pointer: node 0 holds node 1 by its member 0; node 1 knows its group (member 0),
    and has a weak handle to node 0 (member 1). Variable 2 goes, variable 1 stays. *)
Definition list_prog : list cmd :=
  [SMake 1 (RObj false [true; false]); SMake 2 (RObj true [false; true]); SAssign (Field 0 0) (Var 2);
   WAssignFrom (Field 1 1) (Var 1); SDrop 2].
Lemma list_runs : srun list_prog spec0 (spec_of list_prog) /\ (Z.of_nat (made list_prog) + 16 < 2 ^ 64)%Z /\
  match run list_prog state0 with Ok s => destroyed s = [] /\ is_Some (objs s !! 1) | _ => False end.
Proof. split; [apply sim_srun; by vm_compute|]. split; [by vm_compute|]. vm_compute. eauto. Qed.
(** Then variable 1 goes as well, and both nodes with it, the first one first. *)
Definition list_end : list cmd := list_prog ++ [SDrop 1].
Lemma list_ends : srun list_end spec0 (spec_of list_end) /\ (Z.of_nat (made list_end) + 16 < 2 ^ 64)%Z /\
  ordered (sg (spec_of list_end)) id /\
  (forall x, sg (spec_of list_end) !! Var x = None /\ wg (spec_of list_end) !! Var x = None) /\
  match run list_end state0 with Ok s => destroyed s = [0; 1] /\ freed s = [1; 0] | _ => False end.
Proof.
  assert (E : sg (spec_of list_end) = ∅ /\ wg (spec_of list_end) = ∅).
  { split; apply map_size_empty_iff; vm_compute; done. }
  destruct E as [E1 E2]. split; [apply sim_srun; by vm_compute|]. split; [by vm_compute|]. rewrite E1, E2. clear E1 E2.
  split; [|split; [intros x; by rewrite !lookup_empty|vm_compute; auto]]. intros o i g. by rewrite lookup_empty.
Qed.
Lemma list_reached : reached (sg (spec_of list_prog)) 1 /\ kinds (spec_of list_prog) !! 1 = Some (RObj true [false; true]).
Proof.
  split; [|by vm_compute]. apply (reached_member _ 0 0); [|by vm_compute]. apply (reached_var _ 1). by vm_compute.
Qed.

(** Two objects that hold one another outlive the variables. *)
Definition circle_prog : list cmd :=
  [SMake 1 (RObj false [true]); SMake 2 (RObj false [true]); SAssign (Field 0 0) (Var 2); SAssign (Field 1 0) (Var 1); SDrop 1; SDrop 2].
Lemma circle_leaks : srun circle_prog spec0 (spec_of circle_prog) /\
  (forall x, sg (spec_of circle_prog) !! Var x = None /\ wg (spec_of circle_prog) !! Var x = None) /\
  exists s, run circle_prog state0 = Ok s /\ destroyed s = [] /\ is_Some (objs s !! 0) /\ is_Some (objs s !! 1).
Proof.
  split; [apply sim_srun; by vm_compute|]. split.
  - intros x. split.
    + destruct (sg (spec_of circle_prog) !! Var x) as [v|] eqn:E; [|reflexivity]. exfalso.
      rewrite <- (lookup_delete_ne _ (Field 0 0)) in E by discriminate. rewrite <- (lookup_delete_ne _ (Field 1 0)) in E by discriminate.
      assert (Z : delete (Field 1 0) (delete (Field 0 0) (sg (spec_of circle_prog))) = ∅) by (apply map_size_empty_iff; vm_compute; reflexivity).
      rewrite Z, lookup_empty in E. discriminate E.
    + assert (Hw : wg (spec_of circle_prog) = ∅) by (apply map_size_empty_iff; vm_compute; reflexivity).
      rewrite Hw. apply lookup_empty.
  - apply ran. vm_compute. eauto 10.
Qed.
(** Cutting the circle with reset() first lets both go. *)
Lemma circle_cut : exists s, run [SMake 1 (RObj false [true]); SMake 2 (RObj false [true]); SAssign (Field 0 0) (Var 2); SAssign (Field 1 0) (Var 1);
  SReset (Field 0 0); SDrop 1; SDrop 2] state0 = Ok s /\ destroyed s = [1; 0] /\ freed s = [0; 1].
Proof. apply ran. vm_compute. auto. Qed.

(** An object that holds itself: reset() is fine, reset(p) writes to the handle after it went. *)
Definition own_prog : list cmd := [SMake 1 (RObj false [true]); SAssign (Field 0 0) (Var 1); SDrop 1].
Lemma own_goes : srun own_prog spec0 (spec_of own_prog) /\
  (Z.of_nat (made (own_prog ++ [SResetTo (Field 0 0) RNull])) + 16 < 2 ^ 64)%Z /\
  is_Some (sg (spec_of own_prog) !! Field 0 0) /\ goes (<[Field 0 0 := None]> (sg (spec_of own_prog))) 0.
Proof.
  split; [apply sim_srun; by vm_compute|]. split; [by vm_compute|]. split; [vm_compute; eauto|].
  constructor. intros l E. exfalso. destruct (decide (l = Field 0 0)) as [->|N].
  - rewrite lookup_insert in E. discriminate E.
  - rewrite lookup_insert_ne in E by congruence. rewrite <- (lookup_delete_ne _ (Field 0 0)) in E by congruence.
    assert (Z : delete (Field 0 0) (sg (spec_of own_prog)) = ∅) by (apply map_size_empty_iff; vm_compute; reflexivity).
    rewrite Z, lookup_empty in E. discriminate E.
Qed.
Lemma own_reset : run (own_prog ++ [SResetTo (Field 0 0) RNull]) state0 = UB /\
  (exists s, run (own_prog ++ [SReset (Field 0 0)]) state0 = Ok s /\ destroyed s = [0] /\ freed s = [0]) /\
  (exists s, run (own_prog ++ [SAssignNull (Field 0 0)]) state0 = Ok s /\ destroyed s = [0] /\ freed s = [0]) /\
  run ([SMake 2 (RObj false [])] ++ [SMake 1 (RObj false [true]); SAssign (Field 1 0) (Var 1); SDrop 1; SAssignConv (Field 1 0) (Var 2)]) state0 = UB.
Proof. split; [by vm_compute|]. split; [apply ran; vm_compute; auto|]. split; [apply ran; vm_compute; auto|by vm_compute]. Qed.
Lemma circle_refuted : exists s, srun circle_prog spec0 (spec_of circle_prog) /\
  (forall x, sg (spec_of circle_prog) !! Var x = None /\ wg (spec_of circle_prog) !! Var x = None) /\
  run circle_prog state0 = Ok s /\ destroyed s = [] /\ is_Some (objs s !! 0) /\ is_Some (objs s !! 1).
Proof. destruct circle_leaks as (A1 & A2 & s & A3). exists s. exact (conj A1 (conj A2 A3)). Qed.
(** reset(p) on a member whose object a variable keeps. *)
Lemma reset_survives : survives (SResetTo (Field 0 0) RNull) (spec_of [SMake 1 (RObj false [true])]) /\
  match run [SMake 1 (RObj false [true]); SResetTo (Field 0 0) (RObj false []); SResetTo (Field 0 0) RNull] state0 with
  | Ok s => destroyed s = [1] /\ freed s = [1] | _ => False end.
Proof.
  split; [|vm_compute; auto]. apply reached_stays.
  apply (reached_var _ 1). vm_compute. reflexivity.
Qed.
(** The converting assignment of its own handle to the member of an object that holds itself. *)
Lemma own_again : proper (SAssignConv (Field 0 0) (Field 0 0)) = true /\
  is_Some (sstep (SAssignConv (Field 0 0) (Field 0 0)) (spec_of own_prog)) /\
  survives (SAssignConv (Field 0 0) (Field 0 0)) (spec_of own_prog) /\
  match run (own_prog ++ [SAssignConv (Field 0 0) (Field 0 0)]) state0 with Ok s => destroyed s = [] | _ => False end.
Proof.
  split; [done|]. split; [by vm_compute; eauto|]. split; [|by vm_compute]. intros g Hg.
  assert (E : sg (spec_of own_prog) !! Field 0 0 = Some (Some 0)) by (by vm_compute). rewrite E in Hg. injection Hg as <-.
  apply reached_stays. apply (reached_var _ 0). rewrite lookup_insert_ne by done. apply lookup_insert.
Qed.
