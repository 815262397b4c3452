(** Concrete deque, queue and stack histories. *)
From stdpp Require Import gmap list list_numbers.
From Coq Require Import ZArith Lia.
From Verif Require Import Base ObjModel ObjSpec DequeModel DequeSpec DequeRun DequeFacts.
Local Open Scope Z_scope.

Definition to_list {V} (o : option (gmap nat V)) : option (list (nat * V)) := match o with Some s => Some (map_to_list s) | None => None end.
Lemma of_list {V} (o : option (gmap nat V)) l : to_list o = Some l -> o = Some (list_to_map l).
Proof. destruct o as [s|]; [|discriminate]. intros [= <-]. f_equal. symmetry. apply list_to_map_to_list. Qed.
Definition show (s : outcome (gmap nat deq * mem (Z + nat))) (x : nat) : outcome (list (option (Z + nat))) :=
  match s with Ok (e, m) => match e !! x with Some d => diter d m | None => UB end | UB => UB | Fuel => Fuel end.
Definition showi (s : outcome (gmap nat deq * mem (Z + nat))) (x : nat) (i : Z) : outcome (option (Z + nat)) :=
  match s with Ok (e, m) => match e !! x with Some d => dget i d m | None => UB end | UB => UB | Fuel => Fuel end.

Definition demo : list (dcmd Z) :=
  [DInit 0 [1; 2; 3]; DPushBack 0 4; DPopFront 0; DPushFront 0 9; DCopy 1 0; DPopBack 1; DSwap 0 1; DMove 2 0; DPushBackOf 2 1;
   DAssign 0 2; DClear 1; DPushFront 1 7; DPushFrontOf 1 0].
Lemma demo_runs : to_list (srun ∅ demo) = Some [(0%nat, {| elems := [9; 2; 3; 2]; room := 1; head := 0 |});
    (1%nat, {| elems := [7; 7]; room := 2; head := 15 |}); (2%nat, {| elems := [9; 2; 3; 2]; room := 1; head := 0 |})] /\
  show (drun 4 (∅, mem0) demo) 0 = Ok (value <$> [9; 2; 3; 2]) /\
  show (drun 4 (∅, mem0) demo) 1 = Ok (value <$> [7; 7]) /\
  show (drun 4 (∅, mem0) demo) 2 = Ok (value <$> [9; 2; 3; 2]).
Proof. split; [|split; [|split]]; vm_compute; reflexivity. Qed.

Definition back_demo : list (dcmd Z) := [DInit 0 [1; 2; 3]; DPopFront 0; DCopy 1 0; DPushBack 1 8; DPopBack 0; DMoveAssign 0 1; DPushBackOf 0 2].
Lemma back_runs : lrun ∅ back_demo = Some (list_to_map [(0%nat, [2; 3; 8; 8]); (1%nat, [])]) /\
  forallb (fun c => negb (fronts c)) back_demo = true /\ list_sum (map adds back_demo) = 5%nat /\
  show (drun 4 (∅, mem0) back_demo) 0 = Ok (value <$> [2; 3; 8; 8]).
Proof. split; [apply of_list|split; [|split]]; vm_compute; reflexivity. Qed.

(** 17 elements, then one more in front. *)
Definition front17 : list (dcmd Z) := [DInit 0 (replicate 17 1); DPushFront 0 2].
Lemma front17_ub : lrun ∅ front17 = Some (list_to_map [(0%nat, 2 :: replicate 17 1)]) /\ drun 4 (∅, mem0) front17 = UB.
Proof. split; [apply of_list|]; vm_compute; reflexivity. Qed.
(** The 33rd push_front, and no other operation. *)
Definition front33 : list (dcmd Z) := DNew 0 :: replicate 33 (DPushFront 0 2).
Lemma front33_ub : lrun ∅ front33 = Some (list_to_map [(0%nat, replicate 33 2)]) /\ drun 4 (∅, mem0) front33 = UB.
Proof. split; [apply of_list|]; vm_compute; reflexivity. Qed.
Lemma front17_state : exists s e m d, reached 4 [DInit 0 (replicate 17 1)] s e m /\ e !! 0%nat = Some d /\ dfirst d = 0 /\ 2 <= dbs d.
Proof.
  destruct (history 4 [DInit 0 (replicate 17 1)] (list_to_map [(0%nat, {| elems := replicate 17 1; room := 2; head := 0 |})])) as (e & m & E & _ & Hd & _);
    [lia|apply of_list; vm_compute; reflexivity|].
  assert (G : match drun 4 (∅, mem0) [DInit 0 (replicate 17 1)] with
    | Ok (e, _) => match e !! 0%nat with Some d => (dfirst d =? 0) && (2 <=? dbs d) | None => false end | _ => false end = true) by (vm_compute; reflexivity).
  rewrite E in G. destruct (e !! 0%nat) as [d|] eqn:Ed; [|discriminate].
  eexists _, e, m, d. split; [split; [lia|split; [apply of_list; vm_compute; reflexivity|exact E]]|]. split; [exact Ed|].
  apply andb_true_iff in G as [G1 G2]. lia.
Qed.

Lemma index_popped : lrun ∅ [DInit 0 [1; 2; 3]; DPopFront 0] = Some (list_to_map [(0%nat, [2; 3])]) /\
  showi (drun 4 (∅, mem0) [DInit 0 [1; 2; 3]; DPopFront 0]) 0 0 = UB /\
  showi (drun 4 (∅, mem0) [DInit 0 [1; 2; 3]; DPopFront 0]) 0 1 = Ok (value 2).
Proof. split; [apply of_list|split]; vm_compute; reflexivity. Qed.
Lemma index_pushed : lrun ∅ [DNew 0; DPushFront 0 5] = Some (list_to_map [(0%nat, [5])]) /\
  showi (drun 4 (∅, mem0) [DNew 0; DPushFront 0 5]) 0 0 = UB.
Proof. split; [apply of_list|]; vm_compute; reflexivity. Qed.
Definition grown : list (dcmd Z) := [DInit 0 [1; 2; 3]; DPushBack 0 4; DCopy 1 0; DPushBackOf 1 1].
Lemma grown_runs : lrun ∅ grown = Some (list_to_map [(0%nat, [1; 2; 3; 4]); (1%nat, [1; 2; 3; 4; 2])]) /\
  forallb (fun c => negb (fronts c) && negb (takes c)) grown = true /\ list_sum (map adds grown) = 5%nat /\
  showi (drun 4 (∅, mem0) grown) 1 4 = Ok (value 2).
Proof. split; [apply of_list|split; [|split]]; vm_compute; reflexivity. Qed.

(** Empty: fresh, and after a pop. *)
Lemma empty_reached : to_list (srun ∅ [DNew 0; DInit 1 [3]; DPopFront 1] : option (gmap nat (sq Z))) =
    Some [(0%nat, sq0); (1%nat, {| elems := []; room := 1; head := 0 |})] /\
  drun 4 (∅, mem0) ([DNew 0; DCopy 1 0] : list (dcmd Z)) = UB /\
  drun 4 (∅, mem0) ([DInit 1 [3]; DPopFront 1; DCopy 0 1] : list (dcmd Z)) = UB.
Proof. split; [|split]; vm_compute; reflexivity. Qed.

Definition queue_demo : list (qcmd Z) :=
  [QNew 0; QPush 0 1; QPush 0 2; QPush 0 3; QPop 0; QCopy 1 0; QPush 1 4; QPop 1; QSwap 0 1; QMove 2 1; QAssign 1 0; QPop 2; QSwap 2 2].
Lemma queue_runs : qspecs ∅ queue_demo = Some (list_to_map [(0%nat, [3; 4]); (1%nat, [3; 4]); (2%nat, [3])]) /\ qpushes queue_demo = 4%nat /\
  show (qrun 4 (∅, mem0) queue_demo) 0 = Ok (value <$> [3; 4]) /\ show (qrun 4 (∅, mem0) queue_demo) 2 = Ok (value <$> [3]).
Proof. split; [apply of_list|split; [|split]]; vm_compute; reflexivity. Qed.
Lemma queue_copy_empty : qrun 4 (∅, mem0) ([QNew 0; QCopy 1 0] : list (qcmd Z)) = UB.
Proof. vm_compute. reflexivity. Qed.

Section check.
Context {A : Type}.
Fixpoint kwithin_b (N : nat) (s : gmap nat (list A)) (cs : list (kcmd A)) : bool :=
  match cs with
  | [] => true
  | c :: cs' => match kspec s c with Some s' => forallb (fun p => Nat.leb (length p.2) N) (map_to_list s') && kwithin_b N s' cs' | None => true end
  end.
Lemma kwithin_b_ok N cs : forall s, kwithin_b N s cs = true -> kwithin N s cs.
Proof.
  induction cs as [|c cs IH]; intros s H; cbn [kwithin kwithin_b] in *; [exact I|]. intros s' E. rewrite E in H.
  apply andb_true_iff in H as [H1 H2]. split; [|apply IH, H2]. intros x l Hx. rewrite forallb_forall in H1.
  apply Nat.leb_le. apply (H1 (x, l)). apply elem_of_list_In, elem_of_map_to_list. exact Hx.
Qed.
End check.
Definition stack_demo : list (kcmd Z) :=
  [KNew 0; KPush 0 1; KPush 0 2; KPush 0 3; KPop 0; KCopy 1 0; KPush 1 4; KPop 0; KSwap 0 1; KMove 2 1; KAssign 1 0; KPop 2].
Lemma stack_runs : kspecs ∅ stack_demo = Some (list_to_map [(0%nat, [1; 2; 4]); (1%nat, [1; 2; 4]); (2%nat, [])]) /\ kwithin 3 ∅ stack_demo /\
  show (krun 4 (∅, mem0) stack_demo) 0 = Ok (value <$> [1; 2; 4]) /\ show (krun 4 (∅, mem0) stack_demo) 1 = Ok (value <$> [1; 2; 4]).
Proof. split; [apply of_list|split; [apply kwithin_b_ok|split]]; vm_compute; reflexivity. Qed.
Lemma stack_copy_empty : krun 4 (∅, mem0) ([KNew 0; KCopy 1 0] : list (kcmd Z)) = UB.
Proof. vm_compute. reflexivity. Qed.

(** 40 rounds of three pushes and three pops. *)
Definition rounds : list (option Z) := concat (replicate 40 [Some 1; Some 2; None; Some 3; None; None]).
Lemma rounds_run : to_list (qspecs ∅ (qops rounds)) = Some [(0%nat, [])] /\ longest 0 0 rounds = 3%nat /\
  match qrun 4 (∅, mem0) (qops rounds) with Ok (e, _) => match e !! 0%nat with Some d => dbs d = 1 | None => False end | _ => False end.
Proof. split; [|split]; vm_compute; reflexivity. Qed.

Definition life : list (dcmd Z) := [DInit 0 [1; 2]; DPushFront 0 3; DCopy 1 0; DPopFront 1; DClear 1; DDestroy 0; DDestroy 1].
Lemma life_runs : srun ∅ life = Some ∅ /\
  match drun 4 (∅, mem0) life with Ok (e, m) => (length (trace m) = 32)%nat | _ => False end.
Proof. split; [apply (of_list _ [])|]; vm_compute; reflexivity. Qed.

Lemma own_runs : to_list (srun ∅ [DInit 0 (seqZ 1 16); DPushBackOf 0 3; DPopFront 0; DPushFrontOf 0 1]) =
    Some [(0%nat, {| elems := 3 :: seqZ 2 15 ++ [4]; room := 2; head := 0 |})] /\
  show (drun 4 (∅, mem0) [DInit 0 (seqZ 1 16); DPushBackOf 0 3; DPopFront 0; DPushFrontOf 0 1]) 0 = Ok (value <$> 3 :: seqZ 2 15 ++ [4]).
Proof. split; vm_compute; reflexivity. Qed.
