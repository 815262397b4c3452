(** Concrete vector histories. *)
From stdpp Require Import gmap list.
From Coq Require Import ZArith Lia.
From Verif Require Import Base ObjModel ObjSpec ObjProofs VectorModel VectorSpec VectorProofs VectorRun VectorFacts.
Local Open Scope Z_scope.

Section check.
Context {A : Type} (dflt : A) (smk : bool).
Definition sizes_b (M : Z) (s : gmap nat (list A)) : bool := forallb (fun p => zlen p.2 <=? M) (map_to_list s).
Fixpoint within_b (M : Z) (s : gmap nat (list A)) (cs : list (vcmd A)) : bool :=
  match cs with
  | [] => true
  | c :: cs' => (requested c <=? M) && match sstep dflt smk s c with Some s' => sizes_b M s' && within_b M s' cs' | None => true end
  end.
Lemma within_b_ok M cs : forall s, within_b M s cs = true -> within dflt smk M s cs.
Proof.
  induction cs as [|c cs IH]; intros s H; cbn [within within_b] in *; [exact I|].
  apply andb_true_iff in H as [H1 H2]. split; [apply Z.leb_le; exact H1|]. intros s' E. rewrite E in H2.
  apply andb_true_iff in H2 as [H2 H3]. split; [|apply IH; exact H3].
  intros x l Hx. unfold sizes_b in H2. rewrite forallb_forall in H2.
  apply Z.leb_le. apply (H2 (x, l)). apply elem_of_list_In, elem_of_map_to_list. exact Hx.
Qed.
Lemma srun_list cs (l : list (nat * list A)) :
  match srun dflt smk ∅ cs with Some s => map_to_list s = l | None => False end -> srun dflt smk ∅ cs = Some (list_to_map l).
Proof.
  destruct (srun dflt smk ∅ cs) as [s|]; [|intros []]. intros <-. f_equal. symmetry. apply list_to_map_to_list.
Qed.
End check.

Definition show (s : outcome (gmap nat vec * mem Z)) (x : nat) : outcome (list (option Z)) :=
  match s with Ok (e, m) => match e !! x with Some v => viter v m | None => UB end | UB => UB | Fuel => Fuel end.

Definition demo : list (vcmd Z) :=
  [CInit 0 [1; 2; 3]; CPushBack 0 4; CCopy 1 0; CInsert 1 2 9; CErase 0 0; CSwap 0 1; CMove 2 0; CAssign 0 1;
   CPopFront 1; CResize 2 7; CEraseRange 2 1 3; CEmplace 1 1 8].
Lemma demo_runs : srun 0 false ∅ demo = Some (list_to_map [(0%nat, [2; 3; 4]); (1%nat, [3; 8; 4]); (2%nat, [1; 3; 4; 0; 0])]) /\
  within 0 false 8 ∅ demo /\
  show (vrun 4 0 false (∅, mem0) demo) 0 = Ok [Some 2; Some 3; Some 4] /\
  show (vrun 4 0 false (∅, mem0) demo) 1 = Ok [Some 3; Some 8; Some 4] /\
  show (vrun 4 0 false (∅, mem0) demo) 2 = Ok [Some 1; Some 3; Some 4; Some 0; Some 0].
Proof.
  split; [apply srun_list; vm_compute; reflexivity|]. split; [apply within_b_ok; vm_compute; reflexivity|].
  split; [vm_compute; reflexivity|]. split; vm_compute; reflexivity.
Qed.

(** erase(p, p) with a type that does not survive being moved onto itself. *)
Lemma empty_range : srun 0 true ∅ [CInit 0 [1; 2; 3]; CEraseRange 0 1 1] = Some (list_to_map [(0%nat, [1; 2; 3])]) /\
  show (vrun 4 0 false (∅, mem0) [CInit 0 [1; 2; 3]; CEraseRange 0 1 1]) 0 = Ok [Some 1; None; None].
Proof. split; [apply srun_list|]; vm_compute; reflexivity. Qed.

Lemma equal_overflow (n : Z) : 2 ^ 31 <= n -> 2 * n < 2 ^ 63 ->
  exists cs s e m v w l, reached 1 0 true n cs s e m /\ s !! 0%nat = Some l /\ s !! 1%nat = Some l /\
    e !! 0%nat = Some v /\ e !! 1%nat = Some w /\ vequal Z.eqb v w m = UB.
Proof.
  intros Hn HM. set (l := replicate (Z.to_nat n) 0).
  set (s := <[1%nat := l]> (<[0%nat := l]> (∅ : gmap nat (list Z)))).
  assert (Hzl : zlen l = n) by (unfold zlen, l; rewrite replicate_length; lia).
  assert (E1 : sstep 0 true ∅ (CFill 0 n 0) = Some (<[0%nat := l]> ∅)).
  { cbn [sstep]. replace (0 <=? n) with true by lia. reflexivity. }
  assert (E2 : sstep 0 true (<[0%nat := l]> ∅) (CFill 1 n 0) = Some s).
  { cbn [sstep]. replace (0 <=? n) with true by lia. reflexivity. }
  assert (Hs : srun 0 true ∅ [CFill 0 n 0; CFill 1 n 0] = Some s).
  { cbn [srun]. rewrite E1, E2. reflexivity. }
  assert (Hw : within 0 true n ∅ [CFill 0 n 0; CFill 1 n 0]).
  { cbn [within requested]. split; [lia|]. intros s1 X. rewrite E1 in X. injection X as <-. split.
    - intros x k Hx. apply lookup_insert_Some in Hx as [[_ <-]|[_ Hx]]; [lia|]. rewrite lookup_empty in Hx. discriminate.
    - split; [lia|]. intros s2 X. rewrite E2 in X. injection X as <-. split; [|exact I].
      intros x k Hx. apply lookup_insert_Some in Hx as [[_ <-]|[_ Hx]]; [lia|].
      apply lookup_insert_Some in Hx as [[_ <-]|[_ Hx]]; [lia|]. rewrite lookup_empty in Hx. discriminate. }
  destruct (run_ok 1 0 true ltac:(lia) n ltac:(lia) _ ∅ ∅ mem0 s (inv0 _ _) Hs Hw) as (e & m & E & Hinv).
  assert (Hr : reached 1 0 true n [CFill 0 n 0; CFill 1 n 0] s e m).
  { split; [lia|]. split; [lia|]. split; [exact Hs|]. split; [exact Hw|exact E]. }
  assert (H0 : s !! 0%nat = Some l) by reflexivity. assert (H1 : s !! 1%nat = Some l) by reflexivity.
  destruct (inv_env _ _ _ _ _ _ _ Hinv H0) as (v & c & Hv & _). destruct (inv_env _ _ _ _ _ _ _ Hinv H1) as (w & d & Hw' & _).
  exists [CFill 0 n 0; CFill 1 n 0], s, e, m, v, w, l. split; [exact Hr|]. split; [exact H0|]. split; [exact H1|].
  split; [exact Hv|]. split; [exact Hw'|].
  eapply (equal_big 1 0 true n); [exact Hr|intros; apply Z.eqb_eq|exact H0|exact H1|exact Hv|exact Hw'|lia].
Qed.

(** Lifetimes. *)
Definition life : list (vcmd Z) := [CInit 0 [1; 2]; CPushBack 0 3; CCopy 1 0; CErase 1 0; CMoveAssign 0 1; CDestroy 1; CDestroy 0].
Lemma life_runs : srun 0 false ∅ life = Some ∅ /\ within 0 false 3 ∅ life /\
  match vrun 4 0 false (∅, mem0) life with Ok (e, m) => (length (trace m) = 28)%nat | _ => False end.
Proof. split; [apply (srun_list _ _ _ []); vm_compute; reflexivity|]. split; [apply within_b_ok; vm_compute; reflexivity|vm_compute; reflexivity]. Qed.

Lemma empty_leak : exists cs e (m : mem Z), reached 4 0 true 1 cs ∅ e m /\ ~ buffers_gone (trace m).
Proof.
  exists [CInit 0 []; CDestroy 0].
  destruct (vrun 4 0 true (∅, mem0) [CInit 0 []; CDestroy 0]) as [[e m]| |] eqn:E; [|vm_compute in E; discriminate..].
  exists e, m. split.
  - split; [lia|]. split; [lia|]. split; [apply (srun_list _ _ _ []); vm_compute; reflexivity|]. split; [apply within_b_ok; vm_compute; reflexivity|exact E].
  - assert (T : match vrun 4 0 true (∅, mem0) [CInit 0 []; CDestroy 0] with Ok (_, m) => trace m = [EAlloc 0 0] | _ => False end)
      by (vm_compute; reflexivity).
    rewrite E in T. rewrite T. intros H. specialize (H 0%nat). discriminate H.
Qed.

(** Aliasing. *)
Definition full : list (vcmd Z) := [CInit 0 [1; 2]].
Definition room : list (vcmd Z) := [CInit 0 [1; 2]; CReserve 0 5].
Lemma room_runs : within 0 false 5 ∅ room /\ within 0 false 5 ∅ full /\ show (vrun 4 0 false (∅, mem0) room) 0 = Ok [Some 1; Some 2].
Proof. split; [apply within_b_ok; vm_compute; reflexivity|]. split; [apply within_b_ok; vm_compute; reflexivity|vm_compute; reflexivity]. Qed.
Lemma alias_push : exists e (m : mem Z) v p, reached 4 0 true 5 full (list_to_map [(0%nat, [1; 2])]) e m /\ e !! 0%nat = Some v /\
  padd (vstart v) 0 = Ok p /\ push_back 4 (ARef p) v m = UB.
Proof.
  destruct (vrun 4 0 true (∅, mem0) full) as [[e m]| |] eqn:E; [|vm_compute in E; discriminate..].
  assert (G : match vrun 4 0 true (∅, mem0) full with Ok (e, m) => match e !! 0%nat with Some v =>
    match padd (vstart v) 0 with Ok p => push_back 4 (ARef p) v m = UB | _ => False end | None => False end | _ => False end)
    by (vm_compute; reflexivity).
  rewrite E in G. destruct (e !! 0%nat) as [v|] eqn:Ev; [|destruct G]. destruct (padd (vstart v) 0) as [p| |] eqn:Ep; [|destruct G..].
  exists e, m, v, p. split; [|auto].
  split; [lia|]. split; [lia|]. split; [apply srun_list; vm_compute; reflexivity|]. split; [apply within_b_ok; vm_compute; reflexivity|exact E].
Qed.
Lemma alias_insert : exists e (m : mem Z) v p q v' m', reached 4 0 true 5 room (list_to_map [(0%nat, [1; 2])]) e m /\ e !! 0%nat = Some v /\
  padd (vstart v) 0 = Ok p /\ padd (vstart v) 1 = Ok q /\ insert_at 4 0 true p (ARef q) v m = Ok (v', m') /\
  viter v' m' = Ok [Some 1; Some 1; Some 2].
Proof.
  destruct (vrun 4 0 true (∅, mem0) room) as [[e m]| |] eqn:E; [|vm_compute in E; discriminate..].
  assert (G : match vrun 4 0 true (∅, mem0) room with Ok (e, m) => match e !! 0%nat with Some v =>
    match padd (vstart v) 0, padd (vstart v) 1 with Ok p, Ok q => match insert_at 4 0 true p (ARef q) v m with
      Ok (v', m') => viter v' m' = Ok [Some 1; Some 1; Some 2] | _ => False end | _, _ => False end | None => False end | _ => False end)
    by (vm_compute; reflexivity).
  rewrite E in G. destruct (e !! 0%nat) as [v|] eqn:Ev; [|destruct G].
  destruct (padd (vstart v) 0) as [p| |] eqn:Ep; [|destruct G..]. destruct (padd (vstart v) 1) as [q| |] eqn:Eq; [|destruct G..].
  destruct (insert_at 4 0 true p (ARef q) v m) as [[v' m']| |] eqn:Ei; [|destruct G..].
  exists e, m, v, p, q, v', m'. split; [|auto 10].
  split; [lia|]. split; [lia|]. split; [apply srun_list; vm_compute; reflexivity|]. split; [apply within_b_ok; vm_compute; reflexivity|exact E].
Qed.

(** Growth: five push_backs. *)
Lemma growth : match vrun 4 0 true (∅, mem0) (CNew 0 :: map (CPushBack 0) [1; 2; 3; 4; 5]) with
  | Ok (e, m) => (count is_move (trace m) = 7)%nat | _ => False end.
Proof. vm_compute. reflexivity. Qed.
