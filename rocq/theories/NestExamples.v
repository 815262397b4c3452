(** Cases for PropertiesNest. *)
From Coq Require Import ZArith Bool List Lia.
From Verif Require Import Base NestModel NestSpec NestProofs NestDeep.
Import ListNotations.
Local Open Scope Z_scope.

Definition demo_irq (n : nat) : list ins := [Move (-24); Save; Cli; Restore; Move 24].
Definition demo_sys (n : nat) : list ins := match n with O => [Move (-8); Sys 1; Move 8] | _ => [] end.
Definition demo_main : list ins := [Move (-32); Sti; Sys 0; Cli; Move 32].
Lemma demo_irqs n : closed (demo_irq n) /\ keeps_out (demo_irq n) /\ room demo_sys 24 (demo_irq n).
Proof.
  split; [|split; [split|]].
  - repeat (constructor; cbn).
  - cbn. intuition discriminate.
  - intros k. cbn. intuition discriminate.
  - unfold demo_irq. apply RMove; [lia|]. do 3 (apply RFlag; [cbn; tauto|]). apply RMove; [lia|]. apply RNil. lia.
Qed.
Lemma demo_syss n : closed (demo_sys n).
Proof. destruct n; repeat (constructor; cbn). Qed.
Lemma demo_ends : ends 0 0 demo_main 0 0.
Proof. repeat (constructor; cbn). Qed.
Lemma demo_room : room demo_sys (32 + 8 + 2 * stub_needs) demo_main.
Proof.
  unfold stub_needs. cbn. apply RMove; [lia|]. apply RFlag; [cbn; tauto|]. apply RSys.
  - unfold stub_needs. cbn. apply RMove; [lia|]. apply RSys; [apply RNil; unfold stub_needs; lia|]. apply RMove; [lia|]. apply RNil. lia.
  - apply RFlag; [cbn; tauto|]. apply RMove; [lia|]. apply RNil. lia.
Qed.
(** The bound is reached. *)
Lemma sharp : exists sched, match run true demo_irq demo_sys sched (start 1039 true []) with
  Ok m => depth m = 1%nat /\ low m = 1039 - 0 - stub_needs - 24 | _ => False end.
Proof. exists (Some 0%nat :: repeat None 23). vm_compute. split; reflexivity. Qed.

Lemma enable_deep irq sys e pre x y d post : irq e = pre ++ Sti :: Move d :: post -> ends 0 0 pre x y -> (forall n, ~ In (Sys n) pre) -> x + d <= 0 ->
  forall s p n, exists sched m, run true irq sys sched (start s true p) = Ok m /\ depth m = n /\ low m <= s - 176 * Z.of_nat n.
Proof. intros E En N X. exact (deep _ _ _ _ (enabling true irq sys e pre x y d post E En N X)). Qed.
Lemma call_deep irq sys e pre x y k post : irq e = pre ++ Sys k :: post -> ends 0 0 pre x y -> (forall n, ~ In (Sys n) pre) -> x <= 0 ->
  forall s p n, exists sched m, run true irq sys sched (start s true p) = Ok m /\ depth m = n /\ low m <= s - 224 * Z.of_nat n.
Proof. intros E En N X. exact (deep _ _ _ _ (calling true irq sys e pre x y k post E En N X)). Qed.
Lemma unshielded_deep irq sys e : closed (irq e) -> (forall n, ~ In (Sys n) (irq e)) ->
  forall s p n, exists sched m, run false irq sys sched (start s true p) = Ok m /\ depth m = n /\ low m <= s - 40 * Z.of_nat n.
Proof. intros C N. exact (deep _ _ _ _ (unshielded irq sys e C N)). Qed.
Lemma demo_pre : [Move (-24); Sti; Move (-8); Move 8; Move 24] = [Move (-24)] ++ Sti :: Move (-8) :: [Move 8; Move 24] /\
  ends 0 0 [Move (-24)] (-24) 0 /\ forall n, ~ In (Sys n) [Move (-24)].
Proof. split; [reflexivity|]. split; [repeat (constructor; cbn)|]. intros n. cbn. intuition discriminate. Qed.
Lemma demo_call : [Move (-24); Sys 1; Move 24] = [Move (-24)] ++ Sys 1 :: [Move 24].
Proof. reflexivity. Qed.
Lemma demo_quiet : closed (demo_irq 0) /\ forall n, ~ In (Sys n) (demo_irq 0).
Proof. split; [apply demo_irqs|apply demo_irqs]. Qed.
