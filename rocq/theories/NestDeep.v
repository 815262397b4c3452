(** How interrupts come to nest. *)
From Coq Require Import ZArith Bool List Lia.
From Verif Require Import Base NestModel NestSpec NestProofs.
Import ListNotations.
Local Open Scope Z_scope.

Section Deep.
Variables (shields : bool) (irq sys : nat -> list ins).
Notation run := (run shields irq sys).
Lemma run_app a b m : run (a ++ b) m = (match run a m with Ok m => run b m | UB => UB | Fuel => Fuel end).
Proof.
  revert m. induction a as [|[n|] a IH]; intros m; cbn; [reflexivity|apply IH|]. destruct (exec1 shields sys m); cbn; [apply IH|reflexivity|reflexivity].
Qed.
Lemma run_seq d g l d' g' : ends d g l d' g' -> (forall n, ~ In (Sys n) l) -> forall m t, code m = l ++ t -> (g <= length (guards m))%nat ->
  exists m', run (repeat None (length l)) m = Ok m' /\ code m' = t /\ rsp m' = rsp m + (d' - d) /\ frames m' = frames m /\ low m' <= low m /\
    (shadow m = false -> l = [] -> m' = m).
Proof.
  induction 1; intros N m t Ec G; cbn [length repeat].
  - exists m. cbn. repeat split; [exact Ec|lia|lia].
  - assert (N' : forall n, ~ In (Sys n) l) by (intros n I; apply (N n); right; exact I).
    cbn. unfold exec1. rewrite Ec. cbn [app obind].
    destruct (IHends N' {| rsp := rsp m + x; ifl := ifl m; shadow := false; guards := guards m; code := l ++ t; frames := frames m;
            low := Z.min (low m) (rsp m + x); taken := taken m |} t eq_refl G) as (m' & -> & C & R & Fr & L & _).
    cbn in *. exists m'. repeat split; try assumption; try lia. discriminate.
  - assert (N' : forall n, ~ In (Sys n) l) by (intros n I; apply (N n); right; exact I).
    cbn. unfold exec1. rewrite Ec. cbn [app obind].
    match goal with |- context [NestModel.run _ _ _ _ ?M] => destruct (IHends N' M t eq_refl) as (m' & E & C & R & Fr & L & _) end; [exact G|].
    rewrite E. exists m'. cbn in *. repeat split; try assumption; try lia. discriminate.
  - assert (N' : forall n, ~ In (Sys n) l) by (intros n I; apply (N n); right; exact I).
    cbn. unfold exec1. rewrite Ec. cbn [app obind].
    match goal with |- context [NestModel.run _ _ _ _ ?M] => destruct (IHends N' M t eq_refl) as (m' & E & C & R & Fr & L & _) end; [exact G|].
    rewrite E. exists m'. cbn in *. repeat split; try assumption; try lia. discriminate.
  - assert (N' : forall n, ~ In (Sys n) l) by (intros n I; apply (N n); right; exact I).
    cbn. unfold exec1. rewrite Ec. cbn [app obind].
    match goal with |- context [NestModel.run _ _ _ _ ?M] => destruct (IHends N' M t eq_refl) as (m' & E & C & R & Fr & L & _) end; [cbn; lia|].
    rewrite E. exists m'. cbn in *. repeat split; try assumption; try lia. discriminate.
  - assert (N' : forall n, ~ In (Sys n) l) by (intros n I; apply (N n); right; exact I).
    cbn. unfold exec1. rewrite Ec. cbn [app obind]. destruct (guards m) as [|b gs]; [cbn in G; lia|]. cbn [obind].
    match goal with |- context [NestModel.run _ _ _ _ ?M] => destruct (IHends N' M t eq_refl) as (m' & E & C & R & Fr & L & _) end; [cbn in *; lia|].
    rewrite E. exists m'. cbn in *. repeat split; try assumption; try lia. discriminate.
  - destruct (N n). left. reflexivity.
Qed.
Lemma ends_app d g l d' g' : ends d g l d' g' -> forall t d'' g'', ends d' g' t d'' g'' -> ends d g (l ++ t) d'' g''.
Proof. induction 1; intros t d'' g'' T; cbn; try constructor; auto. Qed.
Lemma ends_shift d g l d' g' : ends d g l d' g' -> forall a b, ends (a + d) (g + b) l (a + d') (g' + b).
Proof.
  induction 1; intros a b; try (constructor; auto; fail).
  - apply EMove. replace (a + d + x) with (a + (d + x)) by lia. apply IHends.
  - apply ESave. exact (IHends a b).
Qed.

Definition open (m : cpu) : Prop := ifl m = true /\ shadow m = false.
(** The stub up to the handler's first statement. *)
Definition ahead : list ins :=
  Cli :: Move (-8) :: save_context ++ restore_kernel_segments ++ [Move (-8); Save; Cli].
Lemma ahead_ends pre x y : ends 0 0 pre x y -> ends 0 0 (ahead ++ pre) (x - 136) (S y).
Proof.
  intros E. apply ends_app with (d' := -136) (g' := 1%nat).
  - unfold ahead, save_context, restore_kernel_segments. cbn [repeat app]. repeat (constructor; cbn).
  - pose proof (ends_shift _ _ _ _ _ E (-136) 1) as H. replace (x - 136) with (-136 + x) by lia. replace (S y) with (y + 1)%nat by lia. exact H.
Qed.
Lemma ahead_no_sys pre : (forall n, ~ In (Sys n) pre) -> forall n, ~ In (Sys n) (ahead ++ pre).
Proof.
  intros N n. rewrite in_app_iff. intros [I|I]; [|exact (N n I)].
  unfold ahead, save_context, restore_kernel_segments in I. cbn [repeat app In] in I. intuition discriminate.
Qed.
Lemma stub_split n pre post : irq n = pre ++ post -> exists t, irq_stub irq n = (ahead ++ pre) ++ post ++ t.
Proof.
  intros E. exists (Restore :: Move 8 :: restore_context ++ [Move 8; Sti; Iretq]).
  unfold irq_stub, irq_handler, ahead. rewrite E. cbn [app]. repeat rewrite <- app_assoc. cbn [app]. repeat rewrite <- app_assoc. reflexivity.
Qed.

(** From an open state the interrupt gets into its handler. *)
Lemma enter n pre post x y m : irq n = pre ++ post -> ends 0 0 pre x y -> (forall k, ~ In (Sys k) pre) -> open m ->
  exists sched m' t, run sched m = Ok m' /\ code m' = post ++ t /\ rsp m' = frame_at (rsp m) - 136 + x /\ depth m' = S (depth m).
Proof.
  intros E En N (O1 & O2). destruct (stub_split _ _ _ E) as (t & Es).
  set (m1 := interrupt irq n m).
  assert (C1 : code m1 = (ahead ++ pre) ++ post ++ t) by (unfold m1, interrupt; rewrite O1, O2; exact Es).
  destruct (run_seq _ _ _ _ _ (ahead_ends _ _ _ En) (ahead_no_sys _ N) m1 (post ++ t) C1) as (m' & R & C & Rs & Fr & L & _); [lia|].
  exists (Some n :: repeat None (length (ahead ++ pre))), m', t. split; [cbn; exact R|]. split; [exact C|].
  unfold m1, interrupt in Rs, Fr. rewrite O1, O2 in Rs, Fr. cbn in Rs, Fr. split; [lia|]. unfold depth. rewrite Fr. reflexivity.
Qed.

Definition deepens (w : Z) : Prop := forall m, open m ->
  exists sched m', run sched m = Ok m' /\ open m' /\ depth m' = S (depth m) /\ rsp m' <= rsp m - w /\ low m' <= rsp m'.
Lemma deeper w : deepens w -> forall n m, open m -> low m <= rsp m ->
  exists sched m', run sched m = Ok m' /\ open m' /\ depth m' = (n + depth m)%nat /\ rsp m' <= rsp m - w * Z.of_nat n /\ low m' <= rsp m'.
Proof.
  intros H. induction n as [|n IH]; intros m O L.
  - exists [], m. cbn. repeat split; try apply O; lia.
  - destruct (IH m O L) as (s1 & m1 & R1 & O1 & D1 & P1 & L1). destruct (H m1 O1) as (s2 & m2 & R2 & O2 & D2 & P2 & L2).
    exists (s1 ++ s2), m2. rewrite run_app, R1. repeat split; try assumption; try apply O2; try lia.
Qed.
Lemma deep w : deepens w -> forall s p n, exists sched m, run sched (start s true p) = Ok m /\ depth m = n /\ low m <= s - w * Z.of_nat n.
Proof.
  intros H s p n. destruct (deeper w H n (start s true p)) as (sched & m & R & _ & D & P & L); [split; reflexivity|cbn; lia|].
  exists sched, m. split; [exact R|]. change (depth (start s true p)) with 0%nat in D. cbn [rsp start] in P. split; [lia|lia].
Qed.

Lemma enabling e pre x y d post : irq e = pre ++ Sti :: Move d :: post -> ends 0 0 pre x y -> (forall n, ~ In (Sys n) pre) -> x + d <= 0 ->
  deepens 176.
Proof.
  intros E En N X m O. destruct (enter e pre (Sti :: Move d :: post) x y m E En N O) as (sched & m1 & t & R & C & Rs & D).
  eexists (sched ++ [None; None]), _. rewrite run_app, R. cbn [NestModel.run].
  unfold exec1 at 1. rewrite C. cbn [app obind]. unfold exec1. cbn [code obind].
  split; [reflexivity|]. pose proof (aligned_bounds (rsp m)). unfold frame_at in Rs. cbn -[aligned].
  split; [split; reflexivity|]. split; [exact D|]. lia.
Qed.
Lemma calling e pre x y k post : irq e = pre ++ Sys k :: post -> ends 0 0 pre x y -> (forall n, ~ In (Sys n) pre) -> x <= 0 ->
  deepens 224.
Proof.
  intros E En N X m O. destruct (enter e pre (Sys k :: post) x y m E En N O) as (sched & m1 & t & R & C & Rs & D).
  eexists (sched ++ [None; None; None]), _. rewrite run_app, R. cbn [NestModel.run].
  unfold exec1 at 1. rewrite C. cbn [app obind]. unfold exec1 at 1. unfold deliver. cbn [code sys_stub obind]. unfold exec1. cbn [code obind].
  split; [reflexivity|]. pose proof (aligned_bounds (rsp m)). pose proof (aligned_bounds (rsp m1)). unfold frame_at in *. cbn -[aligned].
  split; [split; reflexivity|]. split; [unfold depth in *; cbn; exact D|]. unfold frame_at in *. lia.
Qed.
End Deep.


(** A processor that does not shield the instruction after sti. *)
Lemma unshielded irq sys e : closed (irq e) -> (forall n, ~ In (Sys n) (irq e)) -> deepens false irq sys 40.
Proof.
  intros C N m (O1 & O2).
  set (l := Cli :: Move (-8) :: save_context ++ restore_kernel_segments ++ Move (-8) :: irq_handler irq e ++ Move 8 :: restore_context ++ [Move 8]).
  assert (El : irq_stub irq e = l ++ [Sti; Iretq]).
  { unfold irq_stub, l. cbn [app]. repeat rewrite <- app_assoc. cbn [app]. repeat rewrite <- app_assoc. reflexivity. }
  assert (En : ends 0 0 l 0 0).
  { unfold l, save_context, restore_context, restore_kernel_segments. cbn [repeat app]. do 20 constructor.
    apply ends_app with (d' := -136) (g' := 0%nat).
    - pose proof (ends_shift _ _ _ _ _ (closed_guarded _ C) (-136) 0) as H. exact H.
    - repeat (constructor; cbn). }
  assert (Nl : forall n, ~ In (Sys n) l).
  { intros n. specialize (N n). unfold l, irq_handler, save_context, restore_context, restore_kernel_segments. cbn [repeat app In].
    rewrite in_app_iff. cbn [In]. rewrite in_app_iff. cbn [In]. intuition discriminate. }
  set (m1 := interrupt irq e m).
  assert (C1 : code m1 = l ++ [Sti; Iretq]) by (unfold m1, interrupt; rewrite O1, O2; exact El).
  destruct (run_seq false irq sys _ _ _ _ _ En Nl m1 _ C1) as (m' & R & C' & Rs & Fr & L & _); [lia|].
  eexists (Some e :: repeat None (length l) ++ [None]), _. split.
  - cbn [NestModel.run]. fold m1. rewrite run_app, R. cbn [NestModel.run]. unfold exec1. rewrite C'. cbn [obind]. reflexivity.
  - unfold m1, interrupt in Rs, Fr, L. rewrite O1, O2 in Rs, Fr, L. cbn -[aligned] in Rs, Fr, L. cbn -[aligned]. pose proof (aligned_bounds (rsp m)). unfold frame_at in *.
    split; [split; reflexivity|]. split; [unfold depth; cbn; rewrite Fr; reflexivity|]. lia.
Qed.

(** A system call within a guard. *)
Lemma guard_opened irq sys e k s fl p : exists sched m f f', run true irq sys sched (start s fl (Save :: Cli :: Sys k :: Restore :: p)) = Ok m /\
  taken m = [e] /\ frames m = [f; f'] /\ f_hw f = true /\ f_code f' = Restore :: p /\ f_guards f' = [fl] /\ f_if f' = false.
Proof. eexists [None; None; None; None; None; Some e], _, _, _. split; [cbn; reflexivity|]. cbn. repeat split. Qed.
