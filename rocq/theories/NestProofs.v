(** At most one interrupt is under way, and the stack it needs is bounded. *)
From Coq Require Import ZArith Bool List Lia.
From Verif Require Import Base NestModel NestSpec.
Import ListNotations.
Local Open Scope Z_scope.

Lemma aligned_bounds r : r - 15 <= aligned r <= r.
Proof. unfold aligned. pose proof (Z.div_mod r 16 ltac:(lia)). pose proof (Z.mod_pos_bound r 16 ltac:(lia)). lia. Qed.

Lemma ends_no_iretq d g l d' g' : ends d g l d' g' -> ~ In Iretq l.
Proof. induction 1; cbn; [tauto|..]; intros [E|E]; try discriminate; tauto. Qed.
Lemma room_nonneg sys b l : room sys b l -> 0 <= b.
Proof. induction 1; try lia. Qed.
Lemma room_more sys b l : room sys b l -> forall b', b <= b' -> room sys b' l.
Proof.
  induction 1; intros b' L.
  - apply RNil. lia.
  - apply RMove; [lia|]. apply IHroom. lia.
  - apply RSys; [apply IHroom1; lia|apply IHroom2; lia].
  - apply RFlag; [assumption|]. apply IHroom. lia.
Qed.

(** ** Code in its place *)
Section Ctx.
Variables (shields : bool) (irq sys : nat -> list ins).
(** The code has the stack from [F] to its rsp [r] at its disposal, and iretq finds its frame at [ret]. *)
Fixpoint ctx (F : Z) (ret : option Z) (r : Z) (g : nat) (l : list ins) : Prop :=
  F <= r /\
  match l with
  | [] => ret = None
  | Move d :: l => ctx F ret (r + d) g l
  | Cli :: l | Sti :: l => ctx F ret r g l
  | Save :: l => ctx F ret r (S g) l
  | Restore :: l => match g with O => False | S g => ctx F ret r g l end
  | Sys n :: l => room sys (r - F - stub_needs) (sys n) /\ ctx F ret r g l
  | Iretq :: _ => ret = Some r
  end.
Lemma ctx_floor F ret r g l : ctx F ret r g l -> F <= r.
Proof. destruct l; cbn; tauto. Qed.

Lemma ctx_app F ret d g l d' g' : ends d g l d' g' -> forall b r k t, room sys b l -> b <= r - F ->
  ctx F ret (r + (d' - d)) (k + g') t -> ctx F ret r (k + g) (l ++ t).
Proof.
  induction 1; intros b r k t R L T; cbn [app].
  - replace (r + (d - d)) with r in T by lia. exact T.
  - inversion R; subst; [|cbn in *; intuition discriminate]. cbn. split; [lia|].
    eapply IHends; [eassumption|lia|]. replace (r + x + (d' - (d + x))) with (r + (d' - d)) by lia. exact T.
  - inversion R; subst. pose proof (room_nonneg _ _ _ R). cbn. split; [lia|]. eapply IHends; eassumption.
  - inversion R; subst. pose proof (room_nonneg _ _ _ R). cbn. split; [lia|]. eapply IHends; eassumption.
  - inversion R; subst. pose proof (room_nonneg _ _ _ R). cbn. split; [lia|]. replace (S (k + g))%nat with (k + S g)%nat by lia.
    eapply IHends; eassumption.
  - inversion R; subst. pose proof (room_nonneg _ _ _ R). cbn. split; [lia|]. replace (k + S g)%nat with (S (k + g))%nat by lia.
    eapply IHends; eassumption.
  - inversion R as [| |? ? ? R1 R2|? ? ? I]; subst; [|cbn in I; intuition discriminate].
    pose proof (room_nonneg _ _ _ R2). cbn. split; [lia|]. split; [|eapply IHends; eassumption].
    eapply room_more; [exact R1|]. unfold stub_needs. lia.
Qed.
Lemma stub_in c F r : closed c -> room sys (r - F - stub_needs) c ->
  ctx F (Some (frame_at r)) (frame_at r) 0 (Move (-8) :: save_context ++ restore_kernel_segments ++ Move (-8) :: c ++ Move 8 :: restore_context ++ [Move 8; Iretq]).
Proof.
  intros C R. pose proof (aligned_bounds r) as A. pose proof (room_nonneg _ _ _ R) as N.
  unfold stub_needs in *. unfold save_context, restore_kernel_segments, restore_context, frame_at.
  cbn [repeat app ctx].
  repeat (split; [lia|]).
  change 0%nat with (0 + 0)%nat. eapply (ctx_app _ _ _ _ _ _ _ C _ _ 0%nat); [exact R|lia|].
  cbn [ctx Nat.add]. repeat (split; [lia|]). f_equal. lia.
Qed.
Lemma sys_stub_in n F r : closed (sys n) -> room sys (r - F - stub_needs) (sys n) ->
  ctx F (Some (frame_at r)) (frame_at r) 0 (sys_stub sys n).
Proof.
  intros C R. pose proof (stub_in _ _ _ C R) as S. pose proof (ctx_floor _ _ _ _ _ S). unfold sys_stub. cbn [ctx] in *. tauto.
Qed.
Lemma closed_guarded c : closed c -> closed (Save :: Cli :: c ++ [Restore]).
Proof.
  intros C. apply ESave, ECli.
  enough (H : forall d g l d' g', ends d g l d' g' -> ends d (S g) (l ++ [Restore]) d' g') by (apply H; exact C).
  clear. induction 1; cbn; constructor; try assumption. constructor.
Qed.
Lemma room_guarded b c : room sys b c -> room sys b (Save :: Cli :: c ++ [Restore]).
Proof.
  intros R. apply RFlag; [cbn; tauto|]. apply RFlag; [cbn; tauto|].
  induction R; cbn.
  - apply RFlag; [cbn; tauto|]. apply RNil. assumption.
  - apply RMove; assumption.
  - apply RSys; assumption.
  - apply RFlag; assumption.
Qed.
Lemma irq_stub_in n F r : closed (irq n) -> room sys (r - F - stub_needs) (irq n) ->
  ctx F (Some (frame_at r)) (frame_at r) 0 (irq_stub irq n).
Proof.
  intros C R. pose proof (aligned_bounds r) as A. pose proof (room_nonneg _ _ _ R) as N.
  apply room_guarded in R. apply closed_guarded in C. fold (irq_handler irq n) in C, R.
  unfold stub_needs in *. unfold irq_stub, save_context, restore_kernel_segments, restore_context, frame_at.
  cbn [repeat app ctx].
  repeat (split; [lia|]).
  change 0%nat with (0 + 0)%nat. eapply (ctx_app _ _ _ _ _ _ _ C _ _ 0%nat); [exact R|lia|].
  cbn [ctx Nat.add]. repeat (split; [lia|]). f_equal. lia.
Qed.

(** ** The invariant *)
Inductive chain (F : Z) : option Z -> list frame -> Prop :=
| ch0 : chain F None []
| ch1 f fs ret : f_hw f = false -> ctx F ret (f_rsp f) (length (f_guards f)) (f_code f) -> chain F ret fs ->
    chain F (Some (frame_at (f_rsp f))) (f :: fs).
(** The handler of an interrupt: nothing gets in. *)
Definition shut (m : cpu) : Prop :=
  (ifl m = false /\ (forall b, In b (guards m) -> b = false) /\
   exists c, code m = c ++ [Sti; Iretq] /\ keeps_out c /\ ~ In Iretq c) \/
  (shadow m = true /\ code m = [Iretq]).
Variables (s B D : Z).
Notation F := (s - B).
Notation G := (s - B - stub_needs - D).
Definition inv (m : cpu) : Prop :=
  G <= low m /\
  ((exists ret, ctx F ret (rsp m) (length (guards m)) (code m) /\ chain F ret (frames m)) \/
   (exists f fs ret, frames m = f :: fs /\ f_hw f = true /\
      ctx G (Some (frame_at (f_rsp f))) (rsp m) (length (guards m)) (code m) /\
      ctx F ret (f_rsp f) (length (f_guards f)) (f_code f) /\ chain F ret fs /\ shut m)).

Hypothesis Hshields : shields = true.
Hypothesis HD : 0 <= D.
Hypothesis Hirq : forall n, closed (irq n) /\ keeps_out (irq n) /\ room sys D (irq n).
Hypothesis Hsys : forall n, closed (sys n).

Lemma keeps_stub n : exists c, irq_stub irq n = c ++ [Sti; Iretq] /\ keeps_out c /\ ~ In Iretq c.
Proof.
  destruct (Hirq n) as (C & (K1 & K2) & _). pose proof (ends_no_iretq _ _ _ _ _ C) as K3.
  exists (Cli :: Move (-8) :: save_context ++ restore_kernel_segments ++ Move (-8) :: irq_handler irq n ++ Move 8 :: restore_context ++ [Move 8]).
  split; [|split; [split|]].
  - unfold irq_stub. cbn [app]. repeat rewrite <- app_assoc. cbn [app]. repeat rewrite <- app_assoc. reflexivity.
  - unfold irq_handler, save_context, restore_context, restore_kernel_segments. cbn [repeat app In]. rewrite in_app_iff. cbn [In].
    rewrite in_app_iff. cbn [In]. intuition discriminate.
  - intros k. specialize (K2 k). unfold irq_handler, save_context, restore_context, restore_kernel_segments. cbn [repeat app In].
    rewrite in_app_iff. cbn [In]. rewrite in_app_iff. cbn [In]. intuition discriminate.
  - unfold irq_handler, save_context, restore_context, restore_kernel_segments. cbn [repeat app In]. rewrite in_app_iff. cbn [In].
    rewrite in_app_iff. cbn [In]. intuition discriminate.
Qed.

Lemma inv_interrupt n m : inv m -> inv (interrupt irq n m).
Proof.
  unfold interrupt. intros (L & I). destruct (ifl m && negb (shadow m)) eqn:E; [|split; assumption].
  apply andb_prop in E. destruct E as [E1 E2]. apply negb_true_iff in E2.
  destruct I as [(ret & C & Ch)|(f & fs & ret & _ & _ & _ & _ & _ & S)].
  2:{ destruct S as [(S & _)|(S & _)]; congruence. }
  pose proof (ctx_floor _ _ _ _ _ C) as Fl. destruct (Hirq n) as (C1 & _ & R1).
  assert (S : ctx G (Some (frame_at (rsp m))) (frame_at (rsp m)) 0 (irq_stub irq n)).
  { apply irq_stub_in; [exact C1|]. eapply room_more; [exact R1|]. lia. }
  pose proof (ctx_floor _ _ _ _ _ S) as Fl'.
  split; [cbn [low]; unfold deliver in *; cbn [low]; lia|]. right. cbn. eexists _, _, ret. split; [reflexivity|]. cbn. split; [reflexivity|]. split; [exact S|].
  split; [exact C|]. split; [exact Ch|]. left. cbn. split; [reflexivity|]. split; [tauto|]. apply keeps_stub.
Qed.

Lemma inv_exec m : inv m -> exists m', exec1 shields sys m = Ok m' /\ inv m'.
Proof.
  intros (L & [(ret & C & Ch)|(f & fs & ret & Ef & Hf & C & Cf & Ch & S)]); unfold exec1.
  - destruct (code m) as [|i c] eqn:Ec.
    { destruct C as [Fl ->]. inversion Ch as [E|]. eexists; split; [reflexivity|]. split; [exact L|]. left. exists None. cbn.
      split; [tauto|constructor]. }
    destruct i; cbn [ctx] in C; destruct C as [Fl C].
    + eexists; split; [reflexivity|]. pose proof (ctx_floor _ _ _ _ _ C). split; [unfold deliver; cbn [low]; unfold stub_needs in *; lia|]. left. exists ret. cbn. tauto.
    + eexists; split; [reflexivity|]. split; [exact L|]. left. exists ret. cbn. tauto.
    + eexists; split; [reflexivity|]. split; [exact L|]. left. exists ret. cbn. tauto.
    + eexists; split; [reflexivity|]. split; [exact L|]. left. exists ret. cbn. tauto.
    + destruct (guards m) as [|b g] eqn:Eg; cbn in C; [tauto|]. eexists; split; [reflexivity|]. split; [exact L|]. left. exists ret. cbn. tauto.
    + destruct C as [R C]. eexists; split; [reflexivity|].
      pose proof (sys_stub_in n F (rsp m) (Hsys n) R) as S. pose proof (ctx_floor _ _ _ _ _ S).
      split; [unfold deliver; cbn [low]; unfold stub_needs in *; lia|]. left. eexists. cbn. split; [exact S|].
      exact (ch1 F {| f_rsp := rsp m; f_if := ifl m; f_guards := guards m; f_code := c; f_hw := false |} (frames m) ret eq_refl C Ch).
    + subst ret. inversion Ch as [|f fs ret' Hh Cf Chf E1 E2]. rewrite E1, Z.eqb_refl.
      eexists; split; [reflexivity|]. split; [exact L|]. left. exists ret'. cbn. tauto.
  - rewrite Ef. destruct S as [(S1 & S2 & c & Ec & (K1 & K2) & K3)|(S1 & Ec)].
    + destruct c as [|i c]; rewrite Ec in *; cbn [app] in C |- *.
      { eexists; split; [reflexivity|]. split; [exact L|]. right. exists f, fs, ret. cbn. cbn in C. repeat (split; [tauto|]).
        right. cbn. rewrite Hshields, S1. split; reflexivity. }
      cbn [In] in K1, K3. pose proof (fun n => K2 n) as K2'. cbn [In] in K2'.
      destruct i; cbn [ctx] in C; destruct C as [Fl C]; try tauto.
      * pose proof (ctx_floor _ _ _ _ _ C). eexists; split; [reflexivity|]. split; [cbn [low]; unfold deliver in *; cbn [low]; lia|]. right. exists f, fs, ret. cbn.
        repeat (split; [first [assumption|reflexivity]|]). left. cbn. split; [exact S1|]. split; [exact S2|]. exists c. split; [reflexivity|].
        split; [|tauto]. split; [tauto|]. intros n. specialize (K2' n). tauto.
      * eexists; split; [reflexivity|]. split; [exact L|]. right. exists f, fs, ret. cbn.
        repeat (split; [first [assumption|reflexivity]|]). left. cbn. split; [reflexivity|]. split; [exact S2|]. exists c. split; [reflexivity|].
        split; [|tauto]. split; [tauto|]. intros n. specialize (K2' n). tauto.
      * eexists; split; [reflexivity|]. split; [exact L|]. right. exists f, fs, ret. cbn.
        repeat (split; [first [assumption|reflexivity]|]). left. cbn. split; [exact S1|]. split; [intros b [<-|H]; [exact S1|apply S2, H]|].
        exists c. split; [reflexivity|].
        split; [|tauto]. split; [tauto|]. intros n. specialize (K2' n). tauto.
      * destruct (guards m) as [|b g] eqn:Eg; cbn in C; [tauto|]. eexists; split; [reflexivity|]. split; [exact L|]. right. exists f, fs, ret. cbn.
        repeat (split; [first [assumption|reflexivity]|]). left. cbn. split; [apply S2; left; reflexivity|].
        split; [intros b' H; apply S2; right; exact H|]. exists c. split; [reflexivity|].
        split; [|tauto]. split; [tauto|]. intros k. specialize (K2' k). tauto.
      * specialize (K2' n). tauto.
    + rewrite Ec in *. cbn in C. destruct C as [_ [= E1]]. rewrite E1, Z.eqb_refl. eexists; split; [reflexivity|]. split; [exact L|].
      left. exists ret. cbn. tauto.
Qed.

Lemma inv_run sched : forall m, inv m -> exists m', run shields irq sys sched m = Ok m' /\ inv m'.
Proof.
  induction sched as [|[n|] sched IH]; intros m I; cbn.
  - eauto.
  - apply IH, inv_interrupt, I.
  - destruct (inv_exec m I) as (m' & -> & I'). cbn. apply IH, I'.
Qed.
Lemma chain_depth F' ret fs : chain F' ret fs -> length (filter f_hw fs) = 0%nat.
Proof. induction 1; cbn; [reflexivity|]. rewrite H. assumption. Qed.
Lemma inv_depth m : inv m -> (depth m <= 1)%nat /\ G <= low m.
Proof.
  intros (L & I). split; [|exact L]. unfold depth. destruct I as [(ret & _ & Ch)|(f & fs & ret & -> & Hf & _ & _ & Ch & _)].
  - rewrite (chain_depth _ _ _ Ch). lia.
  - cbn. rewrite Hf. cbn. rewrite (chain_depth _ _ _ Ch). lia.
Qed.
End Ctx.

Lemma bounded irq sys D B p d g : (forall n, closed (irq n) /\ keeps_out (irq n) /\ room sys D (irq n)) -> (forall n, closed (sys n)) ->
  ends 0 0 p d g -> room sys B p -> forall s fl sched,
  exists m, run true irq sys sched (start s fl p) = Ok m /\ (depth m <= 1)%nat /\ s - B - stub_needs - D <= low m.
Proof.
  intros Hi Hs E R s fl sched.
  assert (HD : 0 <= D) by (destruct (Hi 0%nat) as (_ & _ & R0); exact (room_nonneg _ _ _ R0)).
  pose proof (room_nonneg _ _ _ R) as HB.
  destruct (inv_run true irq sys s B D eq_refl HD Hi Hs sched (start s fl p)) as (m & Em & I).
  - split; [cbn; unfold stub_needs; lia|]. left. exists None. cbn. split; [|constructor].
    rewrite <- (app_nil_r p). change 0%nat with (0 + 0)%nat. eapply (ctx_app irq sys) with (b := B) (k := 0%nat); [exact E|exact R|lia|].
    cbn. split; [|reflexivity].
    enough (H : forall d0 g0 l d1 g1, ends d0 g0 l d1 g1 -> forall b, room sys b l -> 0 <= b + (d1 - d0)).
    { pose proof (H _ _ _ _ _ E _ R). lia. }
    clear. induction 1; intros b R; inversion R; subst; try (cbn in *; intuition discriminate).
    + lia.
    + specialize (IHends _ H4). lia.
    + apply IHends. assumption.
    + apply IHends. assumption.
    + apply IHends. assumption.
    + apply IHends. assumption.
    + apply IHends. assumption.
  - exists m. split; [exact Em|]. exact (inv_depth _ _ _ _ _ I).
Qed.
