(** Proofs for IrqRaceModel.v: the guards of printf. *)
From Coq Require Import NArith Bool List Lia.
From stdpp Require Import gmap.
From Verif Require Import Base PrintfModel VesaModel ConsoleModel IrqRaceModel IrqRaceSpec.
Import ListNotations.
Local Open Scope outcome_scope.

Lemma printfs_cons buf c cs k : printfs buf (c :: cs) k = (k <~ pprintf buf c k; printfs buf cs k).
Proof. destruct c. reflexivity. Qed.

Section Follow.
Variable handler : regs -> list stmt.
Notation runs := (runs handler).

Fixpoint follows (fl : bool) (p : list stmt) (st : list (list stmt)) (irqs : list regs) (out : list pcall) (d : bool) : Prop :=
  match st with
  | [] => runs fl p irqs out d
  | p' :: st' =>
      (d = false /\ runs fl p irqs out false) \/
      exists i1 i2 o1 o2, runs fl p i1 o1 true /\ follows true p' st' i2 o2 d /\ irqs = i1 ++ i2 /\ out = o1 ++ o2
  end.
Lemma follow_map fl fl' p p' g st irqs out d :
  (forall i o d, runs fl p i o d -> runs fl' p' i (g ++ o) d) -> follows fl p st irqs out d -> follows fl' p' st irqs (g ++ out) d.
Proof.
  intros H. destruct st; cbn; [apply H|]. intros [[-> Hr]|(i1 & i2 & o1 & o2 & Hr & Hf & -> & ->)].
  - left. auto.
  - right. exists i1, i2, (g ++ o1), o2. rewrite app_assoc. auto.
Qed.
Lemma follow_stop fl p st : follows fl p st [] [] false.
Proof. destruct st; cbn; [|left; split; [reflexivity|]]; apply RStop. Qed.
Lemma follow_print fl c p st irqs out d : follows fl p st irqs out d -> follows fl (Print c :: p) st irqs (c :: out) d.
Proof. apply (follow_map _ _ _ _ [c]). intros. apply RPrint. assumption. Qed.
Lemma follow_enable fl p st irqs out d : follows true p st irqs out d -> follows fl (Enable :: p) st irqs out d.
Proof. apply (follow_map _ _ _ _ []). intros. apply REnable. assumption. Qed.
Lemma follow_disable fl p st irqs out d : follows false p st irqs out d -> follows fl (Disable :: p) st irqs out d.
Proof. apply (follow_map _ _ _ _ []). intros. apply RDisable. assumption. Qed.
Lemma follow_quiet fl p st irqs out d : follows fl p st irqs out d -> follows fl (Quiet :: p) st irqs out d.
Proof. apply (follow_map _ _ _ _ []). intros. apply RQuiet. assumption. Qed.
Lemma runs_end_false i o d : runs false [] i o d -> i = [] /\ o = [].
Proof. inversion 1; auto. Qed.
Lemma follow_restore fl st irqs out d : follows false [] st irqs out d -> follows fl [] st irqs out d.
Proof.
  apply (follow_map _ _ _ _ []). intros i o d' H. inversion H; subst; constructor.
Qed.
Lemma follow_return fl p st irqs out d : follows true p st irqs out d -> follows fl [] (p :: st) irqs out d.
Proof. intros H. cbn. right. exists [], irqs, [], out. split; [apply REnd|auto]. Qed.
Lemma follow_interrupt e p st irqs out d : follows false (handler e) (p :: st) irqs out d -> follows true p st (e :: irqs) out d.
Proof.
  cbn. intros [[-> Hr]|(i1 & i2 & o1 & o2 & Hr & Hf & -> & ->)].
  - destruct st; cbn; [|left; split; [reflexivity|]]; apply RInterrupted; assumption.
  - destruct st as [|p' st]; cbn in *.
    + apply RInterrupt; assumption.
    + destruct Hf as [[-> Hf]|(j1 & j2 & q1 & q2 & Hf & Hg & -> & ->)].
      * left. split; [reflexivity|]. apply RInterrupt; assumption.
      * right. exists (e :: i1 ++ j1), j2, (o1 ++ q1), q2. rewrite <- !app_assoc. cbn. rewrite <- app_assoc.
        split; [apply RInterrupt; assumption|]. auto.
Qed.
End Follow.

Section Printing.
Context {L : Type}.
Variable buf : N.
Variable body : body_of L.
Variable handlers : N -> list stmt.
Hypothesis whole : is_printf buf body.
Notation compile := (compile (print_code body)).
Notation irq_entry := (irq_entry (print_code body) handlers).
Notation irq_body := (irq_body handlers).
Notation machine := (machine kernel L).
Notation instr := (instr kernel L).

Definition rest_code (c : pcall) : list instr :=
  map Work (fst (body c)) ++ Save :: Cli :: map Work (snd (body c)) ++ [Restore; Restore].
Lemma compile_cons s p : compile (s :: p) = stmt_code (print_code body) s ++ compile p.
Proof. reflexivity. Qed.

Definition tail_ok (gs : list bool) (t : list instr) : Prop := (gs = [] /\ t = []) \/ (gs = [false] /\ t = [Restore]).
(** A place where IF may be set. *)
Inductive place (fl : bool) : list bool -> list instr -> list stmt -> Prop :=
| PBetween gs t p : tail_ok gs t -> place fl gs (compile p ++ t) p
| PSaved gs t c p : tail_ok gs t -> place fl (fl :: gs) (Cli :: rest_code c ++ compile p ++ t) (Print c :: p).
(** The rest [q] of a printf. *)
Fixpoint crit (q : list instr) (k : kernel) (l : L) (g : list bool) (fl0 : bool) (gs0 : list bool) (res : outcome kernel) : Prop :=
  match q with
  | [] => False
  | Work f :: q => match f (k, l) with Ok (k, l) => crit q k l g fl0 gs0 res | UB => res = UB | Fuel => res = Fuel end
  | Save :: q => crit q k l (false :: g) fl0 gs0 res
  | Cli :: q => crit q k l g fl0 gs0 res
  | Sti :: _ => False
  | Restore :: q =>
      match q with
      | [] => g = fl0 :: gs0 /\ res = Ok k
      | _ => exists g', g = false :: g' /\ crit q k l g' fl0 gs0 res
      end
  end.
Lemma crit_draw ws : forall k l fl0 gs0, 
  crit (map Work ws ++ [Restore; Restore]) k l (false :: fl0 :: gs0) fl0 gs0 (x <~ all_works ws (k, l); Ok (fst x)).
Proof.
  induction ws as [|w ws IH]; intros k l fl0 gs0.
  - cbn. exists (fl0 :: gs0). auto.
  - cbn. destruct (w (k, l)) as [[k' l']| |]; cbn; auto.
Qed.
Lemma crit_print ws ws2 : forall k l fl0 gs0,
  crit (map Work ws ++ Save :: Cli :: map Work ws2 ++ [Restore; Restore]) k l (fl0 :: gs0) fl0 gs0
    (x <~ all_works (ws ++ ws2) (k, l); Ok (fst x)).
Proof.
  induction ws as [|w ws IH]; intros k l fl0 gs0.
  - cbn. apply crit_draw.
  - cbn. destruct (w (k, l)) as [[k' l']| |]; cbn; auto.
Qed.

(** The running program: IF as it is between statements, what is left of the program, the picture before it. *)
Inductive now (m : machine) : bool -> list stmt -> kernel -> Prop :=
| NPlace p : place (iflag m) (guards m) (code m) p -> now m (iflag m) p (shared m)
| NCrit q c p gs t fl0 k : iflag m = false -> code m = q ++ compile p ++ t -> tail_ok gs t ->
    crit q (shared m) (local m) (guards m) fl0 gs (pprintf buf c k) -> now m fl0 (Print c :: p) k
| NEnter p : iflag m = false -> guards m = [] -> code m = Save :: Cli :: compile p ++ [Restore] -> now m false p (shared m)
| NEntered p : iflag m = false -> guards m = [false] -> code m = Cli :: compile p ++ [Restore] -> now m false p (shared m).
Definition waiting (f : L * bool * list bool * list instr) (p : list stmt) : Prop :=
  match f with (_, fl, g, c) => fl = true /\ place true g c p end.

Definition result (sched : list (option regs)) (m : machine) (fl : bool) (p : list stmt) (st : list (list stmt)) (k : kernel)
    (r : outcome machine) : Prop :=
  match r with
  | Ok m' => exists irqs out d, raised sched irqs /\ follows irq_body fl p st irqs out d /\ taken m' = taken m ++ irqs /\
      (finished m' = true -> d = true /\ printfs buf out k = Ok (shared m'))
  | UB => exists irqs out, raised sched irqs /\ follows irq_body fl p st irqs out false /\ printfs buf out k = UB
  | Fuel => exists irqs out, raised sched irqs /\ follows irq_body fl p st irqs out false /\ printfs buf out k = Fuel
  end.
Lemma raised_cons x sched irqs : raised sched irqs -> raised (x :: sched) irqs.
Proof. unfold raised. rewrite !List.Forall_forall. intros H e He. right. auto. Qed.
Lemma result_map x sched m m' fl fl' p p' st st' k r : taken m = taken m' ->
  (forall i o d, follows irq_body fl p st i o d -> follows irq_body fl' p' st' i o d) ->
  result sched m fl p st k r -> result (x :: sched) m' fl' p' st' k r.
Proof.
  intros Ht H. unfold result. destruct r.
  - intros (i & o & d & Hr & Hf & E & Hd). exists i, o, d. rewrite <- Ht. auto using raised_cons.
  - intros (i & o & Hr & Hf & E). exists i, o. auto using raised_cons.
  - intros (i & o & Hr & Hf & E). exists i, o. auto using raised_cons.
Qed.
Lemma result_print x sched m m' fl c p st k k' r : taken m = taken m' -> pprintf buf c k = Ok k' ->
  result sched m fl p st k' r -> result (x :: sched) m' fl (Print c :: p) st k r.
Proof.
  intros Ht Hp. unfold result. destruct r.
  - intros (i & o & d & Hr & Hf & E & Hd). exists i, (c :: o), d. rewrite <- Ht. split; [apply raised_cons; exact Hr|].
    split; [apply follow_print; exact Hf|]. split; [exact E|].
    intros Hfin. destruct (Hd Hfin). rewrite printfs_cons, Hp. cbn. auto.
  - intros (i & o & Hr & Hf & E). exists i, (c :: o). split; [apply raised_cons; exact Hr|].
    split; [apply follow_print; exact Hf|]. rewrite printfs_cons, Hp. exact E.
  - intros (i & o & Hr & Hf & E). exists i, (c :: o). split; [apply raised_cons; exact Hr|].
    split; [apply follow_print; exact Hf|]. rewrite printfs_cons, Hp. exact E.
Qed.
Lemma fail_print sched m fl c p st k r : pprintf buf c k = r -> match r with Ok _ => False | _ => True end ->
  result sched m fl (Print c :: p) st k (_ <~ r; UB).
Proof.
  intros Hp Hr. destruct r; [destruct Hr| |]; cbn; exists [], [c];
    (split; [apply List.Forall_nil|]; split; [apply follow_print, follow_stop|rewrite printfs_cons, Hp; reflexivity]).
Qed.

Lemma place_end fl g p : place fl g [] p -> p = [] /\ g = [].
Proof.
  intros H. remember ([] : list instr) as c eqn:Hc. destruct H as [gs t p Ht|]; [|discriminate].
  apply app_eq_nil in Hc. destruct Hc as [E ->]. destruct Ht as [[-> _]|[_ Ht]]; [|discriminate]. split; [|reflexivity].
  destruct p as [|s p]; [reflexivity|]. rewrite compile_cons in E. destruct s; discriminate.
Qed.

Lemma place_inv fl g cd p : place fl g cd p ->
  (exists t, tail_ok g t /\ compile p ++ t = cd) \/
  (exists gs t c p0, tail_ok gs t /\ g = fl :: gs /\ Cli :: rest_code c ++ compile p0 ++ t = cd /\ p = Print c :: p0).
Proof. destruct 1; [left; eauto|right; exists gs, t, c, p; auto]. Qed.

Lemma go sched : forall m st fl p k, now m fl p k -> Forall2 waiting (suspended m) st ->
  result sched m fl p st k (run irq_entry sched m).
Proof.
  induction sched as [|[e|] sched IH]; intros m st fl p k Hn Hs.
  - (* nothing more happens *)
    cbn [run]. unfold result. destruct (finished m) eqn:Hfin.
    + unfold finished in Hfin. destruct (code m) eqn:Hc; [|discriminate]. destruct (suspended m) eqn:Hsu; [|discriminate].
      inversion Hs; subst. inversion Hn; subst.
      * rewrite Hc in H. apply place_end in H. destruct H as [-> _].
        exists [], [], true. split; [apply List.Forall_nil|]. split; [apply REnd|]. rewrite app_nil_r. split; [reflexivity|]. auto.
      * rewrite Hc in H0. destruct q; [destruct H2|discriminate].
      * congruence.
      * congruence.
    + exists [], [], false. split; [apply List.Forall_nil|]. split; [apply follow_stop|]. rewrite app_nil_r. split; [reflexivity|]. discriminate.
  - (* an interrupt *)
    cbn [run]. unfold interrupt. destruct (iflag m) eqn:Hf.
    + inversion Hn as [p0 Hpl| | |]; subst; try congruence. rewrite Hf in *.
      set (m1 := {| shared := shared m; local := local m; iflag := false; guards := []; code := irq_entry e;
                    suspended := (local m, true, guards m, code m) :: suspended m; taken := taken m ++ [e] |}).
      assert (H1 : result sched m1 false (irq_body e) (p :: st) (shared m) (run irq_entry sched m1)).
      { apply IH; [apply (NEnter m1 (irq_body e)); reflexivity|]. constructor; [split; [reflexivity|exact Hpl]|exact Hs]. }
      unfold result in *. destruct (run irq_entry sched m1) as [m'| |].
      * destruct H1 as (i & o & d & Hra & Hfo & E & Hd). exists (e :: i), o, d.
        split; [constructor; [left; reflexivity|apply raised_cons; exact Hra]|]. split; [apply follow_interrupt; exact Hfo|].
        split; [|exact Hd]. rewrite E. cbn. rewrite <- app_assoc. reflexivity.
      * destruct H1 as (i & o & Hra & Hfo & E). exists (e :: i), o.
        split; [constructor; [left; reflexivity|apply raised_cons; exact Hra]|]. split; [apply follow_interrupt; exact Hfo|exact E].
      * destruct H1 as (i & o & Hra & Hfo & E). exists (e :: i), o.
        split; [constructor; [left; reflexivity|apply raised_cons; exact Hra]|]. split; [apply follow_interrupt; exact Hfo|exact E].
    + apply (result_map _ _ m m fl fl p p st st); [reflexivity|auto|]. apply IH; assumption.
  - (* an instruction *)
    cbn [run]. inversion Hn as [p0 Hpl|q c p0 gs t fl0 k0 Hf Hc Ht Hcr|p0 Hf Hg Hc|p0 Hf Hg Hc]; subst.
    + apply place_inv in Hpl. unfold exec1. destruct Hpl as [(t & Ht & Ec)|(gs & t & c & p0 & Ht & Eg & Ec & ->)].
      * destruct p as [|s p].
        -- cbn [compile map concat app] in Ec. destruct Ht as [[Eg ->]|[Eg ->]]; rewrite <- Ec.
           ++ (* the end of a program *)
              destruct (suspended m) as [|[[[l f] g] c] su] eqn:Hsu.
              ** cbn. apply (result_map _ _ m m (iflag m) (iflag m) [] [] st st); [reflexivity|auto|]. apply (IH m st); [exact Hn|rewrite Hsu; exact Hs].
              ** apply Forall2_cons_inv_l in Hs. destruct Hs as (p1 & st1 & Hw & Hs1 & ->). destruct Hw as [-> Hw2]. cbn.
                 set (m1 := {| shared := shared m; local := l; iflag := true; guards := g; code := c; suspended := su; taken := taken m |}).
                 apply (result_map _ _ m1 m true (iflag m) p1 [] st1 (p1 :: st1)); [reflexivity|intros; apply follow_return; assumption|].
                 apply IH; [exact (NPlace m1 p1 Hw2)|exact Hs1].
           ++ (* the guard of the handler *)
              rewrite Eg. cbn.
              set (m1 := {| shared := shared m; local := local m; iflag := false; guards := []; code := []; suspended := suspended m; taken := taken m |}).
              apply (result_map _ _ m1 m false (iflag m) [] [] st st); [reflexivity|intros; apply follow_restore; assumption|].
              apply (IH m1); [|exact Hs]. apply (NPlace m1 []). cbn. apply (PBetween false [] [] []). left. auto.
        -- rewrite compile_cons in Ec. destruct s; cbn [stmt_code] in Ec; rewrite <- app_assoc in Ec; rewrite <- Ec; cbn [app].
           ++ unfold print_code. cbn [app]. cbn [obind].
              set (m1 := {| shared := shared m; local := local m; iflag := iflag m; guards := iflag m :: guards m; code := _;
                            suspended := suspended m; taken := taken m |}).
              apply (result_map _ _ m1 m (iflag m) (iflag m) (Print c :: p) (Print c :: p) st st); [reflexivity|auto|].
              apply (IH m1); [|exact Hs]. apply (NPlace m1). cbn. exact (PSaved (iflag m) (guards m) t c p Ht).
           ++ cbn [obind].
              set (m1 := {| shared := shared m; local := local m; iflag := true; guards := guards m; code := compile p ++ t;
                            suspended := suspended m; taken := taken m |}).
              apply (result_map _ _ m1 m true (iflag m) p (Enable :: p) st st); [reflexivity|intros; apply follow_enable; assumption|].
              apply (IH m1); [|exact Hs]. apply (NPlace m1). exact (PBetween true (guards m) t p Ht).
           ++ cbn [obind].
              set (m1 := {| shared := shared m; local := local m; iflag := false; guards := guards m; code := compile p ++ t;
                            suspended := suspended m; taken := taken m |}).
              apply (result_map _ _ m1 m false (iflag m) p (Disable :: p) st st); [reflexivity|intros; apply follow_disable; assumption|].
              apply (IH m1); [|exact Hs]. apply (NPlace m1). exact (PBetween false (guards m) t p Ht).
           ++ cbn [obind fst snd].
              set (m1 := {| shared := shared m; local := local m; iflag := iflag m; guards := guards m; code := compile p ++ t;
                            suspended := suspended m; taken := taken m |}).
              apply (result_map _ _ m1 m (iflag m) (iflag m) p (Quiet :: p) st st); [reflexivity|intros; apply follow_quiet; assumption|].
              apply (IH m1); [|exact Hs]. apply (NPlace m1). exact (PBetween (iflag m) (guards m) t p Ht).
      * (* cli *)
        rewrite <- Ec. cbn [obind].
        set (m1 := {| shared := shared m; local := local m; iflag := false; guards := guards m; code := _;
                      suspended := suspended m; taken := taken m |}).
        apply (result_map _ _ m1 m (iflag m) (iflag m) (Print c :: p0) (Print c :: p0) st st); [reflexivity|auto|].
        apply (IH m1); [|exact Hs]. eapply (NCrit m1 (rest_code c) c p0 gs t); [reflexivity|reflexivity|exact Ht|].
        cbn. rewrite Eg, <- (whole c (shared m) (local m)). apply crit_print.
    + (* within printf *)
      unfold exec1. rewrite Hc. destruct q as [|i q]; [destruct Hcr|]. cbn [app].
      destruct i as [f| | | |]; cbn [crit] in Hcr.
      * destruct (f (shared m, local m)) as [[k' l']| |] eqn:Hfx; cbn [obind fst snd].
        -- set (m1 := {| shared := k'; local := l'; iflag := iflag m; guards := guards m; code := _; suspended := suspended m; taken := taken m |}).
           apply (result_map _ _ m1 m fl fl (Print c :: p0) (Print c :: p0) st st); [reflexivity|auto|].
           apply (IH m1); [|exact Hs]. eapply (NCrit m1 q c p0 gs t); [exact Hf|reflexivity|exact Ht|exact Hcr].
        -- exact (fail_print _ m fl c p0 st k UB Hcr I).
        -- exact (fail_print _ m fl c p0 st k Fuel Hcr I).
      * cbn [obind]. rewrite Hf.
        set (m1 := {| shared := shared m; local := local m; iflag := false; guards := false :: guards m; code := _; suspended := suspended m; taken := taken m |}).
        apply (result_map _ _ m1 m fl fl (Print c :: p0) (Print c :: p0) st st); [reflexivity|auto|].
        apply (IH m1); [|exact Hs]. eapply (NCrit m1 q c p0 gs t); [reflexivity|reflexivity|exact Ht|exact Hcr].
      * cbn [obind].
        set (m1 := {| shared := shared m; local := local m; iflag := false; guards := guards m; code := _; suspended := suspended m; taken := taken m |}).
        apply (result_map _ _ m1 m fl fl (Print c :: p0) (Print c :: p0) st st); [reflexivity|auto|].
        apply (IH m1); [|exact Hs]. eapply (NCrit m1 q c p0 gs t); [reflexivity|reflexivity|exact Ht|exact Hcr].
      * destruct Hcr.
      * destruct q as [|j q].
        -- destruct Hcr as [Eg Hk]. rewrite Eg. cbn [obind app].
           set (m1 := {| shared := shared m; local := local m; iflag := fl; guards := gs; code := _; suspended := suspended m; taken := taken m |}).
           apply (result_print _ _ m1 m fl c p0 st k (shared m)); [reflexivity|exact Hk|].
           apply (IH m1); [|exact Hs]. apply (NPlace m1). exact (PBetween fl gs t p0 Ht).
        -- destruct Hcr as (g' & Eg & Hcr). rewrite Eg. cbn [obind].
           set (m1 := {| shared := shared m; local := local m; iflag := false; guards := g'; code := _; suspended := suspended m; taken := taken m |}).
           apply (result_map _ _ m1 m fl fl (Print c :: p0) (Print c :: p0) st st); [reflexivity|auto|].
           apply (IH m1); [|exact Hs]. eapply (NCrit m1 (j :: q) c p0 gs t); [reflexivity|reflexivity|exact Ht|exact Hcr].
    + unfold exec1. rewrite Hc. cbn [obind]. rewrite Hf, Hg.
      set (m1 := {| shared := shared m; local := local m; iflag := false; guards := [false]; code := _; suspended := suspended m; taken := taken m |}).
      apply (result_map _ _ m1 m false false p p st st); [reflexivity|auto|].
      apply (IH m1); [|exact Hs]. apply (NEntered m1); reflexivity.
    + unfold exec1. rewrite Hc. cbn [obind]. rewrite Hg.
      set (m1 := {| shared := shared m; local := local m; iflag := false; guards := [false]; code := _; suspended := suspended m; taken := taken m |}).
      apply (result_map _ _ m1 m false false p p st st); [reflexivity|auto|].
      apply (IH m1); [|exact Hs]. apply (NPlace m1). cbn. apply (PBetween false). right. auto.
Qed.

Lemma printed_whole fl p k l sched :
  match run irq_entry sched (start k l fl (compile p)) with
  | Ok m => exists out d, runs irq_body fl p (taken m) out d /\ raised sched (taken m) /\
      (finished m = true -> d = true /\ printfs buf out k = Ok (shared m))
  | UB => exists irqs out, runs irq_body fl p irqs out false /\ raised sched irqs /\ printfs buf out k = UB
  | Fuel => exists irqs out, runs irq_body fl p irqs out false /\ raised sched irqs /\ printfs buf out k = Fuel
  end.
Proof.
  pose proof (go sched (start k l fl (compile p)) [] fl p k) as H.
  assert (H1 : now (start k l fl (compile p)) fl p k).
  { apply (NPlace (start k l fl (compile p)) p). cbn. rewrite <- (app_nil_r (compile p)). apply PBetween. left. auto. }
  specialize (H H1 (List.Forall2_nil _)). unfold result in H.
  destruct (run irq_entry sched _) as [m| |].
  - destruct H as (i & o & d & Hr & Hf & E & Hd). cbn in E. subst i. exists o, d. auto.
  - destruct H as (i & o & Hr & Hf & E). exists i, o. auto.
  - destruct H as (i & o & Hr & Hf & E). exists i, o. auto.
Qed.
End Printing.

(** ** What [runs] says about the calls *)
Lemma runs_order h fl p irqs out d : runs h fl p irqs out d -> d = true -> within (prints p) out.
Proof.
  assert (W : forall (l m m' : list pcall), within l m -> within l (m' ++ m)).
  { intros l m m' H. induction m'; cbn; [exact H|constructor; exact IHm']. }
  induction 1; intros Hd; try discriminate; cbn; auto; try (constructor; auto; fail).
Qed.
Lemma runs_from h fl p irqs out d c : runs h fl p irqs out d -> In c out ->
  In c (prints p) \/ exists e, In e irqs /\ In c (prints (h e)).
Proof.
  induction 1; cbn; intros Hin; auto; try (destruct Hin; fail).
  - destruct Hin as [->|Hin]; [auto|]. destruct (IHruns Hin); auto.
  - apply in_app_or in Hin. destruct Hin as [Hin|Hin].
    + destruct (IHruns1 Hin) as [Hc|(e' & He & Hc)]; right; [exists e; auto|exists e'; split; [right; apply in_or_app; auto|exact Hc]].
    + destruct (IHruns2 Hin) as [Hc|(e' & He & Hc)]; [auto|]. right. exists e'; split; [right; apply in_or_app; auto|exact Hc].
  - destruct (IHruns Hin) as [Hc|(e' & He & Hc)]; right; [exists e; auto|exists e'; auto].
Qed.
Lemma runs_off h p irqs out d : runs h false p irqs out d -> ~ In Enable p -> irqs = [] /\ (d = true -> out = prints p).
Proof.
  remember false as fl eqn:Hfl. induction 1; intros Hn; subst; try discriminate; cbn in *; auto; try (split; [reflexivity|discriminate]).
  - destruct IHruns as [-> E]; [reflexivity|tauto|]. split; [reflexivity|]. intros Hd. rewrite E by exact Hd. reflexivity.
  - tauto.
Qed.
