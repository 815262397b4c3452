From stdpp Require Import list.
From Coq Require Import NArith ZArith Lia ZifyN ZifyNat.
From Verif Require Import AtomicModel AtomicSpec.
Local Open Scope Z_scope.

Lemma interleaving_split w x ts tr1 tr2 y ts' : interleaving w x ts (tr1 ++ tr2) y ts' ->
  exists x1 ts1, interleaving w x ts tr1 x1 ts1 /\ interleaving w x1 ts1 tr2 y ts'.
Proof.
  revert x ts. induction tr1 as [|e tr1 IH]; intros x ts H.
  - exists x, ts. split; [constructor|exact H].
  - cbn in H. inversion H as [|? ? ? ? ? ? ? ? ? ? ? Hi Hc Hr]; subst. destruct (IH _ _ Hr) as (x1 & ts1 & H1 & H2).
    exists x1, ts1. split; [econstructor; eassumption|exact H2].
Qed.

Lemma alu_add w x v : Z.of_N (alu_eval w Add x v) = (Z.of_N x + Z.of_N v) mod 2 ^ Z.of_N w.
Proof. cbn. rewrite N2Z.inj_mod, N2Z.inj_add, N2Z.inj_pow. reflexivity. Qed.
Lemma alu_sub w x v : (v < 2 ^ w)%N -> Z.of_N (alu_eval w Sub x v) = (Z.of_N x - Z.of_N v) mod 2 ^ Z.of_N w.
Proof.
  intros H. cbn. rewrite N2Z.inj_mod, N2Z.inj_sub by lia.
  rewrite N2Z.inj_add, N2Z.inj_pow.
  replace (Z.of_N x + Z.of_N 2 ^ Z.of_N w - Z.of_N v)
    with (Z.of_N x - Z.of_N v + 1 * 2 ^ Z.of_N w) by (change (Z.of_N 2) with 2; lia).
  apply Z_mod_plus_full.
Qed.

Lemma pow_pos w : 0 < 2 ^ Z.of_N w.
Proof. apply Z.pow_pos_nonneg; lia. Qed.
Lemma pow_N w : Z.of_N (2 ^ w)%N = 2 ^ Z.of_N w.
Proof. rewrite N2Z.inj_pow. reflexivity. Qed.

(** One call of the adding kind. *)
Lemma acall_adding w sp x i o x' r :
  (x < 2 ^ w)%N -> fits w {| ev_thread := i; ev_op := o; ev_res := r |} ->
  adding {| ev_thread := i; ev_op := o; ev_res := r |} ->
  acall w sp x o = (x', r) ->
  Z.of_N x' = (Z.of_N x + delta {| ev_thread := i; ev_op := o; ev_res := r |}) mod 2 ^ Z.of_N w.
Proof.
  intros Hx Hf Ha H. pose proof (pow_pos w) as Hp. pose proof (pow_N w) as HN.
  unfold adding in Ha. unfold fits in Hf. unfold delta. cbn [ev_op ev_res] in *.
  destruct o as [|v|v|weak ex v|f v|f v]; cbn [acall] in H.
  - injection H as <- <-. rewrite Z.add_0_r, Z.mod_small; lia.
  - contradiction.
  - contradiction.
  - destruct ((x =? ex)%N && negb (weak && sp)) eqn:E; injection H as <- <-; cbn [rok].
    + apply andb_true_iff in E as [E _]. apply N.eqb_eq in E. subst ex.
      rewrite Z.mod_small; lia.
    + rewrite Z.add_0_r, Z.mod_small; lia.
  - destruct f; try contradiction; injection H as <- <-.
    + apply alu_add.
    + etransitivity; [exact (alu_sub w x v Hf)|]. f_equal; lia.
  - destruct f; try contradiction; injection H as <- <-.
    + apply alu_add.
    + etransitivity; [exact (alu_sub w x v Hf)|]. f_equal; lia.
Qed.

Lemma acall_bound w sp x i o x' r :
  (x < 2 ^ w)%N -> fits w {| ev_thread := i; ev_op := o; ev_res := r |} ->
  adding {| ev_thread := i; ev_op := o; ev_res := r |} ->
  acall w sp x o = (x', r) -> (x' < 2 ^ w)%N.
Proof.
  intros Hx Hf Ha H. pose proof (acall_adding _ _ _ _ _ _ _ Hx Hf Ha H) as E.
  pose proof (pow_pos w) as Hp. pose proof (pow_N w) as HN.
  pose proof (Z.mod_pos_bound (Z.of_N x + delta {| ev_thread := i; ev_op := o; ev_res := r |}) _ Hp). lia.
Qed.

Lemma adding_total w x ts tr y ts' : interleaving w x ts tr y ts' ->
  (x < 2 ^ w)%N -> Forall (fits w) tr -> Forall adding tr ->
  Z.of_N y = (Z.of_N x + total tr) mod 2 ^ Z.of_N w /\ (y < 2 ^ w)%N.
Proof.
  induction 1 as [x ts|x ts i o k sp x' r tr y ts' Hi Hc Hr IH]; intros Hx Hf Ha.
  - split; [|exact Hx]. cbn. pose proof (pow_N w). rewrite Z.add_0_r, Z.mod_small; lia.
  - apply Forall_cons in Hf as [F1 F2], Ha as [A1 A2].
    pose proof (acall_bound _ _ _ _ _ _ _ Hx F1 A1 Hc) as B.
    pose proof (acall_adding _ _ _ _ _ _ _ Hx F1 A1 Hc) as E.
    destruct (IH B F2 A2) as [Q1 Q2]. split; [|exact Q2].
    rewrite Q1, E. cbn [total foldr]. fold (total tr).
    rewrite Zplus_mod_idemp_l. f_equal. lia.
Qed.

(** What each call of an interleaving saw and did. *)
Lemma event_at w x ts tr1 e tr2 y ts' : interleaving w x ts (tr1 ++ e :: tr2) y ts' ->
  exists x1 ts1 sp x2 ts2, interleaving w x ts tr1 x1 ts1 /\
    acall w sp x1 (ev_op e) = (x2, ev_res e) /\ interleaving w x2 ts2 tr2 y ts'.
Proof.
  intros H. apply interleaving_split in H as (x1 & ts1 & H1 & H2). inversion H2; subst.
  exists x1, ts1, spurious, x', (<[i:=k r]> ts1). auto.
Qed.

Lemma fetch_result w x ts tr1 e tr2 y ts' f v :
  interleaving w x ts (tr1 ++ e :: tr2) y ts' ->
  (x < 2 ^ w)%N -> Forall (fits w) tr1 -> Forall adding tr1 -> ev_op e = AFetch f v ->
  Z.of_N (rval (ev_res e)) = (Z.of_N x + total tr1) mod 2 ^ Z.of_N w.
Proof.
  intros H Hx Hf Ha He. apply event_at in H as (x1 & ts1 & sp & x2 & ts2 & H1 & Hc & _).
  destruct (adding_total _ _ _ _ _ _ H1 Hx Hf Ha) as [E _].
  rewrite He in Hc. cbn [acall] in Hc. injection Hc as _ <-. cbn. exact E.
Qed.

Lemma cas_report w x ts tr1 e tr2 y ts' weak ex v :
  interleaving w x ts (tr1 ++ e :: tr2) y ts' -> ev_op e = ACas weak ex v ->
  exists before after ts1 ts2,
    interleaving w x ts tr1 before ts1 /\ interleaving w after ts2 tr2 y ts' /\
    (rok (ev_res e) = true -> before = ex /\ after = v /\ rval (ev_res e) = ex) /\
    (rok (ev_res e) = false -> after = before /\ rval (ev_res e) = before /\
                               (weak = false -> before <> ex)).
Proof.
  intros H He. apply event_at in H as (x1 & ts1 & sp & x2 & ts2 & H1 & Hc & H2).
  exists x1, x2, ts1, ts2. split; [exact H1|]. split; [exact H2|].
  rewrite He in Hc. cbn [acall] in Hc.
  destruct ((x1 =? ex)%N && negb (weak && sp)) eqn:E; injection Hc as <- <-; cbn.
  - apply andb_true_iff in E as [E _]. apply N.eqb_eq in E. split; [auto|discriminate].
  - split; [discriminate|]. intros _. split; [reflexivity|]. split; [reflexivity|].
    intros -> ->. cbn in E. rewrite N.eqb_refl in E. discriminate.
Qed.

(** Ticket numbers: fetch_add(1) calls mixed with calls that add nothing. *)
Definition ticketing (e : event) : Prop := is_inc e = true \/ (adding e /\ delta e = 0).
Definition incs (tr : list event) : nat := length (filter (fun e => is_inc e = true) tr).

Lemma is_inc_spec e : is_inc e = true -> ev_op e = AFetch Add 1%N /\ delta e = 1.
Proof.
  unfold is_inc, delta. destruct (ev_op e) as [| | | |f v|]; try discriminate.
  destruct f; try discriminate. destruct v as [|[p|p|]]; try discriminate. auto.
Qed.

Lemma ticketing_adding e : ticketing e -> adding e.
Proof. intros [H|[H _]]; [|exact H]. apply is_inc_spec in H as [H _]. unfold adding. rewrite H. exact I. Qed.

Lemma ticketing_total tr : Forall ticketing tr -> total tr = Z.of_nat (incs tr).
Proof.
  unfold incs. induction 1 as [|e tr H _ IH]; [reflexivity|].
  cbn [total foldr]. fold (total tr). rewrite IH. rewrite filter_cons.
  destruct (decide (is_inc e = true)) as [E|E].
  - apply is_inc_spec in E as [_ E]. rewrite E. cbn [length]. lia.
  - destruct H as [H|[_ H]]; [congruence|]. rewrite H. reflexivity.
Qed.

Lemma incs_app a b : incs (a ++ b) = (incs a + incs b)%nat.
Proof. unfold incs. rewrite filter_app, app_length. reflexivity. Qed.
Lemma incs_cons_inc e b : is_inc e = true -> incs (e :: b) = S (incs b).
Proof. intros H. unfold incs. rewrite filter_cons_True by exact H. reflexivity. Qed.

Lemma tickets_distinct w x ts tr y ts' tr1 e1 tr2 e2 tr3 :
  interleaving w x ts tr y ts' -> (x < 2 ^ w)%N -> Forall (fits w) tr -> Forall ticketing tr ->
  (N.of_nat (incs tr) <= 2 ^ w)%N ->
  tr = tr1 ++ e1 :: tr2 ++ e2 :: tr3 -> is_inc e1 = true -> is_inc e2 = true ->
  rval (ev_res e1) <> rval (ev_res e2).
Proof.
  intros H Hx Hf Ht Hn -> E1 E2 Heq.
  destruct (is_inc_spec _ E1) as [O1 _], (is_inc_spec _ E2) as [O2 _].
  pose proof Hf as Hf'. pose proof Ht as Ht'.
  apply Forall_app in Hf as [F1 Fr], Ht as [T1 Tr].
  assert (R1 : Z.of_N (rval (ev_res e1)) = (Z.of_N x + Z.of_nat (incs tr1)) mod 2 ^ Z.of_N w).
  { rewrite <- (ticketing_total tr1 T1). eapply fetch_result; [exact H|exact Hx|exact F1| |exact O1].
    eapply Forall_impl; [exact T1|]. exact ticketing_adding. }
  assert (L : tr1 ++ e1 :: tr2 ++ e2 :: tr3 = (tr1 ++ e1 :: tr2) ++ e2 :: tr3).
  { rewrite <- app_assoc. reflexivity. }
  rewrite L in H, Hf', Ht'. apply Forall_app in Hf' as [F2 _], Ht' as [T2 _].
  assert (R2 : Z.of_N (rval (ev_res e2)) = (Z.of_N x + Z.of_nat (incs (tr1 ++ e1 :: tr2))) mod 2 ^ Z.of_N w).
  { rewrite <- (ticketing_total _ T2). eapply fetch_result; [exact H|exact Hx|exact F2| |exact O2].
    eapply Forall_impl; [exact T2|]. exact ticketing_adding. }
  rewrite L in Hn. rewrite !incs_app, (incs_cons_inc e1), (incs_cons_inc e2) in * by assumption.
  rewrite Heq in R1. rewrite R1 in R2.
  pose proof (pow_pos w) as Hp. pose proof (pow_N w) as HN.
  revert R2. set (M := 2 ^ Z.of_N w) in *. intros R2.
  assert (D : (Z.of_nat (incs tr1 + S (incs tr2)) - Z.of_nat (incs tr1)) mod M = 0).
  { replace (Z.of_nat (incs tr1 + S (incs tr2)) - Z.of_nat (incs tr1))
      with ((Z.of_N x + Z.of_nat (incs tr1 + S (incs tr2))) - (Z.of_N x + Z.of_nat (incs tr1))) by lia.
    rewrite Zminus_mod, R2, Z.sub_diag. apply Zmod_0_l. }
  rewrite Z.mod_small in D; lia.
Qed.

(** A counter incremented by compare-exchange loops. *)
Definition cas_inc (w : N) (e : event) : Prop :=
  match ev_op e with
  | ALoad => True
  | ACas _ a v => (a < 2 ^ w)%N /\ v = ((a + 1) mod 2 ^ w)%N
  | _ => False
  end.
Definition succeeded (e : event) : bool :=
  match ev_op e with ACas _ _ _ => rok (ev_res e) | _ => false end.

Lemma cas_counter w x ts tr y ts' : interleaving w x ts tr y ts' ->
  (x < 2 ^ w)%N -> Forall (cas_inc w) tr ->
  Z.of_N y = (Z.of_N x + Z.of_nat (length (filter (fun e => succeeded e = true) tr))) mod 2 ^ Z.of_N w.
Proof.
  pose proof (pow_pos w) as Hp. pose proof (pow_N w) as HN.
  induction 1 as [x ts|x ts i o k sp x' r tr y ts' Hi Hc Hr IH]; intros Hx Ha.
  - cbn. rewrite Z.add_0_r, Z.mod_small; lia.
  - apply Forall_cons in Ha as [A1 A2]. unfold cas_inc in A1. cbn [ev_op] in A1.
    rewrite filter_cons. unfold succeeded at 1. cbn [ev_op ev_res].
    destruct o as [| | |weak ex v| |]; try contradiction; cbn [acall] in Hc.
    + injection Hc as <- <-. destruct (decide (false = true)); [discriminate|]. apply IH; assumption.
    + destruct A1 as [B ->].
      destruct ((x =? ex)%N && negb (weak && sp)) eqn:E; injection Hc as <- <-; cbn [rok].
      * apply andb_true_iff in E as [E _]. apply N.eqb_eq in E. subst ex.
        destruct (decide (true = true)); [|congruence].
        rewrite IH; [|apply N.mod_lt; lia|exact A2]. cbn [length].
        rewrite N2Z.inj_mod, HN, Zplus_mod_idemp_l. f_equal. lia.
      * destruct (decide (false = true)); [discriminate|]. apply IH; assumption.
Qed.

(** Reads, stores and exchanges. *)
Lemma latest_cons x e tr : latest x (e :: tr) = latest (default x (written e)) tr.
Proof.
  unfold latest. cbn [omap list_omap]. destruct (written e) as [v|]; [|reflexivity]. cbn [default from_option id].
  rewrite last_cons. destruct (last (omap written tr)); reflexivity.
Qed.
Lemma plain_value w x ts tr y ts' : interleaving w x ts tr y ts' -> Forall plain tr -> y = latest x tr.
Proof.
  induction 1 as [x ts|x ts i o k sp x' r tr y ts' Hi Hc Hr IH]; intros Hp; [reflexivity|].
  apply Forall_cons in Hp as [P1 P2]. rewrite latest_cons. unfold plain in P1. unfold written. cbn [ev_op] in *.
  rewrite (IH P2). destruct o; try contradiction; cbn [acall] in Hc; injection Hc as <- <-; reflexivity.
Qed.
Lemma read_latest w x ts tr1 e tr2 y ts' : interleaving w x ts (tr1 ++ e :: tr2) y ts' -> Forall plain tr1 ->
  (ev_op e = ALoad \/ (exists v, ev_op e = AExchange v)) -> rval (ev_res e) = latest x tr1.
Proof.
  intros H Hp He. destruct (interleaving_split _ _ _ _ _ _ _ H) as (z & us & H1 & H2).
  rewrite <- (plain_value _ _ _ _ _ _ H1 Hp). inversion H2 as [|? ? i o k sp x' r ? ? ? Hi Hc Hr]; subst. cbn [ev_op ev_res] in *.
  destruct He as [->|[v ->]]; cbn [acall] in Hc; injection Hc as <- <-; reflexivity.
Qed.
Lemma exchange_chain w x ts tr y ts' : interleaving w x ts tr y ts' -> Forall (fun e => exists v, ev_op e = AExchange v) tr ->
  x :: omap written tr = map (fun e => rval (ev_res e)) tr ++ [y].
Proof.
  induction 1 as [x ts|x ts i o k sp x' r tr y ts' Hi Hc Hr IH]; intros Hp; [reflexivity|].
  apply Forall_cons in Hp as [[v P1] P2]. cbn [ev_op] in P1. subst o. cbn [acall] in Hc. injection Hc as <- <-.
  cbn. f_equal. exact (IH P2).
Qed.
Lemma apply_result w x ts tr1 e tr2 y ts' f v : interleaving w x ts (tr1 ++ e :: tr2) y ts' ->
  (x < 2 ^ w)%N -> Forall (fits w) (tr1 ++ [e]) -> Forall adding (tr1 ++ [e]) -> ev_op e = AApply f v ->
  Z.of_N (rval (ev_res e)) = (Z.of_N x + total (tr1 ++ [e])) mod 2 ^ Z.of_N w.
Proof.
  intros H Hx Hf Ha He. replace (tr1 ++ e :: tr2) with ((tr1 ++ [e]) ++ tr2) in H by (rewrite <- app_assoc; reflexivity).
  destruct (interleaving_split _ _ _ _ _ _ _ H) as (z & us & H1 & _).
  rewrite <- (proj1 (adding_total _ _ _ _ _ _ H1 Hx Hf Ha)). f_equal.
  destruct (interleaving_split _ _ _ _ _ _ _ H1) as (z1 & us1 & _ & H2).
  inversion H2 as [|? ? i o k sp x' r ? ? ? Hi Hc Hr]; subst. inversion Hr; subst. cbn [ev_op ev_res] in *. subst o.
  cbn [acall] in Hc. injection Hc as <- <-. reflexivity.
Qed.

(** A concrete program: two threads, two increments each, one through a compare-exchange loop
    that fails once. *)
Definition demo_threads : list thread :=
  [Call (AFetch Add 1) (fun _ => Call (AFetch Add 1) (fun _ => Stop));
   Call ALoad (fun r => Call (ACas false (rval r) (rval r + 1)) (fun r2 =>
     if rok r2 then Stop else Call (ACas false (rval r2) (rval r2 + 1)) (fun _ => Stop)))]%N.
Definition demo_trace : list event :=
  [ {| ev_thread := 1; ev_op := ALoad; ev_res := {| rval := 254; rok := true |} |};
    {| ev_thread := 0; ev_op := AFetch Add 1; ev_res := {| rval := 254; rok := true |} |};
    {| ev_thread := 1; ev_op := ACas false 254 255; ev_res := {| rval := 255; rok := false |} |};
    {| ev_thread := 0; ev_op := AFetch Add 1; ev_res := {| rval := 255; rok := true |} |} ]%N.
Lemma demo_interleaving : exists ts', interleaving 8 254 demo_threads demo_trace 0 ts'.
Proof.
  eexists. unfold demo_trace.
  eapply (IL_step _ _ _ _ _ _ false); [reflexivity|reflexivity|]. cbn.
  eapply (IL_step _ _ _ _ _ _ false); [reflexivity|reflexivity|]. cbn.
  eapply (IL_step _ _ _ _ _ _ false); [reflexivity|reflexivity|]. cbn.
  eapply (IL_step _ _ _ _ _ _ false); [reflexivity|reflexivity|]. cbn.
  constructor.
Qed.
Definition pass_trace : list event :=
  [ {| ev_thread := 0; ev_op := AExchange 5; ev_res := {| rval := 3; rok := true |} |};
    {| ev_thread := 1; ev_op := AExchange 9; ev_res := {| rval := 5; rok := true |} |} ]%N.
Lemma pass_interleaving : exists ts', interleaving 8 3 [Call (AExchange 5) (fun _ => Stop); Call (AExchange 9) (fun _ => Stop)] pass_trace 9 ts'.
Proof.
  eexists. unfold pass_trace.
  eapply (IL_step _ _ _ _ _ _ false); [reflexivity|reflexivity|]. cbn.
  eapply (IL_step _ _ _ _ _ _ false); [reflexivity|reflexivity|]. cbn.
  constructor.
Qed.
Definition apply_trace : list event :=
  [ {| ev_thread := 0; ev_op := AApply Sub 5; ev_res := {| rval := 254; rok := true |} |} ]%N.
Lemma apply_interleaving : exists ts', interleaving 8 3 [Call (AApply Sub 5) (fun _ => Stop)] apply_trace 254 ts'.
Proof. eexists. eapply (IL_step _ _ _ _ _ _ false); [reflexivity|reflexivity|]. cbn. constructor. Qed.
