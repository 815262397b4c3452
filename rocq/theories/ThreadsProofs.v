From stdpp Require Import list list_numbers.
From Coq Require Import ZArith Lia ZifyBool ZifyNat.
From Verif Require Import Base ThreadsModel ThreadsSpec.
Local Open Scope nat_scope.

Definition ind (p : pc -> bool) (t : thread) : nat := if p (at_ t) then 1 else 0.
Definition isD p := match p with Dispose => true | _ => false end.
Definition isR p := match p with WeakRel => true | _ => false end.
Definition isF p := match p with Free => true | _ => false end.
Definition isL p := match p with Locking _ => true | _ => false end.
Notation tot f w := (sum_list_with f (threads w)).

Lemma sum_insert (f : thread -> nat) ths i t t' :
  ths !! i = Some t -> sum_list_with f (<[i := t']> ths) + f t = sum_list_with f ths + f t'.
Proof.
  revert i. induction ths as [|u ths IH]; intros [|i] E; try done; simpl in *.
  - simplify_eq. lia.
  - specialize (IH i E). lia.
Qed.
Lemma sum_le (f : thread -> nat) ths i t : ths !! i = Some t -> f t <= sum_list_with f ths.
Proof. revert i. induction ths as [|u ths IH]; intros [|i] E; try done; cbn in *; simplify_eq; [lia|]. specialize (IH i E). lia. Qed.
Lemma sum_two (f : thread -> nat) ths i j t u :
  i <> j -> ths !! i = Some t -> ths !! j = Some u -> f t + f u <= sum_list_with f ths.
Proof.
  revert i j. induction ths as [|v ths IH]; intros [|i] [|j] D E1 E2; try done; cbn in *; simplify_eq.
  - pose proof (sum_le f ths j u E2). lia.
  - pose proof (sum_le f ths i t E1). lia.
  - specialize (IH i j ltac:(lia) E1 E2). lia.
Qed.

(** The numbers of a world: handles, threads at each place, and whether a lock under way has counted. *)
Record num (S W D R F L e k : nat) (w : world) : Prop := {
  n_sc : sc w = (Z.of_nat S + Z.of_nat e)%Z;
  n_own : (if 0 <? S then 1 else 0) + D + R <= 1;
  n_wc : wc w = (Z.of_nat W + Z.of_nat ((if 0 <? S then 1 else 0) + D + R)%nat)%Z;
  n_e : e <= L; n_L : L <= 1; n_eS : e = 1 -> 1 <= S;
  n_alive : alive w = ((0 <? S) || (0 <? D));
  n_there : there w = ((0 <? W + S + D + R) || (0 <? F));
  n_F : F <= 1; n_F0 : F = 1 -> W + S + D + R = 0;
  n_des : ndes w = if alive w then 0 else 1;
  n_fre : nfre w = if there w then 0 else 1;
  n_k : S + W <= k }.
Record inv (k : nat) (w : world) : Prop := {
  i_num : exists e, num (tot shn w) (tot wkn w) (tot (ind isD) w) (tot (ind isR) w) (tot (ind isF) w) (tot (ind isL) w) e k w;
  i_lock i t c : threads w !! i = Some t -> at_ t = Locking c -> c = Z.of_nat (tot shn w) /\ 0 < wkn t }.

Lemma wrap_id z : (0 <= z < 2 ^ 64)%Z -> wrap z = z.
Proof. apply Z.mod_small. Qed.
Lemma no_lock_tot w : no_lock w = true -> tot (ind isL) w = 0.
Proof.
  unfold no_lock. induction (threads w) as [|t l IH]; cbn; [done|]. intros [H1 H2]%andb_prop. rewrite IH by done.
  unfold ind, locking, isL in *. by destruct (at_ t).
Qed.
Lemma tot_no_lock w i t c : tot (ind isL) w = 0 -> threads w !! i = Some t -> at_ t <> Locking c.
Proof. intros H E A. pose proof (sum_le (ind isL) _ i t E) as B. unfold ind in B at 1. rewrite A in B. cbn in B. lia. Qed.

(** Replacing thread [i], all six totals at once. *)
Ltac totals ths i t t' E :=
  pose proof (sum_insert shn ths i t t' E); pose proof (sum_insert wkn ths i t t' E);
  pose proof (sum_insert (ind isD) ths i t t' E); pose proof (sum_insert (ind isR) ths i t t' E);
  pose proof (sum_insert (ind isF) ths i t t' E); pose proof (sum_insert (ind isL) ths i t t' E).
Ltac lower ths i t E :=
  pose proof (sum_le shn ths i t E); pose proof (sum_le wkn ths i t E);
  pose proof (sum_le (ind isD) ths i t E); pose proof (sum_le (ind isR) ths i t E);
  pose proof (sum_le (ind isF) ths i t E); pose proof (sum_le (ind isL) ths i t E).

(** Other threads' locks are not disturbed when the number of shared handles stays. *)
Lemma lock_keep (ths : list thread) n i t t' :
  (forall j u c, ths !! j = Some u -> at_ u = Locking c -> c = Z.of_nat n /\ 0 < wkn u) ->
  ths !! i = Some t -> (forall c, at_ t' = Locking c -> c = Z.of_nat n /\ 0 < wkn t') ->
  forall j u c, <[i := t']> ths !! j = Some u -> at_ u = Locking c -> c = Z.of_nat n /\ 0 < wkn u.
Proof.
  intros H E Ht j u c Hj Hu. destruct (decide (i = j)) as [->|D].
  - rewrite list_lookup_insert in Hj by (by eapply lookup_lt_Some). simplify_eq. by apply Ht.
  - rewrite list_lookup_insert_ne in Hj by done. by eapply H.
Qed.

Ltac ev := cbn [shn wkn at_ sc wc alive there ndes nfre threads upd ind isD isR isF isL] in *; unfold ind in *;
  cbn [shn wkn at_ isD isR isF isL] in *.
(** New world with thread [i] replaced by [t'], lock mark [e']. *)
Ltac step_to i t t' Ht e' :=
  let ths := match type of Ht with ?l !! _ = _ => l end in
  totals ths i t t' Ht; ev; split; [exists e'|].
Ltac numeric := ev; split; cbn [sc wc alive there ndes nfre threads upd];
  repeat match goal with H : there ?w = _ |- _ => revert H | H : alive ?w = _ |- _ => revert H end;
  intros; try lia; try (repeat case_match; lia).

Ltac nolock := ev; intros; exfalso;
  match goal with Hj : ?l !! _ = Some ?u, Hu : at_ ?u = Locking _ |- _ =>
    let B := fresh in pose proof (sum_le (ind isL) l _ u Hj) as B; unfold ind in B; rewrite Hu in B; cbn [isL] in B; lia end.
Ltac keep Lk Ht := ev;
  let l := match type of Ht with ?l !! _ = _ => l end in
  match goal with |- context [Z.of_nat ?n] => replace n with (sum_list_with shn l) by lia end;
  eapply lock_keep; [exact Lk|exact Ht|let c := fresh in let Hc := fresh in intros c Hc; discriminate Hc].

Lemma exec_ok k i a w r : inv k w -> (Z.of_nat k + 3 < 2 ^ 64)%Z ->
  match a with CopyS | DropS | LockW => no_lock w | _ => true end = true ->
  exec i a w = Some r -> exists w', r = Ok w' /\ inv (S k) w'.
Proof.
  intros [[e N] Lk] Hk Q X. unfold exec in X. destruct (threads w !! i) as [t|] eqn:Ht; [|done]. cbn [mbind option_bind] in X.
  destruct t as [sh wk p]. cbn [shn wkn at_] in X.
  assert (forall c, p = Locking c -> c = Z.of_nat (tot shn w) /\ 0 < wk) as Lp by (intros c ->; exact (Lk i _ c Ht eq_refl)).
  lower (threads w) i {| shn := sh; wkn := wk; at_ := p |} Ht. cbn [shn wkn] in *.
  assert (no_lock w = true -> e = 0 /\ tot (ind isL) w = 0) as NL.
  { intros H'%no_lock_tot. destruct N. lia. }
  destruct N as [Nsc Nown Nwc Ne NL1 NeS Nal Nth NF NF0 Nde Nfr Nk].
  assert (0 < sh + wk -> there w = true) as TH by (intros; rewrite Nth; lia).
  destruct a, p; try discriminate X.
  - (* CopyS *)
    destruct (Nat.ltb_spec 0 sh); [|discriminate X]. unfold touch in X. rewrite TH in X by lia. injection X as <-.
    destruct (NL Q) as [-> HL]. rewrite wrap_id by lia. eexists. split; [reflexivity|].
    step_to i {| shn := sh; wkn := wk; at_ := Idle |} {| shn := S sh; wkn := wk; at_ := Idle |} Ht 0.
    + numeric.
    + nolock.
  - (* CopyWS *)
    destruct (Nat.ltb_spec 0 sh); [|discriminate X]. unfold touch in X. rewrite TH in X by lia. injection X as <-.
    rewrite wrap_id by lia. eexists. split; [reflexivity|].
    step_to i {| shn := sh; wkn := wk; at_ := Idle |} {| shn := sh; wkn := S wk; at_ := Idle |} Ht e.
    + numeric.
    + keep Lk Ht.
  - (* CopyW *)
    destruct (Nat.ltb_spec 0 wk); [|discriminate X]. unfold touch in X. rewrite TH in X by lia. injection X as <-.
    rewrite wrap_id by lia. eexists. split; [reflexivity|].
    step_to i {| shn := sh; wkn := wk; at_ := Idle |} {| shn := sh; wkn := S wk; at_ := Idle |} Ht e.
    + numeric.
    + keep Lk Ht.
  - (* DropS *)
    destruct sh as [|sh]; [discriminate X|]. unfold touch in X. rewrite TH in X by lia. injection X as <-.
    destruct (NL Q) as [-> HL]. rewrite wrap_id by lia. eexists. split; [reflexivity|].
    destruct (Z.eqb_spec (sc w - 1) 0).
    + step_to i {| shn := S sh; wkn := wk; at_ := Idle |} {| shn := sh; wkn := wk; at_ := Dispose |} Ht 0.
      * numeric.
      * nolock.
    + step_to i {| shn := S sh; wkn := wk; at_ := Idle |} {| shn := sh; wkn := wk; at_ := Idle |} Ht 0.
      * numeric.
      * nolock.
  - (* DropW *)
    destruct wk as [|wk]; [discriminate X|]. unfold touch in X. rewrite TH in X by lia. injection X as <-.
    rewrite wrap_id by lia. eexists. split; [reflexivity|].
    destruct (Z.eqb_spec (wc w - 1) 0).
    + step_to i {| shn := sh; wkn := S wk; at_ := Idle |} {| shn := sh; wkn := wk; at_ := Free |} Ht e.
      * numeric.
      * keep Lk Ht.
    + step_to i {| shn := sh; wkn := S wk; at_ := Idle |} {| shn := sh; wkn := wk; at_ := Idle |} Ht e.
      * numeric.
      * keep Lk Ht.
  - (* Deref *)
    destruct (Nat.ltb_spec 0 sh); [|discriminate X].
    assert (alive w = true) as AL by (rewrite Nal; lia). rewrite AL in X. injection X as <-.
    eexists. split; [reflexivity|]. split; [exists e|done]. numeric.
  - (* Count *)
    destruct (Nat.ltb_spec 0 (sh + wk)); [|discriminate X]. unfold touch in X. rewrite TH in X by lia. injection X as <-.
    eexists. split; [reflexivity|]. split; [exists e|done]. numeric.
  - (* GiveS *)
    destruct sh as [|sh]; [discriminate X|]. destruct (decide (i = j)) as [|D]; [discriminate X|].
    destruct (threads w !! j) as [[sh' wk' p']|] eqn:Hj; [|discriminate X]. cbn [mbind option_bind at_ shn wkn] in X.
    destruct p'; try discriminate X. injection X as <-. eexists. split; [reflexivity|].
    assert (<[i := {| shn := sh; wkn := wk; at_ := Idle |}]> (threads w) !! j = Some {| shn := sh'; wkn := wk'; at_ := Idle |}) as Hj'
      by (by rewrite list_lookup_insert_ne).
    totals (threads w) i {| shn := S sh; wkn := wk; at_ := Idle |} {| shn := sh; wkn := wk; at_ := Idle |} Ht.
    step_to j {| shn := sh'; wkn := wk'; at_ := Idle |} {| shn := S sh'; wkn := wk'; at_ := Idle |} Hj' e.
    + numeric.
    + ev. match goal with |- context [Z.of_nat ?n] => replace n with (tot shn w) by lia end.
      eapply lock_keep; [|exact Hj'|intros c Hc; discriminate Hc].
      eapply lock_keep; [exact Lk|exact Ht|intros c Hc; discriminate Hc].
  - (* GiveW *)
    destruct wk as [|wk]; [discriminate X|]. destruct (decide (i = j)) as [|D]; [discriminate X|].
    destruct (threads w !! j) as [[sh' wk' p']|] eqn:Hj; [|discriminate X]. cbn [mbind option_bind at_ shn wkn] in X.
    destruct p'; try discriminate X. injection X as <-. eexists. split; [reflexivity|].
    assert (<[i := {| shn := sh; wkn := wk; at_ := Idle |}]> (threads w) !! j = Some {| shn := sh'; wkn := wk'; at_ := Idle |}) as Hj'
      by (by rewrite list_lookup_insert_ne).
    totals (threads w) i {| shn := sh; wkn := S wk; at_ := Idle |} {| shn := sh; wkn := wk; at_ := Idle |} Ht.
    step_to j {| shn := sh'; wkn := wk'; at_ := Idle |} {| shn := sh'; wkn := S wk'; at_ := Idle |} Hj' e.
    + numeric.
    + ev. match goal with |- context [Z.of_nat ?n] => replace n with (tot shn w) by lia end.
      eapply lock_keep; [|exact Hj'|intros c Hc; discriminate Hc].
      eapply lock_keep; [exact Lk|exact Ht|intros c Hc; discriminate Hc].
  - (* LockW *)
    destruct (Nat.ltb_spec 0 wk); [|discriminate X]. unfold touch in X. rewrite TH in X by lia. injection X as <-.
    destruct (NL Q) as [-> HL]. eexists. split; [reflexivity|].
    step_to i {| shn := sh; wkn := wk; at_ := Idle |} {| shn := sh; wkn := wk; at_ := Locking (sc w) |} Ht 0.
    + numeric.
    + ev. match goal with |- context [Z.of_nat ?n] => replace n with (tot shn w) by lia end.
      eapply lock_keep; [exact Lk|exact Ht|]. cbn. intros c Hc. injection Hc as <-. lia.
  - (* dispose *)
    ev. assert (there w = true) as TH' by (rewrite Nth; lia). assert (alive w = true) as AL by (rewrite Nal; lia).
    rewrite TH', AL in X. cbn [andb] in X. injection X as <-. eexists. split; [reflexivity|].
    step_to i {| shn := sh; wkn := wk; at_ := Dispose |} {| shn := sh; wkn := wk; at_ := WeakRel |} Ht e.
    + numeric.
    + keep Lk Ht.
  - (* weak_release of the last shared handle *)
    ev. assert (there w = true) as TH' by (rewrite Nth; lia). unfold touch in X. rewrite TH' in X. injection X as <-.
    rewrite wrap_id by lia. eexists. split; [reflexivity|].
    destruct (Z.eqb_spec (wc w - 1) 0).
    + step_to i {| shn := sh; wkn := wk; at_ := WeakRel |} {| shn := sh; wkn := wk; at_ := Free |} Ht e.
      * numeric.
      * keep Lk Ht.
    + step_to i {| shn := sh; wkn := wk; at_ := WeakRel |} {| shn := sh; wkn := wk; at_ := Idle |} Ht e.
      * numeric.
      * keep Lk Ht.
  - (* distory *)
    ev. assert (there w = true) as TH' by (rewrite Nth; lia). rewrite TH' in X. injection X as <-.
    eexists. split; [reflexivity|].
    step_to i {| shn := sh; wkn := wk; at_ := Free |} {| shn := sh; wkn := wk; at_ := Idle |} Ht e.
    + numeric.
    + keep Lk Ht.
  - (* lock *)
    destruct (Lp count eq_refl) as [Hc Hw]. rewrite <- Hc in *.
    destruct (Z.eqb_spec count 0) as [C|C].
    + injection X as <-. eexists. split; [reflexivity|].
      step_to i {| shn := sh; wkn := wk; at_ := Locking count |} {| shn := sh; wkn := wk; at_ := Idle |} Ht 0.
      * numeric.
      * nolock.
    + unfold touch in X. rewrite TH in X by lia. destruct (Z.eqb_spec (sc w) count) as [E|E].
      * injection X as <-. rewrite wrap_id by lia. eexists. split; [reflexivity|].
        step_to i {| shn := sh; wkn := wk; at_ := Locking count |} {| shn := sh; wkn := wk; at_ := Locking count |} Ht 1.
        -- numeric.
        -- ev. match goal with |- context [Z.of_nat ?n] => replace n with (tot shn w) by lia end.
           eapply lock_keep; [|exact Ht|].
           ++ intros. rewrite <- Hc. by eapply Lk.
           ++ cbn. intros c Hc'. injection Hc' as <-. done.
      * injection X as <-. eexists. split; [reflexivity|].
        step_to i {| shn := sh; wkn := wk; at_ := Locking count |} {| shn := S sh; wkn := wk; at_ := Idle |} Ht 0.
        -- numeric.
        -- nolock.
Qed.

Lemma sched_ok l k w r : inv k w -> (Z.of_nat (k + length l) + 3 < 2 ^ 64)%Z -> undisturbed l w = true ->
  sched l w = Some r -> exists w' k', r = Ok w' /\ inv k' w' /\ k' <= k + length l.
Proof.
  revert k w. induction l as [|[i a] l IH]; intros k w I Hk U X; cbn [sched undisturbed length] in *.
  - simplify_eq. exists w, k. split; [done|]. split; [done|lia].
  - apply andb_prop in U as [Q U]. destruct (exec i a w) as [r0|] eqn:E; [|done].
    destruct (exec_ok k i a w r0 I ltac:(lia) Q E) as (w'&->&I').
    destruct (IH (S k) w' I' ltac:(lia) U X) as (w2&k2&->&I2&?). exists w2, k2. split; [done|]. split; [done|lia].
Qed.

Lemma ind_idle (p : pc -> bool) (ths : list thread) : p Idle = false ->
  Forall (fun t => at_ t = Idle) ths -> sum_list_with (ind p) ths = 0.
Proof. intros P F. induction F as [|t ths H F IH]; [done|]. cbn. unfold ind at 1. rewrite H, P, IH. done. Qed.
Lemma inv_fine k w : inv k w -> (Z.of_nat k + 3 < 2 ^ 64)%Z -> fine w.
Proof.
  intros I Hk. pose proof I as [[e N] Lk]. destruct N as [Nsc Nown Nwc Ne NL1 NeS Nal Nth NF NF0 Nde Nfr Nk].
  unfold shared_handles, weak_handles. split; unfold shared_handles, weak_handles.
  - intros H. assert (alive w = true) as A by (rewrite Nal; lia). by rewrite Nde, A.
  - intros H. assert (there w = true) as A by (rewrite Nth; lia). by rewrite Nfr, A.
  - done.
  - rewrite Nth, Nal. lia.
  - intros St. unfold settled in St.
    rewrite Nal, Nth, (ind_idle isD), (ind_idle isR), (ind_idle isF) by done. lia.
  - intros i t Ht Hp.
    assert (exists r, exec i Go w = Some r) as [r X].
    { unfold exec. rewrite Ht. cbn. destruct (at_ t) eqn:E; try done; unfold touch; eauto.
      destruct (count =? 0)%Z; [eauto|]. destruct (sc w =? count)%Z; eauto. }
    destruct (exec_ok k i Go w r I Hk eq_refl X) as (w'&->&_). eauto.
Qed.
Lemma inv_lock_returns k w i : inv k w -> lock_returns i w -> alive w = true.
Proof.
  intros [[e N] Lk] (t&c&w'&Ht&Hp&X&t'&Ht'&Hs). destruct (Lk i t c Ht Hp) as [Hc Hw].
  destruct N as [Nsc Nown Nwc Ne NL1 NeS Nal Nth NF NF0 Nde Nfr Nk]. rewrite Nal.
  unfold exec in X. rewrite Ht in X. cbn in X. rewrite Hp in X.
  destruct (Z.eqb_spec c 0) as [C|C].
  - injection X as <-. cbn in Ht'. rewrite list_lookup_insert in Ht' by (by eapply lookup_lt_Some).
    simplify_eq. cbn in Hs. lia.
  - lia.
Qed.

Lemma inv_fresh n : inv 1 (fresh n).
Proof.
  assert (forall f : thread -> nat, f {| shn := 0; wkn := 0; at_ := Idle |} = 0 ->
    sum_list_with f (replicate n {| shn := 0; wkn := 0; at_ := Idle |}) = 0) as Z.
  { intros f Hf. induction n as [|n IH]; [done|]. cbn. rewrite Hf, IH. done. }
  split.
  - exists 0. unfold fresh. cbn [threads sum_list_with]. rewrite !Z by done. cbn. split; cbn; done || lia.
  - intros i t c Ht Hp. exfalso. destruct i as [|i]; cbn in Ht; [by simplify_eq|].
    apply lookup_replicate in Ht as [-> _]. done.
Qed.

Lemma no_lock_spec w : no_lock w = true <-> Forall (fun t => locking t = false) (threads w).
Proof.
  unfold no_lock. induction (threads w) as [|t l IH]; cbn; [done|]. rewrite Forall_cons, andb_true_iff, IH.
  destruct (locking t); cbn; intuition congruence.
Qed.
Lemma exec_no_lock i a w w' : no_lock w = true -> is_lock a = false -> exec i a w = Some (Ok w') -> no_lock w' = true.
Proof.
  rewrite !no_lock_spec. intros F A X. unfold exec in X. destruct (threads w !! i) as [t|] eqn:Ht; [|done].
  cbn [mbind option_bind] in X.
  assert (forall c, at_ t <> Locking c) as NL.
  { intros c E. rewrite Forall_forall in F. specialize (F t ltac:(by eapply elem_of_list_lookup_2)). unfold locking in F. by rewrite E in F. }
  unfold touch in X.
  destruct a; try discriminate A; destruct (at_ t) eqn:E; try discriminate X; try (exfalso; by eapply NL);
    repeat (case_match; try discriminate X); simplify_eq; cbn [threads upd]; try done;
    try (apply Forall_insert; [done|]; try reflexivity; cbn; try (by case_match)).
  all: destruct (threads w !! j) as [u|] eqn:Hu; [|done]; cbn [mbind option_bind] in X;
    destruct (at_ u); try discriminate X; simplify_eq; cbn [threads upd]; by repeat apply Forall_insert.
Qed.
Lemma lockless_undisturbed l w : lockless l = true -> no_lock w = true -> undisturbed l w = true.
Proof.
  revert w. induction l as [|[i a] l IH]; intros w L N; [done|]. cbn in *. apply andb_prop in L as [La L].
  apply andb_true_iff. split; [by destruct a|].
  destruct (exec i a w) as [[w'| |]|] eqn:E; try done. apply IH; [done|].
  eapply exec_no_lock; [exact N| |exact E]. by destruct (is_lock a).
Qed.
Lemma fresh_no_lock n : no_lock (fresh n) = true.
Proof. apply no_lock_spec. constructor; [done|]. by apply Forall_replicate. Qed.

Theorem threads_fine n l r : undisturbed l (fresh n) = true -> (Z.of_nat (length l) + 4 < 2 ^ 64)%Z ->
  sched l (fresh n) = Some r -> exists w, r = Ok w /\ fine w /\ forall i, lock_returns i w -> alive w = true.
Proof.
  intros U Hl X. destruct (sched_ok l 1 (fresh n) r (inv_fresh n) ltac:(lia) U X) as (w&k&->&I&?).
  exists w. split; [done|]. split; [eapply inv_fine; [exact I|lia]|]. intros i. by eapply inv_lock_returns.
Qed.
Theorem lockless_fine n l r : lockless l = true -> (Z.of_nat (length l) + 4 < 2 ^ 64)%Z ->
  sched l (fresh n) = Some r -> exists w, r = Ok w /\ fine w.
Proof.
  intros L Hl X. destruct (threads_fine n l r) as (w&?&?&_); [|done|done|eauto].
  apply lockless_undisturbed; [done|apply fresh_no_lock].
Qed.
