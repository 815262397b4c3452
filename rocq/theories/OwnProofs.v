(** Proofs about any, function, unique_ptr and defer. *)
From stdpp Require Import gmap fin_maps.
From Coq Require Import Lia ZifyN ZifyBool.
From Verif Require Import Base OwnModel OwnSpec.
Local Open Scope N_scope.
Local Open Scope outcome_scope.

Section rep.
  Context {X : Type}.
  Implicit Types (w : own X) (σ : gmap N (option X)).

  Definition slot_rep w (s : N) (v : option (option X)) : Prop :=
    match v with
    | None => slots w !! s = None
    | Some None => slots w !! s = Some null
    | Some (Some x) => exists p, slots w !! s = Some (P (Some p)) /\ heap w !! p = Some x
    end.

  Record rep w σ : Prop := {
    rep_slot : forall s, slot_rep w s (σ !! s);
    rep_inj : forall a b p, slots w !! a = Some (P (Some p)) -> slots w !! b = Some (P (Some p)) -> a = b;
    rep_acc : forall p x, heap w !! p = Some x -> p < nxt w /\ exists s, slots w !! s = Some (P (Some p)) }.

  Lemma rep_empty : rep own_empty ∅.
  Proof.
    split; cbn [own_empty heap slots nxt].
    - intros s. rewrite lookup_empty. cbn. apply lookup_empty.
    - intros a b p H. rewrite lookup_empty in H. discriminate.
    - intros p x H. rewrite lookup_empty in H. discriminate.
  Qed.

  Lemma rep_lt w σ : rep w σ -> forall s p, slots w !! s = Some (P (Some p)) -> p < nxt w.
  Proof.
    intros R s p H. pose proof (rep_slot _ _ R s) as Hs. unfold slot_rep in Hs.
    destruct (σ !! s) as [[x|]|]; [|congruence|congruence].
    destruct Hs as (q & Hq & Hx). rewrite H in Hq. injection Hq as <-.
    apply (rep_acc _ _ R) in Hx. tauto.
  Qed.

  (** Reading *)
  Lemma rep_get w σ s v : rep w σ -> σ !! s = Some v ->
    exists c, get w s = Ok c /\ slots w !! s = Some (P c) /\
      match v, c with
      | None, None => True
      | Some x, Some p => heap w !! p = Some x
      | _, _ => False
      end.
  Proof.
    intros R H. pose proof (rep_slot _ _ R s) as Hs. rewrite H in Hs. unfold get. cbn in Hs.
    destruct v as [x|].
    - destruct Hs as (p & Hp & Hx). rewrite Hp. exists (Some p). auto.
    - rewrite Hs. exists None. auto.
  Qed.

  Lemma rep_none w σ s : rep w σ -> σ !! s = None -> slots w !! s = None.
  Proof. intros R H. pose proof (rep_slot _ _ R s) as Hs. rewrite H in Hs. exact Hs. Qed.

  Lemma rep_value w σ s v : rep w σ -> σ !! s = Some v -> any_value w s = Ok v.
  Proof.
    intros R H. destruct (rep_get _ _ _ _ R H) as (c & Hg & _ & Hc).
    unfold any_value. rewrite Hg. cbn. destruct v, c; try contradiction; [|reflexivity].
    unfold cell. rewrite Hc. reflexivity.
  Qed.

  (** Building *)
  Lemma rep_declare_null w σ s : rep w σ -> σ !! s = None ->
    exists w', declare w s null = Ok w' /\ rep w' (<[s := None]> σ).
  Proof.
    intros R H. unfold declare. rewrite (rep_none _ _ _ R H). eexists; split; [reflexivity|].
    pose proof (rep_none _ _ _ R H) as Hn.
    split; cbn [heap slots nxt].
    - intros t. unfold slot_rep. cbn [heap slots].
      destruct (decide (t = s)) as [->|N].
      + rewrite !lookup_insert. reflexivity.
      + rewrite !lookup_insert_ne by congruence. apply (rep_slot _ _ R t).
    - intros a b p Ha Hb.
      apply lookup_insert_Some in Ha as [[_ ?]|[Na Ha]]; [discriminate|].
      apply lookup_insert_Some in Hb as [[_ ?]|[Nb Hb]]; [discriminate|].
      exact (rep_inj _ _ R _ _ _ Ha Hb).
    - intros p x Hx. destruct (rep_acc _ _ R p x Hx) as [Hp [t Ht]]. split; [exact Hp|].
      exists t. rewrite lookup_insert_ne by congruence. exact Ht.
  Qed.

  Lemma rep_declare_new w σ s x : rep w σ -> σ !! s = None ->
    exists w', any_of w s x = Ok w' /\ rep w' (<[s := Some x]> σ).
  Proof.
    intros R H. pose proof (rep_none _ _ _ R H) as Hn.
    unfold any_of, alloc, declare. cbn [slots]. rewrite Hn. eexists; split; [reflexivity|].
    split; cbn [heap slots nxt].
    - intros t. unfold slot_rep. cbn [heap slots].
      destruct (decide (t = s)) as [->|N].
      + rewrite !lookup_insert. exists (nxt w). split; [reflexivity|]. apply lookup_insert.
      + rewrite !lookup_insert_ne by congruence.
        pose proof (rep_slot _ _ R t) as Ht. unfold slot_rep in Ht.
        destruct (σ !! t) as [[y|]|]; [|exact Ht|exact Ht].
        destruct Ht as (p & Hp & Hy). exists p. split; [exact Hp|].
        rewrite lookup_insert_ne; [exact Hy|].
        apply (rep_lt _ _ R) in Hp. lia.
    - intros a b p Ha Hb.
      apply lookup_insert_Some in Ha as [[<- Ha]|[Na Ha]];
        apply lookup_insert_Some in Hb as [[<- Hb]|[Nb Hb]].
      + reflexivity.
      + injection Ha as <-. apply (rep_lt _ _ R) in Hb. lia.
      + injection Hb as <-. apply (rep_lt _ _ R) in Ha. lia.
      + exact (rep_inj _ _ R _ _ _ Ha Hb).
    - intros p y Hy. apply lookup_insert_Some in Hy as [[<- <-]|[Np Hy]].
      + split; [lia|]. exists s. apply lookup_insert.
      + destruct (rep_acc _ _ R p y Hy) as [Hp [t Ht]]. split; [lia|].
        exists t. rewrite lookup_insert_ne by congruence. exact Ht.
  Qed.

  Lemma rep_swap w σ a b va vb : rep w σ -> σ !! a = Some va -> σ !! b = Some vb ->
    exists w', swap_slots w a b = Ok w' /\ rep w' (<[b := va]> (<[a := vb]> σ)).
  Proof.
    intros R Ha Hb.
    destruct (rep_get _ _ _ _ R Ha) as (pa & Ga & Sa & Ca).
    destruct (rep_get _ _ _ _ R Hb) as (pb & Gb & Sb & Cb).
    unfold swap_slots. rewrite Ga, Gb. cbn [obind]. unfold put at 1. rewrite Sa. cbn [obind].
    unfold put. cbn [slots heap nxt].
    assert (Hl : exists q, <[a:=P pb]> (slots w) !! b = Some q).
    { destruct (decide (a = b)) as [->|N]; [rewrite lookup_insert; eauto|].
      rewrite lookup_insert_ne by exact N. eauto. }
    destruct Hl as [q ->]. eexists; split; [reflexivity|].
    (* the new slot table *)
    assert (S : forall t v, <[b:=P pa]> (<[a:=P pb]> (slots w)) !! t = Some v <->
              slots w !! (if decide (t = b) then a else if decide (t = a) then b else t) = Some v).
    { intros t v. destruct (decide (t = b)) as [->|Nb].
      - rewrite lookup_insert, Sa. tauto.
      - rewrite lookup_insert_ne by congruence. destruct (decide (t = a)) as [->|Na].
        + rewrite lookup_insert, Sb. tauto.
        + rewrite lookup_insert_ne by congruence. tauto. }
    split; cbn [heap slots nxt].
    - intros t. unfold slot_rep. cbn [heap slots].
      destruct (decide (t = b)) as [->|Nb].
      + rewrite !lookup_insert. destruct va, pa; try contradiction; eauto.
      + rewrite !(lookup_insert_ne _ b) by congruence. destruct (decide (t = a)) as [->|Na].
        * rewrite !lookup_insert. destruct vb, pb; try contradiction; eauto.
        * rewrite !lookup_insert_ne by congruence. apply (rep_slot _ _ R t).
    - intros s t p Hs Ht. apply S in Hs, Ht. pose proof (rep_inj _ _ R _ _ _ Hs Ht) as E.
      destruct (decide (s = b)), (decide (t = b)), (decide (s = a)), (decide (t = a)); congruence.
    - intros p x Hx. destruct (rep_acc _ _ R p x Hx) as [Hp [t Ht]]. split; [exact Hp|].
      exists (if decide (t = b) then a else if decide (t = a) then b else t). apply S.
      destruct (decide (t = b)) as [->|]; [destruct (decide (a = b)) as [->|]; [|destruct (decide (a = a)); [|congruence]]; exact Ht|].
      destruct (decide (t = a)) as [->|]; [destruct (decide (b = b)); [exact Ht|congruence]|].
      destruct (decide (t = b)); [congruence|]. destruct (decide (t = a)); [congruence|exact Ht].
  Qed.

  Lemma rep_dtor w σ s v : rep w σ -> σ !! s = Some v ->
    exists w', any_dtor w s = Ok w' /\ rep w' (delete s σ).
  Proof.
    intros R H. destruct (rep_get _ _ _ _ R H) as (c & Hg & Sc & Hc).
    unfold any_dtor. rewrite Hg. cbn [obind].
    assert (Hin : forall t p, delete s (slots w) !! t = Some (P (Some p)) ->
              slots w !! t = Some (P (Some p)) /\ t <> s /\ c <> Some p).
    { intros t p Ht. apply lookup_delete_Some in Ht as [N Ht].
      split; [exact Ht|]. split; [congruence|]. intros ->.
      apply N. exact (rep_inj _ _ R _ _ _ Sc Ht). }
    destruct v as [x|], c as [p|]; try contradiction.
    - unfold free. rewrite Hc. cbn [obind]. unfold undeclare. cbn [heap slots nxt].
      eexists; split; [reflexivity|]. split; cbn [heap slots nxt].
      + intros t. unfold slot_rep. cbn [heap slots].
        destruct (decide (t = s)) as [->|N]; [rewrite !lookup_delete; reflexivity|].
        rewrite !lookup_delete_ne by congruence.
        pose proof (rep_slot _ _ R t) as Ht. unfold slot_rep in Ht.
        destruct (σ !! t) as [[y|]|]; [|exact Ht|exact Ht].
        destruct Ht as (q & Hq & Hy). exists q. split; [exact Hq|].
        rewrite lookup_delete_ne; [exact Hy|]. intros <-.
        apply N. exact (rep_inj _ _ R _ _ _ Hq Sc).
      + intros a b q Ha Hb. apply Hin in Ha, Hb.
        destruct Ha as (Ha & _), Hb as (Hb & _). exact (rep_inj _ _ R _ _ _ Ha Hb).
      + intros q y Hy. apply lookup_delete_Some in Hy as [Nq Hy].
        destruct (rep_acc _ _ R q y Hy) as [Hq [t Ht]]. split; [exact Hq|].
        exists t. rewrite lookup_delete_ne; [exact Ht|]. intros <-. congruence.
    - cbn [obind]. unfold undeclare. eexists; split; [reflexivity|]. split; cbn [heap slots nxt].
      + intros t. unfold slot_rep. cbn [heap slots].
        destruct (decide (t = s)) as [->|N]; [rewrite !lookup_delete; reflexivity|].
        rewrite !lookup_delete_ne by congruence. apply (rep_slot _ _ R t).
      + intros a b q Ha Hb. apply Hin in Ha, Hb.
        destruct Ha as (Ha & _), Hb as (Hb & _). exact (rep_inj _ _ R _ _ _ Ha Hb).
      + intros q y Hy. destruct (rep_acc _ _ R q y Hy) as [Hq [t Ht]]. split; [exact Hq|].
        exists t. rewrite lookup_delete_ne; [exact Ht|]. intros <-. congruence.
  Qed.

  Lemma rep_copy w σ s src v : rep w σ -> σ !! s = None -> σ !! src = Some v ->
    exists w', any_copy w s src = Ok w' /\ rep w' (<[s := v]> σ).
  Proof.
    intros R Hs H. destruct (rep_get _ _ _ _ R H) as (c & Hg & Sc & Hc).
    unfold any_copy. rewrite Hg. cbn [obind]. destruct v as [x|], c as [p|]; try contradiction.
    - unfold cell. rewrite Hc. cbn [of_option obind]. apply rep_declare_new; assumption.
    - apply rep_declare_null; assumption.
  Qed.

  Lemma fun_copy_any w σ s src x : rep w σ -> σ !! src = Some (Some x) ->
    fun_copy w s src = any_copy w s src.
  Proof.
    intros R H. destruct (rep_get _ _ _ _ R H) as (c & Hg & Sc & Hc).
    unfold fun_copy, any_copy. rewrite Hg. cbn [obind]. destruct c; [reflexivity|contradiction].
  Qed.

  Lemma rep_move w σ s src v : rep w σ -> σ !! s = None -> σ !! src = Some v ->
    exists w', any_move w s src = Ok w' /\ rep w' (<[src := None]> (<[s := v]> σ)).
  Proof.
    intros R Hs H. assert (N : s <> src) by congruence.
    destruct (rep_declare_null w σ s R Hs) as (w1 & D1 & R1).
    destruct (rep_swap w1 _ s src None v R1) as (w2 & D2 & R2).
    { apply lookup_insert. }
    { rewrite lookup_insert_ne by exact N. exact H. }
    exists w2. split.
    - rewrite <- D2. unfold any_move, swap_slots.
      destruct (rep_get _ _ _ _ R H) as (c & Hg & Sc & _). rewrite Hg. cbn [obind].
      pose proof (rep_none _ _ _ R Hs) as Hn.
      unfold declare in D1 |- *. rewrite Hn in D1 |- *. injection D1 as <-.
      unfold get, put. cbn [slots heap nxt].
      rewrite !lookup_insert. cbn [obind]. rewrite lookup_insert_ne by exact N. rewrite Sc.
      cbn [obind slots heap nxt]. rewrite (lookup_insert_ne (<[s:=null]> (slots w))) by exact N.
      rewrite !lookup_insert_ne by exact N. rewrite Sc.
      cbn [obind slots heap nxt].
      rewrite insert_insert. reflexivity.
    - rewrite insert_insert in R2. exact R2.
  Qed.

  (** The temporary that assignment and clear go through. *)
  Lemma rep_temp w σ s v old : rep w (<[0 := v]> σ) -> σ !! 0 = None -> s <> 0 -> σ !! s = Some old ->
    exists w', (w2 <~ any_swap w 0 s; any_dtor w2 0) = Ok w' /\ rep w' (<[s := v]> σ).
  Proof.
    intros R H0 Ns Hs.
    destruct (rep_swap w _ 0 s v old R) as (w2 & D2 & R2).
    { apply lookup_insert. }
    { rewrite lookup_insert_ne by congruence. exact Hs. }
    unfold any_swap. rewrite D2. cbn [obind].
    destruct (rep_dtor w2 _ 0 old R2) as (w3 & D3 & R3).
    { rewrite lookup_insert_ne by congruence. apply lookup_insert. }
    exists w3. split; [exact D3|].
    rewrite insert_insert in R3.
    rewrite delete_insert_ne in R3 by congruence.
    rewrite delete_insert in R3 by exact H0. exact R3.
  Qed.

  Lemma rep_write w σ s x f : rep w σ -> σ !! s = Some (Some x) ->
    exists w', any_write w s f = Ok w' /\ rep w' (<[s := Some (f x)]> σ).
  Proof.
    intros R H. destruct (rep_get _ _ _ _ R H) as (c & Hg & Sc & Hc).
    unfold any_write. rewrite Hg. cbn [obind]. destruct c as [p|]; [|contradiction].
    unfold cell. rewrite Hc. cbn [of_option obind]. eexists; split; [reflexivity|].
    split; cbn [heap slots nxt].
    - intros t. unfold slot_rep. cbn [heap slots].
      destruct (decide (t = s)) as [->|N].
      + rewrite lookup_insert. exists p. split; [exact Sc|]. apply lookup_insert.
      + rewrite lookup_insert_ne by congruence.
        pose proof (rep_slot _ _ R t) as Ht. unfold slot_rep in Ht.
        destruct (σ !! t) as [[y|]|]; [|exact Ht|exact Ht].
        destruct Ht as (q & Hq & Hy). exists q. split; [exact Hq|].
        rewrite lookup_insert_ne; [exact Hy|]. intros <-.
        apply N. exact (rep_inj _ _ R _ _ _ Hq Sc).
    - exact (rep_inj _ _ R).
    - intros q y Hy. apply lookup_insert_Some in Hy as [[<- <-]|[Nq Hy]].
      + exact (rep_acc _ _ R p x Hc).
      + exact (rep_acc _ _ R q y Hy).
  Qed.

  Definition wf_store σ : Prop := σ !! 0 = None.

  Lemma fresh_name_true σ s : fresh_name σ s = true -> s <> 0 /\ σ !! s = None.
  Proof.
    unfold fresh_name. destruct (σ !! s); [rewrite andb_false_r; discriminate|].
    destruct (N.eqb_spec s 0); [discriminate|]. auto.
  Qed.

  Lemma wf_ne σ s v : wf_store σ -> σ !! s = Some v -> s <> 0.
  Proof. intros W H ->. unfold wf_store in W. congruence. Qed.

  Ltac wf0 := unfold wf_store in *; repeat (rewrite lookup_insert_ne by congruence); try assumption.

  Lemma any_step_ok w σ o σ' : rep w σ -> wf_store σ -> hspec σ o = Some σ' ->
    exists w', any_step w o = Ok w' /\ rep w' σ' /\ wf_store σ'.
  Proof.
    intros R W H. destruct o; cbn [hspec any_step] in *.
    - destruct (fresh_name σ s) eqn:F; [|discriminate]. apply fresh_name_true in F as [N F].
      injection H as <-. destruct (rep_declare_null w σ s R F) as (w' & D & R').
      exists w'. split; [exact D|]. split; [exact R'|]. wf0.
    - destruct (fresh_name σ s) eqn:F; [|discriminate]. apply fresh_name_true in F as [N F].
      injection H as <-. destruct (rep_declare_new w σ s x R F) as (w' & D & R').
      exists w'. split; [exact D|]. split; [exact R'|]. wf0.
    - destruct (fresh_name σ s) eqn:F; [|discriminate]. apply fresh_name_true in F as [N F].
      destruct (σ !! src) as [v|] eqn:E; [|discriminate].
      injection H as <-. destruct (rep_copy w σ s src v R F E) as (w' & D & R').
      exists w'. split; [exact D|]. split; [exact R'|]. wf0.
    - destruct (fresh_name σ s) eqn:F; [|discriminate]. apply fresh_name_true in F as [N F].
      destruct (σ !! src) as [v|] eqn:E; [|discriminate].
      injection H as <-. destruct (rep_move w σ s src v R F E) as (w' & D & R').
      exists w'. split; [exact D|]. split; [exact R'|].
      pose proof (wf_ne _ _ _ W E). wf0.
    - destruct (σ !! s) as [v|] eqn:E; [|discriminate]. injection H as <-.
      destruct (rep_dtor w σ s v R E) as (w' & D & R').
      exists w'. split; [exact D|]. split; [exact R'|].
      pose proof (wf_ne _ _ _ W E). unfold wf_store in *. rewrite lookup_delete_ne; assumption.
    - destruct (σ !! a) as [va|] eqn:Ea; [|discriminate].
      destruct (σ !! b) as [vb|] eqn:Eb; [|discriminate]. injection H as <-.
      destruct (rep_swap w σ a b va vb R Ea Eb) as (w' & D & R').
      exists w'. split; [exact D|]. split; [exact R'|].
      pose proof (wf_ne _ _ _ W Ea). pose proof (wf_ne _ _ _ W Eb). wf0.
    - destruct (σ !! s) as [old|] eqn:Es; [|discriminate].
      destruct (σ !! src) as [v|] eqn:E; [|discriminate]. injection H as <-.
      pose proof (wf_ne _ _ _ W Es) as Ns.
      destruct (rep_copy w σ 0 src v R W E) as (w1 & D1 & R1).
      unfold any_assign_copy. rewrite D1. cbn [obind].
      destruct (rep_temp w1 σ s v old R1 W Ns Es) as (w' & D & R').
      exists w'. split; [exact D|]. split; [exact R'|]. wf0.
    - destruct (σ !! s) as [old|] eqn:Es; [|discriminate].
      destruct (σ !! src) as [v|] eqn:E; [|discriminate]. injection H as <-.
      pose proof (wf_ne _ _ _ W Es) as Ns. pose proof (wf_ne _ _ _ W E) as Nsrc.
      destruct (rep_move w σ 0 src v R W E) as (w1 & D1 & R1).
      unfold any_assign_move. rewrite D1. cbn [obind].
      rewrite insert_commute in R1 by congruence.
      destruct (rep_temp w1 (<[src := None]> σ) s v (if decide (s = src) then None else old) R1)
        as (w' & D & R').
      { rewrite lookup_insert_ne by congruence. exact W. }
      { exact Ns. }
      { destruct (decide (s = src)) as [->|N]; [apply lookup_insert|].
        rewrite lookup_insert_ne by congruence. exact Es. }
      exists w'. split; [exact D|]. split; [exact R'|]. wf0.
    - destruct (σ !! s) as [old|] eqn:Es; [|discriminate]. injection H as <-.
      pose proof (wf_ne _ _ _ W Es) as Ns.
      destruct (rep_declare_new w σ 0 x R W) as (w1 & D1 & R1).
      unfold any_assign_of. rewrite D1. cbn [obind].
      destruct (rep_temp w1 σ s (Some x) old R1 W Ns Es) as (w' & D & R').
      exists w'. split; [exact D|]. split; [exact R'|]. wf0.
    - destruct (σ !! s) as [old|] eqn:Es; [|discriminate]. injection H as <-.
      pose proof (wf_ne _ _ _ W Es) as Ns.
      destruct (rep_declare_null w σ 0 R W) as (w1 & D1 & R1).
      unfold any_clear, any_default. rewrite D1. cbn [obind].
      destruct (rep_temp w1 σ s None old R1 W Ns Es) as (w' & D & R').
      exists w'. split; [exact D|]. split; [exact R'|]. wf0.
    - destruct (σ !! s) as [old|] eqn:Es; [|discriminate]. injection H as <-.
      pose proof (wf_ne _ _ _ W Es) as Ns.
      destruct (rep_declare_null w σ 0 R W) as (w1 & D1 & R1).
      unfold any_emplace, any_clear, any_default. rewrite D1. cbn [obind].
      destruct (rep_temp w1 σ s None old R1 W Ns Es) as (w2 & D & R').
      rewrite D. cbn [obind].
      (* the new holder is stored into an empty object: like building it afresh *)
      destruct (rep_dtor w2 _ s None R') as (w3 & D3 & R3); [apply lookup_insert|].
      rewrite delete_insert_delete in R3.
      destruct (rep_declare_new w3 _ s x R3) as (w4 & D4 & R4); [apply lookup_delete|].
      exists w4. rewrite insert_delete_insert in R4.
      split; [|split; [exact R4|wf0]].
      rewrite <- D4.
      destruct (rep_get w2 _ s None R') as (c & G & S & C); [apply lookup_insert|].
      destruct c; [contradiction|].
      unfold any_dtor in D3. rewrite G in D3. cbn [obind] in D3. injection D3 as <-.
      unfold any_of, alloc, put, declare, undeclare. cbn [slots heap nxt].
      rewrite S, lookup_delete. rewrite insert_delete_insert. reflexivity.
    - destruct (σ !! s) as [[x|]|] eqn:E; [|discriminate|discriminate]. injection H as <-.
      destruct (rep_write w σ s x f R E) as (w' & D & R').
      exists w'. split; [exact D|]. split; [exact R'|].
      pose proof (wf_ne _ _ _ W E). wf0.
  Qed.

  Lemma any_run_ok os : forall w σ σ', rep w σ -> wf_store σ -> hspec_run σ os = Some σ' ->
    exists w', any_run w os = Ok w' /\ rep w' σ' /\ wf_store σ'.
  Proof.
    induction os as [|o os IH]; intros w σ σ' R W H; cbn [hspec_run any_run] in *.
    - injection H as <-. eauto.
    - destruct (hspec σ o) as [σ1|] eqn:E; [|discriminate].
      destruct (any_step_ok w σ o σ1 R W E) as (w1 & D & R1 & W1). rewrite D. cbn [obind].
      eauto.
  Qed.

  Lemma fun_step_any w σ o : rep w σ ->
    match o with HCopy _ src | HAssignCopy _ src => σ !! src <> Some None | _ => True end ->
    hspec σ o <> None -> fun_step w o = any_step w o.
  Proof.
    intros R Hn Hs. destruct o; try reflexivity; cbn [fun_step any_step hspec] in *.
    - destruct (fresh_name σ s); [|congruence].
      destruct (σ !! src) as [[x|]|] eqn:E; [|congruence|congruence].
      exact (fun_copy_any w σ s src x R E).
    - destruct (σ !! s); [|congruence].
      destruct (σ !! src) as [[x|]|] eqn:E; [|congruence|congruence].
      unfold fun_assign_copy, any_assign_copy. rewrite (fun_copy_any w σ 0 src x R E). reflexivity.
  Qed.

  Lemma fun_run_ok os : forall w σ σ', rep w σ -> wf_store σ -> hspec_run σ os = Some σ' ->
    no_empty_copy σ os ->
    exists w', fun_run w os = Ok w' /\ rep w' σ' /\ wf_store σ'.
  Proof.
    induction os as [|o os IH]; intros w σ σ' R W H Hn; cbn [hspec_run fun_run no_empty_copy] in *.
    - injection H as <-. eauto.
    - destruct (hspec σ o) as [σ1|] eqn:E; [|discriminate]. destruct Hn as [Hn1 Hn2].
      destruct (any_step_ok w σ o σ1 R W E) as (w1 & D & R1 & W1).
      rewrite (fun_step_any w σ o R Hn1) by congruence. rewrite D. cbn [obind]. eauto.
  Qed.

  (** Heap cells correspond one to one to the objects that hold a value. *)
  Lemma rep_heap w σ : rep w σ ->
    (forall s x, σ !! s = Some (Some x) -> any_value w s = Ok (Some x)) /\
    (forall s, σ !! s = Some None -> any_value w s = Ok None) /\
    size (heap w) = size (filter (fun sv => is_Some (snd sv)) σ).
  Proof.
    intros R. split; [|split].
    - intros s x H. exact (rep_value _ _ _ _ R H).
    - intros s H. exact (rep_value _ _ _ _ R H).
    - rewrite <- !size_dom.
      set (f := fun s : N => match slots w !! s with Some (P (Some p)) => p | _ => 0 end).
      assert (E : dom (heap w) = set_map (D := gset N) f (dom (filter (fun sv => is_Some (snd sv)) σ))).
      { apply set_eq. intros p. rewrite elem_of_map, elem_of_dom. split.
        - intros [x Hx]. destruct (rep_acc _ _ R p x Hx) as [_ [s Hs]].
          exists s. split; [unfold f; rewrite Hs; reflexivity|].
          apply elem_of_dom. pose proof (rep_slot _ _ R s) as Q. unfold slot_rep in Q.
          destruct (σ !! s) as [[y|]|] eqn:E; [|congruence|congruence].
          exists (Some y). apply map_filter_lookup_Some. split; [exact E|]. cbn. eauto.
        - intros (s & -> & Hs). apply elem_of_dom in Hs as [v Hv].
          apply map_filter_lookup_Some in Hv as [Hv [y Hy]]. cbn in Hy. subst v.
          pose proof (rep_slot _ _ R s) as Q. rewrite Hv in Q. destruct Q as (p & Hp & Hx).
          unfold f. rewrite Hp. eauto. }
      rewrite E.
      assert (Inj : forall s t, s ∈ dom (filter (fun sv : N * option X => is_Some (snd sv)) σ) ->
                t ∈ dom (filter (fun sv : N * option X => is_Some (snd sv)) σ) -> f s = f t -> s = t).
      { intros s t Hs Ht. apply elem_of_dom in Hs as [v Hv], Ht as [v' Hv'].
        apply map_filter_lookup_Some in Hv as [Hv [y Hy]], Hv' as [Hv' [y' Hy']].
        cbn in Hy, Hy'. subst v v'.
        pose proof (rep_slot _ _ R s) as Q. rewrite Hv in Q. destruct Q as (p & Hp & _).
        pose proof (rep_slot _ _ R t) as Q. rewrite Hv' in Q. destruct Q as (p' & Hp' & _).
        unfold f. rewrite Hp, Hp'. intros ->. exact (rep_inj _ _ R _ _ _ Hp Hp'). }
      revert Inj. generalize (dom (filter (fun sv : N * option X => is_Some (snd sv)) σ)). clear.
      intros D. induction D as [|x D Hx IH] using set_ind_L; intros Inj.
      + rewrite set_map_empty. reflexivity.
      + rewrite set_map_union_L, set_map_singleton_L.
        rewrite !size_union; [rewrite !size_singleton, IH; [reflexivity|]| | ].
        * intros s t Hs Ht. apply Inj; set_solver.
        * set_solver.
        * intros y Hy1 Hy2. apply elem_of_singleton in Hy1. subst y.
          apply elem_of_map in Hy2 as (t & Ht & HtD).
          assert (x = t) by (apply Inj; [set_solver|set_solver|exact Ht]). subst. contradiction.
  Qed.
End rep.

(** ** unique_ptr *)
Section up.
  Context {X : Type}.
  Implicit Types (w : own X) (u : ustate X).

  (** The model state is the abstract state, and the abstract state is sound. *)
  Record urep w u : Prop := {
    ur_slots : slots w = P <$> owner u;
    ur_heap : heap w = owned u ∪ loose u;
    ur_nxt : nxt w = unext u;
    ur_acc : accounted u;
    ur_lt : forall p, is_Some (heap w !! p) -> p < nxt w }.

  Lemma urep_empty : urep own_empty uempty.
  Proof.
    split; cbn.
    - symmetry. apply fmap_empty.
    - symmetry. apply (left_id_L ∅ (∪)).
    - reflexivity.
    - split; [|split]; cbn.
      + intros a b p H. rewrite lookup_empty in H. discriminate.
      + intros p. split; [intros [x H]; rewrite lookup_empty in H; discriminate|].
        intros [s H]. rewrite lookup_empty in H. discriminate.
      + intros p [x H]. rewrite lookup_empty in H. discriminate.
    - intros p [x H]. rewrite lookup_empty in H. discriminate.
  Qed.

  Lemma ur_get w u s v : urep w u -> owner u !! s = Some v ->
    slots w !! s = Some (P v) /\ get w s = Ok v.
  Proof.
    intros R H. unfold get. rewrite (ur_slots _ _ R), lookup_fmap, H. split; reflexivity.
  Qed.
  Lemma ur_fresh w u s : urep w u -> ufresh u s = true -> owner u !! s = None /\ slots w !! s = None.
  Proof.
    intros R H. unfold ufresh in H. destruct (owner u !! s) eqn:E; [discriminate|].
    split; [reflexivity|]. rewrite (ur_slots _ _ R), lookup_fmap, E. reflexivity.
  Qed.
  Lemma ur_owned w u s p : urep w u -> owner u !! s = Some (Some p) ->
    exists x, owned u !! p = Some x /\ heap w !! p = Some x.
  Proof.
    intros R H. destruct (ur_acc _ _ R) as (_ & A & _).
    destruct (proj2 (A p) (ex_intro _ s H)) as [x Hx]. exists x. split; [exact Hx|].
    rewrite (ur_heap _ _ R). apply lookup_union_Some_l. exact Hx.
  Qed.
  Lemma ur_loose w u p x : urep w u -> loose u !! p = Some x ->
    owned u !! p = None /\ heap w !! p = Some x /\ forall s, owner u !! s <> Some (Some p).
  Proof.
    intros R H. destruct (ur_acc _ _ R) as (_ & A & B).
    assert (O : owned u !! p = None).
    { destruct (owned u !! p) eqn:E; [|reflexivity]. rewrite (B p) in H by eauto. discriminate. }
    split; [exact O|]. split.
    - rewrite (ur_heap _ _ R). rewrite lookup_union_r; assumption.
    - intros s Hs. destruct (proj2 (A p) (ex_intro _ s Hs)) as [y Hy]. congruence.
  Qed.
  Lemma ur_next w u : urep w u ->
    owned u !! unext u = None /\ loose u !! unext u = None /\ heap w !! nxt w = None /\
    forall s, owner u !! s <> Some (Some (unext u)).
  Proof.
    intros R.
    assert (H : heap w !! nxt w = None).
    { destruct (heap w !! nxt w) eqn:E; [|reflexivity].
      pose proof (ur_lt _ _ R (nxt w)) as L. rewrite E in L. specialize (L (ex_intro _ _ eq_refl)). lia. }
    rewrite (ur_heap _ _ R), (ur_nxt _ _ R) in H.
    apply lookup_union_None in H as [H1 H2].
    split; [exact H1|]. split; [exact H2|].
    split; [rewrite (ur_heap _ _ R), (ur_nxt _ _ R); apply lookup_union_None; auto|].
    intros s Hs. destruct (ur_acc _ _ R) as (_ & A & _).
    destruct (proj2 (A _) (ex_intro _ s Hs)). congruence.
  Qed.

  (** Small steps that keep the abstract state sound. *)
  Notation acc o l ow := (accounted {| owner := o; loose := l; owned := ow; unext := 0 |}).

  Definition vacant (o : gmap N (option N)) (s : N) : Prop := o !! s = None \/ o !! s = Some None.

  Lemma acc_adopt o (l ow : gmap N X) s p x : acc o l ow -> vacant o s -> l !! p = Some x ->
    acc (<[s := Some p]> o) (delete p l) (<[p := x]> ow).
  Proof.
    intros (I & A & B) V Hp. cbn in I, A, B.
    assert (O : ow !! p = None).
    { destruct (ow !! p) eqn:E; [|reflexivity]. rewrite (B p) in Hp by eauto. discriminate. }
    assert (Np : forall t, o !! t <> Some (Some p)).
    { intros t Ht. destruct (proj2 (A p) (ex_intro _ t Ht)). congruence. }
    split; [|split]; cbn.
    - intros a b q Ha Hb.
      apply lookup_insert_Some in Ha as [[<- Ha]|[Na Ha]];
        apply lookup_insert_Some in Hb as [[<- Hb]|[Nb Hb]].
      + reflexivity.
      + injection Ha as <-. destruct (Np b Hb).
      + injection Hb as <-. destruct (Np a Ha).
      + exact (I _ _ _ Ha Hb).
    - intros q. rewrite lookup_insert_is_Some'. rewrite A. split.
      + intros [<-|[t Ht]].
        * exists s. apply lookup_insert.
        * exists t. rewrite lookup_insert_ne; [exact Ht|]. destruct V; congruence.
      + intros [t Ht]. apply lookup_insert_Some in Ht as [[<- Ht]|[Nt Ht]].
        * left. congruence.
        * right. eauto.
    - intros q Hq. apply lookup_insert_is_Some' in Hq as [<-|Hq].
      + apply lookup_delete.
      + apply lookup_delete_None. right. exact (B q Hq).
  Qed.

  Lemma acc_release o (l ow : gmap N X) s p x : acc o l ow -> o !! s = Some (Some p) -> ow !! p = Some x ->
    acc (<[s := None]> o) (<[p := x]> l) (delete p ow).
  Proof.
    intros (I & A & B) Hs Hp. cbn in I, A, B. split; [|split]; cbn.
    - intros a b q Ha Hb.
      apply lookup_insert_Some in Ha as [[<- Ha]|[Na Ha]]; [discriminate|].
      apply lookup_insert_Some in Hb as [[<- Hb]|[Nb Hb]]; [discriminate|].
      exact (I _ _ _ Ha Hb).
    - intros q. rewrite lookup_delete_is_Some, A. split.
      + intros [N [t Ht]]. exists t. rewrite lookup_insert_ne; [exact Ht|]. congruence.
      + intros [t Ht]. apply lookup_insert_Some in Ht as [[<- Ht]|[Nt Ht]]; [discriminate|].
        split; [|eauto]. intros <-. apply Nt. exact (I _ _ _ Hs Ht).
    - intros q Hq. apply lookup_delete_is_Some in Hq as [N Hq].
      rewrite lookup_insert_ne by exact N. exact (B q Hq).
  Qed.

  Lemma acc_null o (l ow : gmap N X) s : acc o l ow -> vacant o s -> acc (<[s := None]> o) l ow.
  Proof.
    intros (I & A & B) V. cbn in I, A, B. split; [|split]; cbn.
    - intros a b q Ha Hb.
      apply lookup_insert_Some in Ha as [[<- Ha]|[Na Ha]]; [discriminate|].
      apply lookup_insert_Some in Hb as [[<- Hb]|[Nb Hb]]; [discriminate|].
      exact (I _ _ _ Ha Hb).
    - intros q. rewrite A. split.
      + intros [t Ht]. exists t. rewrite lookup_insert_ne; [exact Ht|]. destruct V; congruence.
      + intros [t Ht]. apply lookup_insert_Some in Ht as [[<- Ht]|[Nt Ht]]; [discriminate|]. eauto.
    - exact B.
  Qed.

  Lemma acc_undeclare o (l ow : gmap N X) s : acc o l ow -> vacant o s -> acc (delete s o) l ow.
  Proof.
    intros (I & A & B) V. cbn in I, A, B. split; [|split]; cbn.
    - intros a b q Ha Hb. apply lookup_delete_Some in Ha as [_ Ha], Hb as [_ Hb].
      exact (I _ _ _ Ha Hb).
    - intros q. rewrite A. split.
      + intros [t Ht]. exists t. rewrite lookup_delete_ne; [exact Ht|]. destruct V; congruence.
      + intros [t Ht]. apply lookup_delete_Some in Ht as [_ Ht]. eauto.
    - exact B.
  Qed.

  Lemma acc_del o (l ow : gmap N X) p : acc o l ow -> acc o (delete p l) ow.
  Proof.
    intros (I & A & B). cbn in I, A, B. split; [exact I|]. split; [exact A|]. cbn.
    intros q Hq. apply lookup_delete_None. right. exact (B q Hq).
  Qed.

  Lemma acc_new o (l ow : gmap N X) p x : acc o l ow -> ow !! p = None -> acc o (<[p := x]> l) ow.
  Proof.
    intros (I & A & B) Hp. cbn in I, A, B. split; [exact I|]. split; [exact A|]. cbn.
    intros q Hq. rewrite lookup_insert_ne; [exact (B q Hq)|]. intros <-. destruct Hq. congruence.
  Qed.

  Lemma acc_swap o (l ow : gmap N X) a b va vb : acc o l ow -> o !! a = Some va -> o !! b = Some vb ->
    acc (<[b := va]> (<[a := vb]> o)) l ow.
  Proof.
    intros (I & A & B) Ha Hb. cbn in I, A, B.
    set (f := fun t : N => if decide (t = b) then a else if decide (t = a) then b else t).
    assert (S : forall t v, <[b:=va]> (<[a:=vb]> o) !! t = Some v <-> o !! f t = Some v).
    { intros t v. unfold f. destruct (decide (t = b)) as [->|Nb].
      - rewrite lookup_insert, Ha. tauto.
      - rewrite lookup_insert_ne by congruence. destruct (decide (t = a)) as [->|Na].
        + rewrite lookup_insert, Hb. tauto.
        + rewrite lookup_insert_ne by congruence. tauto. }
    assert (F : forall t, f (f t) = t).
    { intros t. unfold f. repeat (destruct (decide _)); congruence. }
    split; [|split]; cbn; [| |exact B].
    - intros s t q Hs Ht. apply S in Hs, Ht. pose proof (I _ _ _ Hs Ht) as E.
      rewrite <- (F s), <- (F t), E. reflexivity.
    - intros q. rewrite A. split.
      + intros [t Ht]. exists (f t). apply S. rewrite F. exact Ht.
      + intros [t Ht]. apply S in Ht. eauto.
  Qed.

  Lemma acc_any u : accounted u -> acc (owner u) (loose u) (owned u).
  Proof. destruct u. exact (fun H => H). Qed.

  Lemma get_put w s v w1 : put w s v = Ok w1 -> slots w1 = <[s := v]> (slots w) /\ heap w1 = heap w /\ nxt w1 = nxt w.
  Proof. unfold put. destruct (slots w !! s); [|discriminate]. intros [= <-]. auto. Qed.

  Lemma union_move (ow l : gmap N X) p x : ow !! p = None -> l !! p = Some x ->
    ow ∪ l = <[p := x]> ow ∪ delete p l.
  Proof.
    intros H1 H2. apply map_eq. intros q. destruct (decide (q = p)) as [->|N].
    - rewrite lookup_union_r by exact H1. rewrite H2. symmetry.
      apply lookup_union_Some_l. apply lookup_insert.
    - rewrite !lookup_union. rewrite lookup_insert_ne, lookup_delete_ne by congruence. reflexivity.
  Qed.
  Lemma union_drop (ow l : gmap N X) p : l !! p = None -> delete p (ow ∪ l) = delete p ow ∪ l.
  Proof. intros H. rewrite delete_union. rewrite (delete_notin l) by exact H. reflexivity. Qed.

  Lemma up_step_ok w u o u' : urep w u -> uspec u o = Some u' ->
    exists w', up_step w o = Ok w' /\ urep w' u'.
  Proof.
    intros R H. pose proof (acc_any _ (ur_acc _ _ R)) as A.
    destruct (ur_next _ _ R) as (N1 & N2 & N3 & N4).
    destruct o; cbn [uspec up_step] in *.
    - (* UMake *)
      destruct (ufresh u s) eqn:F; [|discriminate]. injection H as <-.
      destruct (ur_fresh _ _ _ R F) as [F1 F2].
      unfold raw_new, alloc, up_of, declare. cbn [slots]. rewrite F2.
      eexists; split; [reflexivity|]. split; cbn [slots heap nxt owner owned loose unext].
      + rewrite fmap_insert, (ur_slots _ _ R), (ur_nxt _ _ R). reflexivity.
      + rewrite (ur_heap _ _ R), (ur_nxt _ _ R). apply insert_union_l.
      + rewrite (ur_nxt _ _ R). reflexivity.
      + pose proof (acc_adopt _ _ _ s (unext u) x (acc_new _ _ _ (unext u) x A N1)) as Q.
        rewrite delete_insert in Q by exact N2. apply Q; [left; exact F1|apply lookup_insert].
      + intros p Hp. apply lookup_insert_is_Some' in Hp as [<-|Hp]; [lia|].
        apply (ur_lt _ _ R) in Hp. lia.
    - (* UNull *)
      destruct (ufresh u s) eqn:F; [|discriminate]. injection H as <-.
      destruct (ur_fresh _ _ _ R F) as [F1 F2].
      unfold up_of, declare. rewrite F2.
      eexists; split; [reflexivity|]. split; cbn [slots heap nxt owner owned loose unext].
      + rewrite fmap_insert, (ur_slots _ _ R). reflexivity.
      + exact (ur_heap _ _ R).
      + exact (ur_nxt _ _ R).
      + exact (acc_null _ _ _ s A (or_introl F1)).
      + exact (ur_lt _ _ R).
    - (* UOf *)
      destruct (ufresh u s) eqn:F; [|discriminate].
      destruct (loose u !! p) as [x|] eqn:Lp; [|discriminate]. injection H as <-.
      destruct (ur_fresh _ _ _ R F) as [F1 F2]. destruct (ur_loose _ _ _ _ R Lp) as (L1 & L2 & L3).
      unfold up_of, declare. rewrite F2.
      eexists; split; [reflexivity|]. split; cbn [slots heap nxt owner owned loose unext].
      + rewrite fmap_insert, (ur_slots _ _ R). reflexivity.
      + rewrite (ur_heap _ _ R). apply union_move; assumption.
      + exact (ur_nxt _ _ R).
      + exact (acc_adopt _ _ _ s p x A (or_introl F1) Lp).
      + exact (ur_lt _ _ R).
    - (* UMove *)
      destruct (ufresh u s) eqn:F; [|discriminate].
      destruct (owner u !! src) as [v|] eqn:Os; [|discriminate]. injection H as <-.
      destruct (ur_fresh _ _ _ R F) as [F1 F2]. destruct (ur_get _ _ _ _ R Os) as [G1 G2].
      assert (Ns : src <> s) by congruence.
      unfold up_move, up_release. rewrite G2. cbn [obind]. unfold put. rewrite G1. cbn [obind].
      unfold declare. cbn [slots]. rewrite lookup_insert_ne by exact Ns. rewrite F2.
      eexists; split; [reflexivity|]. split; cbn [slots heap nxt owner owned loose unext].
      + rewrite !fmap_insert, (ur_slots _ _ R). apply insert_commute. congruence.
      + exact (ur_heap _ _ R).
      + exact (ur_nxt _ _ R).
      + pose proof (acc_swap _ _ _ s src None v (acc_null _ _ _ s A (or_introl F1))) as Q.
        rewrite insert_insert in Q. apply Q; [apply lookup_insert|].
        rewrite lookup_insert_ne by congruence. exact Os.
      + exact (ur_lt _ _ R).
    - (* UDtor *)
      destruct (owner u !! s) as [v|] eqn:Os; [|discriminate]. injection H as <-.
      destruct (ur_get _ _ _ _ R Os) as [G1 G2].
      unfold up_dtor. rewrite G2. cbn [obind]. destruct v as [p|]; cbn [drop].
      + destruct (ur_owned _ _ _ _ R Os) as (x & O1 & O2).
        unfold free. rewrite O2. cbn [obind]. unfold put. cbn [slots]. rewrite G1. cbn [obind].
        unfold undeclare. eexists; split; [reflexivity|].
        assert (Lp : loose u !! p = None) by (destruct (ur_acc _ _ R) as (_ & _ & B); apply B; eauto).
        split; cbn [slots heap nxt owner owned loose unext].
        * rewrite delete_insert_delete, fmap_delete, (ur_slots _ _ R). reflexivity.
        * rewrite (ur_heap _ _ R). apply union_drop. exact Lp.
        * exact (ur_nxt _ _ R).
        * pose proof (acc_undeclare _ _ _ s (acc_del _ _ _ p (acc_release _ _ _ s p x A Os O1))) as Q.
          rewrite (delete_insert (loose u)) in Q by exact Lp. rewrite delete_insert_delete in Q.
          apply Q. right. apply lookup_insert.
        * intros q Hq. apply lookup_delete_is_Some in Hq as [_ Hq]. exact (ur_lt _ _ R q Hq).
      + cbn [obind]. unfold put. rewrite G1. cbn [obind].
        unfold undeclare. eexists; split; [reflexivity|]. split; cbn [slots heap nxt owner owned loose unext].
        * rewrite delete_insert_delete, fmap_delete, (ur_slots _ _ R). reflexivity.
        * exact (ur_heap _ _ R).
        * exact (ur_nxt _ _ R).
        * apply (acc_undeclare _ _ _ s A). right. exact Os.
        * exact (ur_lt _ _ R).
    - (* UAssignMove *)
      destruct (owner u !! s) as [old|] eqn:Os; [|discriminate].
      destruct (owner u !! src) as [v|] eqn:Osrc; [|discriminate].
      destruct (ur_get _ _ _ _ R Os) as [G1 G2]. destruct (ur_get _ _ _ _ R Osrc) as [H1 H2].
      unfold up_assign_move, up_release. rewrite H2. cbn [obind]. unfold put at 1. rewrite H1. cbn [obind].
      unfold up_reset, get, put. cbn [slots heap nxt].
      destruct (N.eqb_spec s src) as [->|Ne].
      + injection H as <-. rewrite lookup_insert. cbn [obind]. rewrite insert_insert.
        exists w. split; [|exact R]. rewrite insert_id by exact H1. destruct w; reflexivity.
      + injection H as <-. rewrite lookup_insert_ne by congruence. rewrite G1. cbn [obind].
        destruct old as [p|]; cbn [drop].
        * destruct (ur_owned _ _ _ _ R Os) as (x & O1 & O2).
          unfold free. cbn [heap slots nxt]. rewrite O2. eexists; split; [reflexivity|].
          assert (Lp : loose u !! p = None) by (destruct (ur_acc _ _ R) as (_ & _ & B); apply B; eauto).
          split; cbn [slots heap nxt owner owned loose unext].
          -- rewrite !fmap_insert, (ur_slots _ _ R). reflexivity.
          -- rewrite (ur_heap _ _ R). apply union_drop. exact Lp.
          -- exact (ur_nxt _ _ R).
          -- pose proof (acc_swap _ _ _ src s v None
               (acc_del _ _ _ p (acc_release _ _ _ s p x A Os O1))) as Q.
             rewrite delete_insert in Q by exact Lp.
             rewrite (insert_commute _ src s) in Q by congruence. rewrite insert_insert in Q.
             apply Q; [rewrite lookup_insert_ne by congruence; exact Osrc|apply lookup_insert].
          -- intros q Hq. apply lookup_delete_is_Some in Hq as [_ Hq]. exact (ur_lt _ _ R q Hq).
        * eexists; split; [reflexivity|]. split; cbn [slots heap nxt owner owned loose unext].
          -- rewrite !fmap_insert, (ur_slots _ _ R). reflexivity.
          -- exact (ur_heap _ _ R).
          -- exact (ur_nxt _ _ R).
          -- exact (acc_swap _ _ _ src s v None A Osrc Os).
          -- exact (ur_lt _ _ R).
    - (* UAssignNull *)
      destruct (owner u !! s) as [old|] eqn:Os; [|discriminate]. injection H as <-.
      destruct (ur_get _ _ _ _ R Os) as [G1 G2].
      unfold up_assign_null, up_reset. rewrite G2. cbn [obind]. unfold put. rewrite G1. cbn [obind].
      destruct old as [p|]; cbn [drop].
      + destruct (ur_owned _ _ _ _ R Os) as (x & O1 & O2).
        unfold free. cbn [heap slots nxt]. rewrite O2. eexists; split; [reflexivity|].
        assert (Lp : loose u !! p = None) by (destruct (ur_acc _ _ R) as (_ & _ & B); apply B; eauto).
        split; cbn [slots heap nxt owner owned loose unext].
        * rewrite !fmap_insert, (ur_slots _ _ R). reflexivity.
        * rewrite (ur_heap _ _ R). apply union_drop. exact Lp.
        * exact (ur_nxt _ _ R).
        * pose proof (acc_del _ _ _ p (acc_release _ _ _ s p x A Os O1)) as Q.
          rewrite delete_insert in Q by exact Lp. exact Q.
        * intros q Hq. apply lookup_delete_is_Some in Hq as [_ Hq]. exact (ur_lt _ _ R q Hq).
      + eexists; split; [reflexivity|]. split; cbn [slots heap nxt owner owned loose unext].
        * rewrite !fmap_insert, (ur_slots _ _ R). reflexivity.
        * exact (ur_heap _ _ R).
        * exact (ur_nxt _ _ R).
        * apply (acc_null _ _ _ s A). right. exact Os.
        * exact (ur_lt _ _ R).
    - (* UReset *)
      destruct p as [p|].
      + destruct (owner u !! s) as [old|] eqn:Os; [|discriminate].
        destruct (loose u !! p) as [x|] eqn:Lp; [|discriminate]. injection H as <-.
        destruct (ur_get _ _ _ _ R Os) as [G1 G2]. destruct (ur_loose _ _ _ _ R Lp) as (L1 & L2 & L3).
        unfold up_reset. rewrite G2. cbn [obind]. unfold put. rewrite G1. cbn [obind].
        destruct old as [q|]; cbn [drop].
        * destruct (ur_owned _ _ _ _ R Os) as (y & O1 & O2).
          assert (Nq : q <> p) by congruence.
          unfold free. cbn [heap slots nxt]. rewrite O2. eexists; split; [reflexivity|].
          assert (Lq : loose u !! q = None) by (destruct (ur_acc _ _ R) as (_ & _ & B); apply B; eauto).
          split; cbn [slots heap nxt owner owned loose unext].
          -- rewrite !fmap_insert, (ur_slots _ _ R). reflexivity.
          -- rewrite (ur_heap _ _ R). rewrite union_drop by exact Lq. apply union_move; [|exact Lp].
             rewrite lookup_delete_ne by exact Nq. exact L1.
          -- exact (ur_nxt _ _ R).
          -- pose proof (acc_adopt _ _ _ s p x
               (acc_del _ _ _ q (acc_release _ _ _ s q y A Os O1))) as Q.
             rewrite delete_insert in Q by exact Lq. rewrite insert_insert in Q.
             apply Q; [right; apply lookup_insert|exact Lp].
          -- intros r Hr. apply lookup_delete_is_Some in Hr as [_ Hr]. exact (ur_lt _ _ R r Hr).
        * eexists; split; [reflexivity|]. split; cbn [slots heap nxt owner owned loose unext].
          -- rewrite !fmap_insert, (ur_slots _ _ R). reflexivity.
          -- rewrite (ur_heap _ _ R). apply union_move; assumption.
          -- exact (ur_nxt _ _ R).
          -- apply (acc_adopt _ _ _ s p x A); [right; exact Os|exact Lp].
          -- exact (ur_lt _ _ R).
      + destruct (owner u !! s) as [old|] eqn:Os; [|discriminate]. injection H as <-.
        destruct (ur_get _ _ _ _ R Os) as [G1 G2].
        unfold up_reset. rewrite G2. cbn [obind]. unfold put. rewrite G1. cbn [obind].
        destruct old as [p|]; cbn [drop].
        * destruct (ur_owned _ _ _ _ R Os) as (x & O1 & O2).
          unfold free. cbn [heap slots nxt]. rewrite O2. eexists; split; [reflexivity|].
          assert (Lp : loose u !! p = None) by (destruct (ur_acc _ _ R) as (_ & _ & B); apply B; eauto).
          split; cbn [slots heap nxt owner owned loose unext].
          -- rewrite !fmap_insert, (ur_slots _ _ R). reflexivity.
          -- rewrite (ur_heap _ _ R). apply union_drop. exact Lp.
          -- exact (ur_nxt _ _ R).
          -- pose proof (acc_del _ _ _ p (acc_release _ _ _ s p x A Os O1)) as Q.
             rewrite delete_insert in Q by exact Lp. exact Q.
          -- intros q Hq. apply lookup_delete_is_Some in Hq as [_ Hq]. exact (ur_lt _ _ R q Hq).
        * eexists; split; [reflexivity|]. split; cbn [slots heap nxt owner owned loose unext].
          -- rewrite !fmap_insert, (ur_slots _ _ R). reflexivity.
          -- exact (ur_heap _ _ R).
          -- exact (ur_nxt _ _ R).
          -- apply (acc_null _ _ _ s A). right. exact Os.
          -- exact (ur_lt _ _ R).
    - (* URelease *)
      destruct (owner u !! s) as [[p|]|] eqn:Os; [|injection H as <-|discriminate].
      + destruct (owned u !! p) as [x|] eqn:Op; [|discriminate]. injection H as <-.
        destruct (ur_get _ _ _ _ R Os) as [G1 G2].
        unfold up_release. rewrite G2. cbn [obind]. unfold put. rewrite G1. cbn [obind].
        eexists; split; [reflexivity|].
        assert (Lp : loose u !! p = None) by (destruct (ur_acc _ _ R) as (_ & _ & B); apply B; eauto).
        split; cbn [slots heap nxt owner owned loose unext].
        * rewrite !fmap_insert, (ur_slots _ _ R). reflexivity.
        * rewrite (ur_heap _ _ R). pose proof (union_move (delete p (owned u)) (<[p := x]> (loose u)) p x) as Q.
          rewrite lookup_delete, lookup_insert in Q. specialize (Q eq_refl eq_refl).
          rewrite Q. rewrite insert_delete_insert, delete_insert by exact Lp.
          rewrite insert_id by exact Op. reflexivity.
        * exact (ur_nxt _ _ R).
        * exact (acc_release _ _ _ s p x A Os Op).
        * exact (ur_lt _ _ R).
      + destruct (ur_get _ _ _ _ R Os) as [G1 G2].
        unfold up_release. rewrite G2. cbn [obind]. unfold put. rewrite G1. cbn [obind].
        exists w. split; [|exact R]. rewrite insert_id by exact G1. destruct w; reflexivity.
    - (* USwap *)
      destruct (owner u !! a) as [va|] eqn:Oa; [|discriminate].
      destruct (owner u !! b) as [vb|] eqn:Ob; [|discriminate]. injection H as <-.
      destruct (ur_get _ _ _ _ R Oa) as [G1 G2]. destruct (ur_get _ _ _ _ R Ob) as [H1 H2].
      unfold up_swap, swap_slots. rewrite G2, H2. cbn [obind]. unfold put at 1. rewrite G1. cbn [obind].
      unfold put. cbn [slots heap nxt].
      assert (Hl : exists q, <[a:=P vb]> (slots w) !! b = Some q).
      { destruct (decide (a = b)) as [->|N]; [rewrite lookup_insert; eauto|].
        rewrite lookup_insert_ne by exact N. eauto. }
      destruct Hl as [q ->]. eexists; split; [reflexivity|].
      split; cbn [slots heap nxt owner owned loose unext].
      + rewrite !fmap_insert, (ur_slots _ _ R). reflexivity.
      + exact (ur_heap _ _ R).
      + exact (ur_nxt _ _ R).
      + exact (acc_swap _ _ _ a b va vb A Oa Ob).
      + exact (ur_lt _ _ R).
    - (* URawNew *)
      injection H as <-. unfold raw_new, alloc. cbn [fst].
      eexists; split; [reflexivity|]. split; cbn [slots heap nxt owner owned loose unext].
      + exact (ur_slots _ _ R).
      + rewrite (ur_heap _ _ R), (ur_nxt _ _ R). apply insert_union_r. exact N1.
      + rewrite (ur_nxt _ _ R). reflexivity.
      + exact (acc_new _ _ _ (unext u) x A N1).
      + intros p Hp. apply lookup_insert_is_Some' in Hp as [<-|Hp]; [lia|].
        apply (ur_lt _ _ R) in Hp. lia.
    - (* URawDelete *)
      destruct (loose u !! p) as [x|] eqn:Lp; [|discriminate]. injection H as <-.
      destruct (ur_loose _ _ _ _ R Lp) as (L1 & L2 & L3).
      unfold raw_delete, free. rewrite L2. eexists; split; [reflexivity|].
      split; cbn [slots heap nxt owner owned loose unext].
      + exact (ur_slots _ _ R).
      + rewrite (ur_heap _ _ R). rewrite delete_union. rewrite (delete_notin (owned u)) by exact L1. reflexivity.
      + exact (ur_nxt _ _ R).
      + exact (acc_del _ _ _ p A).
      + intros q Hq. apply lookup_delete_is_Some in Hq as [_ Hq]. exact (ur_lt _ _ R q Hq).
  Qed.

  Lemma up_run_ok os : forall w u u', urep w u -> uspec_run u os = Some u' ->
    exists w', up_run w os = Ok w' /\ urep w' u'.
  Proof.
    induction os as [|o os IH]; intros w u u' R H; cbn [uspec_run up_run] in *.
    - injection H as <-. eauto.
    - destruct (uspec u o) as [u1|] eqn:E; [|discriminate].
      destruct (up_step_ok w u o u1 R E) as (w1 & D & R1). rewrite D. cbn [obind]. eauto.
  Qed.

  Lemma up_history os u : uspec_run uempty os = Some u ->
    exists w, up_run own_empty os = Ok w /\ accounted u /\
      (forall s, owner u !! s = None <-> slots w !! s = None) /\
      (forall s v, owner u !! s = Some v -> up_get w s = Ok v) /\
      heap w = owned u ∪ loose u.
  Proof.
    intros H. destruct (up_run_ok os _ _ _ urep_empty H) as (w & D & R).
    exists w. split; [exact D|]. split; [exact (ur_acc _ _ R)|]. split; [|split].
    - intros s. rewrite (ur_slots _ _ R), lookup_fmap. symmetry. apply fmap_None.
    - intros s v Hs. exact (proj2 (ur_get _ _ _ _ R Hs)).
    - exact (ur_heap _ _ R).
  Qed.

  (** When no handle is left, only the objects the program took over are alive. *)
  Lemma up_no_leak os u w : uspec_run uempty os = Some u -> up_run own_empty os = Ok w ->
    owner u = ∅ -> heap w = loose u.
  Proof.
    intros H D E. destruct (up_history os u H) as (w' & D' & (_ & A & _) & _ & _ & Hh).
    rewrite D in D'. injection D' as <-. rewrite Hh.
    assert (owned u = ∅) as ->.
    { apply map_eq. intros p. rewrite lookup_empty. destruct (owned u !! p) eqn:Ep; [|reflexivity].
      destruct (proj1 (A p)) as [s Hs]; [eauto|]. rewrite E, lookup_empty in Hs. discriminate. }
    apply (left_id_L ∅ (∪)).
  Qed.
End up.

(** ** defer *)
Definition drep (w : dworld) (σ : gmap N (option N)) : Prop :=
  forall s, match guards w !! s, σ !! s with
            | None, None => True
            | Some g, Some None => dismissed g = true
            | Some g, Some (Some a) => dismissed g = false /\ exit_scope g = Some a
            | _, _ => False
            end.

Lemma d_step_ok w σ o σ' l : drep w σ -> plain_dop o = true -> dspec σ o = Some (σ', l) ->
  exists w', d_step w o = Ok w' /\ drep w' σ' /\ ran w' = ran w ++ l.
Proof.
  intros R Pl H. unfold drep in *. destruct o; try discriminate Pl; cbn [dspec d_step] in *.
  - pose proof (R s) as Rs. destruct (σ !! s) eqn:E; [discriminate|]. injection H as <- <-.
    unfold dnew. destruct (guards w !! s) eqn:G; [contradiction|].
    eexists; split; [reflexivity|]. split; [|cbn; rewrite app_nil_r; reflexivity]. cbn [guards].
    intros t. destruct (decide (t = s)) as [->|N]; [rewrite !lookup_insert; auto|].
    rewrite !lookup_insert_ne by congruence. apply R.
  - pose proof (R s) as Rs. destruct (σ !! s) eqn:E; [|discriminate]. injection H as <- <-.
    unfold d_dismiss. destruct (guards w !! s) eqn:G; [|contradiction]. cbn [of_option obind].
    eexists; split; [reflexivity|]. split; [|cbn; rewrite app_nil_r; reflexivity]. cbn [guards].
    intros t. destruct (decide (t = s)) as [->|N]; [rewrite !lookup_insert; reflexivity|].
    rewrite !lookup_insert_ne by congruence. apply R.
  - pose proof (R a) as Ra. pose proof (R b) as Rb.
    destruct (σ !! a) as [va|] eqn:Ea; [|discriminate].
    destruct (σ !! b) as [vb|] eqn:Eb; [|discriminate]. injection H as <- <-.
    unfold d_swap. destruct (guards w !! a) as [ga|] eqn:Ga; [|contradiction].
    destruct (guards w !! b) as [gb|] eqn:Gb; [|contradiction]. cbn [of_option obind].
    eexists; split; [reflexivity|]. split; [|cbn; rewrite app_nil_r; reflexivity]. cbn [guards].
    intros t. destruct (decide (t = b)) as [->|Nb]; [rewrite !lookup_insert; exact Ra|].
    rewrite !(lookup_insert_ne _ b) by congruence.
    destruct (decide (t = a)) as [->|Na]; [rewrite !lookup_insert; exact Rb|].
    rewrite !lookup_insert_ne by congruence. apply R.
  - pose proof (R s) as Rs. destruct (σ !! s) as [v|] eqn:E; [|discriminate]. injection H as <- <-.
    unfold d_dtor. destruct (guards w !! s) as [g|] eqn:G; [|contradiction]. cbn [of_option obind].
    assert (Rd : forall t, match delete s (guards w) !! t, delete s σ !! t with
            | None, None => True
            | Some g, Some None => dismissed g = true
            | Some g, Some (Some a) => dismissed g = false /\ exit_scope g = Some a
            | _, _ => False
            end).
    { intros t. destruct (decide (t = s)) as [->|N]; [rewrite !lookup_delete; exact I|].
      rewrite !lookup_delete_ne by congruence. apply R. }
    destruct v as [a|].
    + destruct Rs as [-> ->]. cbn [of_option obind]. eexists; split; [reflexivity|].
      split; [exact Rd|reflexivity].
    + rewrite Rs. cbn [obind]. eexists; split; [reflexivity|].
      split; [exact Rd|cbn; rewrite app_nil_r; reflexivity].
Qed.

Lemma d_run_ok os : forall w σ σ' l, drep w σ -> forallb plain_dop os = true ->
  dspec_run σ os = Some (σ', l) ->
  exists w', d_run w os = Ok w' /\ drep w' σ' /\ ran w' = ran w ++ l.
Proof.
  induction os as [|o os IH]; intros w σ σ' l R Pl H; cbn [dspec_run d_run forallb] in *.
  - injection H as <- <-. exists w. rewrite app_nil_r. auto.
  - apply andb_true_iff in Pl as [P1 P2].
    destruct (dspec σ o) as [[σ1 l1]|] eqn:E; [|discriminate].
    destruct (d_step_ok w σ o σ1 l1 R P1 E) as (w1 & D & R1 & L1). rewrite D. cbn [obind].
    destruct (dspec_run σ1 os) as [[σ2 l2]|] eqn:E2; [|discriminate]. injection H as <- <-.
    destruct (IH w1 σ1 σ2 l2 R1 P2 E2) as (w2 & D2 & R2 & L2).
    exists w2. split; [exact D2|]. split; [exact R2|]. rewrite L2, L1. rewrite app_assoc. reflexivity.
Qed.

Lemma d_history os σ l : forallb plain_dop os = true -> dspec_run ∅ os = Some (σ, l) ->
  exists w, d_run d_empty os = Ok w /\ ran w = l.
Proof.
  intros Pl H. destruct (d_run_ok os d_empty ∅ σ l) as (w & D & _ & L); [|exact Pl|exact H|].
  - intros s. unfold d_empty. cbn. rewrite !lookup_empty. exact I.
  - exists w. auto.
Qed.


Lemma any_history {X} os (σ : gmap N (option X)) : hspec_run ∅ os = Some σ ->
  exists w, any_run own_empty os = Ok w /\
    (forall s v, σ !! s = Some v -> any_value w s = Ok v) /\
    (forall s, σ !! s = None -> slots w !! s = None) /\
    size (heap w) = size (filter (fun sv => is_Some (snd sv)) σ).
Proof.
  intros H. destruct (any_run_ok os _ _ _ rep_empty (lookup_empty 0) H) as (w & D & R & _).
  exists w. split; [exact D|]. split; [|split].
  - intros s v. exact (rep_value _ _ _ _ R).
  - intros s. exact (rep_none _ _ _ R).
  - exact (proj2 (proj2 (rep_heap _ _ R))).
Qed.

Lemma fun_history {X} os (σ : gmap N (option X)) : hspec_run ∅ os = Some σ -> no_empty_copy ∅ os ->
  exists w, fun_run own_empty os = Ok w /\
    (forall s x, σ !! s = Some (Some x) -> fun_call w s = Ok x) /\
    (forall s, σ !! s = Some None -> any_empty w s = Ok true) /\
    (forall s, σ !! s = None -> slots w !! s = None) /\
    size (heap w) = size (filter (fun sv => is_Some (snd sv)) σ).
Proof.
  intros H Hn. destruct (fun_run_ok os _ _ _ rep_empty (lookup_empty 0) H Hn) as (w & D & R & _).
  exists w. split; [exact D|]. split; [|split; [|split]].
  - intros s x Hs. destruct (rep_get _ _ _ _ R Hs) as (c & G & S & C).
    unfold fun_call. rewrite G. cbn [obind]. destruct c; [|contradiction]. unfold cell. rewrite C. reflexivity.
  - intros s Hs. destruct (rep_get _ _ _ _ R Hs) as (c & G & S & C).
    unfold any_empty. rewrite G. cbn [obind]. destruct c; [contradiction|reflexivity].
  - intros s. exact (rep_none _ _ _ R).
  - exact (proj2 (proj2 (rep_heap _ _ R))).
Qed.

Lemma any_cast_exact {V} (w : own (N * V)) s t v : any_value w s = Ok v ->
  any_cast w s t = Ok (match v with Some (t', x) => if (t' =? t)%N then Some x else None | None => None end).
Proof.
  unfold any_value, any_cast. destruct (get w s) as [[p|]| |]; cbn [obind]; try discriminate.
  - unfold cell. destruct (heap w !! p) as [[t' x]|]; [|discriminate]. cbn. intros [= <-]. reflexivity.
  - intros [= <-]. reflexivity.
Qed.

Lemma any_source_bad : exists (after_move : N -> N) x s w x',
  any_from_variable after_move own_empty s x = Ok (w, x') /\ any_value w s = Ok (Some x) /\ x' <> x.
Proof.
  exists (fun _ => 0), 5, 1. eexists _, _. split; [vm_compute; reflexivity|].
  split; [vm_compute; reflexivity|discriminate].
Qed.

Lemma any_source_same {X} (after_move : X -> X) x w s w' x' : after_move x = x ->
  any_from_variable after_move w s x = Ok (w', x') -> x' = x.
Proof. unfold any_from_variable. intros E. destruct (any_of w s x); [|discriminate..]. cbn. congruence. Qed.

Lemma fun_copy_empty_bad : exists os : list (hop N),
  is_Some (hspec_run ∅ os) /\ fun_run own_empty os = UB.
Proof. exists [HNew 1; HCopy 2 1]. split; [eexists; reflexivity|vm_compute; reflexivity]. Qed.

Lemma fun_copy_empty_always {X} (w : own X) s src : any_empty w src = Ok true -> fun_copy w s src = UB.
Proof.
  unfold any_empty, fun_copy. destruct (get w src) as [[p|]| |]; cbn; congruence.
Qed.

Lemma fun_dtor_bad : exists (w : own N) s x,
  fun_run own_empty [HOf s x] = Ok w /\ fun_call w s = Ok x /\ fun_dtor_destroys w s = Ok [] /\
  any_dtor_destroys w s = Ok [x].
Proof.
  eexists _, 1, 5. split; [vm_compute; reflexivity|].
  split; [vm_compute; reflexivity|]. split; vm_compute; reflexivity.
Qed.

Lemma up_default_bad : exists (w : own N) s,
  up_default own_empty s = Ok w /\ up_get w s = UB /\ up_dtor w s = UB /\ up_reset w s None = UB.
Proof.
  eexists _, 1. split; [vm_compute; reflexivity|]. split; [vm_compute; reflexivity|].
  split; vm_compute; reflexivity.
Qed.

Lemma d_move_bad : exists os σ l,
  dspec_run ∅ os = Some (σ, l) /\ d_run d_empty os = UB.
Proof.
  exists [DNew 1 7; DMove 2 1; DDtor 2]. eexists _, _. split; [reflexivity|vm_compute; reflexivity].
Qed.

(** The moved-from guard still runs the action. *)
Lemma d_moved_source_bad : exists os σ w,
  dspec_run ∅ os = Some (σ, []) /\ d_run d_empty os = Ok w /\ ran w = [7].
Proof.
  exists [DNew 1 7; DMove 2 1; DDtor 1]. eexists _, _. split; [reflexivity|].
  split; vm_compute; reflexivity.
Qed.

Lemma d_copy_bad : exists w, d_run d_empty [DNew 1 7; DCopy 2 1; DDtor 2; DDtor 1] = Ok w /\ ran w = [7; 7].
Proof. eexists. split; vm_compute; reflexivity. Qed.
