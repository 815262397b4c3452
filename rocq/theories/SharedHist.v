(** Whole histories of shared and weak handles. *)
From stdpp Require Import gmap.
From Coq Require Import ZArith Lia.
From Verif Require Import Base SharedModel SharedSpec SharedProofs SharedRun.
Local Open Scope nat_scope.

Definition rep (w : spec) (s : state) : Prop :=
  repr (kinds w) (sg w) (wg w) s /\ sg w !! 0 = None /\ wg w !! 0 = None.
(** Room for a temporary or two. *)
Definition room (w : spec) : Prop := (Z.of_nat (size (sg w)) + Z.of_nat (size (wg w)) + 8 < 2 ^ 64)%Z.

Ltac mapeq := apply map_eq; let i := fresh "i" in intros i;
  repeat match goal with
  | |- context [<[?x := _]> _ !! ?i] =>
      destruct (decide (x = i)); [subst; rewrite lookup_insert|rewrite lookup_insert_ne by done]
  | |- context [delete ?x _ !! ?i] =>
      destruct (decide (x = i)); [subst; rewrite lookup_delete|rewrite lookup_delete_ne by done]
  end; try congruence; try done.
Definition roomy (S W : hmap) : Prop := (Z.of_nat (size S) + Z.of_nat (size W) + 6 < 2 ^ 64)%Z.
Ltac fewt := unfold room, roomy, few in *; cbn [sg wg kinds] in *;
  repeat match goal with |- context [size (<[?i := ?x]> ?m)] => rewrite (map_size_insert i x m) end;
  unfold id; repeat case_match; lia.
Ltac look := repeat first [rewrite lookup_insert | rewrite lookup_insert_ne by (try done; congruence)]; eauto.
Ltac go H := let s := fresh "s" in let R := fresh "R" in
  destruct H as (s&->&R); cbn [obind].

Lemma z_new (m : hmap) x g : m !! 0 = None -> x <> 0 -> <[x := g]> m !! 0 = None.
Proof. intros. by rewrite lookup_insert_ne. Qed.

(** The three assignments through a parameter. *)
Lemma a_swap_drop_s K S W s x g h : repr K (<[0 := g]> S) W s -> roomy S W -> S !! 0 = None -> x <> 0 ->
  S !! x = Some h -> exists s', (s <~ s_swap 0 x s ; s_drop 0 s)%outcome = Ok s' /\ repr K (<[x := g]> S) W s'.
Proof.
  intros R F H0 D Hx.
  go (p_swap_s _ _ _ _ 0 x g h R ltac:(look) ltac:(look)).
  destruct (p_drop_s _ _ _ _ 0 h R0) as (s'&->&R').
  - fewt.
  - look.
  - eexists. split; [done|].
    replace (<[x := g]> S) with (delete 0 (<[x := g]> (<[0 := h]> (<[0 := g]> S)))) by mapeq. done.
Qed.
Lemma a_swap_drop_w K S W s x g h : repr K S (<[0 := g]> W) s -> roomy S W -> W !! 0 = None -> x <> 0 ->
  W !! x = Some h -> exists s', (s <~ w_swap 0 x s ; w_drop 0 s)%outcome = Ok s' /\ repr K S (<[x := g]> W) s'.
Proof.
  intros R F H0 D Hx.
  go (p_swap_w _ _ _ _ 0 x g h R ltac:(look) ltac:(look)).
  destruct (p_drop_w _ _ _ _ 0 h R0) as (s'&->&R').
  - fewt.
  - look.
  - eexists. split; [done|].
    replace (<[x := g]> W) with (delete 0 (<[x := g]> (<[0 := h]> (<[0 := g]> W)))) by mapeq. done.
Qed.

Ltac opened w := destruct w as [S W K]; cbn [sg wg kinds set_s set_w add_kind] in *.
Ltac fin := eexists; split; [done|]; unfold rep; cbn [sg wg kinds set_s set_w add_kind]; split; [done|];
  repeat match goal with |- _ /\ _ => split end; try done; try (by apply z_new); try (by do 2 (rewrite lookup_insert_ne by done)).

Lemma conv_ok K S W s x y g h : repr K S W s -> room {| sg := S; wg := W; kinds := K |} -> S !! 0 = None -> x <> 0 -> y <> 0 ->
  S !! y = Some g -> S !! x = Some h -> exists s', s_assign_conv x y s = Ok s' /\ repr K (<[x := g]> S) W s'.
Proof.
  intros R F H0 Dx Dy Hy Hx. unfold s_assign_conv.
  go (p_copy_s K S W s 0 y g R ltac:(fewt) Hy H0).
  go (p_reset_s _ _ _ _ x h R0 ltac:(fewt) ltac:(look)).
  rewrite (repr_sh _ _ _ _ 0 g R1) by look. rewrite (repr_sh _ _ _ _ x None R1) by look. cbn [obind].
  set (S1 := <[x := None]> (<[0 := g]> S)) in *.
  destruct R1 as [C Hs Hw].
  assert (S1 !! x = Some None) as E1 by (unfold S1; look).
  assert (S1 !! 0 = Some g) as E0 by (unfold S1; look).
  rewrite (put_sh_ok K S1 _ x None) by done. cbn [obind hc conc null hp].
  assert (few S1 W) as F1 by (unfold S1; fewt).
  set (t := with_shs _ _).
  assert (core K (members S1) (members W) t) as C' by (by apply core_shs).
  assert (exists s3, shared_count_copy (hc (conc K g)) t = Ok s3 /\ same t s3 /\
     core K (members (<[x := g]> S1)) (members W) s3) as (s3&->&[Es Ew]&C3).
  { destruct g as [g|]; cbn [conc hc null shared_count_copy].
    - destruct (copy_shared_ok K _ _ t C' g (few_g _ _ g F1) (members_pos _ _ _ E0)) as (s3&->&Sm&C3).
      eexists. split; [done|]. split; [done|]. eapply core_ext; [exact C3| |done]. intros k.
      pose proof (members_insert S1 x None (Some g) k E1). count.
    - eexists. split; [done|]. split; [done|]. eapply core_ext; [exact C'| |done]. intros k.
      pose proof (members_insert S1 x None None k E1). lia. }
  cbn [obind]. unfold put_sh, sh. rewrite Es. cbn [shs t with_shs]. rewrite lookup_insert. cbn [of_option obind shared_count_release].
  match goal with |- context [s_drop 0 ?u] => assert (repr K (<[x := g]> S1) W u) as R4 end.
  { split; cbn.
    - by apply core_shs.
    - rewrite insert_insert, Hs, fmap_insert. f_equal. by destruct g.
    - rewrite Ew. done. }
  destruct (p_drop_s _ _ _ _ 0 g R4) as (s5&->&R5).
  - unfold few in *. rewrite map_size_insert, E1. unfold id. lia.
  - rewrite lookup_insert_ne by done. done.
  - eexists. split; [done|].
    replace (<[x := g]> S) with (delete 0 (<[x := g]> S1)) by (unfold S1; mapeq). done.
Qed.

Lemma own_group_kind g w o : own_group g w = Some o ->
  exists n l, g = Some n /\ kinds w !! n = Some (KSelf l) /\ o = if l then Some n else None.
Proof.
  unfold own_group. destruct g as [n|]; cbn; [|done].
  destruct (kinds w !! n) as [[| |l]|] eqn:E; try done. intros. simplify_eq. eauto.
Qed.
Lemma own_obj K S W s n l : repr K S W s -> K !! n = Some (KSelf l) -> 0 < members S n ->
  objs s !! n = Some {| weak_this := Some (conc K (if l then Some n else None)) |}.
Proof.
  intros R HK Hm. destruct (core_ent _ _ _ _ (repr_core _ _ _ _ R) n _ HK) as [_ E _ _].
  destruct (Nat.eqb_spec (members S n) 0); [lia|]. rewrite E. cbn. destruct l; cbn; [by rewrite HK|done].
Qed.

Lemma step_lock x w0 w w' s : sstep (SLock x w0) w = Some w' -> x <> 0 -> room w -> rep w s ->
  exists s', step (SLock x w0) s = Ok s' /\ rep w' s'.
Proof.
  intros E P F [R [Z1 Z2]]. opened w. cbn [sstep step wg] in *.
  destruct (W !! w0) as [g|] eqn:Q; [|discriminate E]. cbn [mbind option_bind] in E.
  unfold w_lock. rewrite (repr_wk _ _ _ _ w0 g R Q). cbn [obind].
  destruct (S !! x) as [?|] eqn:Q0.
  { unfold alone, new_s in E. cbn [sg] in E. rewrite Q0 in E. destruct g as [g|]; [destruct (alive _ g)|]; discriminate E. }
  destruct (p_lock _ _ _ _ x g R ltac:(fewt) Q0 Z2) as (s'&->&H').
  { destruct g as [g|]; [|done]. by eapply in_w. }
  unfold alone, new_s in E. cbn [sg] in E. rewrite Q0 in E.
  destruct g as [g|].
  - unfold alive in E. cbn [sg] in E. destruct (negb _); injection E as <-; fin.
  - injection E as <-; fin.
Qed.
Lemma step_from_this x y w w' s : sstep (SFromThis x y) w = Some w' -> x <> 0 -> room w -> rep w s ->
  exists s', step (SFromThis x y) s = Ok s' /\ rep w' s'.
Proof.
  intros E P F [R [Z1 Z2]]. opened w. cbn [sstep step sg] in *.
  destruct (S !! y) as [g|] eqn:Q; [|discriminate E]. cbn [mbind option_bind] in E.
  destruct (own_group g _) as [o|] eqn:O; [|discriminate E]. cbn [mbind option_bind] in E.
  apply own_group_kind in O as (n&l&->&HK&->). cbn [kinds] in HK.
  pose proof (members_pos _ _ _ Q) as Mn.
  unfold s_from_this. rewrite (repr_sh _ _ _ _ _ _ R Q). cbn [obind conc hp]. rewrite HK. cbn [target has_object of_option obind].
  rewrite (own_obj _ _ _ _ n l R HK Mn). cbn [of_option obind weak_this].
  destruct (S !! x) as [?|] eqn:Q0.
  { unfold alone, new_s in E. cbn [sg] in E. rewrite Q0 in E. destruct l; discriminate E. }
  destruct (p_lock _ _ _ _ x (if l then Some n else None) R ltac:(fewt) Q0 Z2) as (s'&->&H').
  { destruct l; [lia|done]. }
  unfold alone, new_s in E. cbn [sg] in E. rewrite Q0 in E.
  destruct l.
  - rewrite (proj2 (Nat.eqb_neq _ _)) in H' by lia. cbn [negb] in H'. injection E as <-; fin.
  - injection E as <-; fin.
Qed.
Lemma step_weak_from_this x y w w' s : sstep (WFromThis x y) w = Some w' -> x <> 0 -> room w -> rep w s ->
  exists s', step (WFromThis x y) s = Ok s' /\ rep w' s'.
Proof.
  intros E P F [R [Z1 Z2]]. opened w. cbn [sstep step sg] in *.
  destruct (S !! y) as [g|] eqn:Q; [|discriminate E]. cbn [mbind option_bind] in E.
  destruct (own_group g _) as [o|] eqn:O; [|discriminate E]. cbn [mbind option_bind] in E.
  apply own_group_kind in O as (n&l&->&HK&->). cbn [kinds] in HK.
  pose proof (members_pos _ _ _ Q) as Mn.
  unfold w_from_this. rewrite (repr_sh _ _ _ _ _ _ R Q). cbn [obind conc hp]. rewrite HK. cbn [target has_object of_option obind].
  rewrite (own_obj _ _ _ _ n l R HK Mn). cbn [of_option obind weak_this].
  unfold new_w in E. cbn [wg] in E. destruct (W !! x) as [?|] eqn:Q0; [discriminate E|].
  destruct (p_add_w _ _ _ _ x (if l then Some n else None) R ltac:(fewt)) as (s'&->&R'); [destruct l; [lia|done]|done|].
  injection E as <-; fin.
Qed.

Lemma step_ok c w w' s : sstep c w = Some w' -> proper c = true -> room w -> rep w s ->
  exists s', step c s = Ok s' /\ rep w' s'.
Proof.
  intros E P F [R [Z1 Z2]].
  assert (few (sg w) (wg w)) as F0 by (unfold room, few in *; lia).
  assert (forall (n : nat), negb (n =? 0) = true -> n <> 0) as NZ by (intros n; destruct (Nat.eqb_spec n 0); done).
  assert (forall a b, a && b = true -> a = true) as AL by (intros [] []; done).
  destruct c; cycle 21.
  1: exact (step_lock _ _ _ _ _ E (NZ _ (AL _ _ P)) F (conj R (conj Z1 Z2))).
  1: exact (step_from_this _ _ _ _ _ E (NZ _ (AL _ _ P)) F (conj R (conj Z1 Z2))).
  1: exact (step_weak_from_this _ _ _ _ _ E (NZ _ (AL _ _ P)) F (conj R (conj Z1 Z2))).
  all: clear AL; opened w; cbn [proper] in P; repeat (apply andb_prop in P as [P ?]);
    repeat match goal with H : negb (_ =? 0) = true |- _ => apply NZ in H end;
    cbn [sstep step sg wg kinds] in *; unfold alone, new_s, new_w, upd_s, upd_w in E; cbn [sg wg kinds] in E.
  all: repeat lazymatch type of E with
    | context [?m !! ?x] => let Q := fresh "Q" in let g := fresh "g" in
        destruct (m !! x) as [g|] eqn:Q; cbn [mbind option_bind sg wg kinds set_s set_w add_kind] in E; try discriminate E
    end.
  all: try (injection E as <-).
  - destruct (p_new_s _ _ _ _ x R ltac:(eassumption)) as (s'&?&?). fin.
  - destruct (p_make _ _ _ _ x r R ltac:(fewt) ltac:(eassumption) Z2) as (s'&?&?). fin.
  - destruct (p_copy_s _ _ _ _ x y _ R F0 ltac:(eassumption) ltac:(eassumption)) as (s'&?&?). fin.
  - destruct (p_move_s _ _ _ _ x y _ R ltac:(eassumption) ltac:(eassumption)) as (s'&?&?). fin.
  - unfold s_assign. go (p_copy_s _ _ _ _ 0 y _ R F0 ltac:(eassumption) Z1).
    destruct (a_swap_drop_s _ _ _ _ x _ _ R0 ltac:(fewt) Z1 P ltac:(eassumption)) as (s'&?&?). fin.
  - unfold s_assign_move. go (p_move_s _ _ _ _ 0 y _ R ltac:(eassumption) Z1).
    rewrite insert_commute in R0 by done.
    destruct (a_swap_drop_s _ (<[y := None]> S) _ _ x _ _ R0 ltac:(fewt) ltac:(by apply z_new) P ltac:(eassumption)) as (s'&?&?). fin.
  - destruct (conv_ok _ _ _ _ x y _ _ R F Z1 P H ltac:(eassumption) ltac:(eassumption)) as (s'&?&?). fin.
  - unfold s_assign_null, s_default. go (p_new_s _ _ _ _ 0 R Z1).
    destruct (a_swap_drop_s _ _ _ _ x None _ R0 ltac:(fewt) Z1 P ltac:(eassumption)) as (s'&?&?). fin.
  - destruct (p_reset_s _ _ _ _ x _ R F0 ltac:(eassumption)) as (s'&?&?). fin.
  - destruct (p_reset_to _ _ _ _ x _ r R F0 ltac:(eassumption)) as (s'&?&?). fin.
  - destruct (p_swap_s _ _ _ _ x y _ _ R ltac:(eassumption) ltac:(eassumption)) as (s'&?&?). fin.
  - destruct (p_drop_s _ _ _ _ x _ R F0 ltac:(eassumption)) as (s'&?&?). fin. by rewrite lookup_delete_ne.
  - destruct (p_new_w _ _ _ _ w0 R ltac:(eassumption)) as (s'&?&?). fin.
  - destruct (p_from_w _ _ _ _ w0 x _ R F0 ltac:(eassumption) ltac:(eassumption)) as (s'&?&?). fin.
  - destruct (p_copy_w _ _ _ _ w0 v _ R F0 ltac:(eassumption) ltac:(eassumption)) as (s'&?&?). fin.
  - destruct (p_move_w _ _ _ _ w0 v _ R ltac:(eassumption) ltac:(eassumption)) as (s'&?&?). fin.
  - unfold w_assign. go (p_copy_w _ _ _ _ 0 v _ R F0 ltac:(eassumption) Z2).
    destruct (a_swap_drop_w _ _ _ _ w0 _ _ R0 ltac:(fewt) Z2 P ltac:(eassumption)) as (s'&?&?). fin.
  - unfold w_assign_move. go (p_move_w _ _ _ _ 0 v _ R ltac:(eassumption) Z2).
    rewrite insert_commute in R0 by done.
    destruct (a_swap_drop_w _ _ (<[v := None]> W) _ w0 _ _ R0 ltac:(fewt) ltac:(by apply z_new) P ltac:(eassumption)) as (s'&?&?). fin.
  - unfold w_assign_from. go (p_from_w _ _ _ _ 0 x _ R F0 ltac:(eassumption) Z2).
    destruct (a_swap_drop_w _ _ _ _ w0 _ _ R0 ltac:(fewt) Z2 P ltac:(eassumption)) as (s'&?&?). fin.
  - destruct (p_swap_w _ _ _ _ w0 v _ _ R ltac:(eassumption) ltac:(eassumption)) as (s'&?&?). fin.
  - destruct (p_drop_w _ _ _ _ w0 _ R F0 ltac:(eassumption)) as (s'&?&?). fin. by rewrite lookup_delete_ne.
Qed.

(** * Histories *)
Definition handles (w : spec) : nat := size (sg w) + size (wg w).
Lemma size_ins (m : hmap) x g : size (<[x := g]> m) <= Datatypes.S (size m).
Proof. rewrite map_size_insert. destruct (m !! x); unfold id; lia. Qed.
Lemma size_upd (m : hmap) x g h : m !! x = Some h -> size (<[x := g]> m) = size m.
Proof. intros E. by rewrite map_size_insert, E. Qed.
Lemma sstep_handles c w w' : sstep c w = Some w' -> handles w' <= Datatypes.S (handles w).
Proof.
  intros E. unfold handles.
  destruct c; cbn [sstep] in E; unfold alone, new_s, new_w, upd_s, upd_w in E; cbn [sg wg kinds set_s set_w add_kind] in E.
  all: repeat lazymatch type of E with
    | context [sg ?w !! ?x] => let Q := fresh "Q" in let g := fresh "g" in
        destruct (sg w !! x) as [g|] eqn:Q; cbn [mbind option_bind sg wg kinds set_s set_w add_kind] in E; try discriminate E
    | context [wg ?w !! ?x] => let Q := fresh "Q" in let g := fresh "g" in
        destruct (wg w !! x) as [g|] eqn:Q; cbn [mbind option_bind sg wg kinds set_s set_w add_kind] in E; try discriminate E
    | context [(<[?a:=?b]> ?m) !! ?x] => let Q := fresh "Q" in let g := fresh "g" in
        destruct ((<[a:=b]> m) !! x) as [g|] eqn:Q; cbn [mbind option_bind sg wg kinds set_s set_w add_kind] in E; try discriminate E
    | context [own_group ?g ?w] => destruct (own_group g w) as [[?|]|]; cbn [mbind option_bind] in E; try discriminate E
    | context [match ?g with Some _ => _ | None => _ end] => destruct g; cbn [mbind option_bind] in E; try discriminate E
    | context [if alive ?w ?g then _ else _] => destruct (alive w g); try discriminate E
    end.
  all: injection E as <-; cbn [sg wg kinds set_s set_w add_kind].
  all: repeat match goal with
    | Q : ?m !! ?x = Some _ |- context [size (<[?x := ?g]> ?m)] => rewrite (size_upd m x g _ Q)
    | |- context [size (<[?x := ?g]> ?m)] => let H := fresh in pose proof (size_ins m x g) as H; revert H; generalize (size (<[x := g]> m)); intros
    | |- context [size (delete ?x ?m)] => let H := fresh in assert (size (delete x m) <= size m) as H by (rewrite map_size_delete; destruct (m !! x); unfold id; lia);
        revert H; generalize (size (delete x m)); intros
    end; try lia.
Qed.

Theorem history cs w w' s : srun cs w = Some w' -> rep w s ->
  (Z.of_nat (handles w) + Z.of_nat (length cs) + 8 < 2 ^ 64)%Z -> exists s', run cs s = Ok s' /\ rep w' s'.
Proof.
  revert w s. induction cs as [|c cs IH]; intros w s E R F; cbn [srun run] in *.
  - simplify_eq. eauto.
  - destruct (proper c) eqn:P; [|done]. destruct (sstep c w) as [w1|] eqn:E1; [|done]. cbn in E.
    destruct (step_ok c w w1 s E1 P) as (s1&->&R1); [unfold room, handles in *; lia|done|]. cbn [obind].
    apply (IH w1); [done|done|]. pose proof (sstep_handles _ _ _ E1). cbn [length] in F. lia.
Qed.
Lemma rep0 : rep spec0 state0.
Proof.
  split; [|done]. split; cbn; [|by rewrite fmap_empty..]. split; [done|..].
  - intros g k H. done.
  - intros g _. rewrite members_empty. done.
Qed.

Theorem accounts_ok w s : rep w s -> accounts w s.
Proof.
  intros [R _]. destruct w as [S W K]. cbn [sg wg kinds] in R.
  assert (forall g, 0 < members S g + members W g -> use_count (conc K (Some g)) s = Ok (Z.of_nat (members S g))) as U.
  { intros g H. destruct (core_kind _ _ _ _ g (repr_core _ _ _ _ R) H) as [k Hk].
    destruct (core_ent _ _ _ _ (repr_core _ _ _ _ R) g k Hk) as [E _ _ _].
    destruct (Nat.eqb_spec (members S g + members W g) 0); [lia|].
    unfold use_count. cbn [hc conc]. unfold get_block. rewrite E. done. }
  split; cbn [sg wg kinds] in *; unfold alive, held; cbn [sg wg kinds].
  - intros x g H. exists (conc K g). split; [by eapply repr_sh|]. split.
    + destruct g; [|done]. cbn. by destruct (K !! n).
    + destruct g; [|done]. apply U. by eapply in_s.
  - intros x g H. exists (conc K g). split; [by eapply repr_wk|].
    destruct g; [|done]. apply U. by eapply in_w.
  - intros g k Hk Ho. destruct (core_ent _ _ _ _ (repr_core _ _ _ _ R) g k Hk) as [_ E2 E3 _].
    rewrite E2, E3, Ho. destruct (Nat.eqb_spec (members S g) 0) as [Z|Z]; cbn [negb].
    + split; [|done]. split; [intros [? ?]|]; done.
    + split; [|done]. split; [done|]. destruct k as [| |[]]; try done; intros _; eauto.
  - intros g k Hk. destruct (core_ent _ _ _ _ (repr_core _ _ _ _ R) g k Hk) as [E1 _ _ E4].
    rewrite E1, E4. destruct (Nat.eqb_spec (members S g + members W g) 0) as [Z|Z]; cbn [negb].
    + split; [|done]. split; [intros [? ?]|]; done.
    + split; [|done]. split; [done|eauto].
  - intros g k Hk Ho. destruct (core_ent _ _ _ _ (repr_core _ _ _ _ R) g k Hk) as [_ E2 E3 _].
    rewrite E2, E3, Ho. destruct k as [| |[]]; try done. by destruct (members S g =? 0).
  - intros g Hk. destruct (core_out _ _ _ _ (repr_core _ _ _ _ R) g Hk) as (_&_&?&?&?&?). auto.
Qed.

Theorem history_accounts cs w : srun cs spec0 = Some w -> (Z.of_nat (length cs) + 8 < 2 ^ 64)%Z ->
  exists s, run cs state0 = Ok s /\ accounts w s.
Proof.
  intros E L. destruct (history cs spec0 w state0 E rep0) as (s&H&R); [done|]. eauto using accounts_ok.
Qed.
(** When every handle is gone nothing is left. *)
Theorem history_gone cs w : srun cs spec0 = Some w -> (Z.of_nat (length cs) + 8 < 2 ^ 64)%Z ->
  sg w = ∅ -> wg w = ∅ ->
  exists s, run cs state0 = Ok s /\ objs s = ∅ /\ blocks s = ∅ /\
    forall g k, kinds w !! g = Some k -> times (freed s) g = 1 /\ times (destroyed s) g = if has_object k then 1 else 0.
Proof.
  intros E L Hs Hw. destruct (history_accounts cs w E L) as (s&H&A). exists s. split; [done|].
  assert (forall g, alive w g = false) as Al by (intros g; unfold alive; by rewrite Hs, members_empty).
  assert (forall g, held w g = false) as He by (intros g; unfold held; by rewrite Hs, Hw, !members_empty).
  split; [|split].
  - apply map_eq. intros g. rewrite lookup_empty. destruct (kinds w !! g) as [k|] eqn:Hk.
    + destruct (has_object k) eqn:Ho.
      * destruct (acc_object _ _ A g k Hk Ho) as [[I _] _]. destruct (objs s !! g); [|done].
        rewrite Al in I. discriminate I. eauto.
      * by apply (acc_only_object _ _ A g k Hk Ho).
    + by apply (acc_only _ _ A g Hk).
  - apply map_eq. intros g. rewrite lookup_empty. destruct (kinds w !! g) as [k|] eqn:Hk.
    + destruct (acc_block _ _ A g k Hk) as [[I _] _]. destruct (blocks s !! g); [|done].
      rewrite He in I. discriminate I. eauto.
    + by apply (acc_only _ _ A g Hk).
  - intros g k Hk. destruct (acc_block _ _ A g k Hk) as [_ T]. rewrite He in T. split; [done|].
    destruct (has_object k) eqn:Ho.
    + destruct (acc_object _ _ A g k Hk Ho) as [_ T']. by rewrite Al in T'.
    + by apply (acc_only_object _ _ A g k Hk Ho).
Qed.
(** lock() on a weak handle whose object is gone. *)
Theorem lock_expired cs w x y g : srun cs spec0 = Some w -> (Z.of_nat (length cs) + 8 < 2 ^ 64)%Z ->
  wg w !! y = Some (Some g) -> alive w g = false -> sg w !! x = None -> x <> 0 -> y <> 0 ->
  exists s s' h, run cs state0 = Ok s /\ step (SLock x y) s = Ok s' /\ sh x s' = Ok h /\
    hp h = None /\ use_count h s' = Ok 1%Z.
Proof.
  intros E L Hy Hg Hx X0 Y0. destruct (history cs spec0 w state0 E rep0) as (s&H&R); [done|].
  assert (sstep (SLock x y) w = Some (add_kind KNull (set_s (<[x := Some (length (kinds w))]> (sg w)) w))) as E2.
  { cbn. rewrite Hy. cbn. rewrite Hg. unfold alone, new_s. by rewrite Hx. }
  assert (room w) as F.
  { assert (forall cs v v', srun cs v = Some v' -> handles v' <= handles v + length cs) as HH.
    { clear. induction cs as [|c cs IH]; intros v v' E; cbn [srun length] in *; [simplify_eq; lia|].
      destruct (proper c); [|done]. destruct (sstep c v) as [v1|] eqn:E1; [|done]. cbn in E.
      pose proof (sstep_handles _ _ _ E1). specialize (IH v1 v' E). lia. }
    specialize (HH _ _ _ E). unfold room. unfold handles in HH. change (size (sg spec0)) with 0 in HH. change (size (wg spec0)) with 0 in HH. lia. }
  destruct (step_ok (SLock x y) w _ s E2) as (s'&Hs'&R').
  { cbn. destruct (Nat.eqb_spec x 0), (Nat.eqb_spec y 0); done. }
  { done. }
  { done. }
  pose proof (accounts_ok _ _ R') as A.
  destruct (acc_shared _ _ A x (Some (length (kinds w)))) as (h&Hh&Hp&Hu).
  { cbn. apply lookup_insert. }
  exists s, s', h. split; [done|]. split; [done|]. split; [done|]. split.
  - rewrite Hp. cbn. by rewrite lookup_app_r, Nat.sub_diag by lia.
  - rewrite Hu. do 2 f_equal. cbn [sg add_kind set_s]. rewrite members_insert_new by done.
    destruct R as [R _]. rewrite (no_members _ _ _ _ (repr_core _ _ _ _ R)). unfold bump. by rewrite decide_True.
Qed.
(** shared_from_this() of an object that a constructor of shared_ptr took over. *)
Theorem from_this_shares cs w x y g : srun cs spec0 = Some w -> (Z.of_nat (length cs) + 9 < 2 ^ 64)%Z ->
  sg w !! y = Some (Some g) -> kinds w !! g = Some (KSelf true) -> sg w !! x = None -> x <> 0 -> y <> 0 ->
  exists s s' h, run cs state0 = Ok s /\ step (SFromThis x y) s = Ok s' /\ sh x s' = Ok h /\ hp h = Some g /\
    use_count h s' = Ok (Z.of_nat (S (members (sg w) g))).
Proof.
  intros E L Hy Hg Hx X0 Y0. destruct (history cs spec0 w state0 E rep0) as (s&H&R);
    [unfold handles, spec0; cbn [sg wg]; change (size (∅ : hmap)) with 0; lia|].
  assert (sstep (SFromThis x y) w = Some (set_s (<[x := Some g]> (sg w)) w)) as E2.
  { cbn. rewrite Hy. cbn. rewrite Hg. cbn. unfold new_s. by rewrite Hx. }
  destruct (history (cs ++ [SFromThis x y]) spec0 (set_s (<[x := Some g]> (sg w)) w) state0) as (s'&H'&R').
  { assert (forall cs v v', srun cs v = Some v' -> srun (cs ++ [SFromThis x y]) v = srun [SFromThis x y] v') as SA.
    { clear. induction cs as [|c cs IH]; intros v v' E; cbn [srun app] in *; [by simplify_eq|].
      destruct (proper c); [|done]. destruct (sstep c v) as [v1|]; [|done]. by apply IH. }
    rewrite (SA _ _ _ E). cbn [srun]. rewrite E2. cbn [proper].
    destruct (Nat.eqb_spec x 0), (Nat.eqb_spec y 0); done. }
  { apply rep0. }
  { rewrite app_length. cbn [length]. unfold handles, spec0. cbn [sg wg]. change (size (∅ : hmap)) with 0. lia. }
  assert (forall cs t t', run cs t = Ok t' -> run (cs ++ [SFromThis x y]) t = run [SFromThis x y] t') as RA.
  { clear. induction cs as [|c cs IH]; intros t t' E; cbn [run app] in *; [by simplify_eq|].
    destruct (step c t) as [t1| |]; [|done..]. cbn [obind] in *. by apply IH. }
  rewrite (RA _ _ _ H) in H'. cbn [run] in H'.
  destruct (step (SFromThis x y) s) as [s1| |] eqn:Es; [|done..]. cbn [obind] in H'. simplify_eq.
  destruct (acc_shared _ _ (accounts_ok _ _ R') x (Some g)) as (h&Hh&Hp&Hu).
  { cbn. apply lookup_insert. }
  exists s, s', h. split; [done|]. split; [done|]. split; [done|]. split.
  - rewrite Hp. cbn. by rewrite Hg.
  - rewrite Hu. do 2 f_equal. cbn [sg set_s]. rewrite members_insert_new by done.
    unfold bump. rewrite decide_True by done. lia.
Qed.
