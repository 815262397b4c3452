(** rb_tree_insert_rebalance does to the heap what [fixup] does to the tree. *)
From stdpp Require Import gmap list.
From Coq Require Import Lia ZifyBool ZifyNat ZifyN.
From Verif Require Import Base RbModel RbPure RbHeap.
Local Open Scope outcome_scope.

Section ins.
Context {A : Type} (H : loc).
Notation tr := (tr A).
Notation ctx := (list (fr A)).
Notation heap := (heap A).
Implicit Types (s : heap) (t : tr) (k : ctx).

Definition low_black k : Prop := match last k with Some f => fcol f = Black | None => True end.
Lemma low_black_tl f k : low_black (f :: k) -> low_black k.
Proof. unfold low_black. destruct k; [done|]. by rewrite last_cons_cons. Qed.

Section f.
Context {F : loc -> nat} {s0 : heap}.
Notation at_ := (At H F s0).

Lemma at_red s mn mx t k : at_ s mn mx t k -> red_at (id t) s = Ok (red t).
Proof.
  destruct t as [|c l x a r]; [done|]. intros P. cbn [id red_at].
  rewrite (is_red_ok _ _ _ (at_cell _ _ _ _ _ _ _ _ _ _ P)). cbn. by destruct c.
Qed.
Lemma at_not_red s mn mx t k : at_ s mn mx t k -> not_red (id t) s = Ok (negb (red t)).
Proof. intros P. unfold not_red. by rewrite (at_red _ _ _ _ _ P). Qed.

Lemma insert_loop_ok mn mx k : forall fuel s l x a r,
  at_ s mn mx (T Red l x a r) k -> low_black k -> length k < fuel ->
  exists s', insert_loop fuel H x s = Ok s' /\ at_ s' mn mx (fixup (T Red l x a r) k) [].
Proof.
  induction k as [|f|f f2 k IH] using len2_ind; intros fuel s l x a r P HB Hf; (destruct fuel as [|fuel]; [cbn in Hf; lia|]);
    cbn [insert_loop].
  - rewrite (at_root _ _ _ _ _ _ P). cbn [obind]. rewrite (at_root_here _ _ _ _ _ _ _ _ _ _ P).
    rewrite bool_decide_eq_true_2 by done. eauto.
  - rewrite (at_root _ _ _ _ _ _ P). cbn [obind]. rewrite (at_root_here _ _ _ _ _ _ _ _ _ _ P).
    rewrite bool_decide_eq_false_2 by done. rewrite (at_parent _ _ _ _ _ _ _ _ _ _ P). cbn [obind pid].
    cbn in HB. cbn [fixup]. rewrite HB. exists s. split.
    + assert (is_red (floc f) s = Ok false) as ->; [|done].
      destruct f; cbn in HB; subst; cbn [floc]; [apply ul in P|apply ur in P];
        by rewrite (is_red_ok _ _ _ (at_cell _ _ _ _ _ _ _ _ _ _ P)).
    + exact (pn _ _ _ _ _ _ P).
  - rewrite (at_root _ _ _ _ _ _ P). cbn [obind]. rewrite (at_root_here _ _ _ _ _ _ _ _ _ _ P).
    rewrite bool_decide_eq_false_2 by done. rewrite (at_parent _ _ _ _ _ _ _ _ _ _ P). cbn [obind pid].
    cbn [fixup]. destruct (fcol f) eqn:Ec; cycle 1.
    { exists s. split.
      + assert (is_red (floc f) s = Ok false) as ->; [|done].
        destruct f; cbn in Ec; subst; cbn [floc]; [apply ul in P|apply ur in P];
          by rewrite (is_red_ok _ _ _ (at_cell _ _ _ _ _ _ _ _ _ _ P)).
      + exact (pn _ _ _ _ _ _ P). }
    assert (is_red (floc f) s = Ok true) as ->.
    { destruct f; cbn in Ec; subst; cbn [floc]; [apply ul in P|apply ur in P];
          by rewrite (is_red_ok _ _ _ (at_cell _ _ _ _ _ _ _ _ _ _ P)). }
    cbn [obind negb].
    assert (is_lchild (floc f) s = Ok (match f2 with FL _ _ _ _ => true | FR _ _ _ _ => false end) /\
            parent (floc f) s = Ok (floc f2)) as [-> ->].
    { destruct f; [apply ul in P|apply ur in P]; cbn [floc];
        rewrite (at_lchild _ _ _ _ _ _ _ _ _ _ _ P), (at_parent _ _ _ _ _ _ _ _ _ _ P); done. }
    cbn [obind].
    destruct f2 as [cg g ag u|cg u g ag]; cbn [floc].
    + assert (at_ s mn mx u (FR cg (fill (T Red l x a r) f) g ag :: k)) as Pu by (apply dr, ul; by apply at_fill).
      rewrite (right_ok g s _ (at_cell _ _ _ _ _ _ _ _ _ _ (ur _ _ _ _ _ _ _ _ _ _ Pu))). cbn [obind rt].
      rewrite (at_red _ _ _ _ _ Pu). cbn [obind]. destruct (red u) eqn:Eu.
      * assert (exists s1, set_col (floc f) Black s = Ok s1 /\ at_ s1 mn mx (paint Black (fill (T Red l x a r) f)) (FL cg g ag u :: k))
          as (s1 & -> & P1).
        { apply at_fill in P. destruct f; cbn [fill floc paint] in *; apply (at_color _ _ _ _ _ Black _ _ _ _ _ P). }
        cbn [obind]. apply ul, dr in P1.
        destruct (at_color_at _ _ _ _ _ _ Black P1) as (s2 & E2 & P2). unfold blacken_at. rewrite E2. cbn [obind].
        apply ur in P2. destruct (at_color _ _ _ _ _ Red _ _ _ _ _ P2) as (s3 & E3 & P3). rewrite E3. cbn [obind].
        apply IH; [done| |cbn in Hf; lia]. by do 2 apply low_black_tl in HB.
      * rewrite (at_lchild _ _ _ _ _ _ _ _ _ _ _ P). cbn [obind].
        destruct f as [c p ap rp|c lp p ap]; cbn in Ec; subst c; cbn [negb obind floc].
        -- rewrite (at_parent _ _ _ _ _ _ _ _ _ _ P). cbn [obind pid floc]. apply ul in P.
           destruct (at_color _ _ _ _ _ Black _ _ _ _ _ P) as (s1 & E1 & P1). rewrite E1. cbn [obind].
           destruct (at_color _ _ _ _ _ Red _ _ _ _ _ P1) as (s2 & E2 & P2). rewrite E2. cbn [obind].
           rewrite (at_parent _ _ _ _ _ _ _ _ _ _ P2). cbn [obind pid floc].
           apply ul in P2. destruct (rotr_ok _ _ _ _ _ _ _ _ _ _ _ _ _ _ P2) as (s3 & E3 & P3).
           exists s3. split; [done|]. exact (pn _ _ _ _ _ _ P3).
        -- apply ur in P. destruct (rotl_ok _ _ _ _ _ _ _ _ _ _ _ _ _ _ P) as (s1 & E1 & P1). rewrite E1. cbn [obind].
           apply dl in P1. rewrite (at_parent _ _ _ _ _ _ _ _ _ _ P1). cbn [obind pid floc]. apply ul in P1.
           destruct (at_color _ _ _ _ _ Black _ _ _ _ _ P1) as (s2 & E2 & P2). rewrite E2. cbn [obind].
           destruct (at_color _ _ _ _ _ Red _ _ _ _ _ P2) as (s3 & E3 & P3). rewrite E3. cbn [obind].
           rewrite (at_parent _ _ _ _ _ _ _ _ _ _ P3). cbn [obind pid floc].
           apply ul in P3. destruct (rotr_ok _ _ _ _ _ _ _ _ _ _ _ _ _ _ P3) as (s4 & E4 & P4).
           exists s4. split; [done|]. exact (pn _ _ _ _ _ _ P4).
    + assert (at_ s mn mx u (FL cg g ag (fill (T Red l x a r) f) :: k)) as Pu by (apply dl, ur; by apply at_fill).
      rewrite (left_ok g s _ (at_cell _ _ _ _ _ _ _ _ _ _ (ul _ _ _ _ _ _ _ _ _ _ Pu))). cbn [obind lf].
      rewrite (at_red _ _ _ _ _ Pu). cbn [obind]. destruct (red u) eqn:Eu.
      * assert (exists s1, set_col (floc f) Black s = Ok s1 /\ at_ s1 mn mx (paint Black (fill (T Red l x a r) f)) (FR cg u g ag :: k))
          as (s1 & -> & P1).
        { apply at_fill in P. destruct f; cbn [fill floc paint] in *; apply (at_color _ _ _ _ _ Black _ _ _ _ _ P). }
        cbn [obind]. apply ur, dl in P1.
        destruct (at_color_at _ _ _ _ _ _ Black P1) as (s2 & E2 & P2). unfold blacken_at. rewrite E2. cbn [obind].
        apply ul in P2. destruct (at_color _ _ _ _ _ Red _ _ _ _ _ P2) as (s3 & E3 & P3). rewrite E3. cbn [obind].
        apply IH; [done| |cbn in Hf; lia]. by do 2 apply low_black_tl in HB.
      * rewrite (at_lchild _ _ _ _ _ _ _ _ _ _ _ P). cbn [obind].
        destruct f as [c p ap rp|c lp p ap]; cbn in Ec; subst c; cbn [negb obind floc].
        -- apply ul in P. destruct (rotr_ok _ _ _ _ _ _ _ _ _ _ _ _ _ _ P) as (s1 & E1 & P1). rewrite E1. cbn [obind].
           apply dr in P1. rewrite (at_parent _ _ _ _ _ _ _ _ _ _ P1). cbn [obind pid floc]. apply ur in P1.
           destruct (at_color _ _ _ _ _ Black _ _ _ _ _ P1) as (s2 & E2 & P2). rewrite E2. cbn [obind].
           rewrite (at_parent _ _ _ _ _ _ _ _ _ _ P2). cbn [obind pid floc]. apply ur in P2.
           destruct (at_color _ _ _ _ _ Red _ _ _ _ _ P2) as (s3 & E3 & P3). rewrite E3. cbn [obind].
           destruct (rotl_ok _ _ _ _ _ _ _ _ _ _ _ _ _ _ P3) as (s4 & E4 & P4).
           exists s4. split; [done|]. exact (pn _ _ _ _ _ _ P4).
        -- rewrite (at_parent _ _ _ _ _ _ _ _ _ _ P). cbn [obind pid floc]. apply ur in P.
           destruct (at_color _ _ _ _ _ Black _ _ _ _ _ P) as (s1 & E1 & P1). rewrite E1. cbn [obind].
           rewrite (at_parent _ _ _ _ _ _ _ _ _ _ P1). cbn [obind pid floc]. apply ur in P1.
           destruct (at_color _ _ _ _ _ Red _ _ _ _ _ P1) as (s2 & E2 & P2). rewrite E2. cbn [obind].
           destruct (rotl_ok _ _ _ _ _ _ _ _ _ _ _ _ _ _ P2) as (s3 & E3 & P3).
           exists s3. split; [done|]. exact (pn _ _ _ _ _ _ P3).
Qed.

Lemma fixup_T t k : t <> E -> fixup t k <> E.
Proof.
  intros Ht E. assert (elems t = []) as E1.
  { pose proof (elems_fixup t k) as X. rewrite E in X. cbn in X. symmetry in X. apply app_eq_nil in X as [_ X].
    by apply app_eq_nil in X as [X _]. }
  destruct t; [done|]. cbn in E1. by apply app_eq_nil in E1 as [_ ?].
Qed.
Lemma insert_rebalance_ok mn mx k fuel s c l x a r :
  at_ s mn mx (T c l x a r) k -> low_black k -> length k < fuel ->
  exists s', insert_rebalance fuel H x s = Ok s' /\ at_ s' mn mx (paint Black (fixup (T Red l x a r) k)) [].
Proof.
  intros P HB Hf. unfold insert_rebalance.
  destruct (at_color _ _ _ _ _ Red _ _ _ _ _ P) as (s1 & E1 & P1). rewrite E1. cbn [obind].
  destruct (insert_loop_ok mn mx k fuel s1 l x a r P1 HB Hf) as (s2 & E2 & P2). rewrite E2. cbn [obind].
  rewrite (at_root _ _ _ _ _ _ P2). cbn [obind plug].
  destruct (fixup (T Red l x a r) k) as [|c' l' x' a' r'] eqn:Ex; [by apply fixup_T in Ex|].
  cbn [id of_option obind paint].
  destruct (at_color _ _ _ _ _ Black _ _ _ _ _ P2) as (s3 & E3 & P3). eauto.
Qed.
End f.
End ins.
