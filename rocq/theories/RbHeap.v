(** The heap holds a labelled tree with a hole; rotations, recolouring and refocusing. *)
From stdpp Require Import gmap list.
From Coq Require Import Lia ZifyBool ZifyNat ZifyN.
From Verif Require Import Base RbModel RbPure.
Local Open Scope outcome_scope.
Arguments bit : simpl never.

Section heap.
Context {A : Type}.
Notation tr := (tr A).
Notation ctx := (list (fr A)).
Notation heap := (heap A).
Implicit Types (s : heap) (t : tr) (k : ctx).

Lemma get_ok x s n : cells s !! x = Some n -> get x s = Ok n.
Proof. unfold get. by intros ->. Qed.
Lemma left_ok x s n : cells s !! x = Some n -> left x s = Ok (lf n).
Proof. intros E. unfold left. by rewrite (get_ok _ _ _ E). Qed.
Lemma right_ok x s n : cells s !! x = Some n -> right x s = Ok (rt n).
Proof. intros E. unfold right. by rewrite (get_ok _ _ _ E). Qed.
Lemma parent_ok x s n p : cells s !! x = Some n -> pa n = Some p -> parent x s = Ok p.
Proof. intros E Ep. unfold parent. rewrite (get_ok _ _ _ E). cbn. by rewrite Ep. Qed.
Lemma is_red_ok x s n : cells s !! x = Some n -> is_red x s = Ok (bool_decide (col n = Red)).
Proof. intros E. unfold is_red. by rewrite (get_ok _ _ _ E). Qed.
Lemma key_ok x s n v : cells s !! x = Some n -> vl n = Some v -> key x s = Ok v.
Proof. intros E Ep. unfold key. rewrite (get_ok _ _ _ E). cbn. by rewrite Ep. Qed.
Lemma root_ok H s n : cells s !! H = Some n -> root H s = Ok (pa n).
Proof. intros E. unfold root. by rewrite (get_ok _ _ _ E). Qed.
Lemma set_col_ok x c s n : cells s !! x = Some n ->
  set_col x c s = Ok (put x {| col := c; lf := lf n; rt := rt n; pa := pa n; vl := vl n |} s).
Proof. intros E. unfold set_col. by rewrite (get_ok _ _ _ E). Qed.
Lemma set_lf_ok x p s n : cells s !! x = Some n ->
  set_lf x p s = Ok (put x {| col := col n; lf := p; rt := rt n; pa := pa n; vl := vl n |} s).
Proof. intros E. unfold set_lf. by rewrite (get_ok _ _ _ E). Qed.
Lemma set_rt_ok x p s n : cells s !! x = Some n ->
  set_rt x p s = Ok (put x {| col := col n; lf := lf n; rt := p; pa := pa n; vl := vl n |} s).
Proof. intros E. unfold set_rt. by rewrite (get_ok _ _ _ E). Qed.
Lemma set_pa_ok x p s n : cells s !! x = Some n ->
  set_pa x p s = Ok (put x {| col := col n; lf := lf n; rt := rt n; pa := p; vl := vl n |} s).
Proof. intros E. unfold set_pa. by rewrite (get_ok _ _ _ E). Qed.
Lemma put_same x n s : cells (put x n s) !! x = Some n.
Proof. apply lookup_insert. Qed.
Lemma put_ne x n s l : x <> l -> cells (put x n s) !! l = cells s !! l.
Proof. apply lookup_insert_ne. Qed.
Lemma ne_of_bit x l : bit x l = 0 -> x <> l.
Proof. intros Hb ->. rewrite bit_same in Hb. lia. Qed.
Lemma bit_le x l : bit x l <= 1.
Proof. unfold bit. destruct decide; lia. Qed.

Context (H : loc).

Fixpoint rep s t (p : loc) : Prop :=
  match t with
  | E => True
  | T c l x a r =>
      cells s !! x = Some {| col := c; lf := id l; rt := id r; pa := Some p; vl := Some a |} /\ rep s l x /\ rep s r x
  end.
Definition pid k : loc := match k with [] => H | f :: _ => floc f end.
Fixpoint repc s (mn mx : option loc) k (hole : option loc) : Prop :=
  match k with
  | [] => cells s !! H = Some {| col := Red; lf := mn; rt := mx; pa := hole; vl := None |}
  | FL c x a r :: k =>
      cells s !! x = Some {| col := c; lf := hole; rt := id r; pa := Some (pid k); vl := Some a |} /\
      rep s r x /\ repc s mn mx k (Some x)
  | FR c l x a :: k =>
      cells s !! x = Some {| col := c; lf := id l; rt := hole; pa := Some (pid k); vl := Some a |} /\
      rep s l x /\ repc s mn mx k (Some x)
  end.

(** [s] holds [t] at the hole of [k] under the header, on the addresses [F]; elsewhere it is [s0] *)
Record At (F : loc -> nat) s0 s (mn mx : option loc) t k : Prop := {
  at_rep : rep s t (pid k);
  at_repc : repc s mn mx k (id t);
  at_cnt : forall l, bit H l + cnt t l + ccnt k l = F l;
  at_one : forall l, F l <= 1;
  at_made : made s = made s0;
  at_out : forall l, F l = 0 -> cells s !! l = cells s0 !! l;
}.

Lemma rep_frame s s' t p : (forall l, 0 < cnt t l -> cells s' !! l = cells s !! l) -> rep s t p -> rep s' t p.
Proof.
  revert p. induction t as [|c l IHl x a r IHr]; intros p Hf; [done|]. cbn [rep cnt] in *.
  intros (Hx & Hl & Hr). split; [|split].
  - rewrite Hf; [done|]. rewrite bit_same. lia.
  - apply IHl; [|done]. intros z Hz. apply Hf. lia.
  - apply IHr; [|done]. intros z Hz. apply Hf. lia.
Qed.
Lemma repc_frame s s' mn mx k h :
  (forall l, 0 < bit H l + ccnt k l -> cells s' !! l = cells s !! l) -> repc s mn mx k h -> repc s' mn mx k h.
Proof.
  revert h. induction k as [|[c x a r|c l x a] k IH]; intros h Hf; cbn [repc ccnt] in *.
  - intros E. rewrite Hf; [done|]. rewrite bit_same. lia.
  - intros (Hx & Hl & Hr). split; [|split].
    + rewrite Hf; [done|]. rewrite (bit_same x). lia.
    + apply (rep_frame s); [|done]. intros z Hz. apply Hf. lia.
    + apply IH; [|done]. intros z Hz. apply Hf. lia.
  - intros (Hx & Hl & Hr). split; [|split].
    + rewrite Hf; [done|]. rewrite (bit_same x). lia.
    + apply (rep_frame s); [|done]. intros z Hz. apply Hf. lia.
    + apply IH; [|done]. intros z Hz. apply Hf. lia.
Qed.

Fixpoint top k (h : option loc) : option loc := match k with [] => h | f :: k => top k (Some (floc f)) end.
Lemma top_plug k t : top k (id t) = id (plug t k).
Proof. revert t. induction k as [|f k IH]; intros t; [done|]. cbn [top plug]. rewrite <- IH. by destruct f. Qed.
Lemma repc_top s mn mx k h : repc s mn mx k h ->
  cells s !! H = Some {| col := Red; lf := mn; rt := mx; pa := top k h; vl := None |}.
Proof.
  revert h. induction k as [|[c x a r|c l x a] k IH]; intros h; cbn [repc top floc]; [done| |]; intros (_ & _ & Hc); auto.
Qed.
Lemma top_in k h x : top k h = Some x -> k <> [] -> 0 < ccnt k x.
Proof.
  revert h. induction k as [|f k IH]; intros h; [done|]. intros Hp _. cbn [top] in Hp. cbn [ccnt].
  destruct (decide (k = [])) as [->|Hk].
  - cbn in Hp. injection Hp as <-. destruct f; cbn [floc ccnt]; rewrite bit_same; lia.
  - specialize (IH _ Hp Hk). destruct f; lia.
Qed.
Lemma repc_root s mn mx k t : repc s mn mx k (id t) ->
  cells s !! H = Some {| col := Red; lf := mn; rt := mx; pa := id (plug t k); vl := None |}.
Proof. intros Hc. rewrite <- top_plug. by apply repc_top. Qed.
Lemma id_plug k t x : id (plug t k) = Some x -> k <> [] -> 0 < ccnt k x.
Proof. rewrite <- top_plug. apply top_in. Qed.
Lemma id_plug_none k t : id (plug t k) = None -> k = [] /\ t = E.
Proof.
  revert t. induction k as [|f k IH]; intros t.
  - destruct t; done.
  - cbn [plug]. intros Hp. apply IH in Hp as [_ Hf]. by destruct f.
Qed.

(** [y] in the place of [x] under the node above *)
Lemma replace_ok s mn mx k x y n :
  repc s mn mx k (Some x) -> cells s !! x = Some n -> pa n = Some (pid k) ->
  (forall l, bit H l + bit x l + ccnt k l <= 1) ->
  exists s', replace H x y s = Ok s' /\ repc s' mn mx k y /\ made s' = made s /\
    forall l, bit H l + ccnt k l = 0 -> cells s' !! l = cells s !! l.
Proof.
  intros Hk Hx Hp Hc. unfold replace. rewrite (root_ok _ _ _ (repc_top _ _ _ _ _ Hk)). cbn [obind pa].
  destruct k as [|f k].
  - cbn [top]. rewrite bool_decide_eq_true_2 by done. cbn [repc] in Hk. rewrite (set_pa_ok _ _ _ _ Hk).
    eexists; split; [reflexivity|]. cbn [repc ccnt]. split; [apply put_same|]. split; [done|].
    intros l Hl. apply put_ne, ne_of_bit. lia.
  - rewrite bool_decide_eq_false_2; cycle 1.
    { intros Ht. apply top_in in Ht; [|done]. specialize (Hc x). rewrite (bit_same x) in Hc. lia. }
    unfold is_lchild. rewrite (parent_ok _ _ _ _ Hx Hp). cbn [obind pid floc].
    destruct f as [c z a r|c l z a]; cbn [repc floc] in *; destruct Hk as (Hz & Hr & Hk).
    + rewrite (left_ok _ _ _ Hz). cbn [obind lf]. rewrite bool_decide_eq_true_2 by done.
      rewrite (set_lf_ok _ _ _ _ Hz). eexists; split; [reflexivity|]. cbn [repc ccnt col lf rt pa vl] in *.
      split; [|split; [done|]].
      * split; [apply put_same|]. split.
        -- apply (rep_frame s); [|done]. intros q Hq. apply put_ne, ne_of_bit. specialize (Hc q). lia.
        -- apply (repc_frame s); [|done]. intros q Hq. apply put_ne, ne_of_bit. specialize (Hc q). lia.
      * intros q Hq. apply put_ne, ne_of_bit. lia.
    + rewrite (left_ok _ _ _ Hz). cbn [obind lf]. rewrite bool_decide_eq_false_2; cycle 1.
      { destruct l as [|? ? w ? ?]; cbn [id]; [done|]. intros E. injection E as ->.
        specialize (Hc x). cbn [ccnt cnt] in Hc. rewrite (bit_same x) in Hc. lia. }
      rewrite (set_rt_ok _ _ _ _ Hz). eexists; split; [reflexivity|]. cbn [repc ccnt col lf rt pa vl] in *.
      split; [|split; [done|]].
      * split; [apply put_same|]. split.
        -- apply (rep_frame s); [|done]. intros q Hq. apply put_ne, ne_of_bit. specialize (Hc q). lia.
        -- apply (repc_frame s); [|done]. intros q Hq. apply put_ne, ne_of_bit. specialize (Hc q). lia.
      * intros q Hq. apply put_ne, ne_of_bit. lia.
Qed.
(** the root of [t] gets another parent *)
Lemma reparent_ok s t p q : rep s t p -> (forall l, cnt t l <= 1) ->
  exists s', (match id t with Some z => set_pa z (Some q) s | None => Ok s end) = Ok s' /\ rep s' t q /\
    made s' = made s /\ forall l, cnt t l = 0 -> cells s' !! l = cells s !! l.
Proof.
  destruct t as [|c l x a r]; [cbn; eauto 10|]. cbn [rep cnt id]. intros (Hx & Hl & Hr) Hc.
  rewrite (set_pa_ok _ _ _ _ Hx). eexists; split; [reflexivity|]. cbn [col lf rt pa vl].
  split; [|split; [done|]].
  - split; [apply put_same|]. split.
    + apply (rep_frame s); [|done]. intros z Hz. apply put_ne, ne_of_bit. specialize (Hc z). lia.
    + apply (rep_frame s); [|done]. intros z Hz. apply put_ne, ne_of_bit. specialize (Hc z). lia.
  - intros z Hz. apply put_ne, ne_of_bit. lia.
Qed.

Section at_lemmas.
Context {F : loc -> nat} {s0 : heap}.
Notation at_ := (At F s0).

Lemma at_le s mn mx t k l : at_ s mn mx t k -> bit H l + cnt t l + ccnt k l <= 1.
Proof. intros P. rewrite (at_cnt _ _ _ _ _ _ _ P). apply (at_one _ _ _ _ _ _ _ P). Qed.

Lemma at_l s mn mx c l x a r k : at_ s mn mx (T c l x a r) k <-> at_ s mn mx l (FL c x a r :: k).
Proof.
  split; intros [P1 P2 P3 P4 P5 P6]; split; auto.
  - cbn [rep pid floc] in *. tauto.
  - cbn [rep repc] in *. tauto.
  - intros z. specialize (P3 z). cbn [cnt ccnt] in *. lia.
  - cbn [rep repc] in *. cbn [pid floc] in P1. tauto.
  - cbn [rep repc] in *. tauto.
  - intros z. specialize (P3 z). cbn [cnt ccnt] in *. lia.
Qed.
Lemma at_r s mn mx c l x a r k : at_ s mn mx (T c l x a r) k <-> at_ s mn mx r (FR c l x a :: k).
Proof.
  split; intros [P1 P2 P3 P4 P5 P6]; split; auto.
  - cbn [rep pid floc] in *. tauto.
  - cbn [rep repc] in *. tauto.
  - intros z. specialize (P3 z). cbn [cnt ccnt] in *. lia.
  - cbn [rep repc] in *. cbn [pid floc] in P1. tauto.
  - cbn [rep repc] in *. tauto.
  - intros z. specialize (P3 z). cbn [cnt ccnt] in *. lia.
Qed.
Lemma dl s mn mx c l x a r k : at_ s mn mx (T c l x a r) k -> at_ s mn mx l (FL c x a r :: k).
Proof. apply at_l. Qed.
Lemma dr s mn mx c l x a r k : at_ s mn mx (T c l x a r) k -> at_ s mn mx r (FR c l x a :: k).
Proof. apply at_r. Qed.
Lemma ul s mn mx c l x a r k : at_ s mn mx l (FL c x a r :: k) -> at_ s mn mx (T c l x a r) k.
Proof. apply at_l. Qed.
Lemma ur s mn mx c l x a r k : at_ s mn mx r (FR c l x a :: k) -> at_ s mn mx (T c l x a r) k.
Proof. apply at_r. Qed.
Lemma at_fill s mn mx t f k : at_ s mn mx (fill t f) k <-> at_ s mn mx t (f :: k).
Proof. destruct f; cbn [fill]; [apply at_l|apply at_r]. Qed.
Lemma at_plug s mn mx t k k' : at_ s mn mx t (k ++ k') <-> at_ s mn mx (plug t k) k'.
Proof.
  revert t. induction k as [|f k IH]; intros t; [done|]. cbn [plug]. rewrite <- IH. cbn [app]. by rewrite at_fill.
Qed.
Lemma pn s mn mx t k : at_ s mn mx t k -> at_ s mn mx (plug t k) [].
Proof. rewrite <- at_plug. by rewrite app_nil_r. Qed.
Lemma at_plug_nil s mn mx t k : at_ s mn mx t k <-> at_ s mn mx (plug t k) [].
Proof. rewrite <- at_plug. by rewrite app_nil_r. Qed.

Lemma at_cell s mn mx c l x a r k : at_ s mn mx (T c l x a r) k ->
  cells s !! x = Some {| col := c; lf := id l; rt := id r; pa := Some (pid k); vl := Some a |}.
Proof. intros P. apply at_rep in P. exact (proj1 P). Qed.
Lemma at_head s mn mx t k : at_ s mn mx t k ->
  cells s !! H = Some {| col := Red; lf := mn; rt := mx; pa := id (plug t k); vl := None |}.
Proof. intros P. apply repc_root, P. Qed.
Lemma at_root s mn mx t k : at_ s mn mx t k -> root H s = Ok (id (plug t k)).
Proof. intros P. by rewrite (root_ok _ _ _ (at_head _ _ _ _ _ P)). Qed.
Lemma at_root_here s mn mx c l x a r k : at_ s mn mx (T c l x a r) k ->
  bool_decide (id (plug (T c l x a r) k) = Some x) = bool_decide (k = []).
Proof.
  intros P. apply bool_decide_ext. split; [|by intros ->].
  intros Hp. destruct (decide (k = [])) as [|Hk]; [done|].
  pose proof (id_plug _ _ _ Hp Hk). pose proof (at_le _ _ _ _ _ x P) as Hc. cbn [cnt] in Hc. rewrite bit_same in Hc. lia.
Qed.

Ltac ne P z := apply ne_of_bit; let Hc := fresh in pose proof (at_le _ _ _ _ _ z P) as Hc; cbn [cnt ccnt] in Hc;
  rewrite ?bit_same in Hc; lia.

Lemma at_lchild s mn mx c l x a r f k : at_ s mn mx (T c l x a r) (f :: k) ->
  is_lchild x s = Ok (match f with FL _ _ _ _ => true | FR _ _ _ _ => false end).
Proof.
  intros P. unfold is_lchild. pose proof (at_cell _ _ _ _ _ _ _ _ _ P) as Hx.
  rewrite (parent_ok _ _ _ _ Hx eq_refl). cbn [obind pid].
  destruct f as [c' y b u|c' u y b]; cbn [floc].
  - apply at_l in P. rewrite (left_ok _ _ _ (at_cell _ _ _ _ _ _ _ _ _ P)). cbn. f_equal. by apply bool_decide_eq_true.
  - pose proof P as P'. apply at_r in P'. rewrite (left_ok _ _ _ (at_cell _ _ _ _ _ _ _ _ _ P')). cbn. f_equal.
    apply bool_decide_eq_false. destruct u as [|c2 u1 z d u2]; cbn [id]; [done|]. intros E. injection E as ->.
    pose proof (at_le _ _ _ _ _ x P) as Hc. cbn [cnt ccnt] in Hc. rewrite bit_same in Hc. lia.
Qed.
Lemma at_parent s mn mx c l x a r k : at_ s mn mx (T c l x a r) k -> parent x s = Ok (pid k).
Proof. intros P. by apply (parent_ok _ _ _ _ (at_cell _ _ _ _ _ _ _ _ _ P)). Qed.

(** recolour the node at the focus *)
Lemma at_color s mn mx c c' l x a r k : at_ s mn mx (T c l x a r) k ->
  exists s', set_col x c' s = Ok s' /\ at_ s' mn mx (T c' l x a r) k.
Proof.
  intros P. rewrite (set_col_ok _ _ _ _ (at_cell _ _ _ _ _ _ _ _ _ P)). eexists; split; [reflexivity|].
  pose proof P as [P1 P2 P3 P4 P5 P6]. cbn [rep] in P1. destruct P1 as (_ & Hl & Hr). split; auto.
  - cbn [rep]. split; [apply put_same|]. split.
    + apply (rep_frame s); [|done]. intros z Hz. apply put_ne. ne P z.
    + apply (rep_frame s); [|done]. intros z Hz. apply put_ne. ne P z.
  - apply (repc_frame s); [|done]. intros z Hz. apply put_ne. ne P z.
  - intros z Hz. rewrite put_ne; [auto|]. specialize (P3 z). cbn [cnt] in P3. apply ne_of_bit. lia.
Qed.
Lemma at_color_at s mn mx t k c' : at_ s mn mx t k ->
  exists s', (match id t with Some x => set_col x c' s | None => Ok s end) = Ok s' /\ at_ s' mn mx (paint c' t) k.
Proof. destruct t as [|c l x a r]; [cbn; eauto|]. cbn [id paint]. intros P. by apply (at_color _ _ _ _ c' _ _ _ _ _ P). Qed.

(** 339-359 *)
Lemma rotl_ok s mn mx c1 l x a c2 m y b r k : at_ s mn mx (T c1 l x a (T c2 m y b r)) k ->
  exists s', rotate_left H x s = Ok s' /\ at_ s' mn mx (T c2 (T c1 l x a m) y b r) k.
Proof.
  intros P. assert (forall z, bit H z + (cnt l z + bit x z + (cnt m z + bit y z + cnt r z)) + ccnt k z <= 1) as Hc
    by (intros z; exact (at_le _ _ _ _ _ z P)).
  pose proof P as [P1 P2 P3 P4 P5 P6]. cbn [rep] in P1. destruct P1 as (Hx & Hl & Hy & Hm & Hr). cbn [id] in *.
  assert (forall z, bit x z = 1 -> bit y z = 0) as Hxy by (intros z; specialize (Hc z); lia).
  assert (x <> y) as Nxy by (apply ne_of_bit; specialize (Hc y); rewrite (bit_same y) in Hc; lia).
  unfold rotate_left. rewrite (right_ok _ _ _ Hx). cbn [obind rt of_option].
  rewrite (left_ok _ _ _ Hy). cbn [obind lf]. rewrite (set_rt_ok _ _ _ _ Hx). cbn [obind col lf rt pa vl].
  set (s1 := put x _ s).
  assert (cells s1 !! y = cells s !! y) as E1 by (apply put_ne; done).
  rewrite (left_ok y s1 _ (eq_trans E1 Hy)). cbn [obind lf].
  assert (rep s1 m y) as Hm1.
  { apply (rep_frame s); [|done]. intros z Hz. apply put_ne, ne_of_bit. specialize (Hc z). lia. }
  destruct (reparent_ok s1 m y x Hm1) as (s2 & Es2 & Hm2 & M2 & O2); [intros z; specialize (Hc z); lia|].
  rewrite Es2. cbn [obind].
  assert (cells s2 !! x = Some {| col := c1; lf := id l; rt := id m; pa := Some (pid k); vl := Some a |}) as Hx2.
  { rewrite O2 by (specialize (Hc x); rewrite (bit_same x) in Hc; lia). apply put_same. }
  assert (cells s2 !! y = Some {| col := c2; lf := id m; rt := id r; pa := Some x; vl := Some b |}) as Hy2.
  { rewrite O2 by (specialize (Hc y); rewrite (bit_same y) in Hc; lia). by rewrite E1. }
  rewrite (get_ok _ _ _ Hx2). cbn [obind pa]. rewrite (set_pa_ok _ _ _ _ Hy2). cbn [obind col lf rt pa vl].
  set (s3 := put y _ s2).
  assert (cells s3 !! x = cells s2 !! x) as E3 by (apply put_ne; done).
  assert (repc s3 mn mx k (Some x)) as K3.
  { apply (repc_frame s); [|done]. intros z Hz. specialize (Hc z). unfold s3.
    rewrite put_ne by (apply ne_of_bit; lia). rewrite O2 by lia. apply put_ne, ne_of_bit. lia. }
  destruct (replace_ok s3 mn mx k x (Some y) _ K3 (eq_trans E3 Hx2) eq_refl) as (s4 & Es4 & K4 & M4 & O4);
    [intros z; specialize (Hc z); lia|].
  rewrite Es4. cbn [obind].
  assert (cells s4 !! y = Some {| col := c2; lf := id m; rt := id r; pa := Some (pid k); vl := Some b |}) as Hy4.
  { rewrite O4 by (specialize (Hc y); rewrite (bit_same y) in Hc; lia). apply put_same. }
  rewrite (set_lf_ok _ _ _ _ Hy4). cbn [obind col lf rt pa vl]. set (s5 := put y _ s4).
  assert (cells s5 !! x = Some {| col := c1; lf := id l; rt := id m; pa := Some (pid k); vl := Some a |}) as Hx5.
  { unfold s5. rewrite put_ne by done. rewrite O4 by (specialize (Hc x); rewrite (bit_same x) in Hc; lia). by rewrite E3. }
  rewrite (set_pa_ok _ _ _ _ Hx5). cbn [col lf rt pa vl]. set (s6 := put x _ s5).
  exists s6. split; [done|].
  assert (forall z, bit x z = 0 -> bit y z = 0 -> cells s6 !! z = cells s4 !! z) as O6.
  { intros z Zx Zy. unfold s6, s5. rewrite !put_ne by (by apply ne_of_bit). done. }
  assert (forall z, bit x z = 0 -> bit y z = 0 -> cells s3 !! z = cells s2 !! z) as O3.
  { intros z Zx Zy. unfold s3. rewrite !put_ne by (by apply ne_of_bit). done. }
  assert (forall z, bit x z = 0 -> cells s1 !! z = cells s !! z) as O1.
  { intros z Zx. unfold s1. rewrite !put_ne by (by apply ne_of_bit). done. }
  split; auto.
  - cbn [rep id]. split; [|split; [split; [|split]|]].
    + unfold s6. rewrite put_ne by done. apply put_same.
    + apply put_same.
    + apply (rep_frame s); [|done]. intros z Hz. specialize (Hc z). rewrite O6, O4, O3, O2, O1 by lia. done.
    + apply (rep_frame s2); [|done]. intros z Hz. specialize (Hc z). rewrite O6, O4, O3 by lia. done.
    + apply (rep_frame s); [|done]. intros z Hz. specialize (Hc z). rewrite O6, O4, O3, O2, O1 by lia. done.
  - cbn [id]. apply (repc_frame s4); [|done]. intros z Hz. specialize (Hc z). rewrite O6 by lia. done.
  - intros z. rewrite <- P3. cbn [cnt]. lia.
  - cbn [made s6 s5 put]. rewrite M4. cbn [made s3 put]. rewrite M2. done.
  - intros z Hz. pose proof (P3 z) as Pz. cbn [cnt] in Pz. rewrite O6, O4, O3, O2, O1 by lia. auto.
Qed.
(** 361-381 *)
Lemma rotr_ok s mn mx c1 l x a c2 m y b r k : at_ s mn mx (T c1 (T c2 r y b m) x a l) k ->
  exists s', rotate_right H x s = Ok s' /\ at_ s' mn mx (T c2 r y b (T c1 m x a l)) k.
Proof.
  intros P. assert (forall z, bit H z + ((cnt r z + bit y z + cnt m z) + bit x z + cnt l z) + ccnt k z <= 1) as Hc
    by (intros z; exact (at_le _ _ _ _ _ z P)).
  pose proof P as [P1 P2 P3 P4 P5 P6]. cbn [rep] in P1. destruct P1 as (Hx & (Hy & Hr & Hm) & Hl). cbn [id] in *.
  assert (x <> y) as Nxy by (apply ne_of_bit; specialize (Hc y); rewrite (bit_same y) in Hc; lia).
  unfold rotate_right. rewrite (left_ok _ _ _ Hx). cbn [obind lf of_option].
  rewrite (right_ok _ _ _ Hy). cbn [obind rt]. rewrite (set_lf_ok _ _ _ _ Hx). cbn [obind col lf rt pa vl].
  set (s1 := put x _ s).
  assert (cells s1 !! y = cells s !! y) as E1 by (apply put_ne; done).
  rewrite (right_ok y s1 _ (eq_trans E1 Hy)). cbn [obind rt].
  assert (rep s1 m y) as Hm1.
  { apply (rep_frame s); [|done]. intros z Hz. apply put_ne, ne_of_bit. specialize (Hc z). lia. }
  destruct (reparent_ok s1 m y x Hm1) as (s2 & Es2 & Hm2 & M2 & O2); [intros z; specialize (Hc z); lia|].
  rewrite Es2. cbn [obind].
  assert (cells s2 !! x = Some {| col := c1; lf := id m; rt := id l; pa := Some (pid k); vl := Some a |}) as Hx2.
  { rewrite O2 by (specialize (Hc x); rewrite (bit_same x) in Hc; lia). apply put_same. }
  assert (cells s2 !! y = Some {| col := c2; lf := id r; rt := id m; pa := Some x; vl := Some b |}) as Hy2.
  { rewrite O2 by (specialize (Hc y); rewrite (bit_same y) in Hc; lia). by rewrite E1. }
  rewrite (get_ok _ _ _ Hx2). cbn [obind pa]. rewrite (set_pa_ok _ _ _ _ Hy2). cbn [obind col lf rt pa vl].
  set (s3 := put y _ s2).
  assert (cells s3 !! x = cells s2 !! x) as E3 by (apply put_ne; done).
  assert (repc s3 mn mx k (Some x)) as K3.
  { apply (repc_frame s); [|done]. intros z Hz. specialize (Hc z). unfold s3.
    rewrite put_ne by (apply ne_of_bit; lia). rewrite O2 by lia. apply put_ne, ne_of_bit. lia. }
  destruct (replace_ok s3 mn mx k x (Some y) _ K3 (eq_trans E3 Hx2) eq_refl) as (s4 & Es4 & K4 & M4 & O4);
    [intros z; specialize (Hc z); lia|].
  rewrite Es4. cbn [obind].
  assert (cells s4 !! y = Some {| col := c2; lf := id r; rt := id m; pa := Some (pid k); vl := Some b |}) as Hy4.
  { rewrite O4 by (specialize (Hc y); rewrite (bit_same y) in Hc; lia). apply put_same. }
  assert (cells s4 !! x = Some {| col := c1; lf := id m; rt := id l; pa := Some (pid k); vl := Some a |}) as Hx4.
  { rewrite O4 by (specialize (Hc x); rewrite (bit_same x) in Hc; lia). by rewrite E3. }
  rewrite (set_pa_ok _ _ _ _ Hx4). cbn [obind col lf rt pa vl]. set (s5 := put x _ s4).
  assert (cells s5 !! y = cells s4 !! y) as E5 by (apply put_ne; done).
  rewrite (set_rt_ok _ _ _ _ (eq_trans E5 Hy4)). cbn [col lf rt pa vl]. set (s6 := put y _ s5).
  exists s6. split; [done|].
  assert (forall z, bit x z = 0 -> bit y z = 0 -> cells s6 !! z = cells s4 !! z) as O6.
  { intros z Zx Zy. unfold s6, s5. rewrite !put_ne by (by apply ne_of_bit). done. }
  assert (forall z, bit x z = 0 -> bit y z = 0 -> cells s3 !! z = cells s2 !! z) as O3.
  { intros z Zx Zy. unfold s3. rewrite !put_ne by (by apply ne_of_bit). done. }
  assert (forall z, bit x z = 0 -> cells s1 !! z = cells s !! z) as O1.
  { intros z Zx. unfold s1. rewrite !put_ne by (by apply ne_of_bit). done. }
  split; auto.
  - cbn [rep id]. split; [|split; [|split; [|split]]].
    + apply put_same.
    + apply (rep_frame s); [|done]. intros z Hz. specialize (Hc z). rewrite O6, O4, O3, O2, O1 by lia. done.
    + unfold s6. rewrite put_ne by done. apply put_same.
    + apply (rep_frame s2); [|done]. intros z Hz. specialize (Hc z). rewrite O6, O4, O3 by lia. done.
    + apply (rep_frame s); [|done]. intros z Hz. specialize (Hc z). rewrite O6, O4, O3, O2, O1 by lia. done.
  - cbn [id]. apply (repc_frame s4); [|done]. intros z Hz. specialize (Hc z). rewrite O6 by lia. done.
  - intros z. rewrite <- P3. cbn [cnt]. lia.
  - cbn [made s6 s5 put]. rewrite M4. cbn [made s3 put]. rewrite M2. done.
  - intros z Hz. pose proof (P3 z) as Pz. cbn [cnt] in Pz. rewrite O6, O4, O3, O2, O1 by lia. auto.
Qed.
End at_lemmas.
End heap.
