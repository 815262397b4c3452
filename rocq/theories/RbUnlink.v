(** Walking to the ends of a subtree, and taking a node out of the tree (rb_tree.hpp:432-480). *)
From stdpp Require Import gmap list.
From Coq Require Import Lia ZifyBool ZifyNat ZifyN.
From Verif Require Import Base RbModel RbPure RbHeap RbInsert RbErase.
Local Open Scope outcome_scope.

Definition first {A} (d : loc) (l : list (loc * A)) : loc := match l with [] => d | (x, _) :: _ => x end.
Definition final {A} (d : loc) (l : list (loc * A)) : loc := match last l with None => d | Some (x, _) => x end.
Lemma final_snoc {A} d (l : list (loc * A)) x a : final d (l ++ [(x, a)]) = x.
Proof. unfold final. by rewrite last_snoc. Qed.
Lemma final_app {A} d (l l' : list (loc * A)) : l' <> [] -> final d (l ++ l') = final d l'.
Proof.
  intros Hl. destruct (exists_last Hl) as (i & [x a] & ->). by rewrite app_assoc, !final_snoc.
Qed.
Lemma final_cons {A} d x a (l : list (loc * A)) : final d ((x, a) :: l) = final x l.
Proof.
  destruct l as [|y l] using rev_ind; [done|]. destruct y as [y b]. by rewrite app_comm_cons, !final_snoc.
Qed.

Section unlink.
Context {A : Type} (H : loc).
Notation tr := (tr A).
Notation ctx := (list (fr A)).
Notation heap := (heap A).
Implicit Types (s : heap) (t : tr) (k : ctx).

Lemma tree_min_ok s : forall fuel c l x a r p d, rep s (T c l x a r) p -> length (elems (T c l x a r)) <= fuel ->
  tree_min fuel x s = Ok (first d (elems (T c l x a r))).
Proof.
  induction fuel as [|fuel IH]; intros c l x a r p d R Hf.
  { cbn in Hf. rewrite app_length in Hf. cbn in Hf. lia. }
  cbn [rep] in R. destruct R as (Hx & Rl & Rr). cbn [tree_min]. rewrite (left_ok _ _ _ Hx). cbn [obind lf].
  destruct l as [|c' l' y b r']; cbn [id]; [done|].
  cbn [elems] in Hf. rewrite app_length in Hf. cbn [length] in Hf.
  rewrite (IH _ _ _ _ _ _ d Rl) by (cbn [elems]; lia). cbn [elems].
  destruct (elems l' ++ (y, b) :: elems r') as [|[z c0] q] eqn:E; [by destruct (elems l')|]. done.
Qed.
Lemma tree_max_ok s : forall fuel c l x a r p d, rep s (T c l x a r) p -> length (elems (T c l x a r)) <= fuel ->
  tree_max fuel x s = Ok (final d (elems (T c l x a r))).
Proof.
  induction fuel as [|fuel IH]; intros c l x a r p d R Hf.
  { cbn in Hf. rewrite app_length in Hf. cbn in Hf. lia. }
  cbn [rep] in R. destruct R as (Hx & Rl & Rr). cbn [tree_max]. rewrite (right_ok _ _ _ Hx). cbn [obind rt].
  destruct r as [|c' l' y b r']; cbn [id].
  - cbn [elems]. by rewrite final_snoc.
  - cbn [elems] in Hf. rewrite app_length in Hf. cbn [length] in Hf.
    rewrite (IH _ _ _ _ _ _ d Rr) by (cbn [elems]; lia). cbn [elems].
    rewrite (final_app d (elems l) (_ :: _)) by done. rewrite final_cons.
    destruct (exists_last (l := elems l' ++ (y, b) :: elems r')) as (i & [z q] & ->); [by destruct (elems l')|].
    by rewrite !final_snoc.
Qed.

Lemma unmin_plug t k : plug (fst (unmin t k)) (snd (unmin t k)) = plug t k.
Proof.
  revert k. induction t as [|c l IH x a r _]; intros k; [done|]. cbn [unmin]. destruct l as [|c' l' y b r']; [done|].
  rewrite IH. done.
Qed.
Lemma unmin_shape t k : t <> E -> exists c y a r, fst (unmin t k) = T c E y a r.
Proof.
  revert k. induction t as [|c l IH x a r _]; intros k Ht; [done|]. cbn [unmin].
  destruct l as [|c' l' y b r']; [cbn; eauto|]. by apply IH.
Qed.
Lemma unmin_ctx t k : exists k', snd (unmin t k) = k' ++ k /\ before k' = [].
Proof.
  revert k. induction t as [|c l IH x a r _]; intros k; [by exists []|]. cbn [unmin].
  destruct l as [|c' l' y b r']; [by exists []|].
  destruct (IH (FL c x a r :: k)) as (k' & E & B). exists (k' ++ [FL c x a r]).
  rewrite E, <- app_assoc. split; [done|]. rewrite before_app. cbn. done.
Qed.

(** a context inside the tree, under [p] *)
Definition hp (k : ctx) (p : loc) : loc := match k with [] => p | f :: _ => floc f end.
Fixpoint crep s k (p : loc) (h : option loc) : Prop :=
  match k with
  | [] => True
  | FL c x a r :: k =>
      cells s !! x = Some {| col := c; lf := h; rt := id r; pa := Some (hp k p); vl := Some a |} /\
      rep s r x /\ crep s k p (Some x)
  | FR c l x a :: k =>
      cells s !! x = Some {| col := c; lf := id l; rt := h; pa := Some (hp k p); vl := Some a |} /\
      rep s l x /\ crep s k p (Some x)
  end.
Lemma rep_plug s k : forall t p, rep s (plug t k) p <-> rep s t (hp k p) /\ crep s k p (id t).
Proof.
  induction k as [|[c x a r|c l x a] k IH]; intros t p; cbn [plug fill crep hp floc]; [tauto| |];
    rewrite IH; cbn [rep id]; tauto.
Qed.
Lemma crep_frame s s' k p h : (forall l, 0 < ccnt k l -> cells s' !! l = cells s !! l) -> crep s k p h -> crep s' k p h.
Proof.
  revert h. induction k as [|[c x a r|c l x a] k IH]; intros h Hf; cbn [crep ccnt] in *; [done| |].
  - intros (Hx & Hl & Hr). split; [|split].
    + rewrite Hf; [done|]. rewrite (bit_same x). lia.
    + apply (rep_frame s); [|done]. intros z Hz. apply Hf. lia.
    + apply IH; [|done]. intros z Hz. apply Hf. lia.
  - intros (Hx & Hl & Hr). split; [|split].
    + rewrite Hf; [done|]. rewrite (bit_same x). lia.
    + apply (rep_frame s); [|done]. intros z Hz. apply Hf. lia.
    + apply IH; [|done]. intros z Hz. apply Hf. lia.
Qed.
Lemma id_plug_any (u v : tr) k : id (plug u k) = match k with [] => id u | _ => id (plug v k) end.
Proof. destruct k as [|f k]; [done|]. rewrite <- !top_plug. done. Qed.


(** 442-452: [y] leaves its place in the right subtree and gets the rest of it as its right child *)
Lemma take_min s z y cy ay (ly : option loc) ry kr r py : 
  crep s kr z (Some y) -> rep s ry y ->
  cells s !! y = Some {| col := cy; lf := ly; rt := id ry; pa := py; vl := Some ay |} ->
  py = Some (hp kr z) ->
  before kr = [] -> id (plug (T cy E y ay ry) kr) = Some r ->
  (forall q, bit y q + cnt ry q + ccnt kr q <= 1) ->
  exists s' py',
    (if bool_decide (y = r) then Ok (y, s)
     else
       yp <~ parent y s ;
       s <~ match id ry with Some x => set_pa x (Some yp) s | None => Ok s end ;
       s <~ set_lf yp (id ry) s ;
       s <~ set_rt y (Some r) s ;
       s <~ set_pa r (Some y) s ;
       Ok (yp, s)) = Ok (hp kr y, s') /\
    rep s' (plug ry kr) y /\
    cells s' !! y = Some {| col := cy; lf := ly; rt := id (plug ry kr); pa := py'; vl := Some ay |} /\
    made s' = made s /\
    forall q, bit y q + cnt ry q + ccnt kr q = 0 -> cells s' !! q = cells s !! q.
Proof.
  intros K R Y Ep B I Hc. destruct kr as [|f kr].
  - cbn [plug id] in I. injection I as <-. rewrite bool_decide_eq_true_2 by done. cbn [plug hp]. eauto 10.
  - rewrite bool_decide_eq_false_2; cycle 1.
    { intros ->. assert (f :: kr <> []) as Hn by done. pose proof (id_plug _ _ _ I Hn). specialize (Hc r). rewrite bit_same in Hc. lia. }
    destruct f as [c0 p0 a0 r0|c0 l0 p0 a0]; cycle 1.
    { cbn [before] in B. apply app_eq_nil in B as [_ B]. by apply app_eq_nil in B as [_ B]. }
    cbn [hp floc] in *. subst py. rewrite (parent_ok _ _ _ _ Y eq_refl). cbn [obind].
    cbn [crep ccnt] in *. destruct K as (Kp & Kr & K).
    destruct (reparent_ok s ry y p0 R) as (s1 & E1 & R1 & M1 & O1); [intros q; specialize (Hc q); lia|].
    rewrite E1. cbn [obind].
    assert (cells s1 !! p0 = cells s !! p0) as Ep0 by (apply O1; specialize (Hc p0); rewrite (bit_same p0) in Hc; lia).
    rewrite Ep0 in Kp || rewrite <- Ep0 in Kp. rewrite (set_lf_ok _ _ _ _ Kp). cbn [obind col lf rt pa vl].
    set (s2 := put p0 _ s1).
    assert (y <> p0) as Nyp by (apply ne_of_bit; specialize (Hc p0); rewrite (bit_same p0) in Hc; lia).
    assert (cells s2 !! y = cells s !! y) as E2.
    { unfold s2. rewrite put_ne by done. apply O1. specialize (Hc y). rewrite (bit_same y) in Hc. lia. }
    rewrite <- E2 in Y. rewrite (set_rt_ok _ _ _ _ Y). cbn [obind col lf rt pa vl]. set (s3 := put y _ s2).
    assert (rep s3 (plug ry (FL c0 p0 a0 r0 :: kr)) z) as R3.
    { apply rep_plug. cbn [hp floc crep]. split; [|split; [|split]].
      - apply (rep_frame s1); [|done]. intros q Hq. specialize (Hc q). unfold s3, s2.
        rewrite !put_ne by (apply ne_of_bit; lia). done.
      - unfold s3. rewrite put_ne by done. apply put_same.
      - apply (rep_frame s); [|done]. intros q Hq. specialize (Hc q). unfold s3, s2.
        rewrite !put_ne by (apply ne_of_bit; lia). apply O1. lia.
      - apply (crep_frame s); [|done]. intros q Hq. specialize (Hc q). unfold s3, s2.
        rewrite !put_ne by (apply ne_of_bit; lia). apply O1. lia. }
    destruct (reparent_ok s3 _ z y R3) as (s4 & E4 & R4 & M4 & O4).
    { intros q. rewrite cnt_plug. cbn [ccnt]. specialize (Hc q). lia. }
    assert (id (plug ry (FL c0 p0 a0 r0 :: kr)) = Some r) as I'.
    { rewrite (id_plug_any _ (T cy E y ay ry)). exact I. }
    rewrite I' in E4. rewrite E4. cbn [obind]. exists s4. eexists. split; [done|]. split; [done|]. split; [|split].
    + rewrite O4; [rewrite I'; apply put_same|]. rewrite cnt_plug. cbn [ccnt]. specialize (Hc y). rewrite (bit_same y) in Hc. lia.
    + rewrite M4. unfold s3, s2. cbn [put made]. done.
    + intros q Hq. rewrite O4 by (rewrite cnt_plug; cbn [ccnt]; lia). unfold s3, s2.
      rewrite !put_ne by (apply ne_of_bit; lia). apply O1. lia.
Qed.

(** a tree held by the heap: the frame is the heap itself *)
Notation here F s := (At H F s s).
Lemma at_here F s0 s mn mx t k : At H F s0 s mn mx t k -> here F s mn mx t k.
Proof. intros [P1 P2 P3 P4 P5 P6]. by split. Qed.

Lemma unlink_two fuel F s mn mx c cl ll x0 a0 lr z az r k cy y ay ry kr :
  let l := T cl ll x0 a0 lr in
  here F s mn mx (T c l z az r) k -> r = plug (T cy E y ay ry) kr -> before kr = [] ->
  length (elems r) <= fuel ->
  exists s', erase_unlink fuel H z s = Ok (id ry, hp kr y, cy, s') /\
    here (fun q => F q - bit z q) s' mn mx (T c l y ay (plug ry kr)) k /\
    made s' = made s /\ is_Some (cells s' !! z) /\ forall q, F q = 0 -> cells s' !! q = cells s !! q.
Proof.
  intros l P Er B Hf. assert (forall q, bit H q + (cnt l q + bit z q + (cnt ry q + bit y q + ccnt kr q)) + ccnt k q <= 1) as Hc.
  { intros q. pose proof (at_le _ _ _ _ _ _ q P) as X. cbn [cnt] in X. subst r. rewrite cnt_plug in X. cbn [cnt] in X. lia. }
  pose proof P as [P1 P2 P3 P4 P5 P6]. cbn [rep] in P1. destruct P1 as (Hz & Hl & Hr). fold l in Hl.
  assert (id r <> None) as Hir by (subst r; intros E; by apply id_plug_none in E as [_ E]).
  destruct r as [|cr lr' xr ar rr]; [done|]. cbn [id] in *.
  unfold erase_unlink. rewrite (left_ok _ _ _ Hz), (right_ok _ _ _ Hz). cbn [obind lf rt id l].
  unfold tree_next. rewrite (right_ok _ _ _ Hz). cbn [obind rt].
  rewrite (tree_min_ok _ _ _ _ _ _ _ _ H Hr Hf). cbn [obind].
  assert (first H (elems (T cr lr' xr ar rr)) = y) as ->.
  { rewrite Er, elems_plug, B. done. }
  pose proof Hr as Hr'. rewrite Er in Hr'. apply rep_plug in Hr' as [Ry Kr]. cbn [rep id] in Ry, Kr.
  destruct Ry as (Hy & _ & Rry).
  rewrite (left_ok _ _ _ Hy), (right_ok _ _ _ Hy). cbn [obind lf rt].
  assert (y <> z) as Nyz by (apply ne_of_bit; specialize (Hc z); rewrite (bit_same z) in Hc; lia).
  rewrite bool_decide_eq_false_2 by done.
  destruct (reparent_ok s l z y Hl) as (s1 & E1 & R1 & M1 & O1); [intros q; specialize (Hc q); lia|].
  cbn [id l] in E1. rewrite E1. cbn [obind].
  assert (cells s1 !! y = cells s !! y) as Ey by (apply O1; specialize (Hc y); rewrite (bit_same y) in Hc; lia).
  rewrite <- Ey in Hy. rewrite (set_lf_ok _ _ _ _ Hy). cbn [obind col lf rt pa vl]. set (s2 := put y _ s1).
  assert (crep s2 kr z (Some y)) as K2.
  { apply (crep_frame s); [|done]. intros q Hq. specialize (Hc q). unfold s2.
    rewrite !put_ne by (apply ne_of_bit; lia). apply O1. lia. }
  assert (rep s2 ry y) as Ry2.
  { apply (rep_frame s); [|done]. intros q Hq. specialize (Hc q). unfold s2.
    rewrite !put_ne by (apply ne_of_bit; lia). apply O1. lia. }
  destruct (take_min s2 z y cy ay (Some x0) ry kr xr (Some (hp kr z)) K2 Ry2 (put_same _ _ _) eq_refl B)
    as (s3 & py & E3 & R3 & Y3 & M3 & O3).
  { by rewrite <- Er. } { intros q. specialize (Hc q). lia. }
  replace (match id ry with Some _ => id ry | None => id ry end) with (id ry) in * by (by destruct (id ry)).
  cbn [id] in E3 |- *. rewrite E3. cbn [obind].
  assert (forall q, cnt l q + bit y q + cnt ry q + ccnt kr q = 0 -> cells s3 !! q = cells s !! q) as O03.
  { intros q Hq. rewrite O3 by lia. unfold s2. rewrite put_ne by (apply ne_of_bit; lia). apply O1. lia. }
  assert (cells s3 !! z = cells s !! z) as Ez3 by (apply O03; specialize (Hc z); rewrite (bit_same z) in Hc; lia).
  assert (repc H s3 mn mx k (Some z)) as Kk.
  { apply (repc_frame H s); [|done]. intros q Hq. specialize (Hc q). apply O03. lia. }
  destruct (replace_ok H s3 mn mx k z (Some y) _ Kk (eq_trans Ez3 Hz) eq_refl) as (s4 & E4 & K4 & M4 & O4);
    [intros q; specialize (Hc q); lia|].
  rewrite E4. cbn [obind].
  assert (cells s4 !! z = cells s !! z) as Ez4
    by (rewrite O4 by (specialize (Hc z); rewrite (bit_same z) in Hc; lia); exact Ez3).
  assert (cells s4 !! y = cells s3 !! y) as Ey4
    by (rewrite O4 by (specialize (Hc y); rewrite (bit_same y) in Hc; lia); done).
  rewrite <- Ey4 in Y3. rewrite <- Ez4 in Hz.
  rewrite (get_ok _ _ _ Hz). cbn [obind pa]. rewrite (set_pa_ok _ _ _ _ Y3). cbn [obind col lf rt pa vl].
  set (s5 := put y _ s4). rewrite (get_ok y s5 _ (put_same _ _ _)). cbn [obind].
  assert (cells s5 !! z = cells s4 !! z) as Ez5 by (by apply put_ne).
  rewrite <- Ez5 in Hz. rewrite (get_ok z s5 _ Hz). cbn [obind col].
  rewrite (set_col_ok y c s5 _ (put_same _ _ _)). cbn [obind col lf rt pa vl]. set (s6 := put y _ s5).
  assert (cells s6 !! z = cells s5 !! z) as Ez6 by (by apply put_ne).
  rewrite <- Ez6 in Hz. rewrite (set_col_ok z cy s6 _ Hz). cbn [obind col lf rt pa vl]. set (s7 := put z _ s6).
  assert (forall q, bit y q = 0 -> bit z q = 0 -> cells s7 !! q = cells s4 !! q) as O7.
  { intros q Qy Qz. unfold s7, s6, s5. rewrite !put_ne by (by apply ne_of_bit). done. }
  exists s7. split; [done|]. split; [split|].
  - cbn [rep]. split; [|split].
    + unfold s7, s6. rewrite put_ne by done. apply put_same.
    + apply (rep_frame s1); [|done]. intros q Hq. specialize (Hc q). rewrite O7, O4, O3 by lia. unfold s2.
      by rewrite put_ne by (apply ne_of_bit; lia).
    + apply (rep_frame s3); [|done]. intros q Hq. rewrite cnt_plug in Hq. specialize (Hc q). rewrite O7, O4 by lia. done.
  - cbn [id]. apply (repc_frame H s4); [|done]. intros q Hq. specialize (Hc q). rewrite O7 by lia. done.
  - intros q. rewrite <- P3, Er. cbn [cnt]. rewrite !cnt_plug. cbn [cnt]. lia.
  - intros q. pose proof (P4 q). lia.
  - done.
  - done.
  - split; [|split].
    + unfold s7, s6, s5. cbn [put made]. rewrite M4, M3. unfold s2. cbn [put made]. done.
    + unfold s7. rewrite put_same. eauto.
    + intros q Hq. rewrite <- P3, Er in Hq. cbn [cnt] in Hq. rewrite cnt_plug in Hq. cbn [cnt] in Hq. 
      rewrite O7, O4 by lia. apply O03. lia.
Qed.

Lemma ccnt_before k w a : (w, a) ∈ before k -> 0 < ccnt k w.
Proof.
  induction k as [|[c x b r|c l x b] k IH]; cbn [before ccnt].
  - intros X. by apply elem_of_nil in X.
  - intros X. apply IH in X. lia.
  - rewrite !elem_of_app, elem_of_list_singleton. intros [X|[X|X]].
    + apply IH in X. lia.
    + assert (0 < cnt l w) by (apply cnt_elems; eauto). lia.
    + injection X as -> ->. rewrite bit_same. lia.
Qed.
Lemma ccnt_after k w a : (w, a) ∈ after k -> 0 < ccnt k w.
Proof.
  induction k as [|[c x b r|c l x b] k IH]; cbn [after ccnt].
  - intros X. by apply elem_of_nil in X.
  - rewrite elem_of_cons, !elem_of_app. intros [X|[X|X]].
    + injection X as -> ->. rewrite bit_same. lia.
    + assert (0 < cnt r w) by (apply cnt_elems; eauto). lia.
    + apply IH in X. lia.
  - intros X. apply IH in X. lia.
Qed.
Lemma pid_first k : before k = [] -> pid H k = first H (after k).
Proof.
  destruct k as [|[c x b r|c l x b] k]; cbn [before after pid floc]; [done|done|].
  intros X. apply app_eq_nil in X as [_ X]. by apply app_eq_nil in X as [_ X].
Qed.
Lemma pid_final k : after k = [] -> pid H k = final H (before k).
Proof.
  destruct k as [|[c x b r|c l x b] k]; cbn [before after pid floc]; [done|done|].
  intros _. by rewrite app_assoc, final_snoc.
Qed.
Lemma first_in d (l : list (loc * A)) : l <> [] -> exists a, (first d l, a) ∈ l.
Proof. destruct l as [|[x a] l]; [done|]. exists a. cbn [first]. left. Qed.
Lemma final_in d (l : list (loc * A)) : l <> [] -> exists a, (final d l, a) ∈ l.
Proof.
  intros Hl. destruct (exists_last Hl) as (i & [x a] & ->). exists a. rewrite final_snoc, elem_of_app. right. left.
Qed.
Lemma first_app d (l l' : list (loc * A)) : l <> [] -> first d (l ++ l') = first d l.
Proof. by destruct l. Qed.

Lemma repc_head s mn mx mn' mx' k h : repc H s mn mx k h -> (forall q, bit H q + ccnt k q <= 1) ->
  repc H (put H {| col := Red; lf := mn'; rt := mx'; pa := top k h; vl := None |} s) mn' mx' k h.
Proof.
  intros K Hc. revert h K. 
  assert (forall h g, repc H s mn mx k h -> top k h = g ->
    repc H (put H {| col := Red; lf := mn'; rt := mx'; pa := g; vl := None |} s) mn' mx' k h) as X; [|eauto].
  induction k as [|[c x a r|c l x a] k IH]; intros h g; cbn [repc top ccnt floc] in *.
  - intros _ ->. apply put_same.
  - intros (Hx & Hr & K) Hg. split; [|split].
    + rewrite put_ne; [done|]. apply ne_of_bit. specialize (Hc x). rewrite (bit_same x) in Hc. lia.
    + apply (rep_frame s); [|done]. intros q Hq. apply put_ne, ne_of_bit. specialize (Hc q). lia.
    + apply IH; [|done|done]. intros q. specialize (Hc q). lia.
  - intros (Hx & Hr & K) Hg. split; [|split].
    + rewrite put_ne; [done|]. apply ne_of_bit. specialize (Hc x). rewrite (bit_same x) in Hc. lia.
    + apply (rep_frame s); [|done]. intros q Hq. apply put_ne, ne_of_bit. specialize (Hc q). lia.
    + apply IH; [|done|done]. intros q. specialize (Hc q). lia.
Qed.

Definition least t : option loc := Some (first H (elems t)).
Definition most t : option loc := Some (final H (elems t)).

Lemma least_here F s c l z az r k : here F s (least (plug (T c l z az r) k)) (most (plug (T c l z az r) k)) (T c l z az r) k ->
  least (plug (T c l z az r) k) = Some z <-> before k = [] /\ l = E.
Proof.
  intros P. unfold least. rewrite elems_plug. cbn [elems]. split.
  - intros E. injection E as E. destruct (decide (before k ++ elems l = [])) as [Hn|Hn].
    { apply app_eq_nil in Hn as [? Hn]. split; [done|]. destruct l; [done|]. cbn in Hn. by destruct (elems l1). }
    exfalso. rewrite <- app_assoc, app_assoc in E. rewrite (first_app _ _ _ Hn) in E.
    destruct (first_in H _ Hn) as [a Ha]. rewrite E in Ha. pose proof (at_le _ _ _ _ _ _ z P) as Hc. cbn [cnt] in Hc.
    rewrite bit_same in Hc. apply elem_of_app in Ha as [Ha|Ha]; [apply ccnt_before in Ha; lia|].
    assert (0 < cnt l z) by (apply cnt_elems; eauto). lia.
  - intros [-> ->]. done.
Qed.
Lemma most_here F s c l z az r k : here F s (least (plug (T c l z az r) k)) (most (plug (T c l z az r) k)) (T c l z az r) k ->
  most (plug (T c l z az r) k) = Some z <-> after k = [] /\ r = E.
Proof.
  intros P. unfold most. rewrite elems_plug. cbn [elems]. split.
  - intros E. injection E as E. destruct (decide (elems r ++ after k = [])) as [Hn|Hn].
    { apply app_eq_nil in Hn as [Hn ?]. split; [done|]. destruct r; [done|]. cbn in Hn. by destruct (elems r1). }
    exfalso. rewrite <- app_assoc in E. cbn [app] in E. rewrite (final_app _ (before k)) in E by (by destruct (elems l)).
    rewrite (final_app _ (elems l)) in E by done. rewrite final_cons in E.
    destruct (final_in z _ Hn) as [a Ha]. rewrite E in Ha. pose proof (at_le _ _ _ _ _ _ z P) as Hc. cbn [cnt] in Hc.
    rewrite bit_same in Hc. apply elem_of_app in Ha as [Ha|Ha]; [|apply ccnt_after in Ha; lia].
    assert (0 < cnt r z) by (apply cnt_elems; eauto). lia.
  - intros [-> ->]. cbn [elems]. rewrite app_nil_r, app_assoc, final_snoc. done.
Qed.

Lemma unlink_one fuel F s c l z az r k :
  let t := T c l z az r in
  let x := match l with E => r | _ => l end in
  here F s (least (plug t k)) (most (plug t k)) t k -> l = E \/ r = E ->
  length (elems t) <= fuel ->
  exists s', erase_unlink fuel H z s = Ok (id x, pid H k, c, s') /\
    here (fun q => F q - bit z q) s' (least (plug x k)) (most (plug x k)) x k /\
    made s' = made s /\ is_Some (cells s' !! z) /\ forall q, F q = 0 -> cells s' !! q = cells s !! q.
Proof.
  intros t x P Hlr Hf. 
  assert (forall q, bit H q + (bit z q + cnt x q) + ccnt k q <= 1) as Hc.
  { intros q. pose proof (at_le _ _ _ _ _ _ q P) as X. subst t x. cbn [cnt] in X. destruct l; destruct Hlr; subst; cbn [cnt] in *; try done; lia. }
  assert (forall q, F q = bit H q + (bit z q + cnt x q) + ccnt k q) as HF.
  { intros q. rewrite <- (at_cnt _ _ _ _ _ _ _ _ P). subst t x. destruct l; destruct Hlr; subst; cbn [cnt] in *; try done; lia. }
  assert (length (elems x) <= fuel) as Hfx.
  { subst t x. cbn [elems] in Hf. rewrite app_length in Hf. cbn [length] in Hf. destruct l; lia. }
  assert (elems t = elems l ++ (z, az) :: elems r) as Et by done.
  pose proof (least_here _ _ _ _ _ _ _ _ P) as HL. pose proof (most_here _ _ _ _ _ _ _ _ P) as HM.
  pose proof P as [P1 P2 P3 P4 P5 P6]. cbn [rep t] in P1. destruct P1 as (Hz & Hl & Hr).
  assert (rep s x z) as Rx by (subst x; by destruct l). 
  unfold erase_unlink. rewrite (left_ok _ _ _ Hz), (right_ok _ _ _ Hz). cbn [obind lf rt].
  assert (exists e, e = match id l with Some _ => id l | None => id r end /\ e = id x) as (e & He & Hx) by
    (eexists; split; [reflexivity|]; subst x; by destruct l).
  match goal with |- exists s', ?f = _ /\ _ => 
    replace f with (
      xp <~ parent z s ;
      s <~ match id x with Some x => set_pa x (Some xp) s | None => Ok s end ;
      s <~ replace H z (id x) s ;
      h <~ get H s ;
      s <~ (if bool_decide (lf h = Some z) then
              m <~ match id x with None => Ok xp | Some x => tree_min fuel x s end ; set_lf H (Some m) s
            else Ok s) ;
      h <~ get H s ;
      s <~ (if bool_decide (rt h = Some z) then
              m <~ match id x with None => Ok xp | Some x => tree_max fuel x s end ; set_rt H (Some m) s
            else Ok s) ;
      nz <~ get z s ;
      Ok (id x, xp, col nz, s)) end; cycle 1.
  { rewrite <- Hx, He. destruct Hlr as [-> | ->]; cbn [id]; [done|]. by destruct l. }
  rewrite (parent_ok _ _ _ _ Hz eq_refl). cbn [obind].
  destruct (reparent_ok s x z (pid H k) Rx) as (s1 & E1 & R1 & M1 & O1); [intros q; specialize (Hc q); lia|].
  rewrite E1. cbn [obind].
  assert (cells s1 !! z = cells s !! z) as Ez1 by (apply O1; specialize (Hc z); rewrite (bit_same z) in Hc; lia).
  assert (repc H s1 (least (plug t k)) (most (plug t k)) k (Some z)) as K1.
  { apply (repc_frame H s); [|done]. intros q Hq. apply O1. specialize (Hc q). lia. }
  destruct (replace_ok H s1 _ _ k z (id x) _ K1 (eq_trans Ez1 Hz) eq_refl) as (s2 & E2 & K2 & M2 & O2);
    [intros q; specialize (Hc q); lia|].
  rewrite E2. cbn [obind].
  assert (cells s2 !! z = cells s !! z) as Ez2
    by (rewrite O2 by (specialize (Hc z); rewrite (bit_same z) in Hc; lia); exact Ez1).
  assert (rep s2 x (pid H k)) as R2.
  { apply (rep_frame s1); [|done]. intros q Hq. apply O2. specialize (Hc q). lia. }
  pose proof (repc_top _ _ _ _ _ _ K2) as C2.
  rewrite (get_ok _ _ _ C2). cbn [obind lf].
  assert (forall q, bit H q + ccnt k q <= 1) as Hk by (intros q; specialize (Hc q); lia).
  assert (H <> z) as NHz by (apply ne_of_bit; specialize (Hc z); rewrite (bit_same z) in Hc; lia).
  (* 475-476 *)
  assert (exists s3, (if bool_decide (least (plug t k) = Some z) then
              m <~ match id x with None => Ok (pid H k) | Some x => tree_min fuel x s2 end ; set_lf H (Some m) s2
            else Ok s2) = Ok s3 /\ repc H s3 (least (plug x k)) (most (plug t k)) k (id x) /\ made s3 = made s2 /\
            forall q, q <> H -> cells s3 !! q = cells s2 !! q) as (s3 & E3 & K3 & M3 & O3).
  { case_bool_decide as Hd.
    - apply HL in Hd as [HB ->]. cbn [x] in *.
      assert (match id x with None => Ok (pid H k) | Some x => tree_min fuel x s2 end = Ok (first H (elems (plug x k)))) as Em.
      { rewrite elems_plug, HB. cbn [app]. subst x. destruct r as [|c' l' y b r']; cbn [id].
        - cbn. by rewrite pid_first.
        - rewrite (tree_min_ok _ _ _ _ _ _ _ _ H R2) by lia. rewrite first_app; [done|]. cbn. by destruct (elems l'). }
      subst x. rewrite Em. cbn [obind]. rewrite (set_lf_ok _ _ _ _ C2). cbn [col lf rt pa vl].
      eexists. split; [reflexivity|]. split; [by eapply repc_head|]. split; [done|].
      intros q Hq. by apply put_ne.
    - exists s2. split; [done|]. split; [|done]. 
      replace (least (plug x k)) with (least (plug t k)); [done|].
      unfold least. rewrite !elems_plug, Et. f_equal. subst x.
      destruct (before k) as [|[w ?] ?] eqn:EB; [|done]. destruct l as [|c' l' y b r']; [by destruct Hd; apply HL|].
      cbn [app]. rewrite <- app_assoc, !(first_app _ (elems (T _ _ _ _ _))); [done| |]; cbn; by destruct (elems l'). }
  rewrite E3. cbn [obind].
  pose proof (repc_top _ _ _ _ _ _ K3) as C3. rewrite (get_ok _ _ _ C3). cbn [obind rt].
  assert (rep s3 x (pid H k)) as R3.
  { apply (rep_frame s2); [|done]. intros q Hq. apply O3. apply not_eq_sym, ne_of_bit. specialize (Hc q). lia. }
  assert (exists s4, (if bool_decide (most (plug t k) = Some z) then
              m <~ match id x with None => Ok (pid H k) | Some x => tree_max fuel x s3 end ; set_rt H (Some m) s3
            else Ok s3) = Ok s4 /\ repc H s4 (least (plug x k)) (most (plug x k)) k (id x) /\ made s4 = made s3 /\
            forall q, q <> H -> cells s4 !! q = cells s3 !! q) as (s4 & E4 & K4 & M4 & O4).
  { clear E3. case_bool_decide as Hd.
    - apply HM in Hd as [HB ->].
      assert (match id x with None => Ok (pid H k) | Some x => tree_max fuel x s3 end = Ok (final H (elems (plug x k)))) as Em.
      { rewrite elems_plug, HB, app_nil_r. subst x. destruct l as [|c' l' y b r']; cbn [id].
        - cbn. by rewrite app_nil_r, pid_final.
        - rewrite (tree_max_ok _ _ _ _ _ _ _ _ H R3) by lia. rewrite final_app; [done|]. cbn. by destruct (elems l'). }
      rewrite Em. cbn [obind]. rewrite (set_rt_ok _ _ _ _ C3). cbn [col lf rt pa vl].
      eexists. split; [reflexivity|]. split; [by eapply repc_head|]. split; [done|].
      intros q Hq. by apply put_ne.
    - exists s3. split; [done|]. split; [|done]. 
      replace (most (plug x k)) with (most (plug t k)); [done|].
      unfold most. rewrite !elems_plug, Et. f_equal. subst x.
      destruct (decide (after k = [])) as [EA|EA].
      + destruct Hlr as [-> | ->]; [|by destruct Hd; apply HM]. destruct r as [|c' l' y b r']; [by destruct Hd; apply HM|].
        rewrite EA, !app_nil_r. cbn [elems app]. rewrite (final_app _ _ ((z, az) :: _)) by done. rewrite (final_cons _ z).
        assert (elems l' ++ (y, b) :: elems r' <> []) as X by (by destruct (elems l')). rewrite (final_app _ (before k) _ X).
        destruct (exists_last X) as (i & [w q] & ->). by rewrite !final_snoc.
      + rewrite !(final_app _ _ (_ ++ after k)) by (intros X; by apply app_eq_nil in X as [_ X]).
        by rewrite !(final_app _ _ (after k)). }
  rewrite E4. cbn [obind].
  assert (cells s4 !! z = cells s !! z) as Ez4 by (rewrite O4, O3 by done; exact Ez2).
  rewrite <- Ez4 in Hz. rewrite (get_ok _ _ _ Hz). cbn [obind col].
  exists s4. split; [done|]. split; [split|].
  - apply (rep_frame s3); [|done]. intros q Hq. apply O4. apply not_eq_sym, ne_of_bit. specialize (Hc q). lia.
  - done.
  - intros q. rewrite HF. lia.
  - intros q. rewrite HF. specialize (Hc q). lia.
  - done.
  - done.
  - split; [congruence|]. split; [eauto|]. intros q Hq. rewrite HF in Hq.
    assert (q <> H) as NqH by (apply not_eq_sym, ne_of_bit; lia).
    rewrite O4, O3, O2, O1 by (done || lia). done.
Qed.
End unlink.
