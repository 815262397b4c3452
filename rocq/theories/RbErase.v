(** The loop of rb_tree_erase_rebalance does to the heap what [efix] does to the tree. *)
From stdpp Require Import gmap list.
From Coq Require Import Lia ZifyBool ZifyNat ZifyN.
From Verif Require Import Base RbModel RbPure RbHeap RbInsert.
Local Open Scope outcome_scope.

Section er.
Context {A : Type} (H : loc).
Notation tr := (tr A).
Notation ctx := (list (fr A)).
Notation heap := (heap A).
Implicit Types (s : heap) (t : tr) (k : ctx).

Lemma not_red_paint t : red t = false -> paint Black t = t.
Proof. by destruct t as [|[] l x a r]. Qed.

Section f.
Context {F : loc -> nat} {s0 : heap}.
Notation at_ := (At H F s0).

Lemma at_top s mn mx x k : at_ s mn mx x k -> bool_decide (id x = id (plug x k)) = bool_decide (k = []).
Proof.
  intros P. apply bool_decide_ext. split; [|by intros ->]. intros E.
  destruct x as [|c l x a r]; cbn [id] in E.
  - symmetry in E. by apply id_plug_none in E as [? _].
  - pose proof (at_root_here _ _ _ _ _ _ _ _ _ _ P) as X. rewrite (bool_decide_eq_true_2 _ (eq_sym E)) in X.
    symmetry in X. by apply bool_decide_eq_true in X.
Qed.

(** [x] at the hole is not red: painting it black at the end changes nothing *)
Lemma finish s mn mx x k : at_ s mn mx x k -> red x = false -> blacken_at (id x) s = Ok s.
Proof.
  intros P Hr. destruct x as [|[] l x a r]; [done|done|]. cbn [id blacken_at].
  pose proof (at_cell _ _ _ _ _ _ _ _ _ _ P) as Hc. rewrite (set_col_ok _ _ _ _ Hc). cbn [col lf rt pa vl].
  unfold put. rewrite insert_id by done. by destruct s.
Qed.

Definition outcome_of mn mx (fuel : nat) s x k : Prop :=
  (exists t', efix x k = Some t' /\
     exists x' s1 s2, erase_loop fuel H (id x) (pid H k) s = Ok (x', s1) /\ blacken_at x' s1 = Ok s2 /\ at_ s2 mn mx t' []) \/
  (erase_loop fuel H (id x) (pid H k) s = Fuel /\ (efix x k = None \/ fuel <= length k)).

(** 498-511, the sibling [b] with a red child *)
Lemma borrow_l_ok s mn mx cp x p ap cb bl b ab br k :
  at_ s mn mx (T cp x p ap (T cb bl b ab br)) k -> red bl || red br = true -> red x = false ->
  exists s2, 
   (b <~ (if negb (red br) then
            s <~ blacken_at (id bl) s ;
            s <~ set_col b Red s ;
            s <~ rotate_right H b s ;
            b <~ right p s ; b <~ of_option b ; Ok (b, s)
          else Ok (b, s)) ;
    let (b, s) := b : loc * heap in
    n <~ get p s ;
    s <~ set_col b (col n) s ;
    s <~ set_col p Black s ;
    brr <~ right b s ;
    s <~ blacken_at brr s ;
    s <~ rotate_left H p s ;
    Ok (id x, s)) = Ok (id x, s2) /\
   at_ s2 mn mx (borrow_l cp x p ap bl b ab br) k /\
   exists q k', at_ s2 mn mx x (FL Black p ap q :: k').
Proof.
  intros P Hr Hx. unfold borrow_l. destruct (red br) eqn:Er.
  - cbn [negb obind]. rewrite (get_ok _ _ _ (at_cell _ _ _ _ _ _ _ _ _ _ P)). cbn [obind col].
    apply dr in P. destruct (at_color _ _ _ _ _ cp _ _ _ _ _ P) as (s1 & E1 & P1). rewrite E1. cbn [obind].
    apply ur in P1. destruct (at_color _ _ _ _ _ Black _ _ _ _ _ P1) as (s2 & E2 & P2). rewrite E2. cbn [obind].
    apply dr in P2. rewrite (right_ok _ _ _ (at_cell _ _ _ _ _ _ _ _ _ _ P2)). cbn [obind rt].
    apply dr in P2. destruct (at_color_at _ _ _ _ _ _ Black P2) as (s3 & E3 & P3). unfold blacken_at. rewrite E3. cbn [obind].
    apply ur, ur in P3. destruct (rotl_ok _ _ _ _ _ _ _ _ _ _ _ _ _ _ P3) as (s4 & E4 & P4). rewrite E4. cbn [obind].
    exists s4. split; [done|]. split; [done|]. apply dl, dl in P4. eauto.
  - destruct bl as [|cn l n an r]; [done|]. cbn [negb id blacken_at]. apply dr, dl in P.
    destruct (at_color _ _ _ _ _ Black _ _ _ _ _ P) as (s1 & E1 & P1). rewrite E1. cbn [obind].
    apply ul in P1. destruct (at_color _ _ _ _ _ Red _ _ _ _ _ P1) as (s2 & E2 & P2). rewrite E2. cbn [obind].
    destruct (rotr_ok _ _ _ _ _ _ _ _ _ _ _ _ _ _ P2) as (s3 & E3 & P3). rewrite E3. cbn [obind].
    apply ur in P3. rewrite (right_ok _ _ _ (at_cell _ _ _ _ _ _ _ _ _ _ P3)). cbn [obind rt id of_option].
    rewrite (get_ok _ _ _ (at_cell _ _ _ _ _ _ _ _ _ _ P3)). cbn [obind col].
    apply dr in P3. destruct (at_color _ _ _ _ _ cp _ _ _ _ _ P3) as (s4 & E4 & P4). rewrite E4. cbn [obind].
    apply ur in P4. destruct (at_color _ _ _ _ _ Black _ _ _ _ _ P4) as (s5 & E5 & P5). rewrite E5. cbn [obind].
    apply dr in P5. rewrite (right_ok _ _ _ (at_cell _ _ _ _ _ _ _ _ _ _ P5)). cbn [obind rt id blacken_at].
    apply dr in P5. destruct (at_color _ _ _ _ _ Black _ _ _ _ _ P5) as (s6 & E6 & P6). rewrite E6. cbn [obind].
    apply ur, ur in P6. destruct (rotl_ok _ _ _ _ _ _ _ _ _ _ _ _ _ _ P6) as (s7 & E7 & P7). rewrite E7. cbn [obind].
    exists s7. split; [done|]. split; [done|]. apply dl, dl in P7. eauto.
Qed.
(** 528-541 *)
Lemma borrow_r_ok s mn mx cp x p ap cb bl b ab br k :
  at_ s mn mx (T cp (T cb bl b ab br) p ap x) k -> red bl || red br = true -> red x = false ->
  exists s2, 
   (b <~ (if negb (red bl) then
            s <~ blacken_at (id br) s ;
            s <~ set_col b Red s ;
            s <~ rotate_left H b s ;
            b <~ left p s ; b <~ of_option b ; Ok (b, s)
          else Ok (b, s)) ;
    let (b, s) := b : loc * heap in
    n <~ get p s ;
    s <~ set_col b (col n) s ;
    s <~ set_col p Black s ;
    bl <~ left b s ;
    s <~ blacken_at bl s ;
    s <~ rotate_right H p s ;
    Ok (id x, s)) = Ok (id x, s2) /\
   at_ s2 mn mx (borrow_r cp bl b ab br p ap x) k /\
   exists q k', at_ s2 mn mx x (FR Black q p ap :: k').
Proof.
  intros P Hr Hx. unfold borrow_r. destruct (red bl) eqn:Er.
  - cbn [negb obind]. rewrite (get_ok _ _ _ (at_cell _ _ _ _ _ _ _ _ _ _ P)). cbn [obind col].
    apply dl in P. destruct (at_color _ _ _ _ _ cp _ _ _ _ _ P) as (s1 & E1 & P1). rewrite E1. cbn [obind].
    apply ul in P1. destruct (at_color _ _ _ _ _ Black _ _ _ _ _ P1) as (s2 & E2 & P2). rewrite E2. cbn [obind].
    apply dl in P2. rewrite (left_ok _ _ _ (at_cell _ _ _ _ _ _ _ _ _ _ P2)). cbn [obind lf].
    apply dl in P2. destruct (at_color_at _ _ _ _ _ _ Black P2) as (s3 & E3 & P3). unfold blacken_at. rewrite E3. cbn [obind].
    apply ul, ul in P3. destruct (rotr_ok _ _ _ _ _ _ _ _ _ _ _ _ _ _ P3) as (s4 & E4 & P4). rewrite E4. cbn [obind].
    exists s4. split; [done|]. split; [done|]. apply dr, dr in P4. eauto.
  - cbn [orb] in Hr. destruct br as [|cn l n an r]; [done|]. cbn [negb id blacken_at]. apply dl, dr in P.
    destruct (at_color _ _ _ _ _ Black _ _ _ _ _ P) as (s1 & E1 & P1). rewrite E1. cbn [obind].
    apply ur in P1. destruct (at_color _ _ _ _ _ Red _ _ _ _ _ P1) as (s2 & E2 & P2). rewrite E2. cbn [obind].
    destruct (rotl_ok _ _ _ _ _ _ _ _ _ _ _ _ _ _ P2) as (s3 & E3 & P3). rewrite E3. cbn [obind].
    apply ul in P3. rewrite (left_ok _ _ _ (at_cell _ _ _ _ _ _ _ _ _ _ P3)). cbn [obind lf id of_option].
    rewrite (get_ok _ _ _ (at_cell _ _ _ _ _ _ _ _ _ _ P3)). cbn [obind col].
    apply dl in P3. destruct (at_color _ _ _ _ _ cp _ _ _ _ _ P3) as (s4 & E4 & P4). rewrite E4. cbn [obind].
    apply ul in P4. destruct (at_color _ _ _ _ _ Black _ _ _ _ _ P4) as (s5 & E5 & P5). rewrite E5. cbn [obind].
    apply dl in P5. rewrite (left_ok _ _ _ (at_cell _ _ _ _ _ _ _ _ _ _ P5)). cbn [obind lf id blacken_at].
    apply dl in P5. destruct (at_color _ _ _ _ _ Black _ _ _ _ _ P5) as (s6 & E6 & P6). rewrite E6. cbn [obind].
    apply ul, ul in P6. destruct (rotr_ok _ _ _ _ _ _ _ _ _ _ _ _ _ _ P6) as (s7 & E7 & P7). rewrite E7. cbn [obind].
    exists s7. split; [done|]. split; [done|]. apply dr, dr in P7. eauto.
Qed.

Lemma stop_red fuel s mn mx x k : at_ s mn mx x k -> red x = true ->
  exists s2, erase_loop (S fuel) H (id x) (pid H k) s = Ok (id x, s) /\ blacken_at (id x) s = Ok s2 /\
    at_ s2 mn mx (paint Black x) k.
Proof.
  intros P Hr. cbn [erase_loop]. rewrite (at_root _ _ _ _ _ _ P), (at_not_red _ _ _ _ _ _ P). cbn [obind].
  rewrite Hr. cbn [negb]. rewrite orb_true_r.
  destruct (at_color_at _ _ _ _ _ _ Black P) as (s2 & E2 & P2). eauto.
Qed.

Lemma is_some_none : bool_decide (is_Some (@None loc)) = false.
Proof. apply bool_decide_eq_false. by intros [? ?]. Qed.
Lemma is_some_some (x : loc) : bool_decide (is_Some (Some x)) = true.
Proof. apply bool_decide_eq_true. eauto. Qed.
(** both children are the same only if there are none *)
Lemma twins s mn mx c l x a r k : at_ s mn mx (T c l x a r) k -> is_Some (id r) -> id r <> id l.
Proof.
  intros P [z Hz] E. destruct l as [|? ? y ? ?], r as [|? ? y' ? ?]; try done. cbn [id] in *. injection E as ->.
  pose proof (at_le _ _ _ _ _ _ y P) as Hc. cbn [cnt] in Hc. rewrite bit_same in Hc. lia.
Qed.

Lemma erase_loop_ok mn mx fuel : forall s x k, at_ s mn mx x k -> outcome_of mn mx fuel s x k.
Proof.
  induction fuel as [|fuel IH]; intros s x k P; [right; split; [done|right; lia]|].
  unfold outcome_of.
  destruct (red x) eqn:Hx.
  { left. exists (plug (paint Black x) k). split; [destruct k; cbn [efix]; by rewrite Hx|].
    destruct (stop_red fuel s mn mx x k P Hx) as (s2 & E1 & E2 & P2). do 3 eexists. split; [exact E1|].
    split; [exact E2|]. by apply pn. }
  cbn [erase_loop]. rewrite (at_root _ _ _ _ _ _ P), (at_not_red _ _ _ _ _ _ P). cbn [obind].
  rewrite (at_top _ _ _ _ _ P), Hx. cbn [negb]. rewrite orb_false_r.
  destruct k as [|f k].
  { rewrite bool_decide_eq_true_2 by done. left. exists x. split; [cbn [efix]; by rewrite Hx|].
    do 3 eexists. split; [reflexivity|]. split; [exact (finish _ _ _ _ _ P Hx)|done]. }
  rewrite bool_decide_eq_false_2 by done. cbn [pid].
  cbn [efix]. rewrite Hx.
  destruct f as [cp p ap sib|cp sib p ap]; cbn [floc].
  - pose proof P as P0. apply ul in P0. pose proof (at_cell _ _ _ _ _ _ _ _ _ _ P0) as Cp.
    rewrite (left_ok _ _ _ Cp), (right_ok _ _ _ Cp). cbn [obind lf rt].
    rewrite (bool_decide_eq_true_2 (id x = id x)) by done. cbn [andb].
    destruct sib as [|cb bl b ab br]; cbn [id].
    + rewrite is_some_none. replace (bool_decide (id x = None) && bool_decide (is_Some (id x))) with false; cycle 1.
      { destruct x; cbn [id]; [by rewrite is_some_none, andb_false_r|done]. }
      right. split; [|by left].
      destruct (IH s x (FL cp p ap E :: k) P) as [(t' & He & _)|(Hl & _)]; [|exact Hl].
      cbn [efix] in He. by rewrite Hx in He.
    + rewrite is_some_some. cbn [of_option obind].
      pose proof P0 as Pb. apply dr in Pb. rewrite (is_red_ok _ _ _ (at_cell _ _ _ _ _ _ _ _ _ _ Pb)). cbn [obind col].
      destruct cb.
      * rewrite bool_decide_eq_true_2 by done.
        destruct (at_color _ _ _ _ _ Black _ _ _ _ _ Pb) as (s1 & E1 & P1). rewrite E1. cbn [obind]. apply ur in P1.
        destruct (at_color _ _ _ _ _ Red _ _ _ _ _ P1) as (s2 & E2 & P2). rewrite E2. cbn [obind].
        destruct (rotl_ok _ _ _ _ _ _ _ _ _ _ _ _ _ _ P2) as (s3 & E3 & P3). rewrite E3. cbn [obind].
        apply dl in P3. rewrite (right_ok _ _ _ (at_cell _ _ _ _ _ _ _ _ _ _ P3)). cbn [obind rt lf].
        destruct bl as [|cn nl n an nr]; cbn [id].
        -- left. eexists. split; [reflexivity|]. do 3 eexists. split; [reflexivity|].
           split; [exact (finish _ _ _ _ _ (dl _ _ _ _ _ _ _ _ _ _ P3) Hx)|]. by apply pn, ul.
        -- pose proof P3 as Pn. apply dr in Pn. pose proof (at_cell _ _ _ _ _ _ _ _ _ _ Pn) as Cn.
           rewrite (left_ok _ _ _ Cn), (right_ok _ _ _ Cn). cbn [obind lf rt].
           rewrite (at_not_red _ _ _ _ _ _ (dl _ _ _ _ _ _ _ _ _ _ Pn)), (at_not_red _ _ _ _ _ _ (dr _ _ _ _ _ _ _ _ _ _ Pn)).
           cbn [obind]. destruct (red nl || red nr) eqn:Hr.
           ++ left. eexists. split; [reflexivity|]. rewrite <- negb_orb, Hr. cbn [negb].
              destruct (borrow_l_ok _ _ _ _ _ _ _ _ _ _ _ _ _ P3 Hr Hx) as (s4 & E4 & P4 & q & k' & P4').
              rewrite E4. do 3 eexists. split; [reflexivity|]. split; [exact (finish _ _ _ _ _ P4' Hx)|]. by apply pn, ul.
           ++ rewrite <- negb_orb, Hr. cbn [negb].
              destruct (at_color _ _ _ _ _ Red _ _ _ _ _ Pn) as (s4 & E4 & P4). rewrite E4. cbn [obind].
              apply ur in P4. rewrite (at_parent _ _ _ _ _ _ _ _ _ _ P4). cbn [obind].
              destruct fuel as [|fuel]; [right; split; [done|right; cbn [length]; lia]|].
              left. eexists. split; [reflexivity|].
              destruct (stop_red fuel _ _ _ _ _ P4 eq_refl) as (s5 & E5 & E6 & P5). cbn [id] in E5, E6.
              do 3 eexists. split; [exact E5|]. split; [exact E6|]. by apply pn, ul.
      * rewrite bool_decide_eq_false_2 by done. cbn [obind].
        pose proof (at_cell _ _ _ _ _ _ _ _ _ _ Pb) as Cb.
        rewrite (left_ok _ _ _ Cb), (right_ok _ _ _ Cb). cbn [obind lf rt].
        rewrite (at_not_red _ _ _ _ _ _ (dl _ _ _ _ _ _ _ _ _ _ Pb)), (at_not_red _ _ _ _ _ _ (dr _ _ _ _ _ _ _ _ _ _ Pb)).
        cbn [obind]. rewrite <- negb_orb. destruct (red bl || red br) eqn:Hr; cbn [negb].
        -- left. eexists. split; [reflexivity|].
           destruct (borrow_l_ok _ _ _ _ _ _ _ _ _ _ _ _ _ P0 Hr Hx) as (s4 & E4 & P4 & q & k' & P4').
           rewrite E4. do 3 eexists. split; [reflexivity|]. split; [exact (finish _ _ _ _ _ P4' Hx)|]. by apply pn.
        -- destruct (at_color _ _ _ _ _ Red _ _ _ _ _ Pb) as (s4 & E4 & P4). rewrite E4. cbn [obind].
           apply ur in P4. rewrite (at_parent _ _ _ _ _ _ _ _ _ _ P4). cbn [obind].
           destruct (IH _ _ _ P4) as [X|(X & Y)]; [left; exact X|]. right. split; [exact X|].
           cbn [length]. destruct Y; [by left|right; lia].
  - pose proof P as P0. apply ur in P0. pose proof (at_cell _ _ _ _ _ _ _ _ _ _ P0) as Cp.
    rewrite (left_ok _ _ _ Cp), (right_ok _ _ _ Cp). cbn [obind lf rt].
    replace (bool_decide (id x = id sib) && bool_decide (is_Some (id x))) with false; cycle 1.
    { symmetry. apply andb_false_iff. destruct (decide (is_Some (id x))) as [Hs|Hs].
      - left. apply bool_decide_eq_false. exact (twins _ _ _ _ _ _ _ _ _ P0 Hs).
      - right. by apply bool_decide_eq_false. }
    rewrite (bool_decide_eq_true_2 (id x = id x)) by done. cbn [andb].
    destruct sib as [|cb bl b ab br]; cbn [id].
    + rewrite is_some_none.
      right. split; [|by left].
      destruct (IH s x (FR cp E p ap :: k) P) as [(t' & He & _)|(Hl & _)]; [|exact Hl].
      cbn [efix] in He. by rewrite Hx in He.
    + rewrite is_some_some. cbn [of_option obind].
      pose proof P0 as Pb. apply dl in Pb. rewrite (is_red_ok _ _ _ (at_cell _ _ _ _ _ _ _ _ _ _ Pb)). cbn [obind col].
      destruct cb.
      * rewrite bool_decide_eq_true_2 by done.
        destruct (at_color _ _ _ _ _ Black _ _ _ _ _ Pb) as (s1 & E1 & P1). rewrite E1. cbn [obind]. apply ul in P1.
        destruct (at_color _ _ _ _ _ Red _ _ _ _ _ P1) as (s2 & E2 & P2). rewrite E2. cbn [obind].
        destruct (rotr_ok _ _ _ _ _ _ _ _ _ _ _ _ _ _ P2) as (s3 & E3 & P3). rewrite E3. cbn [obind].
        apply dr in P3. rewrite (left_ok _ _ _ (at_cell _ _ _ _ _ _ _ _ _ _ P3)). cbn [obind rt lf].
        destruct br as [|cn nl n an nr]; cbn [id].
        -- left. eexists. split; [reflexivity|]. do 3 eexists. split; [reflexivity|].
           split; [exact (finish _ _ _ _ _ (dr _ _ _ _ _ _ _ _ _ _ P3) Hx)|]. by apply pn, ur.
        -- pose proof P3 as Pn. apply dl in Pn. pose proof (at_cell _ _ _ _ _ _ _ _ _ _ Pn) as Cn.
           rewrite (left_ok _ _ _ Cn), (right_ok _ _ _ Cn). cbn [obind lf rt].
           rewrite (at_not_red _ _ _ _ _ _ (dl _ _ _ _ _ _ _ _ _ _ Pn)), (at_not_red _ _ _ _ _ _ (dr _ _ _ _ _ _ _ _ _ _ Pn)).
           cbn [obind]. destruct (red nl || red nr) eqn:Hr.
           ++ left. eexists. split; [reflexivity|]. rewrite <- negb_orb, Hr. cbn [negb].
              destruct (borrow_r_ok _ _ _ _ _ _ _ _ _ _ _ _ _ P3 Hr Hx) as (s4 & E4 & P4 & q & k' & P4').
              rewrite E4. do 3 eexists. split; [reflexivity|]. split; [exact (finish _ _ _ _ _ P4' Hx)|]. by apply pn, ur.
           ++ rewrite <- negb_orb, Hr. cbn [negb].
              destruct (at_color _ _ _ _ _ Red _ _ _ _ _ Pn) as (s4 & E4 & P4). rewrite E4. cbn [obind].
              apply ul in P4. rewrite (at_parent _ _ _ _ _ _ _ _ _ _ P4). cbn [obind].
              destruct fuel as [|fuel]; [right; split; [done|right; cbn [length]; lia]|].
              left. eexists. split; [reflexivity|].
              destruct (stop_red fuel _ _ _ _ _ P4 eq_refl) as (s5 & E5 & E6 & P5). cbn [id] in E5, E6.
              do 3 eexists. split; [exact E5|]. split; [exact E6|]. by apply pn, ur.
      * rewrite bool_decide_eq_false_2 by done. cbn [obind].
        pose proof (at_cell _ _ _ _ _ _ _ _ _ _ Pb) as Cb.
        rewrite (left_ok _ _ _ Cb), (right_ok _ _ _ Cb). cbn [obind lf rt].
        rewrite (at_not_red _ _ _ _ _ _ (dl _ _ _ _ _ _ _ _ _ _ Pb)), (at_not_red _ _ _ _ _ _ (dr _ _ _ _ _ _ _ _ _ _ Pb)).
        cbn [obind]. rewrite <- negb_orb. destruct (red bl || red br) eqn:Hr; cbn [negb].
        -- left. eexists. split; [reflexivity|].
           destruct (borrow_r_ok _ _ _ _ _ _ _ _ _ _ _ _ _ P0 Hr Hx) as (s4 & E4 & P4 & q & k' & P4').
           rewrite E4. do 3 eexists. split; [reflexivity|]. split; [exact (finish _ _ _ _ _ P4' Hx)|]. by apply pn.
        -- destruct (at_color _ _ _ _ _ Red _ _ _ _ _ Pb) as (s4 & E4 & P4). rewrite E4. cbn [obind].
           apply ul in P4. rewrite (at_parent _ _ _ _ _ _ _ _ _ _ P4). cbn [obind].
           destruct (IH _ _ _ P4) as [X|(X & Y)]; [left; exact X|]. right. split; [exact X|].
           cbn [length]. destruct Y; [by left|right; lia].
Qed.
End f.
End er.
