From stdpp Require Import gmap list.
From Coq Require Import ZArith Lia ZifyBool ZifyNat.
From Verif Require Import Base ObjModel DequeModel DequeSpec DequeProofs DequeOps DequeRun DequeFacts IterModel IterSpec.
Local Open Scope Z_scope.
Local Open Scope outcome_scope.

(** ** Pointers, normal and reverse iterators *)
Lemma p_add_eq len p n : p_add len p n = if decide (0 <= p + n <= len) then Ok (p + n) else UB.
Proof. unfold p_add. case_decide; [replace ((0 <=? p + n) && (p + n <=? len)) with true by lia|replace ((0 <=? p + n) && (p + n <=? len)) with false by lia]; reflexivity. Qed.
Lemma normal_act len c p : act (n_exec len) c p = of_option (moved len c p).
Proof.
  unfold act, moved. destruct c as [s|s]; destruct s; cbn [n_exec distance after value_of]; rewrite p_add_eq; case_decide; reflexivity.
Qed.
Theorem normal_acts len cs : forall p, acts (n_exec len) cs p = of_option (moves len cs p).
Proof.
  induction cs as [|c cs IH]; intros p; cbn [acts moves]; [reflexivity|]. rewrite normal_act.
  destruct (moved len c p); cbn; [apply IH|reflexivity].
Qed.
Lemma reverse_act len c p : act (r_exec len) c (len - p) = of_option ((fun q => len - q) <$> moved len c p).
Proof.
  unfold act, moved. destruct c as [s|s]; destruct s; cbn [r_exec n_exec distance after value_of]; rewrite p_add_eq; repeat case_decide;
    cbn; try reflexivity; try lia; f_equal; lia.
Qed.
Theorem reverse_acts len cs : forall p, acts (r_exec len) cs (len - p) = of_option ((fun q => len - q) <$> moves len cs p).
Proof.
  induction cs as [|c cs IH]; intros p; cbn [acts moves]; [reflexivity|]. rewrite reverse_act.
  destruct (moved len c p); cbn; [apply IH|reflexivity].
Qed.
Lemma p_read_eq {A} (l : list A) p : 0 <= p -> p_read l p = of_option (l !! Z.to_nat p).
Proof. intros H. unfold p_read. destruct (Z.ltb_spec p 0); [lia|reflexivity]. Qed.
Theorem normal_read {A} (l : list A) p n : 0 <= p <= Z.of_nat (length l) ->
  n_read l p = of_option (l !! Z.to_nat p) /\
  n_index l p n = if decide (0 <= p + n) then of_option (l !! Z.to_nat (p + n)) else UB.
Proof.
  intros H. split; [apply p_read_eq; lia|]. unfold n_index. rewrite p_add_eq. repeat case_decide; cbn; try lia; try reflexivity.
  - apply p_read_eq. lia.
  - rewrite lookup_ge_None_2 by lia. reflexivity.
Qed.
Theorem reverse_read {A} (l : list A) p n : 0 <= p <= Z.of_nat (length l) ->
  r_read l (Z.of_nat (length l) - p) = of_option (reverse l !! Z.to_nat p) /\
  r_index l (Z.of_nat (length l) - p) n = if decide (0 <= p + n) then of_option (reverse l !! Z.to_nat (p + n)) else UB.
Proof.
  intros H. set (len := Z.of_nat (length l)).
  assert (R : forall p, 0 <= p <= len -> r_read l (len - p) = of_option (reverse l !! Z.to_nat p)).
  { intros k K. unfold r_read. cbn [n_exec]. rewrite p_add_eq. fold len. case_decide; cbn.
    - unfold n_read. rewrite p_read_eq by lia. rewrite reverse_lookup by (unfold len in *; lia). f_equal. f_equal. unfold len in *. lia.
    - rewrite lookup_ge_None_2; [reflexivity|]. rewrite reverse_length. unfold len in *. lia. }
  split; [apply R; exact H|]. unfold r_index. cbn [r_exec n_exec]. rewrite p_add_eq. fold len. repeat case_decide; cbn; try lia.
  - replace (len - p + - n) with (len - (p + n)) by lia. apply R. lia.
  - rewrite lookup_ge_None_2; [reflexivity|]. rewrite reverse_length. unfold len in *. lia.
  - reflexivity.
Qed.

(** ** Deque iterators *)
Lemma s64_id x : - 2 ^ 63 <= x < 2 ^ 63 -> s64 x = x.
Proof. intros H. unfold s64. rewrite Z.mod_small by lia. lia. Qed.
Lemma s64_w64 x : s64 (w64 x) = s64 x.
Proof. unfold s64, w64. f_equal. rewrite Zplus_mod_idemp_l. reflexivity. Qed.
Lemma s64_add i n : s64 (w64 (w64 i + w64 n)) = s64 (i + n).
Proof. rewrite s64_w64. unfold s64, w64. f_equal. rewrite <- (Zplus_mod_idemp_l (i mod 2 ^ 64 + n mod 2 ^ 64)).
  rewrite <- (Zplus_mod i n). apply Zplus_mod_idemp_l. Qed.
Lemma s64_sub i n : s64 (w64 (w64 i - w64 n)) = s64 (i - n).
Proof. rewrite s64_w64. unfold s64, w64. f_equal. rewrite <- (Zplus_mod_idemp_l (i mod 2 ^ 64 - n mod 2 ^ 64)).
  rewrite <- (Zminus_mod i n). apply Zplus_mod_idemp_l. Qed.
Lemma deque_act first len c p q : 0 <= first -> first + len < 2 ^ 63 -> moved len c p = Some q ->
  act d_exec c (first + p) = Ok (first + q).
Proof.
  intros F L M. unfold moved in M. destruct c as [s|s]; case_decide as D; try discriminate; injection M as <-;
    unfold act; destruct s; cbn [d_exec distance after value_of] in *; rewrite ?s64_add, ?s64_sub, ?s64_id by lia;
    unfold signed; try (match goal with |- context [if ?b then _ else _] => replace b with true by lia end); cbn; f_equal; lia.
Qed.
Theorem deque_acts first len cs : 0 <= first -> first + len < 2 ^ 63 -> forall p q, moves len cs p = Some q ->
  acts d_exec cs (first + p) = Ok (first + q).
Proof.
  intros F L. induction cs as [|c cs IH]; intros p q H; cbn [acts moves] in *; [congruence|].
  destruct (moved len c p) as [r|] eqn:M; [|discriminate]. rewrite (deque_act first len c p r F L M). cbn. apply IH. exact H.
Qed.
Lemma moves_range len cs : forall p q, 0 <= p <= len -> moves len cs p = Some q -> 0 <= q <= len.
Proof.
  induction cs as [|c cs IH]; intros p q P H; cbn in H; [congruence|]. destruct (moved len c p) as [r|] eqn:M; [|discriminate].
  apply (IH r); [|exact H]. unfold moved in M. case_decide; [|discriminate]. injection M as <-. destruct c as [s|s], s; cbn in *; lia.
Qed.

Section deques.
Context {A : Type} (esz : Z).
Notation reached := (reached (A := A) esz).

Lemma first_range cs s e m x q d : reached cs s e m -> s !! x = Some q -> e !! x = Some d ->
  dfirst d = Z.of_nat (head q) /\ 0 <= dfirst d /\ dfirst d + Z.of_nat (length (elems q)) < 2 ^ 36 /\
  dend d = dfirst d + Z.max (Z.of_nat (length (elems q))) 1.
Proof.
  intros H Hx Hd. destruct (reached_rep _ _ _ _ _ _ _ _ H Hx Hd) as (o & Hrep & _).
  destruct Hrep as (R1 & R2 & R3 & R4 & R5 & R6). unfold len in *.
  assert (Z.of_nat (head q) + Z.of_nat (length (elems q)) < 2 ^ 36 /\ Z.of_nat (head q) < 2 ^ 36).
  { destruct R6 as [(_ & _ & -> & -> & _)|(arr & blks & L & _)]; [cbn; lia|]. unfold len in L. lia. }
  split; [exact R3|]. rewrite R3. split; [lia|]. split; [lia|]. unfold dend. rewrite R4. rewrite w64_id by lia. lia.
Qed.

(** A walk from begin() that stays within the range reads the element where it ends. *)
Theorem deque_walk cs s e m x q d prog k : reached cs s e m -> s !! x = Some q -> e !! x = Some d ->
  moves (Z.of_nat (length (elems q))) prog 0 = Some k ->
  exists i, acts d_exec prog (d_begin d) = Ok i /\
    (forall a, elems q !! Z.to_nat k = Some a -> d_read i d m = Ok (value a)) /\
    (elems q !! Z.to_nat k = None -> d_read i d m = UB) /\
    d_diff i (d_begin d) = Ok k /\ (elems q <> [] -> d_eq i (d_end d) = (k =? Z.of_nat (length (elems q)))).
Proof.
  intros H Hx Hd M. destruct (first_range _ _ _ _ _ _ _ H Hx Hd) as (F1 & F2 & F3 & F4).
  assert (K : 0 <= k <= Z.of_nat (length (elems q))) by (refine (moves_range _ _ 0 k _ M); lia).
  exists (dfirst d + k). unfold d_begin, dbegin. rewrite s64_id by lia.
  split. { replace (dfirst d) with (dfirst d + 0) at 1 by lia. eapply deque_acts; [exact F2| |exact M]. lia. }
  destruct (index_exact esz _ _ _ _ _ _ _ H Hx Hd) as [G1 G2]. unfold d_read. rewrite w64_id by lia.
  split. { intros a Ha. rewrite <- (G1 _ _ Ha). f_equal. lia. }
  split. { intros Hn. apply lookup_ge_None in Hn. apply G2; lia. }
  split. { unfold d_diff, signed. replace (dfirst d + k - dfirst d) with k by lia. replace ((- 2 ^ 63 <=? k) && (k <? 2 ^ 63)) with true by lia. reflexivity. }
  intros Hne. unfold d_eq, d_end. rewrite F4. assert (length (elems q) <> 0)%nat by (destruct (elems q); [contradiction|discriminate]).
  rewrite s64_id by lia. lia.
Qed.

(** ** An iterator across changes at the ends *)
Lemma srun_app cs1 : forall (s : gmap nat (sq A)) cs2, srun s (cs1 ++ cs2) = match srun s cs1 with Some s' => srun s' cs2 | None => None end.
Proof. induction cs1 as [|c cs1 IH]; intros s cs2; cbn; [reflexivity|]. destruct (sstep s c); [apply IH|reflexivity]. Qed.
Lemma drun_app cs1 : forall (st : gmap nat deq * mem (A + nat)) cs2,
  drun esz st (cs1 ++ cs2) = obind (drun esz st cs1) (fun st' => drun esz st' cs2).
Proof. induction cs1 as [|c cs1 IH]; intros s cs2; cbn; [reflexivity|]. destruct (dstep esz s c); cbn; [apply IH|reflexivity..]. Qed.
Lemma reached_more cs s e m cs' s' : reached cs s e m -> srun s cs' = Some s' -> exists e' m', reached (cs ++ cs') s' e' m' /\
  drun esz (e, m) cs' = Ok (e', m').
Proof.
  intros H R. destruct (reached_inv _ _ _ _ _ H) as (w & I). destruct H as (E & S & D).
  destruct (run_ok esz E cs' _ _ _ _ _ I R) as (w' & e' & m' & R' & _). exists e', m'. split; [|exact R'].
  split; [exact E|]. split; [rewrite srun_app, S; exact R|]. rewrite drun_app, D. exact R'.
Qed.

(** what one change does to the sequence and its place *)
Definition one (o : end_op A) (q : sq A) : option (sq A) :=
  match o with PushBack b => spush_back b q | PushFront b => spush_front b q | PopBack => spop_back q | PopFront => spop_front q end.
Lemma end_step (q q' : sq A) o k a k' : elems q !! k = Some a -> (room q <> 0)%nat -> moved_to o (length (elems q)) k = Some k' ->
  one o q = Some q' -> match o with PushFront _ => 0 < head q | _ => True end%nat ->
  elems q' !! k' = Some a /\ (head q' + k' = head q + k)%nat /\ length (elems q') = size_after o (length (elems q)) /\
  head q' = match o with PushFront _ => head q - 1 | PopFront => S (head q) | _ => head q end%nat.
Proof.
  intros Ha Hr Hk Hs Hf. pose proof (lookup_lt_Some _ _ _ Ha) as Hlt. destruct o as [b|b| |]; cbn [moved_to size_after one] in *.
  - injection Hk as <-.
    assert (E : elems q' = elems q ++ [b] /\ head q' = head q).
    { unfold spush_back in Hs. destruct (Nat.eqb_spec (room q) 0); [contradiction|].
      destruct (Nat.ltb _ _); [injection Hs as <-; split; reflexivity|]. destruct (Z.ltb _ _); [injection Hs as <-; split; reflexivity|discriminate]. }
    destruct E as [-> ->]. rewrite app_length. cbn. split; [rewrite lookup_app_l by exact Hlt; exact Ha|]. lia.
  - injection Hk as <-. unfold spush_front in Hs. destruct (Nat.ltb_spec 0 (head q)); [|lia]. injection Hs as <-. cbn [elems head].
    unfold len. destruct (Nat.eqb_spec (length (elems q)) 0); [lia|]. cbn. split; [exact Ha|]. lia.
  - destruct (Nat.ltb_spec (S k) (length (elems q))) as [L|L]; [|discriminate]. injection Hk as <-. 
    assert (E : q' = keep (take (length (elems q) - 1) (elems q)) (room q) (head q)).
    { unfold spop_back in Hs. destruct (elems q) eqn:El; [discriminate|]. rewrite <- El in *. unfold len in Hs. congruence. }
    subst q'. unfold keep. cbn [elems head].
    assert (T : (length (take (length (elems q) - 1) (elems q)) = length (elems q) - 1)%nat) by (rewrite take_length; lia).
    split; [rewrite lookup_take by lia; exact Ha|]. rewrite T.
    destruct (take (length (elems q) - 1) (elems q)) as [|z t] eqn:Et; [cbn in T; lia|]. lia.
  - destruct k as [|k]; [discriminate|]. injection Hk as <-. unfold spop_front in Hs. destruct (elems q) as [|y l] eqn:El; [discriminate|].
    injection Hs as <-. cbn [elems head keep]. cbn in Ha. split; [exact Ha|]. destruct l as [|z l]; [discriminate|]. cbn. lia.
Qed.
Lemma command_step (s s' : gmap nat (sq A)) x q o : s !! x = Some q -> sstep s (command_of x o) = Some s' ->
  exists q', one o q = Some q' /\ s' = <[x := q']> s.
Proof.
  intros Hx H. destruct o as [b|b| |]; cbn [command_of sstep one] in *; apply on_Some in H as (q0 & q' & H1 & H2 & ->);
    rewrite Hx in H1; injection H1 as <-; eauto.
Qed.
Lemma room_kept o (q q' : sq A) : one o q = Some q' -> (room q <> 0)%nat -> (room q' <> 0)%nat.
Proof.
  destruct o as [b|b| |]; cbn [one].
  - unfold spush_back. destruct (Nat.eqb _ _); [intros [= <-]; cbn; lia|]. destruct (Nat.ltb _ _); [intros [= <-]; cbn; lia|].
    destruct (Z.ltb _ _); [intros [= <-]; cbn; lia|discriminate].
  - unfold spush_front. destruct (Nat.ltb _ _); [intros [= <-]; cbn; lia|]. destruct (room q) as [|[|]]; [intros [= <-]; cbn; lia..|discriminate].
  - unfold spop_back. destruct (elems q); [discriminate|]. intros [= <-]. cbn. lia.
  - unfold spop_front. destruct (elems q); [discriminate|]. intros [= <-]. cbn. lia.
Qed.
Lemma end_run os : forall (s s' : gmap nat (sq A)) x q k a k', s !! x = Some q -> elems q !! k = Some a -> (room q <> 0)%nat ->
  ends_at os (length (elems q)) k = Some k' -> room_in_front os (head q) -> srun s (command_of x <$> os) = Some s' ->
  exists q', s' !! x = Some q' /\ elems q' !! k' = Some a /\ (head q' + k' = head q + k)%nat.
Proof.
  induction os as [|o os IH]; intros s s' x q k a k' Hx Ha Hr He Hf Hs; cbn [fmap list_fmap srun ends_at] in *.
  - injection Hs as <-. injection He as <-. eauto.
  - destruct (moved_to o (length (elems q)) k) as [k1|] eqn:M; [|discriminate].
    destruct (sstep s (command_of x o)) as [s1|] eqn:S1; [|discriminate].
    destruct (command_step _ _ _ _ _ Hx S1) as (q1 & O1 & ->).
    assert (F : match o with PushFront _ => 0 < head q | _ => True end%nat) by (destruct o; cbn in Hf; tauto).
    destruct (end_step q q1 o k a k1 Ha Hr M O1 F) as (A1 & P1 & L1 & H1).
    destruct (IH (<[x:=q1]> s) s' x q1 k1 a k') as (q' & X1 & X2 & X3).
    + apply lookup_insert.
    + exact A1.
    + exact (room_kept _ _ _ O1 Hr).
    + rewrite L1. exact He.
    + rewrite H1. destruct o; cbn in Hf; tauto.
    + exact Hs.
    + exists q'. split; [exact X1|]. split; [exact X2|]. lia.
Qed.

Theorem deque_stays cs s e m x q d k a os k' s' : reached cs s e m -> s !! x = Some q -> e !! x = Some d -> elems q !! k = Some a ->
  ends_at os (length (elems q)) k = Some k' -> room_in_front os (Z.to_nat (dfirst d)) -> srun s (command_of x <$> os) = Some s' ->
  exists e' m' q' d', drun esz (e, m) (command_of x <$> os) = Ok (e', m') /\ s' !! x = Some q' /\ e' !! x = Some d' /\
    elems q' !! k' = Some a /\ d_read (dfirst d + Z.of_nat k) d' m' = Ok (value a) /\ dfirst d' + Z.of_nat k' = dfirst d + Z.of_nat k.
Proof.
  intros H Hx Hd Ha He Hf Hs. destruct (first_range _ _ _ _ _ _ _ H Hx Hd) as (F1 & F2 & F3 & F4).
  assert (Hr : (room q <> 0)%nat).
  { destruct (reached_rep _ _ _ _ _ _ _ _ H Hx Hd) as (o & (_ & _ & _ & _ & _ & R) & _). intros Z.
    destruct R as [(_ & _ & X & _)|(arr & blks & L & _)]; [rewrite X in Ha; discriminate|lia]. }
  rewrite F1, Nat2Z.id in Hf. destruct (end_run os s s' x q k a k' Hx Ha Hr He Hf Hs) as (q' & X1 & X2 & X3).
  destruct (reached_more _ _ _ _ _ _ H Hs) as (e' & m' & H' & D').
  destruct (e' !! x) as [d'|] eqn:Hd'.
  2:{ destruct (reached_inv _ _ _ _ _ H') as (w & _ & Dom & _). apply Dom in Hd'. congruence. }
  destruct (first_range _ _ _ _ _ _ _ H' X1 Hd') as (G1 & G2 & G3 & G4).
  destruct (index_exact esz _ _ _ _ _ _ _ H' X1 Hd') as [I _]. pose proof (lookup_lt_Some _ _ _ X2).
  exists e', m', q', d'. split; [exact D'|]. split; [exact X1|]. split; [exact Hd'|]. split; [exact X2|].
  assert (E : dfirst d' + Z.of_nat k' = dfirst d + Z.of_nat k) by lia. split; [|exact E].
  unfold d_read. rewrite <- E. rewrite w64_id by lia. apply I. exact X2.
Qed.

(** ** Growing at the front moves the numbering *)
Theorem deque_renumbered cs s e m x q d k a b : reached cs s e m -> s !! x = Some q -> e !! x = Some d -> elems q !! k = Some a ->
  dfirst d = 0 -> dbs d = 1 ->
  exists e' m' d', drun esz (e, m) [DPushFront x b] = Ok (e', m') /\ e' !! x = Some d' /\ (k < 16)%nat /\
    d_read (Z.of_nat k) d' m' = (if (k =? 15)%nat then Ok (value b) else UB) /\ d_read (Z.of_nat k + 16) d' m' = Ok (value a).
Proof.
  intros H Hx Hd Ha H0 H1. destruct (first_range _ _ _ _ _ _ _ H Hx Hd) as (F1 & F2 & F3 & F4).
  destruct (reached_rep _ _ _ _ _ _ _ _ H Hx Hd) as (o & (R1 & _ & _ & _ & _ & R) & _).
  assert (Hh : head q = 0%nat) by lia. assert (Hr : room q = 1%nat) by lia.
  pose proof (lookup_lt_Some _ _ _ Ha) as Hk.
  assert (K : (length (elems q) <= 16)%nat) by (destruct R as [(X & _)|(arr & blks & L & _)]; [lia|unfold len in L; lia]).
  set (q' := {| elems := b :: elems q; room := 2; head := 15 |}).
  assert (Hs : srun s [DPushFront x b] = Some (<[x := q']> s)).
  { cbn. unfold on. rewrite Hx. unfold spush_front. rewrite Hh, Hr. cbn [Nat.ltb Nat.leb]. unfold len.
    destruct (Nat.eqb_spec (length (elems q)) 0); [lia|]. reflexivity. }
  destruct (reached_more _ _ _ _ _ _ H Hs) as (e' & m' & H' & D').
  destruct (e' !! x) as [d'|] eqn:Hd'.
  2:{ destruct (reached_inv _ _ _ _ _ H') as (w & _ & Dom & _). apply Dom in Hd'. rewrite lookup_insert in Hd'. discriminate. }
  assert (X1 : (<[x := q']> s) !! x = Some q') by apply lookup_insert.
  destruct (first_range _ _ _ _ _ _ _ H' X1 Hd') as (G1 & G2 & G3 & G4). cbn [head q'] in G1.
  destruct (index_exact esz _ _ _ _ _ _ _ H' X1 Hd') as [I J]. cbn [elems q'] in I, J.
  exists e', m', d'. split; [exact D'|]. split; [exact Hd'|]. split; [lia|]. unfold d_read. rewrite !w64_id by lia. split.
  - destruct (Nat.eqb_spec k 15) as [->|N15].
    + replace (Z.of_nat 15) with (dfirst d' + Z.of_nat 0) by lia. apply I. reflexivity.
    + apply J; lia.
  - replace (Z.of_nat k + 16) with (dfirst d' + Z.of_nat (S k)) by lia. apply I. exact Ha.
Qed.
End deques.

Lemma normal_compare len cs ds p q : moves len cs 0 = Some p -> moves len ds 0 = Some q ->
  exists i j, acts (n_exec len) cs 0 = Ok i /\ acts (n_exec len) ds 0 = Ok j /\
    (n_eq i j = true <-> p = q) /\ (n_ne i j = true <-> p <> q) /\ (n_lt i j = true <-> p < q) /\ (n_le i j = true <-> p <= q) /\
    (n_gt i j = true <-> q < p) /\ (n_ge i j = true <-> q <= p) /\ q + n_diff i j = p.
Proof.
  intros E1 E2. exists p, q. rewrite !normal_acts, E1, E2. unfold n_eq, n_ne, n_lt, n_le, n_gt, n_ge, n_diff.
  split; [reflexivity|]. split; [reflexivity|]. rewrite negb_true_iff, Z.eqb_eq, Z.eqb_neq, !Z.ltb_lt, !Z.leb_le. repeat split; lia.
Qed.
