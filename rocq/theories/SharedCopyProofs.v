(** What shared_from_this() gives for assigned and copied objects. *)
From stdpp Require Import gmap.
From Coq Require Import ZArith Lia.
From Verif Require Import Base SharedModel SharedSpec SharedProofs SharedRun SharedHist SharedCopyModel.
Local Open Scope nat_scope.

(** The code gets through the history, and the handles it leaves can be counted. *)
Definition reached (cs : list cmd) (w : spec) : Prop := exists s, run cs state0 = Ok s /\ rep w s /\ room w.
Lemma after cs w : srun cs spec0 = Some w -> (Z.of_nat (length cs) + 9 < 2 ^ 64)%Z -> reached cs w.
Proof.
  intros E L. destruct (history cs spec0 w state0 E rep0) as (s&H&R);
    [unfold handles, spec0; cbn [sg wg]; change (size (∅ : hmap)) with 0; lia|].
  exists s. split; [done|]. split; [done|].
  assert (forall cs v v', srun cs v = Some v' -> handles v' <= handles v + length cs) as HH.
  { clear. induction cs as [|c cs IH]; intros v v' E; cbn [srun length] in *; [simplify_eq; lia|].
    destruct (proper c); [|done]. destruct (sstep c v) as [v1|] eqn:E1; [|done]. cbn in E.
    pose proof (sstep_handles _ _ _ E1). specialize (IH v1 v' E). lia. }
  specialize (HH _ _ _ E). unfold room. unfold handles in HH. change (size (sg spec0)) with 0 in HH. change (size (wg spec0)) with 0 in HH. lia.
Qed.

(** An object with an owner, that knows its group. *)
Lemma owned w s x g : rep w s -> sg w !! x = Some (Some g) -> kinds w !! g = Some (KSelf true) ->
  sh x s = Ok {| hp := Some g; hc := Some g |} /\
  objs s !! g = Some {| weak_this := Some {| hp := Some g; hc := Some g |} |} /\
  blocks s !! g = Some {| sc := Z.of_nat (members (sg w) g); wc := Z.of_nat (members (wg w) g + 2); ptr := Some g |} /\
  0 < members (sg w) g.
Proof.
  intros [R _] Hx HK. pose proof (members_pos _ _ _ Hx) as M.
  assert (C : conc (kinds w) (Some g) = {| hp := Some g; hc := Some g |}) by (cbn; rewrite HK; done).
  split; [rewrite (repr_sh _ _ _ _ _ _ R Hx), C; done|].
  pose proof (own_obj _ _ _ _ g true R HK M) as O. cbn iota in O. rewrite C in O. split; [done|]. split; [|done].
  rewrite (ent_block _ _ _ _ _ (core_ent _ _ _ _ (repr_core _ _ _ _ R) g _ HK)).
  destruct (Nat.eqb_spec (members (sg w) g + members (wg w) g) 0); [lia|].
  destruct (Nat.eqb_spec (members (sg w) g) 0); [lia|]. done.
Qed.
Lemma few_members w g : room w -> (Z.of_nat (members (sg w) g) + Z.of_nat (members (wg w) g) + 8 < 2 ^ 64)%Z.
Proof. intros F. unfold room in F. pose proof (members_size (sg w) g). pose proof (members_size (wg w) g). lia. Qed.
Lemma member_ok w s x g : rep w s -> sg w !! x = Some (Some g) -> kinds w !! g = Some (KSelf true) ->
  member_of x s = Ok {| hp := Some g; hc := Some g |}.
Proof.
  intros R Hx HK. destruct (owned w s x g R Hx HK) as (E1 & E2 & _). unfold member_of. rewrite E1. cbn [obind of_option hp]. rewrite E2. done.
Qed.
Lemma no_wk0 w s : rep w s -> wks s !! 0 = None.
Proof. intros [R [_ Z]]. rewrite (repr_wks _ _ _ _ R), lookup_fmap, Z. done. Qed.
Lemma no_sh w s z : rep w s -> sg w !! z = None -> shs s !! z = None.
Proof. intros [R _] Z. rewrite (repr_shs _ _ _ _ R), lookup_fmap, Z. done. Qed.

(** The lock of a block with owners. *)
Lemma lock_counts b s k : blocks s !! b = Some k -> (0 < sc k)%Z -> (sc k + 1 < 2 ^ 64)%Z ->
  lock b s = Ok (true, put_block b {| sc := sc k + 1; wc := wc k; ptr := ptr k |} s).
Proof.
  intros B P Q. unfold lock. blk B. cbn [lock_loop]. destruct (Z.eqb_spec (sc k) 0); [lia|]. blk B.
  rewrite Z.eqb_refl. unfold get_block. cbn [put_block blocks]. rewrite lookup_insert. cbn [of_option obind sc].
  rewrite wrap_id by lia. destruct (Z.eqb_spec (sc k + 1) (sc k)); [lia|]. done.
Qed.

Lemma assigned_joins_reached cs w x y z g h : reached cs w ->
  sg w !! x = Some (Some g) -> sg w !! y = Some (Some h) -> g <> h ->
  kinds w !! g = Some (KSelf true) -> kinds w !! h = Some (KSelf true) -> sg w !! z = None ->
  exists s s1 s2 p q, run cs state0 = Ok s /\ obj_assign x y s = Ok s1 /\ s_from_this z x s1 = Ok s2 /\
    sh x s2 = Ok p /\ hp p = Some g /\ sh z s2 = Ok q /\ hp q = Some h /\
    use_count q s2 = Ok (Z.of_nat (S (members (sg w) h))) /\ use_count p s2 = Ok (Z.of_nat (members (sg w) g)) /\
    blocks s2 !! g = Some {| sc := Z.of_nat (members (sg w) g); wc := Z.of_nat (members (wg w) g + 1); ptr := Some g |} /\
    blocks s2 !! h = Some {| sc := Z.of_nat (S (members (sg w) h)); wc := Z.of_nat (members (wg w) h + 3); ptr := Some h |} /\
    wks s2 = wks s /\ destroyed s2 = destroyed s /\ freed s2 = freed s.
Proof.
  intros A Hx Hy N Kx Ky Hz. destruct A as (s & Rn & R & F).
  destruct (owned w s x g R Hx Kx) as (X1 & X2 & X3 & X4). destruct (owned w s y h R Hy Ky) as (Y1 & Y2 & Y3 & Y4).
  pose proof (few_members w g F) as Fg. pose proof (few_members w h F) as Fh.
  pose proof (no_wk0 w s R) as W0. pose proof (no_sh w s z R Hz) as Z0.
  assert (Nzx : z <> x) by congruence.
  exists s. unfold obj_assign. rewrite (member_ok w s y h R Hy Ky). cbn [obind weak_count_copy hc].
  unfold copy_weak_ref. blk Y3. unfold new_wk. cbn [put_block wks]. rewrite W0. cbn [obind].
  unfold sh in *. cbn [with_wks put_block shs]. rewrite X1. cbn [obind hp of_option objs with_wks put_block]. rewrite X2. cbn [of_option obind weak_this].
  unfold put_wk, wk. cbn [put_obj with_wks wks]. rewrite lookup_insert. cbn [of_option obind].
  unfold w_drop, wk. cbn [put_obj with_wks wks]. rewrite insert_insert, lookup_insert. cbn [of_option obind hc weak_count_release].
  unfold weak_release, get_block. cbn [with_wks put_obj put_block blocks]. rewrite lookup_insert_ne by done. rewrite X3.
  cbn [of_option obind wc]. rewrite wrap_id by lia.
  destruct (Z.eqb_spec (Z.of_nat (members (wg w) g + 2) - 1) 0); [lia|]. cbn [obind].
  match goal with |- context [Ok (end_wk 0 ?t)] => set (s1 := end_wk 0 t); exists s1 end.
  assert (S1 : shs s1 = shs s) by done.
  assert (W1 : wks s1 = wks s) by (subst s1; cbn; rewrite ?insert_insert, delete_insert by done; done).
  assert (D1 : destroyed s1 = destroyed s) by done. assert (D2 : freed s1 = freed s) by done.
  assert (O1 : objs s1 !! g = Some {| weak_this := Some {| hp := Some h; hc := Some h |} |}) by apply lookup_insert.
  assert (B1 : blocks s1 !! h = Some {| sc := Z.of_nat (members (sg w) h); wc := wrap (Z.of_nat (members (wg w) h + 2) + 1); ptr := Some h |}).
  { subst s1. cbn. rewrite lookup_insert_ne by congruence. apply lookup_insert. }
  assert (B2 : blocks s1 !! g = Some {| sc := Z.of_nat (members (sg w) g); wc := (Z.of_nat (members (wg w) g + 2) - 1)%Z; ptr := Some g |}) by apply lookup_insert.
  clearbody s1. unfold s_from_this, sh. rewrite S1, X1. cbn [obind hp of_option]. rewrite O1. cbn [of_option obind weak_this lock_into hc].
  unfold lock_into. cbn [hc].   rewrite (lock_counts h s1 _ B1) by (cbn [sc]; lia). cbn [obind]. unfold new_sh. cbn [put_block shs]. rewrite S1, Z0.
  eexists _, _, _. split; [exact Rn|]. split; [reflexivity|]. split; [reflexivity|].
  cbn [with_shs put_block shs sc wc ptr]. rewrite lookup_insert_ne by done. rewrite ?S1, X1. split; [reflexivity|]. split; [reflexivity|].
  rewrite lookup_insert. split; [reflexivity|]. split; [reflexivity|].
  unfold use_count, get_block. cbn [hc with_shs put_block blocks wks destroyed freed]. split; [|split; [|split; [|split]]].
  - rewrite lookup_insert. cbn [of_option obind sc]. f_equal. lia.
  - rewrite lookup_insert_ne by congruence. rewrite B2. reflexivity.
  - rewrite lookup_insert_ne by congruence. rewrite B2. do 2 f_equal. lia.
  - rewrite lookup_insert. rewrite wrap_id by lia. do 2 f_equal; lia.
  - done.
Qed.
Theorem assigned_joins cs w x y z g h : srun cs spec0 = Some w -> (Z.of_nat (length cs) + 9 < 2 ^ 64)%Z ->
  sg w !! x = Some (Some g) -> sg w !! y = Some (Some h) -> g <> h ->
  kinds w !! g = Some (KSelf true) -> kinds w !! h = Some (KSelf true) -> sg w !! z = None ->
  exists s s1 s2 p q, run cs state0 = Ok s /\ obj_assign x y s = Ok s1 /\ s_from_this z x s1 = Ok s2 /\
    sh x s2 = Ok p /\ hp p = Some g /\ sh z s2 = Ok q /\ hp q = Some h /\
    use_count q s2 = Ok (Z.of_nat (S (members (sg w) h))) /\ use_count p s2 = Ok (Z.of_nat (members (sg w) g)) /\
    blocks s2 !! g = Some {| sc := Z.of_nat (members (sg w) g); wc := Z.of_nat (members (wg w) g + 1); ptr := Some g |} /\
    blocks s2 !! h = Some {| sc := Z.of_nat (S (members (sg w) h)); wc := Z.of_nat (members (wg w) h + 3); ptr := Some h |} /\
    wks s2 = wks s /\ destroyed s2 = destroyed s /\ freed s2 = freed s.
Proof. intros E L. exact (assigned_joins_reached cs w x y z g h (after cs w E L)). Qed.

Lemma copied_joins_reached cs w x y h : reached cs w ->
  sg w !! y = Some (Some h) -> kinds w !! h = Some (KSelf true) -> sg w !! x = None ->
  exists s s1 q, run cs state0 = Ok s /\ copy_from_this x y s = Ok s1 /\ sh x s1 = Ok q /\ hp q = Some h /\
    use_count q s1 = Ok (Z.of_nat (S (members (sg w) h))) /\
    blocks s1 !! h = Some {| sc := Z.of_nat (S (members (sg w) h)); wc := Z.of_nat (members (wg w) h + 2); ptr := Some h |} /\
    wks s1 = wks s /\ objs s1 = objs s /\ destroyed s1 = destroyed s /\ freed s1 = freed s.
Proof.
  intros A Hy Ky Hx. destruct A as (s & Rn & R & F).
  destruct (owned w s y h R Hy Ky) as (Y1 & Y2 & Y3 & Y4).
  pose proof (few_members w h F) as Fh. pose proof (no_wk0 w s R) as W0. pose proof (no_sh w s x R Hx) as Z0.
  exists s. unfold copy_from_this. rewrite (member_ok w s y h R Hy Ky). cbn [obind weak_count_copy hc].
  unfold copy_weak_ref. blk Y3. unfold new_wk. cbn [put_block wks]. rewrite W0. cbn [obind].
  unfold w_lock, wk. cbn [with_wks put_block wks]. rewrite lookup_insert. cbn [of_option obind]. unfold lock_into. cbn [hc].
  match goal with |- context [lock h ?t] => set (s1 := t) end.
  assert (B1 : blocks s1 !! h = Some {| sc := Z.of_nat (members (sg w) h); wc := wrap (Z.of_nat (members (wg w) h + 2) + 1); ptr := Some h |}) by apply lookup_insert.
  assert (S1 : shs s1 = shs s) by done.
  assert (W1 : wks s1 !! 0 = Some {| hp := Some h; hc := Some h |}) by apply lookup_insert.
  assert (W2 : delete 0 (wks s1) = wks s) by (subst s1; cbn; rewrite delete_insert by done; done).
  assert (O1 : objs s1 = objs s) by done. assert (D1 : destroyed s1 = destroyed s) by done. assert (D2 : freed s1 = freed s) by done.
  clearbody s1. rewrite (lock_counts h s1 _ B1) by (cbn [sc]; lia). cbn [obind]. unfold new_sh. cbn [put_block shs]. rewrite S1, Z0. cbn [obind].
  unfold w_drop, wk. cbn [with_shs put_block wks]. rewrite W1. cbn [of_option obind hc weak_count_release].
  unfold weak_release, get_block. cbn [with_shs put_block blocks]. rewrite lookup_insert. cbn [of_option obind wc sc ptr].
  rewrite (wrap_id (Z.of_nat _ + 1)) by lia. rewrite wrap_id by lia.
  destruct (Z.eqb_spec (Z.of_nat (members (wg w) h + 2) + 1 - 1) 0); [lia|]. cbn [obind].
  eexists _, _. split; [exact Rn|]. split; [reflexivity|]. unfold sh. cbn [end_wk with_wks with_shs put_block shs]. rewrite lookup_insert.
  split; [reflexivity|]. split; [reflexivity|]. unfold use_count, get_block. cbn [hc end_wk with_wks with_shs put_block blocks wks objs destroyed freed].
  rewrite lookup_insert. cbn [of_option obind sc]. split; [f_equal; lia|]. split; [do 2 f_equal; lia|]. done.
Qed.
Theorem copied_joins cs w x y h : srun cs spec0 = Some w -> (Z.of_nat (length cs) + 9 < 2 ^ 64)%Z ->
  sg w !! y = Some (Some h) -> kinds w !! h = Some (KSelf true) -> sg w !! x = None ->
  exists s s1 q, run cs state0 = Ok s /\ copy_from_this x y s = Ok s1 /\ sh x s1 = Ok q /\ hp q = Some h /\
    use_count q s1 = Ok (Z.of_nat (S (members (sg w) h))) /\
    blocks s1 !! h = Some {| sc := Z.of_nat (S (members (sg w) h)); wc := Z.of_nat (members (wg w) h + 2); ptr := Some h |} /\
    wks s1 = wks s /\ objs s1 = objs s /\ destroyed s1 = destroyed s /\ freed s1 = freed s.
Proof. intros E L. exact (copied_joins_reached cs w x y h (after cs w E L)). Qed.

(** A copy that is handed to a shared_ptr knows its own group. *)
Lemma make_copy_own_reached cs w x y h : reached cs w ->
  sg w !! y = Some (Some h) -> kinds w !! h = Some (KSelf true) -> sg w !! x = None ->
  exists s s1 q, run cs state0 = Ok s /\ make_copy x y s = Ok s1 /\ sh x s1 = Ok q /\
    q = {| hp := Some (length (kinds w)); hc := Some (length (kinds w)) |} /\ member_of x s1 = Ok q /\ use_count q s1 = Ok 1%Z /\
    blocks s1 !! h = blocks s !! h /\ objs s1 !! h = objs s !! h /\
    blocks s1 !! length (kinds w) = Some {| sc := 1; wc := 2; ptr := Some (length (kinds w)) |} /\
    wks s1 = wks s /\ destroyed s1 = destroyed s /\ freed s1 = freed s.
Proof.
  intros A Hy Ky Hx. destruct A as (s & Rn & R & F).
  destruct (owned w s y h R Hy Ky) as (Y1 & Y2 & Y3 & Y4).
  pose proof (few_members w h F) as Fh. pose proof (no_wk0 w s R) as W0. pose proof (no_sh w s x R Hx) as Z0.
  pose proof (core_nxt _ _ _ _ (repr_core _ _ _ _ (proj1 R))) as Nx.
  pose proof (lookup_lt_Some _ _ _ Ky) as Lt. set (n := length (kinds w)) in *.
  exists s. unfold make_copy. rewrite (member_ok w s y h R Hy Ky). cbn [obind weak_count_copy hc].
  unfold copy_weak_ref. blk Y3. cbn [put_block nxt]. rewrite Nx.
  unfold new_block, put_obj, put_block. cbn [nxt blocks objs shs wks]. rewrite Nx.
  unfold new_sh. cbn [shs]. rewrite Z0. cbn [obind].
  unfold construct_shared_from_this, sh. cbn [with_shs shs]. rewrite lookup_insert. cbn [of_option obind hp objs with_shs].
  rewrite lookup_insert. cbn [of_option obind weak_this].
  unfold w_from, sh. cbn [with_shs shs]. rewrite lookup_insert. cbn [of_option obind hc weak_count_copy].
  unfold copy_weak_ref, get_block. cbn [with_shs blocks]. rewrite lookup_insert. cbn [of_option obind sc wc ptr].
  unfold new_wk. cbn [put_block with_shs wks]. rewrite W0. cbn [obind].
  cbn [with_wks put_block with_shs objs]. rewrite lookup_insert. cbn [of_option obind weak_this].
  unfold wk. cbn [with_wks wks]. rewrite lookup_insert. cbn [of_option obind].
  unfold put_wk, wk. cbn [put_obj with_wks wks]. rewrite lookup_insert. cbn [of_option obind].
  unfold w_drop, wk. cbn [put_obj with_wks wks]. rewrite insert_insert, lookup_insert. cbn [of_option obind hc weak_count_release].
  unfold weak_release, get_block. cbn [with_wks put_obj put_block with_shs blocks].
  rewrite !lookup_insert_ne by lia. rewrite lookup_insert. cbn [of_option obind sc wc ptr].
  rewrite (wrap_id (Z.of_nat _ + 1)) by lia. rewrite wrap_id by lia.
  destruct (Z.eqb_spec (Z.of_nat (members (wg w) h + 2) + 1 - 1) 0); [lia|]. cbn [obind].
  eexists _, _. split; [exact Rn|]. split; [reflexivity|]. unfold sh. cbn [end_wk with_wks put_obj with_shs put_block shs]. rewrite lookup_insert.
  split; [reflexivity|]. split; [reflexivity|]. split; [|split; [|split; [|split; [|split; [|split]]]]].
  - unfold member_of, sh. cbn [end_wk with_wks put_obj with_shs put_block shs]. rewrite lookup_insert. cbn [of_option obind hp objs end_wk with_wks put_obj with_shs put_block].
    rewrite lookup_insert. reflexivity.
  - unfold use_count, get_block. cbn [hc end_wk with_wks put_obj with_shs put_block blocks]. rewrite lookup_insert_ne by lia. rewrite lookup_insert. reflexivity.
  - cbn [end_wk with_wks put_obj with_shs put_block blocks]. rewrite lookup_insert. do 2 f_equal. lia.
  - cbn [end_wk with_wks put_obj with_shs put_block objs]. rewrite !lookup_insert_ne by lia. done.
  - cbn [end_wk with_wks put_obj with_shs put_block blocks]. rewrite lookup_insert_ne by lia. rewrite lookup_insert. reflexivity.
  - cbn [end_wk with_wks put_obj with_shs put_block wks]. rewrite ?insert_insert, delete_insert by done. done.
  - done.
Qed.
Theorem make_copy_own cs w x y h : srun cs spec0 = Some w -> (Z.of_nat (length cs) + 9 < 2 ^ 64)%Z ->
  sg w !! y = Some (Some h) -> kinds w !! h = Some (KSelf true) -> sg w !! x = None ->
  exists s s1 q, run cs state0 = Ok s /\ make_copy x y s = Ok s1 /\ sh x s1 = Ok q /\
    q = {| hp := Some (length (kinds w)); hc := Some (length (kinds w)) |} /\ member_of x s1 = Ok q /\ use_count q s1 = Ok 1%Z /\
    blocks s1 !! h = blocks s !! h /\ objs s1 !! h = objs s !! h /\
    blocks s1 !! length (kinds w) = Some {| sc := 1; wc := 2; ptr := Some (length (kinds w)) |} /\
    wks s1 = wks s /\ destroyed s1 = destroyed s /\ freed s1 = freed s.
Proof. intros E L. exact (make_copy_own_reached cs w x y h (after cs w E L)). Qed.

(** ** A case *)
Definition two_selves : list cmd := [SMake 1 RSelf; SMake 2 RSelf].
Definition two_spec : spec := match srun two_selves spec0 with Some w => w | None => spec0 end.
Lemma two_run : srun two_selves spec0 = Some two_spec /\ sg two_spec !! 1 = Some (Some 0) /\ sg two_spec !! 2 = Some (Some 1) /\
  kinds two_spec !! 0 = Some (KSelf true) /\ kinds two_spec !! 1 = Some (KSelf true) /\ sg two_spec !! 3 = None.
Proof. vm_compute. repeat split. Qed.
