(** The copy of a sector as a whole, and the opening of the gate. *)
From stdpp Require Import list.
From Coq Require Import NArith Lia ZifyBool ZifyNat ZifyN.
From Verif Require Import E820Model FlatModel FlatSpec FlatProofs.
Local Open Scope N_scope.

Ltac proj := cbn [ecx ram gate eax esi edi sp ds fs ss cr0 gbase glimit intr p92 c_sel c_base c_limit gget gset cget cset set_ram set_sp
  set_cr0 set_gdtr set_if sbind fst snd].
Ltac push1 := rewrite push_ok by (proj; lia); proj.
Ltac pop1 := rewrite pop_ok by (proj; lia); proj.

Lemma real_seg r v s : N.testbit (cr0 s) 0 = false -> load_seg r v s = On (cset r (Cache v (16 * v) (c_limit (cget r s))) s).
Proof. intros H. unfold load_seg. rewrite H. reflexivity. Qed.

(** the memory after the six pushes *)
Definition pushed (m : N -> N) (c a f di d si p : N) : N -> N :=
  wr true (wr true (wr true (wr true (wr true (wr true m 2 (p - 2) c) 4 (p - 6) a) 2 (p - 8) f) 4 (p - 12) di) 2 (p - 14) d) 4 (p - 18) si.
Lemma pushed_other m c a f di d si p x : 18 <= p -> p <= 0x7C00 -> x < p - 18 \/ p <= x -> pushed m c a f di d si p x = m x.
Proof. intros H1 H2 Hx. unfold pushed. rewrite !wr_other by (cbn; lia). reflexivity. Qed.
Lemma pushed_bytes m c a f di d si p x : (forall y, m y < 256) -> pushed m c a f di d si p x < 256.
Proof.
  intros B. unfold pushed.
  assert (W : forall n m a v y, (forall y, m y < 256) -> wr true m n a v y < 256).
  { clear. induction n as [|n IH]; intros m a v y B; [apply B|]. cbn [wr]. apply IH. intros z. destruct (z =? line true a); [|apply B].
    apply N.mod_lt. lia. }
  repeat (apply W; intros ?). apply B.
Qed.
Section Read.
Context (m m' : N -> N) (c a f di d si p : N).
Context (H1 : 18 <= p) (H2 : p <= 0x7C00).
Context (E : forall x, p - 18 <= x < p -> m' x = pushed m c a f di d si p x).
Ltac other := rewrite rd_wr_other by (cbn; lia).
Lemma read_si : si < 2 ^ 32 -> rd true m' 4 (p - 18) = si.
Proof. intros L. rewrite (rd_ext true (pushed m c a f di d si p)) by (cbn; intros; try apply E; lia). unfold pushed. apply rd_wr; [cbn; lia|exact L]. Qed.
Lemma read_d : d < 2 ^ 16 -> rd true m' 2 (p - 14) = d.
Proof. intros L. rewrite (rd_ext true (pushed m c a f di d si p)) by (cbn; intros; try apply E; lia). unfold pushed. other. apply rd_wr; [cbn; lia|exact L]. Qed.
Lemma read_di : di < 2 ^ 32 -> rd true m' 4 (p - 12) = di.
Proof. intros L. rewrite (rd_ext true (pushed m c a f di d si p)) by (cbn; intros; try apply E; lia). unfold pushed. do 2 other. apply rd_wr; [cbn; lia|exact L]. Qed.
Lemma read_f : f < 2 ^ 16 -> rd true m' 2 (p - 8) = f.
Proof. intros L. rewrite (rd_ext true (pushed m c a f di d si p)) by (cbn; intros; try apply E; lia). unfold pushed. do 3 other. apply rd_wr; [cbn; lia|exact L]. Qed.
Lemma read_a : a < 2 ^ 32 -> rd true m' 4 (p - 6) = a.
Proof. intros L. rewrite (rd_ext true (pushed m c a f di d si p)) by (cbn; intros; try apply E; lia). unfold pushed. do 4 other. apply rd_wr; [cbn; lia|exact L]. Qed.
Lemma read_c : c < 2 ^ 16 -> rd true m' 2 (p - 2) = c.
Proof. intros L. rewrite (rd_ext true (pushed m c a f di d si p)) by (cbn; intros; try apply E; lia). unfold pushed. do 5 other. apply rd_wr; [cbn; lia|exact L]. Qed.
End Read.

Lemma sub_sub_add p a b : b <= a -> a <= p -> p - a + b = p - (a - b). Proof. lia. Qed.

Lemma pre_ok k m a c si di p dl fsel fb ssel sl cr gb gl it p9 :
  N.testbit cr 0 = false -> 0xFFFF <= dl -> 0xFFFF <= sl -> 18 <= p <= 0x7C00 -> k + 4 <= 0x10000 ->
  run (copy_pre k) (Mach m true a c si di p (Cache 0x1000 0x10000 dl) (Cache fsel fb 0xFFFFFFFF) (Cache ssel 0 sl) cr gb gl it p9) =
  On (Mach (pushed m (c mod 2 ^ 16) a fsel di 0x1000 si p) true (low16 a 0) (low16 c 0x200) 0x7E00 (le_val (load m (0x10000 + k) 4)) (p - 18)
       (Cache 0 0 dl) (Cache 0 0 0xFFFFFFFF) (Cache ssel 0 sl) cr gb gl it p9).
Proof.
  intros Hr Hd Hs Hp Hk. unfold copy_pre. cbn [run exec]. do 6 push1.
  change (N.of_nat 2) with 2. change (N.of_nat 4) with 4.
  replace (p - 2 - 4) with (p - 6) by lia. replace (p - 6 - 2) with (p - 8) by lia. replace (p - 8 - 4) with (p - 12) by lia.
  replace (p - 12 - 2) with (p - 14) by lia. replace (p - 14 - 4) with (p - 18) by lia.
  fold (pushed m (c mod 2 ^ 16) a fsel di 0x1000 si p). set (mm := pushed _ _ _ _ _ _ _ _).
  rewrite real_seg by (proj; exact Hr). proj. unfold fetch, lin. proj.
  replace (k + N.of_nat 4 - 1 <=? dl) with true by lia. proj.
  rewrite real_seg by (proj; exact Hr). proj. rewrite !low16_mod, low16_twice. rewrite rd_load by (cbn; lia).
  rewrite (load_ext m mm) by (intros x Hx; apply pushed_other; lia). reflexivity.
Qed.

Lemma post_ok k m0 m a c si di p dl fsel ssel sl cr gb gl it p9 c0 a0 di0 si0 :
  N.testbit cr 0 = false -> 0xFFFF <= dl -> 0xFFFF <= sl -> 18 <= p <= 0x7C00 -> k + 4 <= 0x10000 ->
  a0 < 2 ^ 32 -> si0 < 2 ^ 32 -> di0 < 2 ^ 32 -> fsel < 2 ^ 16 -> c0 < 2 ^ 16 ->
  (forall x, p - 18 <= x < p -> m x = pushed m0 c0 a0 fsel di0 0x1000 si0 p x) ->
  run (copy_post k) (Mach m true a c si di (p - 18) (Cache 0 0 dl) (Cache 0 0 0xFFFFFFFF) (Cache ssel 0 sl) cr gb gl it p9) =
  On (Mach (wr true m 4 (0x10000 + k) di) true a0 (low16 c c0) si0 di0 p
       (Cache 0x1000 0x10000 dl) (Cache fsel (16 * fsel) 0xFFFFFFFF) (Cache ssel 0 sl) cr gb gl it p9).
Proof.
  intros Hr Hd Hs Hp Hk Ha Hsi Hdi Hf Hc E. unfold copy_post. cbn [run exec]. proj.
  rewrite real_seg by (proj; exact Hr). proj. unfold put, lin. proj.
  change (0x1000 mod 2 ^ 16) with 0x1000. change (16 * 0x1000) with 0x10000.
  replace (k + N.of_nat 4 - 1 <=? dl) with true by lia. proj. set (m1 := wr true m 4 _ di).
  assert (E1 : forall x, p - 18 <= x < p -> m1 x = pushed m0 c0 a0 fsel di0 0x1000 si0 p x).
  { intros x Hx. unfold m1. rewrite wr_other by (cbn; lia). apply E, Hx. }
  pop1. rewrite (read_si m0 m1 c0 a0 fsel di0 0x1000 si0 p) by (lia || done).
  change (N.of_nat 4) with 4. change (N.of_nat 2) with 2.
  pop1. replace (p - 18 + 4) with (p - 14) by lia. rewrite (read_d m0 m1 c0 a0 fsel di0 0x1000 si0 p) by (lia || done).
  rewrite real_seg by (proj; exact Hr). proj. change (N.of_nat 2) with 2.
  pop1. replace (p - 14 + 2) with (p - 12) by lia. rewrite (read_di m0 m1 c0 a0 fsel di0 0x1000 si0 p) by (lia || done).
  change (N.of_nat 4) with 4.
  pop1. replace (p - 12 + 4) with (p - 8) by lia. rewrite (read_f m0 m1 c0 a0 fsel di0 0x1000 si0 p) by (lia || done).
  rewrite real_seg by (proj; exact Hr). proj. change (N.of_nat 2) with 2.
  pop1. replace (p - 8 + 2) with (p - 6) by lia. rewrite (read_a m0 m1 c0 a0 fsel di0 0x1000 si0 p) by (lia || done).
  change (N.of_nat 4) with 4.
  pop1. replace (p - 6 + 4) with (p - 2) by lia. rewrite (read_c m0 m1 c0 a0 fsel di0 0x1000 si0 p) by (lia || done).
  change (N.of_nat 2) with 2. replace (p - 2 + 2) with p by lia. reflexivity.
Qed.

Lemma copy_ok k s : in_loader 18 s -> flat s -> k + 4 <= 0x10000 -> 0x100000 <= offset_at k s -> offset_at k s + 512 < 2 ^ 32 ->
  exists s', copy_sector k s = On s' /\ same_regs s s' /\ flat s' /\ in_loader 18 s' /\ c_sel (fs s') = c_sel (fs s) /\
    offset_at k s' = offset_at k s + 512 /\
    lies (ram s') (offset_at k s) (load (ram s) 0x7E00 512) /\
    (forall x, ~ (offset_at k s <= x < offset_at k s + 512) -> ~ (0x10000 + k <= x < 0x10000 + k + 4) -> ~ (sp s - 18 <= x < sp s) ->
      ram s' x = ram s x).
Proof.
  destruct s as [m g a c si di p [dsel db dl] [fsel fb fl] [ssel sb sl] cr gb gl it p9]. unfold in_loader, flat, offset_at, same_regs.
  cbn [ecx ram gate eax esi edi sp ds fs ss cr0 gbase glimit intr p92 c_sel c_base c_limit].
  intros (Hcr & Hr & -> & -> & Hd & -> & Hs & Hp & Ha & Hc & Hsi & Hdi & Hf & B) (-> & ->) Hk Hlo Hhi.
  set (o := le_val (load m (0x10000 + k) 4)) in *.
  unfold copy_sector. rewrite pre_ok by done. fold o. cbn [sbind].
  set (mp := pushed m (c mod 2 ^ 16) a fsel di 0x1000 si p).
  match goal with |- context [loop _ _ ?t] => set (s1 := t) end.
  destruct (loop_ok 511 (N.to_nat 0x10000) s1) as (a1 & m1 & Ha1 & B1 & Em & El); subst s1;
    cbn [ecx ram gate eax esi edi sp ds fs ss cr0 gbase glimit intr p92 c_sel c_base c_limit] in *; try done; try lia.
  { rewrite low16_mod. reflexivity. }
  { intros x. apply pushed_bytes, B. }
  { apply low16_lt, Ha. }
  fold mp in Em, El. rewrite El. cbn [sbind]. rewrite low16_twice.
  change (N.of_nat 512) with 512 in *. replace (0x7E00 + 512) with 0x8000 by lia.
  assert (Hcm : c mod 2 ^ 16 < 2 ^ 16) by (apply N.mod_lt; rewrite p16; lia).
  rewrite (N.mod_small (o + 512)) by done.
  rewrite (post_ok k m m1 a1 (low16 c 0) 0x8000 (o + 512) p dl fsel ssel sl cr gb gl it p9 (c mod 2 ^ 16) a di si); try done.
  2:{ intros x Hx. rewrite Em. replace ((o <=? x) && (x <? o + 512)) with false by lia. reflexivity. }
  rewrite low16_twice, low16_same. eexists. split; [reflexivity|].
  cbn [ecx ram gate eax esi edi sp ds fs ss cr0 gbase glimit intr p92 c_sel c_base c_limit].
  assert (Bw : forall x, wr true m1 4 (0x10000 + k) (o + 512) x < 256).
  { intros x. cbn [wr]. repeat match goal with |- context [if ?b then _ else _] => destruct b end; try (apply N.mod_lt; lia). apply B1. }
  split_and!; try done; try lia.
  - rewrite wr_load by (cbn; lia). apply le_val_bytes. exact Hhi.
  - unfold lies. assert (L : length (load m 0x7E00 512) = 512%nat) by (clear; generalize 512%nat; intros n; generalize 0x7E00; induction n as [|n IH]; intros; cbn; [done|rewrite IH; done]).
    rewrite L.
    assert (G : forall n x y, x + N.of_nat n <= o + 512 -> o <= x -> y = 0x7E00 + (x - o) -> load (wr true m1 4 (0x10000 + k) (o + 512)) x n = load m y n).
    { induction n as [|n IH]; intros x y H1 H2 H3; [done|]. cbn [load]. f_equal; [|apply IH; lia].
      rewrite wr_other by (cbn; lia). rewrite Em. replace ((o <=? x) && (x <? o + 512)) with true by lia. subst y.
      unfold mp. apply pushed_other; lia. }
    apply G; lia.
  - intros x H1 H2 H3. rewrite wr_other by (cbn; lia). rewrite Em. replace ((o <=? x) && (x <? o + 512)) with false by lia.
    apply pushed_other; lia.
Qed.

(** ** Many sectors *)
Lemma load_app m n1 n2 : forall a, load m a (n1 + n2) = load m a n1 ++ load m (a + N.of_nat n1) n2.
Proof.
  induction n1 as [|n1 IH]; intros a; [cbn; rewrite N.add_0_r; done|]. cbn [load Nat.add app]. f_equal. rewrite IH. do 2 f_equal. lia.
Qed.
Lemma lies_app m a xs ys : lies m a (xs ++ ys) <-> lies m a xs /\ lies m (a + N.of_nat (length xs)) ys.
Proof.
  unfold lies. rewrite app_length, load_app. split; [|intros [E1 E2]; congruence].
  intros E. apply app_inj_1 in E; [done|].
  clear. generalize a. induction xs as [|x xs IH]; intros b; [done|]. cbn. f_equal. apply IH.
Qed.
Lemma lies_ext m m' a xs : (forall x, a <= x < a + N.of_nat (length xs) -> m' x = m x) -> lies m a xs -> lies m' a xs.
Proof. intros E. unfold lies. intros H. rewrite (load_ext m m') by exact E. exact H. Qed.
Lemma sectors_ok k : forall ess s done_, in_loader 18 s -> flat s -> k + 4 <= 0x10000 ->
  Forall (fun eb : (mach -> mach) * list N => length (snd eb) = 512%nat /\ reads k (snd eb) (fst eb)) ess ->
  offset_at k s = 0x100000 + N.of_nat (length done_) -> lies (ram s) 0x100000 done_ ->
  0x100000 + N.of_nat (length done_) + 512 * N.of_nat (length ess) < 2 ^ 32 ->
  exists s', load_sectors k (map fst ess) s = On s' /\ in_loader 18 s' /\ flat s' /\
    offset_at k s' = 0x100000 + N.of_nat (length done_) + 512 * N.of_nat (length ess) /\
    lies (ram s') 0x100000 (done_ ++ concat (map snd ess)).
Proof.
  induction ess as [|[e bs] ess IH]; intros s dn Hi Hf Hk Hes Ho Hl Hb.
  - exists s. cbn [map load_sectors concat length]. rewrite app_nil_r. split_and!; try done. lia.
  - apply Forall_cons in Hes as [[Hlen Hr] Hes]. cbn [fst snd] in *.
    destruct (Hr s Hi Hf) as (Hi1 & Hf1 & Hl1 & Ho1 & Hk1). cbn [map fst snd load_sectors concat length] in *.
    destruct (copy_ok k (e s)) as (s2 & E2 & _ & Hf2 & Hi2 & _ & Ho2 & Hl2 & Hx2); [done|done|done|lia|lia|].
    rewrite E2. cbn [sbind]. unfold lies in Hl1. rewrite Hlen in Hl1. rewrite Hl1 in Hl2.
    destruct (IH s2 (dn ++ bs)) as (s' & E & Hi' & Hf' & Ho' & Hl'); [done|done|done|done| | | |].
    + rewrite app_length. lia.
    + apply lies_app. split.
      * apply (lies_ext (ram s)); [|done]. intros x Hx. destruct Hi1 as (?&?&?&?&?&?&?&?&_). rewrite Hx2 by lia. apply Hk1. lia.
      * rewrite <- Ho, <- Ho1. exact Hl2.
    + rewrite app_length. lia.
    + exists s'. rewrite app_length in Ho'. split_and!; try done; [lia|]. rewrite app_assoc. exact Hl'.
Qed.

(** ** The gate and the limit are needed *)
Lemma closed_gate s : gate s = false -> c_base (fs s) = 0 -> edi s <= c_limit (fs s) -> edi s < 2 ^ 32 -> N.testbit (edi s) 20 = true ->
  exists s', exec StoreAl s = On s' /\ forall x, x <> edi s - 2 ^ 20 -> ram s' x = ram s x.
Proof.
  intros Hg Hb Hl Hd Ht. cbn [exec]. unfold put, lin. cbn [cget]. rewrite Hb, Hg.
  replace (edi s + N.of_nat 1 - 1 <=? c_limit (fs s)) with true by lia. cbn [sbind]. eexists. split; [reflexivity|].
  cbn [set_ram ram wr]. intros x Hx. replace (line false (0 + edi s)) with (edi s - 2 ^ 20).
  - destruct (N.eqb_spec x (edi s - 2 ^ 20)); [lia|done].
  - unfold line. rewrite N.add_0_l, N.mod_small by done. apply N.bits_inj. intros i.
    rewrite N.clearbit_eqb.
    assert (E : edi s - 2 ^ 20 = N.ldiff (edi s) (2 ^ 20)).
    { apply N.sub_nocarry_ldiff. apply N.bits_inj. intros j. rewrite N.ldiff_spec, N.bits_0, N.pow2_bits_eqb.
      destruct (N.eqb_spec 20 j); [subst; rewrite Ht; done|done]. }
    rewrite E, N.ldiff_spec, N.pow2_bits_eqb. done.
Qed.
Lemma no_limit k s : in_loader 18 s -> gate s = true -> c_limit (fs s) = 0xFFFF -> k + 4 <= 0x10000 -> 0x100000 <= offset_at k s ->
  copy_sector k s = Off Fault.
Proof.
  destruct s as [m g a c si di p [dsel db dl] [fsel fb fl] [ssel sb sl] cr gb gl it p9]. unfold in_loader, offset_at.
  cbn [ecx ram gate eax esi edi sp ds fs ss cr0 gbase glimit intr p92 c_sel c_base c_limit].
  intros (Hcr & Hr & -> & -> & Hd & -> & Hs & Hp & Ha & Hc & Hsi & Hdi & Hf & B) -> -> Hk Hlo.
  unfold copy_sector.
  assert (P : exists m' a' c', run (copy_pre k) (Mach m true a c si di p (Cache 0x1000 0x10000 dl) (Cache fsel fb 0xFFFF) (Cache ssel 0 sl) cr gb gl it p9) =
    On (Mach m' true a' c' 0x7E00 (le_val (load m (0x10000 + k) 4)) (p - 18) (Cache 0 0 dl) (Cache 0 0 0xFFFF) (Cache ssel 0 sl) cr gb gl it p9)).
  { unfold copy_pre. cbn [run exec]. do 6 push1.
    change (N.of_nat 2) with 2. change (N.of_nat 4) with 4.
    replace (p - 2 - 4) with (p - 6) by lia. replace (p - 6 - 2) with (p - 8) by lia. replace (p - 8 - 4) with (p - 12) by lia.
    replace (p - 12 - 2) with (p - 14) by lia. replace (p - 14 - 4) with (p - 18) by lia.
    fold (pushed m (c mod 2 ^ 16) a fsel di 0x1000 si p). set (mm := pushed _ _ _ _ _ _ _ _).
    rewrite real_seg by (proj; exact Hr). proj. unfold fetch, lin. proj.
    replace (k + N.of_nat 4 - 1 <=? dl) with true by lia. proj.
    rewrite real_seg by (proj; exact Hr). proj. rewrite !low16_mod, low16_twice. rewrite rd_load by (cbn; lia).
    rewrite (load_ext m mm) by (intros x Hx; apply pushed_other; lia). eauto. }
  destruct P as (m' & a' & c' & ->). cbn [sbind]. destruct (N.to_nat 0x10000) as [|n] eqn:En; [lia|]. cbn [loop]. unfold copy_body. cbn [run exec].
  unfold fetch, lin. proj. change (0x7E00 + N.of_nat 1 - 1) with 0x7E00. replace (0x7E00 <=? dl) with true by lia. proj.
  unfold put, lin. proj. set (o := le_val _) in *. replace (o + N.of_nat 1 - 1 <=? 0xFFFF) with false by lia. reflexivity.
Qed.
