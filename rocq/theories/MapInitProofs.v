(** Proofs for memory::init (C105). *)
From stdpp Require Import gmap list.
From Coq Require Import ZArith Reals Lra Lia ZifyBool ZifyNat ZifyN QArith Qabs Qreals SpecFloat String Ascii.
From Flocq Require Import Core BinarySingleNaN.
From Verif Require Import Base StringSpec PrintfModel PrintfSpec PrintfLoopProofs FloatSpec FloatProofs FloatLoopProofs E820Model MapInitModel MapInitSpec.
From Verif Require PrintfProofs ConsoleModel ConsoleReports.
Local Open Scope N_scope.

(** ** Doubles that hold whole numbers *)
Local Notation bin := (binary_float 53 1024).
#[local] Existing Instance FloatProofs.Hprec.
#[local] Existing Instance FloatProofs.Hmax.

Lemma div_equiv (x y : bin) : SFdiv 53 1024 (B2SF x) (B2SF y) = B2SF (Bdiv mode_NE x y).
Proof.
  case x as [sx|sx| |sx mx ex Bx]; case y as [sy|sy| |sy my ey By]; [now trivial..|].
  cbn -[SFdiv_core_binary]. rewrite B2SF_SF2B. set (z := SFdiv_core_binary _ _ _ _ _ _). destruct z as ((mz, ez), lz). apply bra_equiv.
Qed.

(** [f] is the double [z] * 2^[e] *)
Definition holds_R (f : spec_float) (r : R) : Prop := exists y : bin, f = B2SF y /\ B2R y = r /\ is_finite y = true.
Lemma big_100 z : (Z.abs z < 2 ^ 53)%Z -> (Rabs (IZR z) <= bpow radix2 100)%R.
Proof.
  intros H. rewrite <- abs_IZR. change (bpow radix2 100) with (IZR (2 ^ 100)). apply IZR_le. lia.
Qed.
Lemma fmt_shift z k : (Z.abs z < 2 ^ 53)%Z -> (0 <= k <= 1074)%Z -> generic_format radix2 (SpecFloat.fexp 53 1024) (IZR z / IZR (2 ^ k)).
Proof.
  intros H K. replace (IZR z / IZR (2 ^ k))%R with (F2R (Float radix2 z (- k))).
  - apply format_small; lia.
  - unfold F2R. cbn [Fnum Fexp]. rewrite bpow_opp. f_equal. f_equal. symmetry. rewrite <- IZR_Zpower by lia. reflexivity.
Qed.
(** a number of up to 32 bits shifted by 32 is a double *)
Lemma fmt_high z : (0 <= z < 2 ^ 32)%Z -> generic_format radix2 (SpecFloat.fexp 53 1024) (IZR (z * 2 ^ 32)).
Proof.
  intros H. replace (IZR (z * 2 ^ 32)) with (F2R (Float radix2 z 32)).
  - apply format_small; lia.
  - unfold F2R. cbn [Fnum Fexp]. rewrite mult_IZR. f_equal.
Qed.
Lemma of_Z_holds z : (Z.abs z < 2 ^ 53)%Z -> holds_R (dbl_of_Z z) (IZR z).
Proof. intros H. destruct (of_Z z (format_Z z H) (big_100 z H)) as (y & E & V & F). exists y. auto. Qed.
Lemma add_holds f g x y : holds_R f (IZR x) -> holds_R g (IZR y) -> (Z.abs (x + y) < 2 ^ 53)%Z -> holds_R (SFadd 53 1024 f g) (IZR (x + y)).
Proof.
  intros (a & -> & Va & Fa) (b & -> & Vb & Fb) H. rewrite add_equiv. eexists. split; [reflexivity|].
  pose proof (Bplus_correct 53 1024 _ _ mode_NE a b Fa Fb) as C. change (round_mode mode_NE) with ZnearestE in C.
  rewrite Va, Vb, <- plus_IZR in C. rewrite small_ok in C by (apply big_100, H). destruct C as (C1 & C2 & _).
  split; [|exact C2]. rewrite C1. apply round_generic; [typeclasses eauto|apply format_Z, H].
Qed.
Lemma div_holds f z k : holds_R f (IZR z / IZR (2 ^ k)) -> (Z.abs z < 2 ^ 53)%Z -> (0 <= k <= 100)%Z -> holds_R (SFdiv 53 1024 f (dbl_of_Z 1024)) (IZR z / IZR (2 ^ (k + 10))).
Proof.
  intros (a & -> & Va & Fa) H K. destruct (of_Z_holds 1024) as (b & -> & Vb & Fb); [lia|]. rewrite div_equiv. eexists. split; [reflexivity|].
  assert (P : (0 < 2 ^ k)%Z) by (apply Z.pow_pos_nonneg; lia).
  assert (E : (IZR z / IZR (2 ^ k) / IZR 1024 = IZR z / IZR (2 ^ (k + 10)))%R).
  { rewrite Z.pow_add_r by lia. rewrite mult_IZR. change (2 ^ 10)%Z with 1024%Z. field. apply IZR_neq. lia. }
  pose proof (Bdiv_correct 53 1024 _ _ mode_NE a b) as C. change (round_mode mode_NE) with ZnearestE in C.
  rewrite Va, Vb, E in C.
  rewrite small_ok in C.
  - destruct C as (C1 & C2 & _); [lra|]. split; [|rewrite C2; exact Fa]. rewrite C1. apply round_generic; [typeclasses eauto|]. apply fmt_shift; lia.
  - unfold Rdiv. rewrite Rabs_mult. rewrite (Rabs_pos_eq (/ _)).
    + apply Rle_trans with (Rabs (IZR z) * 1)%R; [|rewrite Rmult_1_r; apply big_100, H].
      apply Rmult_le_compat_l; [apply Rabs_pos|]. rewrite <- Rinv_1. apply Rinv_le; [lra|]. apply IZR_le.
      assert (0 < 2 ^ (k + 10))%Z by (apply Z.pow_pos_nonneg; lia). lia.
    + left. apply Rinv_0_lt_compat. apply IZR_lt. apply Z.pow_pos_nonneg; lia.
Qed.

Lemma holds_double f r : holds_R f r -> (0 <= r)%R -> is_double f /\ Q2R (magnitude f) = r /\ below_zero f = false.
Proof.
  intros (y & -> & V & F) P. subst r. destruct y as [s|s| |s m e B]; try discriminate.
  - split; [split; [reflexivity|exact I]|]. split; [|reflexivity]. cbn. unfold Q2R. cbn. lra.
  - pose proof (sign_nonneg _ _ _ _ _ eq_refl P) as ->. split; [split; [exact B|exact I]|]. split; [|reflexivity].
    cbn [B2SF B2R cond_Zopp]. apply magnitude_value.
Qed.

(** ** Records *)
Lemma le_val_load m : is_memory m -> forall n a, le_val (load m a n) < 256 ^ N.of_nat n.
Proof.
  intros Hm. induction n as [|n IH]; intros a; cbn [load le_val]; [cbn; lia|].
  rewrite Nat2N.inj_succ, N.pow_succ_r by lia. pose proof (Hm a). pose proof (IH (a + 1)). lia.
Qed.
Lemma load_8 m a : le_val (load m a 8) = u32_at m a + 2 ^ 32 * u32_at m (a + 4).
Proof. unfold u32_at. cbn [load le_val]. replace (a + 4) with (a + 1 + 1 + 1 + 1) by lia. lia. Qed.
Lemma u32_lt m a : is_memory m -> u32_at m a < 2 ^ 32.
Proof. intros Hm. apply (le_val_load m Hm 4). Qed.
Definition sound_record (r : e820_entry) : Prop := e_addr r < 2 ^ 64 /\ e_len r < 2 ^ 64 /\ e_type r < 2 ^ 32.
Lemma read_sound m p : is_memory m -> sound_record (read_entry m p).
Proof. intros Hm. split; [apply (le_val_load m Hm 8)|split; [apply (le_val_load m Hm 8)|apply (le_val_load m Hm 4)]]. Qed.
Definition record_call (r : e820_entry) : list N * list arg :=
  (line_format, [A32 (e_addr r / 2 ^ 32); A32 (e_addr r mod 2 ^ 32); A32 (e_len r / 2 ^ 32); A32 (e_len r mod 2 ^ 32); A32 (e_type r)]).
Lemma halves_div l h : l < 2 ^ 32 -> (l + 2 ^ 32 * h) / 2 ^ 32 = h.
Proof. intros H. rewrite (N.mul_comm _ h), N.div_add by lia. rewrite N.div_small by exact H. lia. Qed.
Lemma halves_mod l h : l < 2 ^ 32 -> (l + 2 ^ 32 * h) mod 2 ^ 32 = l.
Proof. intros H. rewrite (N.mul_comm _ h), N.mod_add by lia. apply N.mod_small, H. Qed.
Lemma call_eq m p : is_memory m ->
  (line_format, [A32 (address2 m p); A32 (address1 m p); A32 (length2 m p); A32 (length1 m p); A32 (type_ m p)]) = record_call (read_entry m p).
Proof.
  intros Hm. unfold record_call, read_entry, address1, address2, length1, length2, type_. cbn [e_addr e_len e_type].
  rewrite !load_8. rewrite !halves_div, !halves_mod by (apply u32_lt, Hm). replace (p + 8 + 4) with (p + 12) by lia. reflexivity.
Qed.
Lemma loop_ok m : is_memory m -> forall n p f T, holds_R f (IZR (Z.of_N T)) ->
  let rs := upto (map (fun i => read_entry m (p + 20 * N.of_nat i)) (seq 0 n)) in
  T + ram rs < 2 ^ 53 ->
  exists f', init_loop n m p f = (map record_call rs, f') /\ holds_R f' (IZR (Z.of_N (T + ram rs))).
Proof.
  intros Hm. induction n as [|n IH]; intros p f T Hf.
  - cbn. intros _. exists f. rewrite N.add_0_r. auto.
  - cbn [seq map]. rewrite <- seq_shift, map_map. replace (p + 20 * N.of_nat 0) with p by lia.
    rewrite (map_ext _ (fun i => read_entry m (p + 20 + 20 * N.of_nat i))) by (intros i; f_equal; lia).
    cbn [upto]. cbn [init_loop].
    change (e_type (read_entry m p)) with (type_ m p).
    destruct (4 <? type_ m p) eqn:E4.
    + replace (type_ m p <=? 4) with false by lia. cbn. intros _. exists f. rewrite N.add_0_r. auto.
    + replace (type_ m p <=? 4) with true by lia. cbn zeta. cbn [ram fold_right]. fold ram.
      set (rs := upto _). change (fold_right _ 0 rs) with (ram rs). change (e_type (read_entry m p)) with (type_ m p).
      assert (El : e_len (read_entry m p) = length1 m p + 2 ^ 32 * length2 m p).
      { cbn [read_entry e_len]. rewrite load_8. unfold length1, length2. replace (p + 8 + 4) with (p + 12) by lia. reflexivity. }
      rewrite call_eq by exact Hm. intros HT.
      set (d := if type_ m p =? 1 then e_len (read_entry m p) else 0) in *.
      set (f1 := if type_ m p =? 1 then _ else f).
      assert (Hf1 : holds_R f1 (IZR (Z.of_N (T + d)))).
      { subst f1 d. destruct (type_ m p =? 1); [|rewrite N.add_0_r; exact Hf].
        rewrite El in HT |- *. pose proof (u32_lt m (p + 12) Hm) as H2. fold (length2 m p) in H2.
        rewrite N.shiftl_mul_pow2. rewrite (N.mod_small (length2 m p * 2 ^ 32)) by lia.
        replace (Z.of_N (T + (length1 m p + 2 ^ 32 * length2 m p))) with ((Z.of_N T + Z.of_N (length1 m p)) + Z.of_N (length2 m p * 2 ^ 32))%Z by lia.
        apply add_holds; [apply add_holds; [exact Hf|apply of_Z_holds; lia|lia]|apply of_Z_holds; lia|lia]. }
      destruct (IH (p + 20) f1 (T + d) Hf1) as (f' & E & H'). { fold rs. lia. }
      fold rs in E, H'. exists f'. rewrite E. split; [reflexivity|]. replace (T + (d + ram rs)) with (T + d + ram rs) by lia. exact H'.
Qed.
Lemma records_sound m : is_memory m -> Forall sound_record (records m).
Proof.
  intros Hm. unfold records. generalize (seq 0 16) as l. induction l as [|i l IH]; cbn [map upto]; [constructor|].
  case_match; constructor; [apply read_sound, Hm|exact IH].
Qed.

(** ** Lines *)
Definition ud : directive := Conv [] [117] None 100.
Definition lit (s : string) : list directive := map Lit (ConsoleModel.bytes s).
Lemma renders_ud m n r ds : n < 2 ^ 32 -> numeral 10 false n ds -> renders_all m [ud] (A32 n :: r) ds r.
Proof.
  intros Hn Hd. apply ConsoleReports.renders_one.
  assert (V : int_value 32 false n = Z.of_N n) by (unfold int_value; cbn [andb]; rewrite N.mod_small by exact Hn; reflexivity).
  replace ds with ((if (Z.of_N n <? 0)%Z then [45] else []) ++ padded (pad_of []) (if (100 =? 105) && max_of [117] then 20 else width_of []) ds).
  - eapply (R_int m [] [117] None 100 (A32 n :: r) None (A32 n :: r) 32 n r); try reflexivity; [symmetry; exact V|lia|].
    replace (Z.to_N (Z.abs (Z.of_N n))) with n by lia. exact Hd.
  - replace (Z.of_N n <? 0)%Z with false by lia. unfold padded. cbn. reflexivity.
Qed.
Lemma number32 n : n < 2 ^ 32 -> exists ds, numeral 10 false n ds /\ (List.length ds <= 20)%nat.
Proof. intros H. apply ConsoleReports.number; [lia|auto]. Qed.
Lemma ascii_same s : ConsoleModel.bytes s = ascii_text s.
Proof. reflexivity. Qed.
Definition nonzero (l : list N) : Prop := Forall (fun c => c <> 0) l.
Lemma numeral_nonzero n ds : numeral 10 false n ds -> nonzero ds.
Proof. intros H. apply ConsoleReports.numeral_texty in H. eapply Forall_impl; [exact H|]. intros c Hc. unfold ConsoleReports.texty in Hc. lia. Qed.

Lemma printed ds args out args' (P : list N -> Prop) fmt :
  fmt = unparse ds -> Forall wf_directive ds -> renders_all ∅ ds args out args' -> P out -> (List.length out < 1024)%nat -> nonzero out ->
  call_prints (fmt, args) P.
Proof.
  intros -> Hd Hr HP Hl Hn m buf B1 B2 Hm.
  destruct (snprintf_renders m buf 1024 ds args out args' ∅ Hd Hr B1 B2 Hm) as (m' & E & W).
  { intros x v Hx. rewrite lookup_empty in Hx. discriminate Hx. }
  change (N.to_nat 1024) with 1024%nat in W. rewrite take_ge in W by (rewrite app_length; cbn; lia).
  exists out, m'. eexists. split; [exact HP|]. split; [exact Hl|]. split; [exact Hn|]. split; [exact E|exact W].
Qed.

Definition line_ds : list directive :=
  lit "Address:" ++ [ud] ++ map Lit [44] ++ [ud] ++ map Lit [9] ++ lit "Length:" ++ [ud] ++ map Lit [44] ++ [ud] ++ map Lit [9] ++ lit "Type:" ++ [ud] ++ map Lit [10].
Lemma wf_lits l : forallb (fun c => negb (c =? 0) && negb (c =? 37)) l = true -> Forall wf_directive (map Lit l).
Proof. intros H. apply Forall_map. apply Forall_forall. intros c Hc. rewrite forallb_forall in H. apply elem_of_list_In, H in Hc. cbn. lia. Qed.
Lemma wf_ud : Forall wf_directive [ud].
Proof.
  constructor; [|constructor]. cbn. split; [constructor|]. split; [constructor; [left; reflexivity|constructor]|]. split; [lia|].
  unfold is_flag, is_digit. split; [lia|]. split; [lia|]. intros H. discriminate H.
Qed.

Lemma record_prints r : sound_record r -> call_prints (record_call r) (record_line r).
Proof.
  intros (S1 & S2 & S3).
  assert (D : forall x, x < 2 ^ 64 -> x / 2 ^ 32 < 2 ^ 32) by (intros x H; apply N.div_lt_upper_bound; lia).
  assert (M : forall x, x mod 2 ^ 32 < 2 ^ 32) by (intros x; apply N.mod_lt; lia).
  destruct (number32 _ (D _ S1)) as (a2 & A2 & LA2). destruct (number32 _ (M (e_addr r))) as (a1 & A1 & LA1).
  destruct (number32 _ (D _ S2)) as (l2 & L2 & LL2). destruct (number32 _ (M (e_len r))) as (l1 & L1 & LL1).
  destruct (number32 _ S3) as (ty & T & LT).
  set (out := ascii_text "Address:" ++ a2 ++ [44] ++ a1 ++ [9] ++ ascii_text "Length:" ++ l2 ++ [44] ++ l1 ++ [9] ++ ascii_text "Type:" ++ ty ++ [10]).
  apply (printed line_ds _ out []); [vm_compute; reflexivity| | | | |].
  - unfold line_ds, lit. rewrite !Forall_app. repeat split; first [exact wf_ud|apply wf_lits; reflexivity].
  - unfold out, line_ds, lit.
    repeat first [ eapply ConsoleReports.renders_app | apply ConsoleReports.renders_lits | (apply renders_ud; [solve [auto]|eassumption]) ].
  - exists a2, a1, l2, l1, ty. auto 10.
  - unfold out. rewrite !app_length. cbn. lia.
  - unfold out, nonzero. rewrite !Forall_app. repeat split; try (eapply numeral_nonzero; eassumption); cbn; repeat (apply Forall_cons; split; [discriminate|]); apply Forall_nil; exact I.
Qed.
Lemma title_prints : call_prints (header_format, []) (eq title).
Proof.
  apply (printed (map Lit title) _ title []); [vm_compute; reflexivity| | |reflexivity| |].
  - apply wf_lits. reflexivity.
  - apply ConsoleReports.renders_lits.
  - vm_compute. lia.
  - unfold nonzero, title. cbn. repeat (apply Forall_cons; split; [discriminate|]). apply Forall_nil. exact I.
Qed.

(** ** The total *)
Definition total_ds : list directive := lit "TotalMem = " ++ [Conv [] [] (Some [53]) 102] ++ map Lit (ascii_text " MB" ++ [10]).
Lemma renders_f_lits s m l args : renders_all_f s m (map Lit l) args l args.
Proof. induction l as [|c l IH]; [constructor|]. cbn [map]. change (c :: l) with ([c] ++ l). econstructor; [apply RF_other; constructor|exact IH]. Qed.
Lemma renders_f_app s m d1 : forall a1 o1 a2 d2 o2 a3, renders_all_f s m d1 a1 o1 a2 -> renders_all_f s m d2 a2 o2 a3 -> renders_all_f s m (d1 ++ d2) a1 (o1 ++ o2) a3.
Proof.
  induction d1 as [|d d1 IH]; intros a1 o1 a2 d2 o2 a3 H1 H2; inversion H1; subst; [exact H2|].
  cbn [app]. rewrite <- app_assoc. econstructor; [eassumption|]. eapply IH; eassumption.
Qed.
Lemma renders_f_split s m l : forall ds a o a', renders_all_f s m (map Lit l ++ ds) a o a' -> exists o', o = l ++ o' /\ renders_all_f s m ds a o' a'.
Proof.
  induction l as [|c l IH]; intros ds a o a' H; [exists o; auto|]. cbn [map app] in H. inversion H as [|? ? ? ? ? ? ? H1 H2]; subst.
  inversion H1 as [? ? ? ? H3|]; subst. inversion H3; subst. apply IH in H2 as (o' & -> & H2). exists o'. auto.
Qed.

Lemma wf_total : Forall wf_directive total_ds.
Proof.
  unfold total_ds, lit. rewrite !Forall_app. split; [apply wf_lits; reflexivity|]. split; [|apply wf_lits; reflexivity].
  constructor; [|constructor]. cbn. split; [constructor|]. split; [constructor|]. split; [lia|]. unfold is_digit. split; [|lia]. constructor; [lia|constructor].
Qed.
Lemma width_5 : width_of [53] = 5.
Proof. reflexivity. Qed.

(** on the grid of the values, the tolerance of %f is nothing *)
Lemma grid X i q v : v == inject_Z (Z.of_N X) / inject_Z (2 ^ 20) -> decimal_of v 5 (1 # 2 ^ 22) i q -> megabytes X i q.
Proof.
  intros Hv (Hq & H). split; [exact Hq|]. rewrite Hv in H.
  set (D := Z.of_N (i * 10 ^ 5 + q)) in *. change (Z.of_N 5) with 5%Z in H.
  assert (E : inject_Z D - inject_Z (Z.of_N X) / inject_Z (2 ^ 20) * inject_Z (10 ^ 5) == (D * 2 ^ 20 - Z.of_N X * 10 ^ 5) # (2 ^ 20)).
  { rewrite Qmake_Qdiv. unfold Z.sub. rewrite inject_Z_plus, inject_Z_opp, !inject_Z_mult. change (inject_Z (Zpos (2 ^ 20))) with (inject_Z (2 ^ 20)). field. discriminate. }
  rewrite E in H. set (z := (D * 2 ^ 20 - Z.of_N X * 10 ^ 5)%Z) in *. change (Qabs (z # 2 ^ 20)) with (Z.abs z # 2 ^ 20) in H. unfold Qle, Qplus in H. cbn [Qnum Qden] in H.
  assert (Hz : (Z.abs z * 2 ^ 23 <= (2 ^ 22 + 2) * 2 ^ 20)%Z) by (revert H; clearbody z; cbn -[Z.mul Z.abs]; lia).
  replace (Z.of_N ((i * 10 ^ 5 + q) * 2 ^ 20)) with (D * 2 ^ 20)%Z by (unfold D; lia). rewrite N2Z.inj_mul. change (Z.of_N (10 ^ 5)) with (10 ^ 5)%Z.
  (* a whole number below 2^19 + 1 is at most 2^19 *)
  lia.
Qed.

Lemma Q2R_eq p q : Q2R p = Q2R q -> p == q.
Proof. apply eqR_Qeq. Qed.
Lemma usage_ok f X : X < 2 ^ 53 -> holds_R f (IZR (Z.of_N X)) ->
  is_double (usage f) /\ magnitude (usage f) == inject_Z (Z.of_N X) / inject_Z (2 ^ 20) /\ below_zero (usage f) = false.
Proof.
  intros HX Hf. unfold usage.
  assert (H1 : holds_R f (IZR (Z.of_N X) / IZR (2 ^ 0))) by (change (2 ^ 0)%Z with 1%Z; unfold Rdiv; rewrite Rinv_1, Rmult_1_r; exact Hf).
  apply div_holds in H1; [|lia|lia]. apply div_holds in H1; [|lia|lia]. change (0 + 10 + 10)%Z with 20%Z in H1.
  destruct (holds_double _ _ H1) as (D & M & B).
  { apply Rmult_le_pos; [apply IZR_le; lia|]. left. apply Rinv_0_lt_compat, IZR_lt. reflexivity. }
  split; [exact D|]. split; [|exact B]. apply Q2R_eq. rewrite M, Q2R_div, !Q2R_inject by discriminate. reflexivity.
Qed.
Lemma exact_decimal X v : v == inject_Z (Z.of_N X) / inject_Z (2 ^ 20) -> exists i q, decimal_of v 5 0 i q /\ i <= X /\ q < 10 ^ 5.
Proof.
  intros Hv. set (n := (X * 10 ^ 5 * 2 + 2 ^ 20) / 2 ^ 21).
  assert (Hn : n * 2 ^ 21 <= X * 10 ^ 5 * 2 + 2 ^ 20 /\ X * 10 ^ 5 * 2 + 2 ^ 20 < (n + 1) * 2 ^ 21).
  { pose proof (N.div_mod (X * 10 ^ 5 * 2 + 2 ^ 20) (2 ^ 21) ltac:(lia)) as E. fold n in E. pose proof (N.mod_lt (X * 10 ^ 5 * 2 + 2 ^ 20) (2 ^ 21) ltac:(lia)). lia. }
  clearbody n. exists (n / 10 ^ 5), (n mod 10 ^ 5).
  pose proof (N.div_mod n (10 ^ 5) ltac:(lia)) as E. pose proof (N.mod_lt n (10 ^ 5) ltac:(lia)) as L.
  split; [|split; [|exact L]].
  - split; [exact L|]. replace (n / 10 ^ 5 * 10 ^ 5 + n mod 10 ^ 5) with n by lia. rewrite Hv. change (Z.of_N 5) with 5%Z.
    assert (F : inject_Z (Z.of_N n) - inject_Z (Z.of_N X) / inject_Z (2 ^ 20) * inject_Z (10 ^ 5) == (Z.of_N n * 2 ^ 20 - Z.of_N X * 10 ^ 5) # (2 ^ 20)).
    { rewrite Qmake_Qdiv. unfold Z.sub. rewrite inject_Z_plus, inject_Z_opp, !inject_Z_mult. change (inject_Z (Zpos (2 ^ 20))) with (inject_Z (2 ^ 20)). field. discriminate. }
    rewrite F. set (z := (Z.of_N n * 2 ^ 20 - Z.of_N X * 10 ^ 5)%Z) in *. change (Qabs (z # 2 ^ 20)) with (Z.abs z # 2 ^ 20).
    assert (Hz : (2 * Z.abs z <= 2 ^ 20)%Z) by (unfold z; lia). clearbody z. unfold Qle, Qplus. cbn -[Z.mul Z.abs]. lia.
  - lia.
Qed.
Lemma value_prints u X : X <= 2 ^ 53 -> is_double u -> magnitude u == inject_Z (Z.of_N X) / inject_Z (2 ^ 20) -> below_zero u = false ->
  call_prints (total_format, [ADbl u]) (total_line X).
Proof.
  intros HX D M B m buf B1 B2 Hm.
  assert (Hb : (magnitude u < inject_Z (2 ^ 63))%Q).
  { rewrite M. apply Qlt_shift_div_r; [reflexivity|]. rewrite <- inject_Z_mult, <- Zlt_Qlt. lia. }
  destruct (exact_decimal X _ M) as (i & q & Dc & Hi & Hq).
  destruct (ConsoleReports.number 10 i ltac:(lia) ltac:(auto)) as (di & Ni & _).
  destruct (ConsoleReports.number 10 q ltac:(lia) ltac:(auto)) as (dq & Nq & _).
  set (t0 := di ++ [46] ++ padded 48 5 dq).
  assert (R0 : renders_all_f 0 ∅ total_ds [ADbl u] (ConsoleModel.bytes "TotalMem = " ++ t0 ++ (ascii_text " MB" ++ [10])) []).
  { unfold total_ds, lit. eapply renders_f_app; [apply renders_f_lits|]. eapply renders_f_app; [|apply renders_f_lits].
    rewrite <- (app_nil_r t0). econstructor; [|constructor].
    eapply (RF_float 0 ∅ [] [] (Some [53]) [ADbl u] None u []); [reflexivity|exact D|exact Hb|rewrite width_5; lia|].
    rewrite width_5. exists i, q, di, dq. split; [exact Dc|]. split; [exact Ni|]. split; [exact Nq|]. rewrite B. unfold t0, padded at 2. cbn. reflexivity. }
  destruct (snprintf_float m buf 1024 total_ds [ADbl u] _ [] ∅ wf_total R0 B1 B2 Hm) as (m' & out & R & E & W).
  { intros x v Hx. rewrite lookup_empty in Hx. discriminate Hx. }
  unfold total_ds, lit in R. apply renders_f_split in R as (o1 & -> & R). remember (map Lit (ascii_text " MB" ++ [10])) as L eqn:HL.
  inversion R as [|? ? ? o2 a2 o3 ? R1 R2]; subst d ds args args2 o1. clear R R0. cbn [app] in R2.
  assert (Ht : exists i q di dq, megabytes X i q /\ numeral 10 false i di /\ numeral 10 false q dq /\ o2 = di ++ [46] ++ padded 48 5 dq /\ a2 = []).
  { inversion R1 as [? ? ? ? R3 | w f0 fr args cnt x args1 o T D' B' W' F]; subst.
    - exfalso. inversion R3 as [|? ? ? ? ? ? ? ? ? ? ? ? ? I1| | |? ? ? ? ? ? ? ? P| |]; subst.
      + discriminate I1.
      + unfold prints_itself in P. lia.
    - cbn in T. injection T as <- <- <-. rewrite width_5 in F. destruct F as (i' & q' & di' & dq' & Dc' & Ni' & Nq' & Eo).
      exists i', q', di', dq'. split; [exact (grid X i' q' _ M Dc')|]. split; [exact Ni'|]. split; [exact Nq'|]. split; [|reflexivity]. rewrite Eo, B. unfold padded at 1. cbn. reflexivity. }
  destruct Ht as (i' & q' & di' & dq' & Mb & Ni' & Nq' & -> & ->).
  rewrite HL, <- (app_nil_r (map Lit _)) in R2. apply renders_f_split in R2 as (o4 & -> & R2). inversion R2; subst. rewrite app_nil_r in E, W.
  assert (Hi' : i' < 2 ^ 64). { destruct Mb as (Q1 & Q2). lia. }
  destruct (ConsoleReports.number 10 i' Hi' ltac:(auto)) as (di2 & Ni2 & Li2). rewrite (PrintfProofs.numeral_unique 10 false ltac:(lia) di2 di' i' Ni2 Ni') in Li2.
  destruct (ConsoleReports.number 10 q' ltac:(destruct Mb; lia) ltac:(auto)) as (dq2 & Nq2 & Lq2). rewrite (PrintfProofs.numeral_unique 10 false ltac:(lia) dq2 dq' q' Nq2 Nq') in Lq2.
  assert (Lp : (List.length (padded 48 5 dq') <= 25)%nat) by (unfold padded; rewrite app_length, replicate_length; lia).
  set (t := ConsoleModel.bytes "TotalMem = " ++ (di' ++ [46] ++ padded 48 5 dq') ++ ascii_text " MB" ++ [10]) in *.
  assert (Lt : (List.length t < 1024)%nat). { unfold t. rewrite !app_length. change (List.length (ConsoleModel.bytes "TotalMem = ")) with 11%nat.
    change (List.length (ascii_text " MB")) with 3%nat. cbn [List.length]. clear - Li2 Lq2 Lp. lia. }
  change (N.to_nat 1024) with 1024%nat in W. rewrite take_ge in W by (rewrite app_length; cbn [List.length]; clearbody t; lia).
  exists t, m'. eexists. split; [|split; [exact Lt|split; [|split; [exact E|exact W]]]].
  - exists i', q', di', dq'. split; [exact Mb|]. split; [exact Ni'|]. split; [exact Nq'|]. unfold t. rewrite <- !app_assoc. reflexivity.
  - unfold t, padded. rewrite !Forall_app. repeat split; try (eapply numeral_nonzero; eassumption); try (apply Forall_replicate; lia); cbn; repeat (apply Forall_cons; split; [discriminate|]); apply Forall_nil; exact I.
Qed.

Lemma total_prints f X : X < 2 ^ 53 -> holds_R f (IZR (Z.of_N X)) -> call_prints (total_format, [ADbl (usage f)]) (total_line X).
Proof. intros HX Hf. destruct (usage_ok f X HX Hf) as (D & M & B). apply value_prints; [lia|exact D|exact M|exact B]. Qed.

Lemma init_prints m : is_memory m -> ram (records m) < 2 ^ 53 ->
  Forall2 call_prints (init_calls m) ([eq title] ++ map record_line (records m) ++ [total_line (ram (records m))]).
Proof.
  intros Hm HR. unfold init_calls, map_at.
  destruct (loop_ok m Hm 16 0x7e00 (S754_zero false) 0) as (f & E & Hf).
  { exists (B754_zero false). split; [reflexivity|]. split; reflexivity. }
  { exact HR. }
  fold (records m) in E, Hf. rewrite E. cbn [app]. constructor; [exact title_prints|]. apply Forall2_app.
  - pose proof (records_sound m Hm) as S. induction (records m) as [|r rs IH] in S |- *; [constructor|].
    apply Forall_cons in S as [S1 S2]. cbn [map]. constructor; [apply record_prints, S1|apply IH, S2].
  - constructor; [|constructor]. apply total_prints; [exact HR|exact Hf].
Qed.
