(** Proofs about the entry stubs. *)
From stdpp Require Import list.
From Coq Require Import ZArith Lia.
From Verif Require Import StubModel StubSpec.
Local Open Scope Z_scope.
Local Ltac Zify.zify_post_hook ::= Z.div_mod_to_equations.

Ltac run_stub :=
  cbn [exec_list exec app save_context restore_context restore_kernel_segments irq_entry irq_exit
       syscall_entry syscall_exit cpu_enter push set_reg set_rsp set_flags set_seg regs rsp rflags rip cs ss
       segs mem read_sfield sfield_index sfield_of_reg read_ffield ffield_index].
Ltac mem_eq :=
  repeat match goal with
  | |- context [?a =? ?b] =>
      first [ rewrite (proj2 (Z.eqb_eq a b)) by lia | rewrite (proj2 (Z.eqb_neq a b)) by lia ]; cbv iota
  end.

Ltac dec_eq :=
  repeat match goal with
  | |- context [decide (?a = ?b)] =>
      first [ rewrite (decide_True (P := a = b)) by reflexivity | rewrite (decide_False (P := a = b)) by discriminate ]
  end.

Lemma exec_app h ra a b m :
  exec_list h ra (a ++ b) m = exec_list h ra b (exec_list h ra a m).
Proof. revert m. induction a as [|i a IH]; intros m; [reflexivity|]. cbn [exec_list app]. apply IH. Qed.

Lemma exec_call h ra a b m :
  exec_list h ra (a ++ [ICall] ++ b) m = exec_list h ra b (h (push ra (exec_list h ra a m))).
Proof. rewrite !exec_app. reflexivity. Qed.

Lemma entry_record h ra top t c n m (entry : list instr) :
  entry = irq_entry n \/ entry = syscall_entry n ->
  let m1 := exec_list h ra entry (cpu_enter top t c None m) in
  rsp m1 = top - 168 /\ regs m1 RDI = top - 168 /\
  (forall f, read_sfield m1 (top - 168) f = saved_field m n f) /\
  (forall a, top <= a -> mem m1 a = mem m a).
Proof.
  intros [-> | ->]; run_stub.
  - split; [lia|]. split; [case_decide; [lia|congruence]|]. split.
    + intros []; run_stub; cbn [saved_field]; mem_eq; reflexivity.
    + intros a Ha. mem_eq. reflexivity.
  - split; [lia|]. split; [case_decide; [lia|congruence]|]. split.
    + intros []; run_stub; cbn [saved_field]; mem_eq; reflexivity.
    + intros a Ha. mem_eq. reflexivity.
Qed.

Lemma entry_flags h ra top t c n m :
  Z.testbit (rflags (exec_list h ra (irq_entry n) (cpu_enter top t c None m))) 9 = false /\
  Z.testbit (rflags (exec_list h ra (syscall_entry n) (cpu_enter top t c None m))) 9 = true.
Proof.
  run_stub. split.
  - rewrite Z.ldiff_spec. replace (Z.testbit IF_mask 9) with true by reflexivity. apply andb_false_r.
  - rewrite Z.lor_spec. replace (Z.testbit IF_mask 9) with true by reflexivity. apply orb_true_r.
Qed.

Lemma exit_loads h ra m (ex : list instr) :
  ex = irq_exit \/ ex = syscall_exit ->
  let m1 := exec_list h ra ex m in
  (forall r, regs m1 r = read_sfield m (rsp m) (sfield_of_reg r)) /\
  rip m1 = read_sfield m (rsp m) S_rip /\ cs m1 = read_sfield m (rsp m) S_cs /\
  rflags m1 = read_sfield m (rsp m) S_rflags /\ rsp m1 = read_sfield m (rsp m) S_rsp /\
  ss m1 = read_sfield m (rsp m) S_ss /\ mem m1 = mem m /\ segs m1 = segs m.
Proof.
  intros [-> | ->]; run_stub.
  - split. { intros []; unfold read_sfield; run_stub; dec_eq; f_equal; lia. }
    unfold read_sfield; cbn [sfield_index]. repeat split; f_equal; lia.
  - split. { intros []; unfold read_sfield; run_stub; dec_eq; f_equal; lia. }
    unfold read_sfield; cbn [sfield_index]. repeat split; f_equal; lia.
Qed.

(** The whole way through a stub. *)
Lemma stub_round_trip h ra top t c n m (stub : list instr) :
  stub = irq_stub n \/ stub = syscall_stub n ->
  sysv_handler h ->
  let entered := cpu_enter top t c None m in
  exists at_call, 
    rsp at_call = top - 168 /\ regs at_call RDI = top - 168 /\
    (forall f, read_sfield at_call (top - 168) f = saved_field m n f) /\
    let returned := h (push ra at_call) in
    let m1 := exec_list h ra stub entered in
    (forall r, regs m1 r = read_sfield returned (top - 168) (sfield_of_reg r)) /\
    rip m1 = read_sfield returned (top - 168) S_rip /\ cs m1 = read_sfield returned (top - 168) S_cs /\
    rflags m1 = read_sfield returned (top - 168) S_rflags /\ rsp m1 = read_sfield returned (top - 168) S_rsp /\
    ss m1 = read_sfield returned (top - 168) S_ss /\
    (forall a, top <= a -> mem m1 a = mem m a).
Proof.
  intros Hs Hh entered.
  assert (exists en ex, stub = en ++ [ICall] ++ ex /\ (en = irq_entry n \/ en = syscall_entry n) /\
    (ex = irq_exit \/ ex = syscall_exit)) as (en & ex & -> & Hen & Hex).
  { destruct Hs as [-> | ->]; [exists (irq_entry n), irq_exit|exists (syscall_entry n), syscall_exit];
      (split; [reflexivity|]); split; auto. }
  pose proof (entry_record h ra top t c n m en Hen) as He. cbv zeta in He. fold entered in He.
  rewrite !exec_call.
  destruct He as (H1 & H2 & H3 & H4).
  set (ac := exec_list h ra en entered) in *. exists ac. do 3 (split; [assumption|]). clearbody ac.
  cbv zeta. set (re := h (push ra ac)).
  destruct (Hh (push ra ac)) as [Hr Hm]. fold re in Hr, Hm.
  cbn [push rsp regs mem] in Hr, Hm.
  assert (Hrsp : rsp re = top - 168) by lia.
  pose proof (exit_loads h ra re ex Hex) as Hx. cbv zeta in Hx. rewrite Hrsp in Hx.
  destruct Hx as (X1 & X2 & X3 & X4 & X5 & X6 & X7 & X8).
  repeat (split; [assumption|]). intros a Ha. rewrite X7, Hm by lia.
  mem_eq. apply H4, Ha.
Qed.

Lemma irq_preserves h ra top t c n m (stub : list instr) :
  stub = irq_stub n \/ stub = syscall_stub n ->
  sysv_handler h -> keeps_record h ->
  let m1 := exec_list h ra stub (cpu_enter top t c None m) in
  (forall r, regs m1 r = regs m r) /\ rip m1 = rip m /\ cs m1 = cs m /\ rflags m1 = rflags m /\
  rsp m1 = rsp m /\ ss m1 = ss m /\ (forall a, top <= a -> mem m1 a = mem m a).
Proof.
  intros Hs Hh Hk.
  destruct (stub_round_trip h ra top t c n m stub Hs Hh) as (ac & A1 & A2 & A3 & R & B1 & B2 & B3 & B4 & B5 & B6).
  cbv zeta in *.
  assert (HF : forall f, read_sfield (h (push ra ac)) (top - 168) f = saved_field m n f).
  { intros f. rewrite <- A3. unfold read_sfield.
    assert (0 <= sfield_index f <= 20) by (destruct f; cbn; lia).
    rewrite Hk by (cbn [push regs]; rewrite A2; lia).
    cbn [push mem]. mem_eq. reflexivity. }
  rewrite B1, B2, B3, B4, B5, !HF. cbn [saved_field].
  split; [intros r; rewrite R, HF; destruct r; reflexivity|].
  repeat (split; [reflexivity|]). exact B6.
Qed.

(** A system-call handler that edits its record: the caller resumes with the edited record. *)
Lemma returns_record_gen h ra n en ex m0 m top t c :
  m0 = cpu_enter top t c None m ->
  en = irq_entry n \/ en = syscall_entry n ->
  ex = irq_exit \/ ex = syscall_exit ->
  sysv_handler h ->
  forall at_call returned p m1,
  at_call = exec_list h ra en m0 ->
  returned = h (push ra at_call) ->
  p = regs at_call RDI ->
  m1 = exec_list h ra (en ++ [ICall] ++ ex) m0 ->
  (forall r, regs m1 r = read_sfield returned p (sfield_of_reg r)) /\
  rip m1 = read_sfield returned p S_rip /\ cs m1 = read_sfield returned p S_cs /\
  rflags m1 = read_sfield returned p S_rflags /\ rsp m1 = read_sfield returned p S_rsp /\
  ss m1 = read_sfield returned p S_ss.
Proof.
  intros E0 Hen Hex Hh ac re p m1 E1 E2 E3 E4.
  destruct (entry_record h ra top t c n m en Hen) as (H1 & H2 & _ & _).
  rewrite <- E0, <- E1 in H1, H2. rewrite exec_call, <- E1, <- E2 in E4.
  destruct (Hh (push ra ac)) as [Hr _]. rewrite <- E2 in Hr. cbn [push rsp] in Hr.
  assert (Hp : p = rsp re) by lia. rewrite Hp.
  destruct (exit_loads h ra re ex Hex) as (X1 & X2 & X3 & X4 & X5 & X6 & _). rewrite <- E4 in *.
  repeat (split; [assumption|]). assumption.
Qed.

Lemma syscall_returns_record h ra top t c n m at_call returned p m1 :
  sysv_handler h ->
  at_call = exec_list h ra (syscall_entry n) (cpu_enter top t c None m) ->
  returned = h (push ra at_call) ->
  p = regs at_call RDI ->
  m1 = exec_list h ra (syscall_stub n) (cpu_enter top t c None m) ->
  (forall r, regs m1 r = read_sfield returned p (sfield_of_reg r)) /\
  rip m1 = read_sfield returned p S_rip /\ cs m1 = read_sfield returned p S_cs /\
  rflags m1 = read_sfield returned p S_rflags /\ rsp m1 = read_sfield returned p S_rsp /\
  ss m1 = read_sfield returned p S_ss.
Proof.
  intros Hh E1 E2 E3 E4.
  exact (returns_record_gen h ra n (syscall_entry n) syscall_exit _ m top t c eq_refl
    (or_intror eq_refl) (or_intror eq_refl) Hh at_call returned p m1 E1 E2 E3 E4).
Qed.

(** Segment registers are left at the kernel selector. *)
Lemma segs_after h ra top t c n m (stub : list instr) :
  stub = irq_stub n \/ stub = syscall_stub n ->
  (forall m, segs (h m) = segs m) ->
  let m1 := exec_list h ra stub (cpu_enter top t c None m) in
  segs m1 DS = 16 /\ segs m1 ES = 16 /\ segs m1 GS = 16 /\ segs m1 FS = segs m FS.
Proof.
  intros Hs Hh. cbv zeta.
  destruct Hs as [-> | ->]; unfold irq_stub, syscall_stub; rewrite !exec_call.
  - match goal with |- context [exec_list h ra irq_exit ?x] =>
      pose proof (exit_loads h ra x irq_exit (or_introl eq_refl)) as Hx end.
    cbv zeta in Hx. destruct Hx as (_ & _ & _ & _ & _ & _ & _ & ->). rewrite Hh. run_stub.
    repeat split; repeat case_decide; try congruence; reflexivity.
  - match goal with |- context [exec_list h ra syscall_exit ?x] =>
      pose proof (exit_loads h ra x syscall_exit (or_intror eq_refl)) as Hx end.
    cbv zeta in Hx. destruct Hx as (_ & _ & _ & _ & _ & _ & _ & ->). rewrite Hh. run_stub.
    repeat split; repeat case_decide; try congruence; reflexivity.
Qed.

(** Words just below the interrupted stack pointer are overwritten (same stack). *)
Lemma below_overwritten h ra n m t c :
  rsp m mod 16 = 0 ->
  mem (exec_list h ra (irq_entry n) (cpu_enter (same_stack_top m) t c None m)) (rsp m - 48) = n.
Proof.
  intros Hm. unfold same_stack_top. rewrite Hm. run_stub. mem_eq. reflexivity.
Qed.

Lemma call_alignment h ra top t c n m (entry : list instr) :
  entry = irq_entry n \/ entry = syscall_entry n ->
  top mod 16 = 0 ->
  rsp (exec_list h ra entry (cpu_enter top t c None m)) mod 16 = 8.
Proof.
  intros He Ht. destruct (entry_record h ra top t c n m entry He) as (-> & _). lia.
Qed.

(** ** Exceptions *)
Lemma isr_frame h ra top t c v e m :
  isr_has_code v = cpu_pushes_code v ->
  let code := if cpu_pushes_code v then Some e else None in
  let m1 := exec_list h ra (isr_entry v) (cpu_enter top t c code m) in
  let p := rsp m1 in
  read_ffield m1 p F_rbp = regs m RBP /\ read_ffield m1 p F_error_no = v /\
  read_ffield m1 p F_error_code = (if cpu_pushes_code v then e else 0) /\
  read_ffield m1 p F_rip = rip m /\ read_ffield m1 p F_cs = cs m /\ read_ffield m1 p F_rflags = rflags m /\
  read_ffield m1 p F_rsp = rsp m /\ read_ffield m1 p F_ss = ss m /\ p = top - 64.
Proof.
  intros Hv. unfold isr_entry. rewrite Hv. destruct (cpu_pushes_code v); run_stub;
    (repeat (split; [mem_eq; reflexivity|])); lia.
Qed.

Lemma isr_codes_agree v :
  0 <= v < 32 -> v <> 17 -> v <> 21 -> v <> 29 -> v <> 30 -> isr_has_code v = cpu_pushes_code v.
Proof.
  intros Hv H1 H2 H3 H4. unfold isr_has_code, cpu_pushes_code. cbn [existsb].
  repeat match goal with |- context [v =? ?k] => destruct (Z.eqb_spec v k); [subst; reflexivity || lia|] end.
  destruct (Z.leb_spec 10 v), (Z.leb_spec v 14); try reflexivity. lia.
Qed.

Lemma isr_shifted h ra top t c v e m :
  v = 17 \/ v = 21 \/ v = 29 \/ v = 30 ->
  let m1 := exec_list h ra (isr_entry v) (cpu_enter top t c (Some e) m) in
  let p := rsp m1 in
  read_ffield m1 p F_error_code = 0 /\ read_ffield m1 p F_rip = e /\ read_ffield m1 p F_cs = rip m /\
  read_ffield m1 p F_rflags = cs m /\ read_ffield m1 p F_rsp = rflags m /\ read_ffield m1 p F_ss = rsp m.
Proof.
  intros Hv. assert (isr_has_code v = false) as E by (destruct Hv as [-> | [-> | [-> | ->]]]; reflexivity).
  unfold isr_entry. rewrite E. run_stub. repeat (split; [mem_eq; reflexivity|]). mem_eq. reflexivity.
Qed.

(** If the fault handler ever returned, the interrupt return would take the error code as rip. *)
Lemma isr_return_wrong h ra top t c v e m :
  0 <= v < 32 -> v <> 17 -> v <> 21 -> v <> 29 -> v <> 30 ->
  (forall x, rsp (h x) = rsp x + 8 /\ forall a, rsp x + 8 <= a -> mem (h x) a = mem x a) ->
  let code := if cpu_pushes_code v then Some e else None in
  rip (exec_list h ra (isr_entry v ++ [ICall] ++ isr_exit) (cpu_enter top t c code m)) =
  (if cpu_pushes_code v then e else 0).
Proof.
  intros Hv H1 H2 H3 H4 Hh. cbv zeta.
  pose proof (isr_frame h ra top t c v e m (isr_codes_agree v Hv H1 H2 H3 H4)) as HF. cbv zeta in HF.
  destruct HF as (_ & _ & F & _). rewrite <- F. rewrite !exec_call.
  set (ac := exec_list h ra (isr_entry v) _). clearbody ac. cbn [exec_list exec isr_exit set_rsp rip mem rsp].
  destruct (Hh (push ra ac)) as [Hr Hm]. rewrite Hr. cbn [push rsp] in *.
  rewrite Hm by lia. unfold read_ffield. cbn [push mem ffield_index]. mem_eq. f_equal. lia.
Qed.
