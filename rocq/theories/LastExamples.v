(** Cases for the end of main, and what a flush would change. *)
From Coq Require Import ZArith Lia ZifyBool ZifyNat ZifyN String Ascii.
From stdpp Require Import gmap.
From Verif Require Import Base PagingModel PagingSpec PagingProofs SwitchModel SwitchSpec SwitchProofs StubModel ConsoleFault
  StartModel StartProofs LastModel LastSpec LastProofs LastRun.
Import StubModel.
Local Open Scope N_scope.

(** The tables of head.S, nothing used yet, nothing cached. *)
Definition fresh_mem (a : N) : N := (table_mem PDE (fun _ => 0) (a / 8 * 8) / 256 ^ (a mod 8)) mod 256.
Definition fresh : proc := {| pm := fresh_mem; tlb := fun _ => None |}.
Lemma fresh_holds b i : i < 512 -> b mod 8 = 0 -> holds_at fresh_mem (b + 8 * i) 8 (table_mem PDE (fun _ => 0) (b + 8 * i)).
Proof.
  intros Hi Hb k Hk. unfold fresh_mem.
  pose proof (N.div_mod b 8 ltac:(lia)) as D.
  replace (b + 8 * i + k) with ((b / 8 + i) * 8 + k) by lia. rewrite N.div_add_l, (N.div_small k 8), N.add_0_r by lia.
  rewrite (N.add_comm _ k), N.mod_add, (N.mod_small k) by lia. f_equal. f_equal. f_equal. lia.
Qed.
Lemma clean_of x : N.land x 0x60 = 0 -> N.ldiff x 0x60 = x.
Proof.
  intros H. apply N.bits_inj. intros b. rewrite N.ldiff_spec. apply (f_equal (fun z => N.testbit z b)) in H. rewrite N.land_spec, N.bits_0 in H.
  destruct (N.testbit x b), (N.testbit 0x60 b); try discriminate; reflexivity.
Qed.
Lemma PDE_unused i : N.land (PDE i) 0x60 = 0.
Proof.
  destruct (N.ltb_spec i 13) as [H|H]; [|rewrite (proj1 PDE_ok) by exact H; reflexivity].
  revert i H. apply cases13; reflexivity.
Qed.
Lemma fresh_used : used_tables (pm fresh) /\ tlb_true fresh.
Proof.
  split; [|intros va c _ H; discriminate]. split; cbn [pm fresh].
  - intros a. apply N.mod_lt. discriminate.
  - intros i Hi. pose proof (fresh_holds 0x101000 i Hi eq_refl) as F. rewrite read4 in F by exact Hi. rewrite (quads_holds _ _ _ F) by apply PML4_64.
    unfold PML4. destruct ((i =? 0) || (i =? 256)); reflexivity.
  - intros i Hi. pose proof (fresh_holds 0x102000 i Hi eq_refl) as F. rewrite read3 in F by exact Hi. rewrite (quads_holds _ _ _ F) by apply PDPTE_64.
    unfold PDPTE. destruct (i =? 0); reflexivity.
  - intros i Hi. pose proof (fresh_holds 0x103000 i Hi eq_refl) as F. rewrite read2 in F by exact Hi. rewrite (quads_holds _ _ _ F) by apply PDE_64.
    apply clean_of, PDE_unused.
Qed.
(** some kernel activity: a byte on the stack, a dot on the screen, code fetched *)
Definition work : list event := [Poke 0xffff800000007df0 7; Poke 0xffff800000a00000 255; Look 0xffff800000104000; Look 0x400000; Look 0x12345678].
Lemma work_harmless : Forall harmless work.
Proof.
  unfold work. apply Forall_cons_2. { split; [reflexivity|]. exists 0x7df0. split; [reflexivity|lia]. }
  apply Forall_cons_2. { split; [reflexivity|]. exists 0xe0000000. split; [reflexivity|lia]. }
  repeat (apply Forall_cons_2; [reflexivity|]). apply Forall_nil_2.
Qed.
Lemma works_harmless e3 : Forall harmless e3 -> Forall harmless (work ++ work ++ work ++ e3 ++ work ++ work).
Proof. intros H. pose proof work_harmless. repeat (apply Forall_app_2; try assumption). Qed.
Definition ending_of (x : reached ending) : option (bool * N * N) :=
  match x with At (Looped pde v _) => Some (true, pde, v) | At (Faulted pde code _) => Some (false, pde, code) | Fault _ => None end.
Lemma both_endings : ending_of (main_end work work work work work work fresh) = Some (true, 0x4000e1, 2) /\
  ending_of (main_end work work work (Forget (page_of cell) :: work) work work fresh) = Some (false, 0x4000e1, 3).
Proof. vm_compute. split; reflexivity. Qed.

(** main when it is interrupted *)
Definition main_state : StubModel.machine :=
  {| regs := fun _ => 0%Z; rsp := 0x7d00%Z; rflags := 0x46%Z; rip := 0x105000%Z; cs := 8%Z; ss := 16%Z; segs := fun _ => 16%Z; mem := fun a => a |}.
Lemma main_words : word (rip main_state) /\ word (rflags main_state) /\ word (rsp main_state) /\ cs main_state = 8%Z /\ ss main_state = 16%Z.
Proof. unfold word. cbn. lia. Qed.

(** A flush after the change is never undone. *)
Lemma remembers_false l : remembers false false l = false.
Proof.
  induction l as [|e l IH]; [reflexivity|]. destruct e as [pg|va|va v]; cbn [remembers]; [destruct (pg =? _)|destruct (page_of va =? _)|]; exact IH.
Qed.
Lemma remembers_flush l : forall r, In (Forget (page_of cell)) l -> remembers false r l = false.
Proof.
  induction l as [|e l IH]; intros r H; [destruct H|]. destruct H as [->|H].
  - cbn [remembers]. rewrite N.eqb_refl. apply remembers_false.
  - destruct e; cbn [remembers]; apply IH, H.
Qed.
Lemma flush_ends e0 e1 e2 e3 e4 e5 s : used_tables (pm s) -> tlb_true s -> Forall harmless (e0 ++ e1 ++ e2 ++ e3 ++ e4 ++ e5) ->
  In (Forget (page_of cell)) (e3 ++ e4) -> exists s', main_end e0 e1 e2 e3 e4 e5 s = At (Faulted 0x4000e1 3 s').
Proof.
  intros U HT HF Hin. destruct (main_ends e0 e1 e2 e3 e4 e5 s U HT HF) as (x & E & F). unfold slips in F. rewrite remembers_flush in F by exact Hin.
  destruct x as [pde v s'|pde code s']; [destruct F; discriminate|]. destruct F as (_ & -> & -> & _). exists s'. exact E.
Qed.
Lemma rights_at_end e0 e1 e2 e3 e4 e5 s : used_tables (pm s) -> tlb_true s -> Forall harmless (e0 ++ e1 ++ e2 ++ e3 ++ e4 ++ e5) ->
  exists x, main_end e0 e1 e2 e3 e4 e5 s = At x /\
    match x with
    | Looped pde v _ => slips e1 e2 e3 e4 = true /\ pde = 0x4000e1 /\ v = 2
    | Faulted pde code _ => slips e1 e2 e3 e4 = false /\ pde = 0x4000e1 /\ code = 3
    end /\
    forall va, va < 2 ^ 64 -> walk_at PagingModel.cr3 (quads (pm match x with Looped _ _ s => s | Faulted _ _ s => s end)) va =
      match expected_phys va with
      | Some p => Some {| phys := p; user := false;
          writable := negb (match window_offset va with Some o => (0x400000 <=? o) && (o <? 0x600000) | None => false end) |}
      | None => None
      end.
Proof.
  intros U HT HF. destruct (main_ends e0 e1 e2 e3 e4 e5 s U HT HF) as (x & E & F). exists x. split; [exact E|]. split.
  - destruct x; destruct F as (A & B & C & _); auto.
  - intros va Hva. exact (final_rights _ x va F Hva).
Qed.
(** Slipping through is possible from every state. *)
Lemma always_possible s : used_tables (pm s) -> tlb_true s -> exists s', main_end [] [] [] [] [] [] s = At (Looped 0x4000e1 2 s').
Proof.
  intros U HT. destruct (main_ends [] [] [] [] [] [] s U HT (Forall_nil_2 _)) as (x & E & F).
  destruct x as [pde v s'|pde code s']; [|destruct F; discriminate]. destruct F as (_ & -> & -> & _). exists s'. exact E.
Qed.
