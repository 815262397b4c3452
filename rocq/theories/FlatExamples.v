(** Concrete cases for FlatModel.v. *)
From stdpp Require Import list.
From Coq Require Import NArith Lia ZifyBool ZifyNat ZifyN.
From Verif Require Import E820Model FlatModel FlatSpec FlatProofs FlatCopy FlatOpen.
Local Open Scope N_scope.

(** The loader with its table at offset 0x40 and KernelOffset at 0x5E, entered with the gate closed. *)
Definition demo_ram : N -> N := fun x =>
  if (0x10040 <=? x) && (x <? 0x1005E) then nth (N.to_nat (x - 0x10040)) (gdt_bytes 0x10040) 0
  else if x =? 0x10060 then 0x10 else 0.
Definition demo_start (port : N) : mach :=
  Mach demo_ram false 0x12345678 3 4 5 0x7C00 (Cache 0x1000 0x10000 0xFFFF) (Cache 0x7000 0x70000 0xFFFF) (Cache 0 0 0xFFFF) 0x60000010 0 0 false port.
Lemma demo_bytes x : demo_ram x < 256.
Proof.
  unfold demo_ram. destruct ((0x10040 <=? x) && (x <? 0x1005E)) eqn:E; [|destruct (x =? 0x10060); lia].
  assert (F : Forall (fun b => b < 256) (gdt_bytes 0x10040)) by (vm_compute; repeat (apply Forall_cons_2; [reflexivity|]); apply Forall_nil_2).
  destruct (nth_in_or_default (N.to_nat (x - 0x10040)) (gdt_bytes 0x10040) 0) as [I| ->]; [|lia].
  rewrite Forall_forall in F. apply F, elem_of_list_In, I.
Qed.
Lemma demo_in port : in_loader 18 (demo_start port).
Proof. unfold in_loader. cbn. split_and!; try done; try lia. apply demo_bytes. Qed.
Lemma demo_gdt port : lies (ram (demo_start port)) (0x10000 + 0x40) (gdt_bytes (0x10000 + 0x40)).
Proof. vm_compute. reflexivity. Qed.
(** With port 92h reading 0 the code gets through; with 1 it resets the machine. *)
Lemma demo_open : exists s', run (open_flat 0x40) (demo_start 0) = On s' /\ gate s' = true /\ fs s' = Cache 16 0 0xFFFFFFFF /\ eax s' = 0x60000010.
Proof.
  assert (match run (open_flat 0x40) (demo_start 0) with
          | On s' => gate s' = true /\ fs s' = Cache 16 0 0xFFFFFFFF /\ eax s' = 0x60000010 | Off _ => False end) as H
    by (vm_compute; split; [reflexivity|split; reflexivity]).
  destruct (run (open_flat 0x40) (demo_start 0)) as [s'|w]; [|destruct H]. exists s'. split; [reflexivity|exact H].
Qed.
Lemma demo_reset : run (open_flat 0x40) (demo_start 1) = Off Reset.
Proof. vm_compute. reflexivity. Qed.

(** The state after it, and a disk that delivers sectors full of 7. *)
Definition demo_flat : mach :=
  Mach demo_ram true 0x12345678 3 4 5 0x7C00 (Cache 0x1000 0x10000 0xFFFF) (Cache 16 0 0xFFFFFFFF) (Cache 0 0 0xFFFF) 0x60000010 0x10040 23 true 2.
Definition demo_read (b : N) (s : mach) : mach := set_ram (fun x => if (0x7E00 <=? x) && (x <? 0x8000) then b else ram s x) s.
Lemma load_const b m n : forall a, 0x7E00 <= a -> a + N.of_nat n <= 0x8000 ->
  load (fun x => if (0x7E00 <=? x) && (x <? 0x8000) then b else m x) a n = replicate n b.
Proof.
  induction n as [|n IH]; intros a H1 H2; [done|]. cbn [load replicate]. replace ((0x7E00 <=? a) && (a <? 0x8000)) with true by lia.
  f_equal. apply IH; lia.
Qed.
Lemma demo_reads b : b < 256 -> reads 0x5E (replicate 512 b) (demo_read b).
Proof.
  intros Hb s Hi Hf. unfold demo_read. destruct Hi as (?&?&?&?&?&?&?&?&?&?&?&?&?&B).
  assert (B' : forall x, (if (0x7E00 <=? x) && (x <? 0x8000) then b else ram s x) < 256)
    by (intros x; destruct ((0x7E00 <=? x) && (x <? 0x8000)); [done|apply B]).
  split; [unfold in_loader; cbn [set_ram ecx ram gate eax esi edi sp ds fs ss cr0]; tauto|]. split; [done|]. split_and!.
  - unfold lies. rewrite replicate_length. cbn [set_ram ram]. apply load_const; lia.
  - reflexivity.
  - intros x Hx. cbn [set_ram ram]. replace ((0x7E00 <=? x) && (x <? 0x8000)) with false by lia. done.
Qed.
Lemma demo_flat_ok : in_loader 18 demo_flat /\ flat demo_flat /\ offset_at 0x5E demo_flat = 0x100000.
Proof. split_and!; try done. unfold in_loader. cbn. split_and!; try done; try lia. apply demo_bytes. Qed.
Lemma demo_resets : in_loader 2 (demo_start 1) /\ 0x40 + 30 <= 0x10000 /\ lies (ram (demo_start 1)) (0x10000 + 0x40) (gdt_bytes (0x10000 + 0x40)) /\
  run (open_flat 0x40) (demo_start 1) = Off Reset.
Proof. split_and!; [|lia|apply demo_gdt|exact demo_reset]. unfold in_loader. cbn. split_and!; try done; try lia. apply demo_bytes. Qed.
Lemma demo_disk : Forall (fun eb : (mach -> mach) * list N => length (snd eb) = 512%nat /\ reads 0x5E (snd eb) (fst eb))
  [(demo_read 7, replicate 512 7); (demo_read 9, replicate 512 9)].
Proof. apply Forall_cons_2; [|apply Forall_cons_2; [|apply Forall_nil_2]]; (split; [apply replicate_length|apply demo_reads; cbn; lia]). Qed.
(** as before line 94: the gate open, fs still with the limit of real mode *)
Definition demo_tight : mach :=
  Mach demo_ram true 0x12345678 3 4 5 0x7C00 (Cache 0x1000 0x10000 0xFFFF) (Cache 0x7000 0x70000 0xFFFF) (Cache 0 0 0xFFFF) 0x60000010 0 0 true 2.
Lemma demo_tight_ok : in_loader 18 demo_tight /\ gate demo_tight = true /\ c_limit (fs demo_tight) = 0xFFFF /\
  offset_at 0x5E demo_tight = 0x100000 /\ N.testbit 0x100000 20 = true.
Proof. split_and!; try done. unfold in_loader. cbn. split_and!; try done; try lia. apply demo_bytes. Qed.
