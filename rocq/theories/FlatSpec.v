(** What is asked of loader.asm:85-103 and 271-302, without the instructions. *)
From stdpp Require Import list.
From Coq Require Import NArith.
From Verif Require Import E820Model FlatModel.
Local Open Scope N_scope.

(** the bytes [bs] lie at [a] *)
Definition lies (m : N -> N) (a : N) (bs : list N) : Prop := load m a (length bs) = bs.
(** Real mode with the loader's data segment at 1000h and its stack below 7C00h ([room] bytes of it free). *)
Definition in_loader (room : N) (s : mach) : Prop :=
  cr0 s < 2 ^ 32 /\ N.testbit (cr0 s) 0 = false /\
  c_sel (ds s) = 0x1000 /\ c_base (ds s) = 0x10000 /\ 0xFFFF <= c_limit (ds s) /\
  c_base (ss s) = 0 /\ 0xFFFF <= c_limit (ss s) /\ room <= sp s <= 0x7C00 /\
  eax s < 2 ^ 32 /\ ecx s < 2 ^ 32 /\ esi s < 2 ^ 32 /\ edi s < 2 ^ 32 /\ c_sel (fs s) < 2 ^ 16 /\
  (forall x, ram s x < 256).
(** All of memory can be reached through fs. *)
Definition flat (s : mach) : Prop := gate s = true /\ c_limit (fs s) = 0xFFFFFFFF.
(** the variable KernelOffset at 1000h:[k] *)
Definition offset_at (k : N) (s : mach) : N := le_val (load (ram s) (0x10000 + k) 4).
(** nothing changed but what the code saves and restores *)
Definition same_regs (s s' : mach) : Prop :=
  eax s' = eax s /\ ecx s' = ecx s /\ esi s' = esi s /\ edi s' = edi s /\ sp s' = sp s /\ ds s' = ds s /\ ss s' = ss s /\
  cr0 s' = cr0 s /\ gbase s' = gbase s /\ glimit s' = glimit s /\ intr s' = intr s /\ p92 s' = p92 s.

(** Whatever runs before the copy of a sector (the BIOS, the message routine, the search of the FAT): it leaves a state of the
    kind above, with the sector in the buffer, and does not touch memory from 1 MiB on nor KernelOffset. *)
Definition reads (k : N) (bs : list N) (e : mach -> mach) : Prop :=
  forall s, in_loader 18 s -> flat s ->
    in_loader 18 (e s) /\ flat (e s) /\ lies (ram (e s)) 0x7E00 bs /\ offset_at k (e s) = offset_at k s /\
    (forall x, 0x100000 <= x -> ram (e s) x = ram s x).
Fixpoint load_sectors (k : N) (es : list (mach -> mach)) (s : mach) : step mach :=
  match es with [] => On s | e :: es => s <- copy_sector k (e s) ;; load_sectors k es s end.
