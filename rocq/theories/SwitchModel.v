(** Model of the way from real mode to the kernel's main: bootloader/loader.asm:385-485 and kernel/head.S:4-48, as instructions
    of a small processor model. Processor behaviour (Intel SDM vol. 3): control registers, EFER, segment loads, far transfers
    and paging as far as these instructions use them. Simplified: an instruction takes one address, the [i]-th of a block lying
    at the block's address plus [i] (all blocks lie inside one page); flags other than IF are not kept. *)
From stdpp Require Import list.
From Coq Require Import NArith.
From Verif Require Import PagingModel.
Local Open Scope N_scope.

(** Why the processor stops following the program: general protection (or not-present, stack) fault, page fault, a processor
    state outside the model, control at a place other than the program's next block. *)
Inductive stop := GP | PF | Unmodelled | Astray.
(** model only: results *)
Inductive res (A : Type) := Go (a : A) | Stop (w : stop).
Arguments Go {A} a.
Arguments Stop {A} w.
(** model only: sequencing of results that may be missing *)
Definition rbind {A B} (x : res A) (f : A -> res B) : res B := match x with Go a => f a | Stop w => Stop w end.
Notation "x <- e ;; k" := (rbind e (fun x => k)) (at level 100, e at next level, right associativity).
Notation "'assert' b 'or' w ;; k" := (if b then k else Stop w) (at level 100, b at next level, w at next level, right associativity).

(** A segment register: the selector and the hidden part: base, limit, and the descriptor it came from. *)
Record seg := Seg { sel : N; base : N; limit : N; raw : N }.
(** processor: registers and modes *)
Inductive sreg := DS | ES | FS | GS | SS.
Record cpu := Cpu {
  mem : N -> N;                         (* physical memory, bytes *)
  cr0 : N; cr3 : N; cr4 : N; efer : N;
  rax : N; rcx : N; rdx : N; rsp : N; rip : N;
  cs : seg; sr : sreg -> seg;
  gdtr : N * N; idtr : N * N;           (* base and limit *)
  intr : bool                           (* RFLAGS.IF *)
}.
(** model only: equality test *)
Definition sreg_eqb (a b : sreg) : bool :=
  match a, b with DS, DS | ES, ES | FS, FS | GS, GS | SS, SS => true | _, _ => false end.
(** model only: update of one component of the state *)
Definition with_mem m s := Cpu m (cr0 s) (cr3 s) (cr4 s) (efer s) (rax s) (rcx s) (rdx s) (rsp s) (rip s) (cs s) (sr s) (gdtr s) (idtr s) (intr s).
(** model only: update of one component of the state *)
Definition with_cr0 v e s := Cpu (mem s) v (cr3 s) (cr4 s) e (rax s) (rcx s) (rdx s) (rsp s) (rip s) (cs s) (sr s) (gdtr s) (idtr s) (intr s).
(** model only: update of one component of the state *)
Definition with_cr3 v s := Cpu (mem s) (cr0 s) v (cr4 s) (efer s) (rax s) (rcx s) (rdx s) (rsp s) (rip s) (cs s) (sr s) (gdtr s) (idtr s) (intr s).
(** model only: update of one component of the state *)
Definition with_cr4 v s := Cpu (mem s) (cr0 s) (cr3 s) v (efer s) (rax s) (rcx s) (rdx s) (rsp s) (rip s) (cs s) (sr s) (gdtr s) (idtr s) (intr s).
(** model only: update of one component of the state *)
Definition with_efer v s := Cpu (mem s) (cr0 s) (cr3 s) (cr4 s) v (rax s) (rcx s) (rdx s) (rsp s) (rip s) (cs s) (sr s) (gdtr s) (idtr s) (intr s).
(** model only: update of one component of the state *)
Definition with_regs a c d s := Cpu (mem s) (cr0 s) (cr3 s) (cr4 s) (efer s) a c d (rsp s) (rip s) (cs s) (sr s) (gdtr s) (idtr s) (intr s).
(** model only: update of one component of the state *)
Definition with_rax a s := with_regs a (rcx s) (rdx s) s.
(** model only: update of one component of the state *)
Definition with_rsp v s := Cpu (mem s) (cr0 s) (cr3 s) (cr4 s) (efer s) (rax s) (rcx s) (rdx s) v (rip s) (cs s) (sr s) (gdtr s) (idtr s) (intr s).
(** model only: update of one component of the state *)
Definition with_cs c i s := Cpu (mem s) (cr0 s) (cr3 s) (cr4 s) (efer s) (rax s) (rcx s) (rdx s) (rsp s) i c (sr s) (gdtr s) (idtr s) (intr s).
(** model only: update of one component of the state *)
Definition with_sr r v s := Cpu (mem s) (cr0 s) (cr3 s) (cr4 s) (efer s) (rax s) (rcx s) (rdx s) (rsp s) (rip s) (cs s)
  (fun r' => if sreg_eqb r r' then v else sr s r') (gdtr s) (idtr s) (intr s).
(** model only: update of one component of the state *)
Definition with_gdtr g s := Cpu (mem s) (cr0 s) (cr3 s) (cr4 s) (efer s) (rax s) (rcx s) (rdx s) (rsp s) (rip s) (cs s) (sr s) g (idtr s) (intr s).
(** model only: update of one component of the state *)
Definition with_idtr g s := Cpu (mem s) (cr0 s) (cr3 s) (cr4 s) (efer s) (rax s) (rcx s) (rdx s) (rsp s) (rip s) (cs s) (sr s) (gdtr s) g (intr s).
(** model only: update of one component of the state *)
Definition with_intr b s := Cpu (mem s) (cr0 s) (cr3 s) (cr4 s) (efer s) (rax s) (rcx s) (rdx s) (rsp s) (rip s) (cs s) (sr s) (gdtr s) (idtr s) b.

(** Modes: CR0.PE is bit 0, CR0.PG bit 31, EFER.LME bit 8, EFER.LMA bit 10, CR4.PAE bit 5; descriptor bit 53 is L, bit 54 D. *)
Definition protected (s : cpu) : bool := N.testbit (cr0 s) 0.
(** processor: registers and modes *)
Definition paging (s : cpu) : bool := N.testbit (cr0 s) 31.
(** processor: registers and modes *)
Definition lma (s : cpu) : bool := N.testbit (efer s) 10.
(** processor: registers and modes *)
Definition mode64 (s : cpu) : bool := lma s && N.testbit (raw (cs s)) 53.
(** processor: registers and modes *)
Definition cpl (s : cpu) : N := if protected s then N.land (sel (cs s)) 3 else 0.

(** Little-endian quantities in physical memory. *)
Fixpoint rdp (m : N -> N) (a : N) (n : nat) : N :=
  match n with O => 0 | S n => m a + 256 * rdp m (a + 1) n end.
(** model only: update of one component of the state *)
Definition upd (m : N -> N) (a v : N) : N -> N := fun x => if x =? a then v else m x.

(** Linear to physical: the four-level walk of PagingModel.v with the tables found through CR3. *)
Definition walk_at (root : N) (m : N -> N) (va : N) : option mapping :=
  if negb (canonical va) then None else
  let e4 := m (root + 8 * index va 39) in
  if negb (present e4) then None else
  let e3 := m (frame e4 12 + 8 * index va 30) in
  if negb (present e3) then None else
  if N.testbit e3 7 then
    let p := allow (allow (true, true) e4) e3 in
    Some {| phys := frame e3 30 + va mod 2 ^ 30; writable := fst p; user := snd p |} else
  let e2 := m (frame e3 12 + 8 * index va 21) in
  if negb (present e2) then None else
  if N.testbit e2 7 then
    let p := allow (allow (allow (true, true) e4) e3) e2 in
    Some {| phys := frame e2 21 + va mod 2 ^ 21; writable := fst p; user := snd p |} else
  let e1 := m (frame e2 12 + 8 * index va 12) in
  if negb (present e1) then None else
  let p := allow (allow (allow (allow (true, true) e4) e3) e2) e1 in
  Some {| phys := frame e1 12 + va mod 2 ^ 12; writable := fst p; user := snd p |}.
(** processor: memory through segments and pages *)
Definition quads (m : N -> N) (a : N) : N := rdp m a 8.
(** processor: memory through segments and pages *)
Definition translate (s : cpu) (va : N) (write : bool) : res N :=
  if negb (paging s) then Go va else
  if negb (lma s) then Stop Unmodelled else
  match walk_at (frame (cr3 s) 12) (quads (mem s)) va with
  | Some p => if write && negb (writable p) && N.testbit (cr0 s) 16 then Stop PF else Go (phys p)
  | None => Stop PF
  end.
(** processor: memory through segments and pages *)
Fixpoint rdl (s : cpu) (va : N) (n : nat) : res N :=
  match n with
  | O => Go 0
  | S n => p <- translate s va false;; r <- rdl s (va + 1) n;; Go (mem s p + 256 * r)
  end.
(** processor: memory through segments and pages *)
Fixpoint wrl (s : cpu) (va : N) (n : nat) (v : N) : res cpu :=
  match n with
  | O => Go s
  | S n => p <- translate s va true;; wrl (with_mem (upd (mem s) p (v mod 256)) s) (va + 1) n (v / 256)
  end.
(** seg:offset to linear; in 64-bit mode bases are zero and limits unchecked *)
Definition linear (s : cpu) (g : seg) (off : N) (n : N) : res N :=
  if mode64 s then Go off else
  assert (off + n - 1 <=? limit g) or GP;; Go ((base g + off) mod 2 ^ 32).
(** processor: memory through segments and pages *)
Definition load (s : cpu) (r : sreg) (off : N) (n : nat) : res N :=
  a <- linear s (sr s r) off (N.of_nat n);; rdl s a n.
(** processor: memory through segments and pages *)
Definition save (s : cpu) (r : sreg) (off : N) (n : nat) (v : N) : res cpu :=
  a <- linear s (sr s r) off (N.of_nat n);; wrl s a n v.

(** Descriptors *)
Definition d_base (d : N) : N := N.lor (N.land (N.shiftr d 16) 0xffffff) (N.shiftl (N.land (N.shiftr d 56) 0xff) 24).
(** processor: fields of a descriptor *)
Definition d_limit (d : N) : N :=
  let l := N.lor (N.land d 0xffff) (N.shiftl (N.land (N.shiftr d 48) 0xf) 16) in
  if N.testbit d 55 then N.lor (N.shiftl l 12) 0xfff else l.
(** processor: fields of a descriptor *)
Definition d_code (d : N) : bool := N.testbit d 44 && N.testbit d 43.
(** processor: fields of a descriptor *)
Definition d_data (d : N) : bool := N.testbit d 44 && negb (N.testbit d 43).
(** processor: fields of a descriptor *)
Definition d_dpl (d : N) : N := N.land (N.shiftr d 45) 3.
(** processor: fields of a descriptor *)
Definition d_present (d : N) : bool := N.testbit d 47.
(** processor: fields of a descriptor *)
Definition as_seg (v d : N) : seg := Seg v (d_base d) (d_limit d) d.

Definition descriptor (s : cpu) (v : N) : res N :=
  let o := 8 * (v / 8) in
  assert (negb (N.testbit v 2)) or Unmodelled;;          (* no local table *)
  assert (o + 7 <=? snd (gdtr s)) or GP;;
  rdl s (fst (gdtr s) + o) 8.
(** mov Sreg, ax *)
Definition load_sr (r : sreg) (v : N) (s : cpu) : res cpu :=
  if negb (protected s) then Go (with_sr r (Seg v (16 * v) (limit (sr s r)) (raw (sr s r))) s) else
  if v <? 4 then
    match r with SS => assert (mode64 s && (cpl s <? 3) && (v =? cpl s)) or GP;; Go (with_sr r (Seg v 0 0 0) s)
    | _ => Go (with_sr r (Seg v 0 0 0) s) end
  else
    d <- descriptor s v;;
    match r with
    | SS => assert (d_data d && N.testbit d 41 && (d_dpl d =? cpl s) && (N.land v 3 =? cpl s) && d_present d) or GP;;
            Go (with_sr r (as_seg v d) s)
    | _ => assert ((d_data d || N.testbit d 41) && N.testbit d 44 &&
                   (N.testbit d 42 && d_code d || (cpl s <=? d_dpl d) && (N.land v 3 <=? d_dpl d)) && d_present d) or GP;;
           Go (with_sr r (as_seg v d) s)
    end.
(** far jump and far return to the same privilege: cs from the table *)
Definition load_cs (v off : N) (s : cpu) : res cpu :=
  assert (protected s) or Unmodelled;;
  assert (negb (v <? 4)) or GP;;
  d <- descriptor s v;;
  assert (d_code d && negb (N.testbit d 42) && (d_dpl d =? cpl s) && (N.land v 3 =? cpl s) && d_present d) or GP;;
  assert (negb (lma s && N.testbit d 53 && N.testbit d 54)) or GP;;
  if lma s && N.testbit d 53 then assert (canonical off) or GP;; Go (with_cs (as_seg v d) off s)
  else assert (off <=? d_limit d) or GP;; Go (with_cs (as_seg v d) off s).

(** mov cr0 *)
Definition set_cr0 (v : N) (s : cpu) : res cpu :=
  assert (negb (N.testbit v 31) || N.testbit v 0) or GP;;
  assert (negb (N.testbit v 29) || N.testbit v 30) or GP;;
  if N.testbit v 31 then
    if paging s then Go (with_cr0 v (efer s) s)
    else if N.testbit (efer s) 8 then
      assert (N.testbit (cr4 s) 5) or GP;;
      assert (negb (N.testbit (raw (cs s)) 53)) or GP;;
      Go (with_cr0 v (N.setbit (efer s) 10) s)
    else Stop Unmodelled
  else if paging s then Stop Unmodelled else Go (with_cr0 v (efer s) s).
(** mov cr3 *)
Definition set_cr3 (v : N) (s : cpu) : res cpu := Go (with_cr3 v s).
Definition set_cr4 (v : N) (s : cpu) : res cpu :=
  assert (negb (lma s) || N.testbit v 5) or GP;;
  assert (negb (N.testbit v 12) && negb (N.testbit v 17)) or Unmodelled;;   (* five-level paging, process-context ids *)
  Go (with_cr4 v s).
(** wrmsr with ecx = 0C0000080H: LME cannot change while paging, LMA is not written *)
Definition set_efer (v : N) (s : cpu) : res cpu :=
  assert (negb (paging s) || Bool.eqb (N.testbit v 8) (N.testbit (efer s) 8)) or GP;;
  Go (with_efer (if lma s then N.setbit v 10 else N.clearbit v 10) s).

Notation mask32 := (2 ^ 32 - 1) (only parsing).
(** processor: registers and modes *)
Definition low32 (x : N) : N := x mod 2 ^ 32.
(** processor: registers and modes *)
Definition low16 (x v : N) : N := x / 2 ^ 16 * 2 ^ 16 + v mod 2 ^ 16.
(** processor: registers and modes *)
Definition width (s : cpu) (x : N) : N := if mode64 s then x else low32 x.

(** The instructions used. [Rel] operands are relative to the address the block runs at. *)
Inductive instr :=
| Cli
| Lgdt (a : N) | LgdtRel (a : N) | LidtRel (a : N)
| RdCr (n : N) | WrCr (n : N)                    (* mov (e/r)ax, crN and back *)
| OrEax (v : N) | Bts (b : N)
| MovAx (v : N) | MovEax (v : N) | MovRax (v : N) | MovEcx (v : N)
| Rdmsr | Wrmsr
| MovSr (r : sreg)                               (* from ax *)
| MovEsp (v : N) | MovRsp (v : N)
| Put (a v : N)                                  (* mov dword [a], v *)
| LoadRel (a : N)                                (* movq a(%rip), %rax *)
| PushQ (v : N) | PushRax
| JmpFar (v off : N) | Lretq.

(** a table register from six or ten bytes: limit and base *)
Definition load_table (s : cpu) (a : N) : res (N * N) :=
  l <- rdl s a 2;; b <- rdl s (a + 2) (if mode64 s then 8%nat else 4%nat);; Go (b, l).
(** processor: memory through segments and pages *)
Definition push (v : N) (s : cpu) : res cpu :=
  s' <- save s SS ((rsp s - 8) mod 2 ^ 64) 8 v;; Go (with_rsp ((rsp s - 8) mod 2 ^ 64) s').
(** processor: memory through segments and pages *)
Definition pop (s : cpu) : res (N * cpu) :=
  v <- load s SS (rsp s) 8;; Go (v, with_rsp ((rsp s + 8) mod 2 ^ 64) s).
(** [at_]: linear address of the block the instruction belongs to *)
Definition exec (at_ : N) (i : instr) (s : cpu) : res cpu :=
  match i with
  | Cli => Go (with_intr false s)
  | Lgdt a => l <- linear s (sr s DS) a 6;; g <- load_table s l;; Go (with_gdtr g s)
  | LgdtRel a => assert (mode64 s) or Unmodelled;; g <- load_table s (at_ + a);; Go (with_gdtr g s)
  | LidtRel a => assert (mode64 s) or Unmodelled;; g <- load_table s (at_ + a);; Go (with_idtr g s)
  | RdCr n => if n =? 0 then Go (with_rax (width s (cr0 s)) s)
              else if n =? 4 then Go (with_rax (width s (cr4 s)) s) else Stop Unmodelled
  | WrCr n => if n =? 0 then set_cr0 (width s (rax s)) s
              else if n =? 3 then set_cr3 (width s (rax s)) s
              else if n =? 4 then set_cr4 (width s (rax s)) s else Stop Unmodelled
  | OrEax v => Go (with_rax (N.lor (low32 (rax s)) v) s)
  | Bts b => Go (with_rax (N.setbit (low32 (rax s)) b) s)
  | MovAx v => Go (with_rax (low16 (rax s) v) s)
  | MovEax v => Go (with_rax v s)
  | MovRax v => Go (with_rax v s)
  | MovEcx v => Go (with_regs (rax s) v (rdx s) s)
  | Rdmsr => assert (rcx s =? 0xC0000080) or Unmodelled;;
             Go (with_regs (low32 (efer s)) (rcx s) (efer s / 2 ^ 32) s)
  | Wrmsr => assert (rcx s =? 0xC0000080) or Unmodelled;; set_efer (low32 (rax s) + 2 ^ 32 * low32 (rdx s)) s
  | MovSr r => load_sr r (rax s mod 2 ^ 16) s
  | MovEsp v => Go (with_rsp v s)
  | MovRsp v => Go (with_rsp v s)
  | Put a v => save s DS a 4 v
  | LoadRel a => assert (mode64 s) or Unmodelled;; v <- rdl s (at_ + a) 8;; Go (with_rax v s)
  | PushQ v => assert (mode64 s) or Unmodelled;; push v s
  | PushRax => assert (mode64 s) or Unmodelled;; push (rax s) s
  | JmpFar v off => load_cs v off s
  | Lretq => assert (mode64 s) or Unmodelled;;
             x <- pop s;; y <- pop (snd x);; load_cs (fst y mod 2 ^ 16) (fst x) (snd y)
  end.
(** A block: instructions at linear [at_], which must be physical [ph] at every fetch. *)
Fixpoint block (at_ ph k : N) (is : list instr) (s : cpu) : res cpu :=
  match is with
  | [] => Go s
  | i :: is =>
      p <- translate s (at_ + k) false;;
      assert (p =? ph + k) or Astray;;
      s' <- exec at_ i s;; block at_ ph (k + 1) is s'
  end.
(** Control arrives where cs and rip point. *)
Definition here (s : cpu) : N := if mode64 s then rip s else (base (cs s) + rip s) mod 2 ^ 32.
(** model only: a block of instructions at its place *)
Definition enter (ph : N) (is : list instr) (s : cpu) : res cpu :=
  p <- translate s (here s) false;; assert (p =? ph) or Astray;; block (here s) ph 0 is s.

(** Where the linkers put things: physical addresses in the loader, offsets from the start of the kernel image. *)
Record layout := {
  l_gdt32ptr : N; l_gdt32 : N; l_gdt64ptr : N; l_gdt64 : N; l_tail : N; l_protect : N;
  k_gdtptr : N; k_gdt : N; k_idtptr : N; k_idt : N; k_switchseg : N; k_entry64 : N; k_startkernel : N; k_main : N
}.
Definition high : N := 0xffff800000000000.           (* Eospp.lds:7 *)
Definition image : N := 0x100000.                    (* Eospp.lds:7, loader.asm:7 *)

Section Code.
Context (L : layout).
(** loader.asm:385-395; org 0x10000, ds = 0x1000 *)
Definition tail16 : list instr :=
  [Cli; Lgdt (l_gdt32ptr L - 0x10000); RdCr 0; OrEax 1; WrCr 0; JmpFar 0x08 (l_protect L)].
(** loader.asm:401-406 *)
Definition protect1 : list instr :=
  [MovAx 0x10; MovSr DS; MovSr ES; MovSr FS; MovSr SS; MovEsp 0x7E00].
(** loader.asm:414-471 *)
Definition protect2 : list instr :=
  [Put 0x90000 0x91007; Put 0x90004 0x00000; Put 0x90800 0x91007; Put 0x90804 0x00000;
   Put 0x91000 0x92007; Put 0x91004 0x00000;
   Put 0x92000 0x000083; Put 0x92004 0x000000; Put 0x92008 0x200083; Put 0x9200c 0x000000;
   Put 0x92010 0x400083; Put 0x92014 0x000000; Put 0x92018 0x600083; Put 0x9201c 0x000000;
   Put 0x92020 0x800083; Put 0x92024 0x000000; Put 0x92028 0xa00083; Put 0x9202c 0x000000;
   Lgdt (l_gdt64ptr L); MovAx 0x10; MovSr DS; MovSr ES; MovSr FS; MovSr GS; MovSr SS; MovEsp 0x7E00;
   RdCr 4; Bts 5; WrCr 4; MovEax 0x90000; WrCr 3;
   MovEcx 0xC0000080; Rdmsr; Bts 8; Wrmsr;
   RdCr 0; Bts 0; Bts 31; Bts 16; WrCr 0;
   JmpFar 0x08 0x100000].
(** head.S:5-28 *)
Definition start_ : list instr :=
  [MovAx 0x10; MovSr DS; MovSr ES; MovSr FS; MovSr SS; MovEsp 0x7E00;
   LgdtRel (k_gdtptr L); LidtRel (k_idtptr L);
   MovAx 0x10; MovSr DS; MovSr ES; MovSr FS; MovSr GS; MovSr SS;
   MovRsp 0x7E00; MovRax 0x101000; WrCr 3; LoadRel (k_switchseg L); PushQ 0x08; PushRax; Lretq].
(** head.S:34-45; rip-relative operands count from the start of the image, the block starts at Entry64 *)
Definition entry64 : list instr :=
  [MovRax 0x10; MovSr DS; MovSr ES; MovSr GS; MovSr SS;
   MovRsp 0xFFFF800000007E00; LoadRel (k_startkernel L - k_entry64 L); PushQ 0x08; PushRax; Lretq].
End Code.

(** loader.asm:472-485: [cpuid leaf] gives eax and edx. [setnb]/[jb] compare without sign. *)
Definition support_long_mode (cpuid : N -> N * N) : N :=
  if fst (cpuid 0x80000000) <? 0x80000001 then 0
  else N.b2n (N.testbit (snd (cpuid 0x80000001)) 29).
(** loader.asm:408-410: the call pushes the return address [ret] (dword) and pops it again *)
Definition check (cpuid : N -> N * N) (ret : N) (s : cpu) : res (bool * cpu) :=
  s' <- save s SS (rsp s - 4) 4 ret;;
  let r := support_long_mode cpuid in
  Go (negb (r =? 0), with_regs r (rcx s') (rdx s') s').

(** From [cli] in the loader to the first instruction of main, or to No_Support_Long_Mode. *)
Inductive arrival := Main (s : cpu) | NoLongMode (s : cpu).
(** loader.asm and head.S in order, the parts above *)
Definition boot (L : layout) (cpuid : N -> N * N) (ret : N) (s : cpu) : res arrival :=
  s <- enter (l_tail L) (tail16 L) s;;
  s <- enter (l_protect L) protect1 s;;
  c <- check cpuid ret s;;
  if fst c then
    s <- block (l_protect L + 9) (l_protect L + 9) 0 (protect2 L) (snd c);;
    s <- enter image (start_ L) s;;
    s <- enter (image + k_entry64 L) (entry64 L) s;;
    p <- translate s (here s) false;;
    assert (p =? image + k_main L) or Astray;;
    Go (Main s)
  else Go (NoLongMode (snd c)).
