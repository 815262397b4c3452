(** How the loader reaches memory above 1 MiB: bootloader/loader.asm:85-103 opens the A20 gate and gives fs a limit of 4 GiB, and
    271-302 copy a sector through fs. A real-mode processor with the hidden parts of its segment registers, the A20 gate and port
    92h. Simplified: no instruction fetch, no flags but IF, the upper half of esp is not kept (the stack segment is 16 bits wide). *)
From stdpp Require Import list.
From Coq Require Import NArith.
From Verif Require SwitchModel.
Import SwitchModel(d_base, d_limit, d_data, d_present, d_dpl).
Local Open Scope N_scope.

(** A fault (general protection); a reset of the machine (bit 0 of port 92h); a loop that outlasts its fuel. *)
Inductive end_ := Fault | Reset | Long.
(** model only: a state or the reason to stop *)
Inductive step (A : Type) := On (a : A) | Off (w : end_).
Arguments On {A} a.
Arguments Off {A} w.
(** model only: sequencing of results that may be missing *)
Definition sbind {A B} (x : step A) (f : A -> step B) : step B := match x with On a => f a | Off w => Off w end.
Notation "x <- e ;; k" := (sbind e (fun x => k)) (at level 100, e at next level, right associativity).

(** the visible selector and the hidden base and limit *)
Record cache := Cache { c_sel : N; c_base : N; c_limit : N }.
(** model only: registers that occur *)
Inductive gr := EAX | ECX | ESI | EDI.
(** model only: registers that occur *)
Inductive sg := Ds | Fs | Ss.
Record mach := Mach {
  ram : N -> N; gate : bool;                    (* physical bytes; is A20 open? *)
  eax : N; ecx : N; esi : N; edi : N; sp : N;
  ds : cache; fs : cache; ss : cache;
  cr0 : N; gbase : N; glimit : N;               (* CR0 and GDTR *)
  intr : bool; p92 : N                          (* IF; what port 92h reads *)
}.
(** model only: access to one component of the state *)
Definition gget (r : gr) (s : mach) : N := match r with EAX => eax s | ECX => ecx s | ESI => esi s | EDI => edi s end.
(** model only: update of one component of the state *)
Definition gset (r : gr) (v : N) (s : mach) : mach :=
  match r with
  | EAX => Mach (ram s) (gate s) v (ecx s) (esi s) (edi s) (sp s) (ds s) (fs s) (ss s) (cr0 s) (gbase s) (glimit s) (intr s) (p92 s)
  | ECX => Mach (ram s) (gate s) (eax s) v (esi s) (edi s) (sp s) (ds s) (fs s) (ss s) (cr0 s) (gbase s) (glimit s) (intr s) (p92 s)
  | ESI => Mach (ram s) (gate s) (eax s) (ecx s) v (edi s) (sp s) (ds s) (fs s) (ss s) (cr0 s) (gbase s) (glimit s) (intr s) (p92 s)
  | EDI => Mach (ram s) (gate s) (eax s) (ecx s) (esi s) v (sp s) (ds s) (fs s) (ss s) (cr0 s) (gbase s) (glimit s) (intr s) (p92 s)
  end.
(** model only: access to one component of the state *)
Definition cget (r : sg) (s : mach) : cache := match r with Ds => ds s | Fs => fs s | Ss => ss s end.
(** model only: update of one component of the state *)
Definition cset (r : sg) (c : cache) (s : mach) : mach :=
  match r with
  | Ds => Mach (ram s) (gate s) (eax s) (ecx s) (esi s) (edi s) (sp s) c (fs s) (ss s) (cr0 s) (gbase s) (glimit s) (intr s) (p92 s)
  | Fs => Mach (ram s) (gate s) (eax s) (ecx s) (esi s) (edi s) (sp s) (ds s) c (ss s) (cr0 s) (gbase s) (glimit s) (intr s) (p92 s)
  | Ss => Mach (ram s) (gate s) (eax s) (ecx s) (esi s) (edi s) (sp s) (ds s) (fs s) c (cr0 s) (gbase s) (glimit s) (intr s) (p92 s)
  end.
(** model only: update of one component of the state *)
Definition set_ram m s := Mach m (gate s) (eax s) (ecx s) (esi s) (edi s) (sp s) (ds s) (fs s) (ss s) (cr0 s) (gbase s) (glimit s) (intr s) (p92 s).
(** model only: update of one component of the state *)
Definition set_sp v s := Mach (ram s) (gate s) (eax s) (ecx s) (esi s) (edi s) v (ds s) (fs s) (ss s) (cr0 s) (gbase s) (glimit s) (intr s) (p92 s).
(** model only: update of one component of the state *)
Definition set_cr0 v s := Mach (ram s) (gate s) (eax s) (ecx s) (esi s) (edi s) (sp s) (ds s) (fs s) (ss s) v (gbase s) (glimit s) (intr s) (p92 s).
(** model only: update of one component of the state *)
Definition set_gdtr b l s := Mach (ram s) (gate s) (eax s) (ecx s) (esi s) (edi s) (sp s) (ds s) (fs s) (ss s) (cr0 s) b l (intr s) (p92 s).
(** model only: update of one component of the state *)
Definition set_if b s := Mach (ram s) (gate s) (eax s) (ecx s) (esi s) (edi s) (sp s) (ds s) (fs s) (ss s) (cr0 s) (gbase s) (glimit s) b (p92 s).
(** model only: update of one component of the state *)
Definition set_92 v s := Mach (ram s) (N.testbit v 1) (eax s) (ecx s) (esi s) (edi s) (sp s) (ds s) (fs s) (ss s) (cr0 s) (gbase s) (glimit s) (intr s) v.

(** ** Memory *)
(** a closed gate holds address line 20 at zero *)
Definition line (open : bool) (a : N) : N := let a := a mod 2 ^ 32 in if open then a else N.clearbit a 20.
(** processor: access to memory in real mode *)
Fixpoint rd (g : bool) (m : N -> N) (n : nat) (a : N) : N :=
  match n with O => 0 | S n => m (line g a) + 256 * rd g m n (a + 1) end.
(** processor: access to memory in real mode *)
Fixpoint wr (g : bool) (m : N -> N) (n : nat) (a v : N) : N -> N :=
  match n with O => m | S n => wr g (fun x => if x =? line g a then v mod 256 else m x) n (a + 1) (v / 256) end.
(** segment:offset; an access past the limit is a fault, in real mode too *)
Definition lin (c : cache) (off n : N) : step N :=
  if off + n - 1 <=? c_limit c then On (c_base c + off) else Off Fault.
(** processor: access to memory in real mode *)
Definition fetch (r : sg) (off : N) (n : nat) (s : mach) : step N :=
  a <- lin (cget r s) off (N.of_nat n) ;; On (rd (gate s) (ram s) n a).
(** processor: access to memory in real mode *)
Definition put (r : sg) (off : N) (n : nat) (v : N) (s : mach) : step mach :=
  a <- lin (cget r s) off (N.of_nat n) ;; On (set_ram (wr (gate s) (ram s) n a v) s).
(** processor: access to memory in real mode *)
Definition push (n : nat) (v : N) (s : mach) : step mach :=
  let p := (sp s + (2 ^ 16 - N.of_nat n)) mod 2 ^ 16 in s <- put Ss p n v s ;; On (set_sp p s).
(** processor: access to memory in real mode *)
Definition pop (n : nat) (s : mach) : step (N * mach) :=
  v <- fetch Ss (sp s) n s ;; On (v, set_sp ((sp s + N.of_nat n) mod 2 ^ 16) s).

(** ** Segment registers *)
(** In real mode only selector and base change; in protected mode the descriptor gives base and limit and is marked accessed.
    Only present data segments of the global table are loaded; everything else counts as a fault here. *)
Definition load_seg (r : sg) (v : N) (s : mach) : step mach :=
  if negb (N.testbit (cr0 s) 0) then On (cset r (Cache v (16 * v) (c_limit (cget r s))) s) else
  let o := 8 * (v / 8) in
  if negb (4 <=? v) || N.testbit v 2 || negb (o + 7 <=? glimit s) then Off Fault else
  let d := rd (gate s) (ram s) 8 (gbase s + o) in
  if d_data d && d_present d && (N.land v 3 <=? d_dpl d) then
    On (cset r (Cache v (d_base d) (d_limit d))
          (set_ram (wr (gate s) (ram s) 1 (gbase s + o + 5) (N.lor (d / 2 ^ 40 mod 256) 1)) s))
  else Off Fault.

(** ** Instructions *)
Definition low16 (x v : N) : N := x / 2 ^ 16 * 2 ^ 16 + v mod 2 ^ 16.
(** processor: access to memory in real mode *)
Definition low8 (x v : N) : N := x / 2 ^ 8 * 2 ^ 8 + v mod 2 ^ 8.
Inductive instr :=
| Push16 (r : gr) | Push32 (r : gr) | PushS (r : sg) | Pop16 (r : gr) | Pop32 (r : gr) | PopS (r : sg)
| In92 | Out92                                   (* in al, 92h and out 92h, al *)
| OrAl (i : N) | AndAl (i : N) | OrEax (i : N)
| Cli | Sti | Lgdt (a : N)                       (* with operand size prefix: all 32 bits of the base *)
| FromCr0 | ToCr0                                (* mov eax, cr0 and back *)
| Mov16 (r : gr) (i : N) | Mov32 (r : gr) (i : N)
| MovS (r : sg)                                  (* from ax *)
| Load32 (r : gr) (a : N) | Store32 (a : N) (r : gr)   (* ds:a *)
| LoadAl | StoreAl                               (* mov al, [ds:esi] and mov [fs:edi], al *)
| Inc32 (r : gr).
(** processor: one instruction *)
Definition exec (i : instr) (s : mach) : step mach :=
  match i with
  | Push16 r => push 2 (gget r s mod 2 ^ 16) s
  | Push32 r => push 4 (gget r s) s
  | PushS r => push 2 (c_sel (cget r s)) s
  | Pop16 r => x <- pop 2 s ;; On (gset r (low16 (gget r (snd x)) (fst x)) (snd x))
  | Pop32 r => x <- pop 4 s ;; On (gset r (fst x) (snd x))
  | PopS r => x <- pop 2 s ;; load_seg r (fst x) (snd x)
  | In92 => On (gset EAX (low8 (eax s) (p92 s)) s)
  | Out92 => if N.testbit (eax s) 0 then Off Reset else On (set_92 (eax s mod 256) s)
  | OrAl i => On (gset EAX (low8 (eax s) (N.lor (eax s) i)) s)
  | AndAl i => On (gset EAX (low8 (eax s) (N.land (eax s) i)) s)
  | OrEax i => On (gset EAX (N.lor (eax s) i) s)
  | Cli => On (set_if false s)
  | Sti => On (set_if true s)
  | Lgdt a => l <- fetch Ds a 2 s ;; b <- fetch Ds (a + 2) 4 s ;; On (set_gdtr b l s)
  | FromCr0 => On (gset EAX (cr0 s) s)
  | ToCr0 => On (set_cr0 (eax s) s)
  | Mov16 r i => On (gset r (low16 (gget r s) i) s)
  | Mov32 r i => On (gset r i s)
  | MovS r => load_seg r (eax s mod 2 ^ 16) s
  | Load32 r a => v <- fetch Ds a 4 s ;; On (gset r v s)
  | Store32 a r => put Ds a 4 (gget r s) s
  | LoadAl => v <- fetch Ds (esi s) 1 s ;; On (gset EAX (low8 (eax s) v) s)
  | StoreAl => put Fs (edi s) 1 (eax s mod 2 ^ 8) s
  | Inc32 r => On (gset r ((gget r s + 1) mod 2 ^ 32) s)
  end.
(** model only: the operations of a program in order *)
Fixpoint run (is : list instr) (s : mach) : step mach :=
  match is with [] => On s | i :: is => s <- exec i s ;; run is s end.
(** the body and [loop]: cx is decremented, and control returns while it is not zero *)
Fixpoint loop (fuel : nat) (body : list instr) (s : mach) : step mach :=
  match fuel with
  | O => Off Long
  | S fuel =>
      s <- run body s ;;
      let cx := (ecx s mod 2 ^ 16 + (2 ^ 16 - 1)) mod 2 ^ 16 in
      let s := gset ECX (low16 (ecx s) cx) s in
      if cx =? 0 then On s else loop fuel body s
  end.

(** ** The code *)
(** loader.asm:14-21: three descriptors and, after them, the six bytes for lgdt *)
Definition gdt_bytes (at_ : N) : list N :=
  [0;0;0;0;0;0;0;0;  0xFF;0xFF;0;0;0;0x9A;0xCF;0;  0xFF;0xFF;0;0;0;0x92;0xCF;0;
   23;0; at_ mod 256; at_ / 256 mod 256; at_ / 65536 mod 256; at_ / 16777216 mod 256].
(** 85-103; [g]: the offset of GdtStart in the loader's segment, Gdt32Ptr lying 24 bytes on *)
Definition open_flat (g : N) : list instr :=
  [Push16 EAX; In92; OrAl 2; Out92; Pop16 EAX; Cli; Lgdt (g + 24);          (* 85-93 *)
   FromCr0; OrEax 1; ToCr0; Mov16 EAX 0x10; MovS Fs;                        (* 94-99, SelectorData32 = 16 *)
   FromCr0; AndAl 0xFE; ToCr0; Sti].                                        (* 100-103 *)
(** 272-284; [k]: the offset of KernelOffset *)
Definition copy_pre (k : N) : list instr :=
  [Push16 ECX; Push32 EAX; PushS Fs; Push32 EDI; PushS Ds; Push32 ESI;
   Mov16 ECX 0x200; Mov16 EAX 0; MovS Fs; Load32 EDI k; Mov16 EAX 0; MovS Ds; Mov32 ESI 0x7E00].
(** 288-291 *)
Definition copy_body : list instr := [LoadAl; StoreAl; Inc32 ESI; Inc32 EDI].
(** 294-302 *)
Definition copy_post (k : N) : list instr :=
  [Mov32 EAX 0x1000; MovS Ds; Store32 k EDI; Pop32 ESI; PopS Ds; Pop32 EDI; PopS Fs; Pop32 EAX; Pop16 ECX].
(** as above, 294-302 *)
Definition copy_sector (k : N) (s : mach) : step mach :=
  s <- run (copy_pre k) s ;; s <- loop (N.to_nat 0x10000) copy_body s ;; run (copy_post k) s.
