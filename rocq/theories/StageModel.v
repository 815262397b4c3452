(** Model of smaller pieces of the boot path: _arch_enable_sse (kernel/src/core/arch.s:6-23), the E820 loop and the VBE call of
    the loader (bootloader/loader.asm:328-364), and the bytes of its failure messages (loader.asm:162-172, 487-497). *)
From stdpp Require Import list.
From Coq Require Import NArith.
From Verif Require Import Base E820Model.
Local Open Scope N_scope.

(** ** arch.s *)
(** general registers and control registers, 64 bits each; cpuid leaf 1 gives eax, ebx, ecx, edx *)
Record regs := Regs { r_ax : N; r_bx : N; r_cx : N; r_dx : N; r_cr0 : N; r_cr4 : N }.
(** [and ax, i], [or ax, i]: the low 16 bits only *)
Definition and16 (x i : N) : N := x / 2 ^ 16 * 2 ^ 16 + N.land (x mod 2 ^ 16) i.
(** processor: or ax, i *)
Definition or16 (x i : N) : N := x / 2 ^ 16 * 2 ^ 16 + N.lor (x mod 2 ^ 16) i.
Definition enable_sse (cpuid1 : N * N * N * N) (r : regs) : regs :=
  let '(a, b, c, d) := cpuid1 in                                   (* 7-8: writes all four registers *)
  if N.land d (N.shiftl 1 25) =? 0 then Regs a b c d (r_cr0 r) (r_cr4 r)   (* 9-10 *)
  else
    let ax := or16 (and16 (r_cr0 r) 0xFFFB) 0x2 in                 (* 12-15 *)
    let ax4 := or16 (r_cr4 r) (N.shiftl 3 9) in                    (* 17-18 *)
    Regs ax4 b c d ax ax4.                                         (* 16, 19 *)

(** ** loader.asm:328-342 *)
(** The BIOS call with ebx = [k] (es = 0): carry, the bytes stored at es:di, the next ebx. *)
Notation bios := (N -> bool * list N * N).
(** [None]: Fail_Get_Memory, which does not return. di is 16 bits wide. *)
Fixpoint get_memory (fuel : nat) (b : bios) (m : bytes) (di k : N) : outcome (option bytes) :=
  match fuel with
  | O => Fuel
  | S fuel =>
      let '(cf, bs, k') := b k in
      if cf then Ok None                                           (* 338 *)
      else
        let m := store m di bs in
        let di := (di + 20) mod 2 ^ 16 in                          (* 339 *)
        if k' =? 0 then Ok (Some m) else get_memory fuel b m di k' (* 340-342 *)
  end.
(** 328-331 *)
Definition store_memory_map (fuel : nat) (b : bios) (m : bytes) : outcome (option bytes) := get_memory fuel b m 0x7E00 0.
(** 360-364: the VBE controller block goes to 0x8000 (256 bytes, 512 for VBE 2) *)
Definition get_svga (info : list N) (m : bytes) : bytes := store m 0x8000 info.

(** ** machine code *)
(** The opcodes that occur; operand sizes follow the mode of the processor, not the section the code was assembled for. *)
Inductive mode := M16 | M32.
(** bytes of a memory operand after the ModRM byte [x] (no SIB byte occurs in 16-bit mode) *)
Definition modrm_len (md : mode) (x : N) : N :=
  let top := x / 64 in let rm := x mod 8 in
  match md with
  | M16 => if top =? 3 then 0 else if top =? 0 then (if rm =? 6 then 2 else 0) else if top =? 1 then 1 else 2
  | M32 => (if (rm =? 4) && negb (top =? 3) then 1 else 0) +
           (if top =? 3 then 0 else if top =? 0 then (if rm =? 5 then 4 else 0) else if top =? 1 then 1 else 4)
  end.
(** processor: operand sizes *)
Definition wide (md : mode) : N := match md with M16 => 2 | M32 => 4 end.
(** processor: operand sizes *)
Definition other (md : mode) : mode := match md with M16 => M32 | M32 => M16 end.
(** number of bytes after the opcode [op], [x] being the next byte; [osz]: operand size mode *)
Definition operand_len (md osz : mode) (op x : N) : option N :=
  if existsb (N.eqb op) [0x89; 0x8c; 0x8e; 0x8b; 0x00; 0x10; 0x02] then Some (1 + modrm_len md x)
  else if op =? 0x81 then Some (1 + modrm_len md x + wide osz)
  else if (0xb8 <=? op) && (op <=? 0xbf) then Some (wide osz)
  else if op =? 0xcd then Some 1
  else if op =? 0xeb then Some 1
  else if op =? 0xe8 then Some (wide osz)
  else if op =? 0xc3 then Some 0
  else None.
(** The instructions in [bs]: opcode and operand bytes; stops before an incomplete or unlisted one and returns the rest. *)
Fixpoint disasm (fuel : nat) (md : mode) (bs : list N) : list (N * list N) * list N :=
  match fuel with
  | O => ([], bs)
  | S fuel =>
      let one osz op rest :=
        match operand_len md osz op (hd 0 rest) with
        | Some n => if (N.of_nat (length rest) <? n) then ([], bs)
                    else let (is, r) := disasm fuel md (drop (N.to_nat n) rest) in ((op, take (N.to_nat n) rest) :: is, r)
        | None => ([], bs)
        end in
      match bs with
      | [] => ([], [])
      | 0x66 :: op :: rest => one (other md) op rest
      | op :: rest => one md op rest
      end
  end.
(** loader.asm:162-172 as assembled for 16 bits; [lo], [hi]: the address of OutLine *)
Definition printf_code (lo hi : N) : list N :=
  [0x89; 0xc1; 0x89; 0xdd; 0x8c; 0xd8; 0x8e; 0xc0; 0xb8; 0x01; 0x13; 0xbb; 0x0f; 0x00;
   0x8b; 0x16; lo; hi; 0xcd; 0x10; 0x81; 0x06; lo; hi; 0x00; 0x02; 0xc3].
(** loader.asm:493-497 as assembled for 32 bits; [lo], [hi]: the low half of the message address, [r]: the call displacement *)
Definition svga_failed_code (lo hi r0 r1 r2 r3 : N) : list N :=
  [0x66; 0xb8; 23; 0x00; 0x66; 0xbb; lo; hi; 0xe8; r0; r1; r2; r3; 0xeb; 0xfe].
