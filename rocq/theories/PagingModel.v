(** Model of the boot page tables (kernel/head.S:52-82) and of the processor's walk over them. *)
From stdpp Require Import list.
From Coq Require Import NArith.
Local Open Scope N_scope.

(** The tables lie at 0x101000 + .. because .text is linked first at physical 0x100000
    (head.S:23, 52, 60, 66). [nth i l 0]: quad number [i], zero after the listed ones (.fill). *)
Definition PML4 (i : N) : N := if (i =? 0) || (i =? 256) then 0x00102007 else 0.   (* 54-58 *)
Definition PDPTE (i : N) : N := if i =? 0 then 0x103003 else 0.                    (* 62-64 *)
Definition PDE (i : N) : N :=                                                      (* 68-82 *)
  nth (N.to_nat i)
    [0x00000083; 0x00200083; 0x00400083; 0x00600083; 0x00800083;
     0xe0000083; 0xe0200083; 0xe0400083; 0xe0600083; 0xe0800083; 0xe0a00083; 0xe0c00083; 0xe0e00083] 0.
Definition cr3 : N := 0x101000.   (* 23-24 *)

(** Physical memory as 64-bit words: the three tables, and anything elsewhere. *)
Definition table_mem (pde : N -> N) (other : N -> N) (a : N) : N :=
  if (0x101000 <=? a) && (a <? 0x102000) then PML4 ((a - 0x101000) / 8)
  else if (0x102000 <=? a) && (a <? 0x103000) then PDPTE ((a - 0x102000) / 8)
  else if (0x103000 <=? a) && (a <? 0x104000) then pde ((a - 0x103000) / 8)
  else other a.

(** The result of a walk: physical address, and whether writes and user accesses are allowed. *)
Record mapping := { phys : N; writable : bool; user : bool }.

(** Intel SDM vol. 3, 4.5: the four-level walk *)
Definition canonical (va : N) : bool := (va <? 2 ^ 47) || (2 ^ 64 - 2 ^ 47 <=? va).
(** Intel SDM vol. 3, 4.5: the four-level walk *)
Definition index (va shift : N) : N := N.land (N.shiftr va shift) 0x1FF.
(** 4-level walk (Intel SDM vol. 3, 4.5): bit 0 present, bit 1 write, bit 2 user, bit 7 large page. *)
Definition present (e : N) : bool := N.testbit e 0.
(** Intel SDM vol. 3, 4.5: the four-level walk *)
Definition frame (e lowbits : N) : N := N.shiftl (N.shiftr (N.land e (2 ^ 52 - 1)) lowbits) lowbits.
(** Intel SDM vol. 3, 4.5: the four-level walk *)
Definition allow (p : bool * bool) (e : N) : bool * bool :=
  (fst p && N.testbit e 1, snd p && N.testbit e 2).
(** Intel SDM vol. 3, 4.5: the four-level walk *)
Definition walk (m : N -> N) (va : N) : option mapping :=
  if negb (canonical va) then None else
  let e4 := m (cr3 + 8 * index va 39) in
  if negb (present e4) then None else
  let e3 := m (frame e4 12 + 8 * index va 30) in
  if negb (present e3) then None else
  if N.testbit e3 7 then
    let p := allow (allow (true, true) e4) e3 in
    Some {| phys := frame e3 30 + va mod 2 ^ 30; writable := fst p; user := snd p |} else
  let e2 := m (frame e3 12 + 8 * index va 21) in
  if negb (present e2) then None else
  if N.testbit e2 7 then
    let p := allow (allow (allow (true, true) e4) e3) e2 in
    Some {| phys := frame e2 21 + va mod 2 ^ 21; writable := fst p; user := snd p |} else
  let e1 := m (frame e2 12 + 8 * index va 12) in
  if negb (present e1) then None else
  let p := allow (allow (allow (allow (true, true) e4) e3) e2) e1 in
  Some {| phys := frame e1 12 + va mod 2 ^ 12; writable := fst p; user := snd p |}.

(** the walk with the tables of head.S:54-119, and after main.cpp:38 *)
Definition boot_walk (other : N -> N) : N -> option mapping := walk (table_mem PDE other).

(** main.cpp:38: [*(&PDE + 2) &= ~2ul] *)
Definition PDE_main (i : N) : N := if i =? 2 then N.clearbit (PDE 2) 1 else PDE i.
(** the walk with the tables of head.S:54-119, and after main.cpp:38 *)
Definition main_walk (other : N -> N) : N -> option mapping := walk (table_mem PDE_main other).
