(** What must stand on the screen at the end, and when the second write is caught. *)
From Coq Require Import ZArith String Ascii.
From stdpp Require Import gmap.
From Verif Require Import PagingModel PagingSpec SwitchModel ConsoleSpec StartModel LastModel.
Local Open Scope N_scope.

(** The tables of head.S:54-82, whatever pages have been used and written to since. *)
Record used_tables (m : N -> N) : Prop := {
  ut_byte : forall a, m a < 256;
  ut_4 : forall i, i < 512 -> N.ldiff (quads m (0x101000 + 8 * i)) 0x60 = PML4 i;
  ut_3 : forall i, i < 512 -> N.ldiff (quads m (0x102000 + 8 * i)) 0x60 = PDPTE i;
  ut_2 : forall i, i < 512 -> N.ldiff (quads m (0x103000 + 8 * i)) 0x60 = PDE i
}.
(** A cached translation is that of the tables, its page has been used, and written to if it says so. *)
Definition tlb_true (s : proc) : Prop := forall va c, va < 2 ^ 64 -> tlb s (page_of va) = Some c ->
  walk_at PagingModel.cr3 (quads (pm s)) va =
    Some {| phys := phys (c_map c) + va mod 2 ^ 21; writable := writable (c_map c); user := user (c_map c) |} /\
  N.testbit (quads (pm s) (0x103000 + 8 * index va 21)) 5 = true /\
  (c_dirty c = true -> N.testbit (quads (pm s) (0x103000 + 8 * index va 21)) 6 = true).

(** The rest of the kernel writes to mapped addresses outside the tables and the page at 4 MiB. *)
Definition harmless (e : event) : Prop :=
  match e with
  | Forget _ => True
  | Look va => va < 2 ^ 64
  | Poke va _ => va < 2 ^ 64 /\ exists p, expected_phys va = Some p /\ ~ 0x101000 <= p < 0x104000 /\ ~ 0x400000 <= p < 0x600000
  end.

(** Does the processor still hold the translation with the old right? While the tables still grant it ([open]), looking the
    page up brings it back. *)
Fixpoint remembers (open r : bool) (l : list event) : bool :=
  match l with
  | [] => r
  | Forget pg :: l => remembers open (if pg =? page_of cell then false else r) l
  | Look va :: l => remembers open (if page_of va =? page_of cell then r || open else r) l
  | Poke _ _ :: l => remembers open r l
  end.
(** from the first write to the removal of the right (main.cpp:36-37), and from there to the second write (40) *)
Definition slips (e1 e2 e3 e4 : list event) : bool := remembers false (remembers true true (e1 ++ e2)) (e3 ++ e4).

(** The lines at the end: the boot report, then the value, or the report of the page fault. *)
Definition last_lines (slipped : bool) (size megabytes ip flags sp_ : N) (lines : list (list Z)) : Prop :=
  exists first rest, boot_report size megabytes 0x4000e1 first /\ lines = (first ++ rest)%list /\
    if slipped then rest = [letters "*p = 2"] else fault_report 14 3 ip flags 8 sp_ 16 "Page Fault" rest.
