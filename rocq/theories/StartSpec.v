(** What start-up must achieve. *)
From Coq Require Import NArith List.
From Verif Require Import PagingModel PagingSpec SwitchModel SwitchSpec StartModel.
Local Open Scope N_scope.

(** Objects with an init_priority are constructed before all others, those in link order. *)
Definition construction_order (arrays prio : list (list N)) : list N := concat prio ++ concat arrays.
(** Cached translations agree with the tables in force. *)
Definition tlb_ok (s : machine) : Prop := forall va p, va < 2 ^ 64 -> m_tlb s (page_of va) = Some p ->
  walk_at PagingModel.cr3 (quads (m_mem s)) va = Some {| phys := phys p + va mod 2 ^ 21; writable := writable p; user := user p |}.
(** The page of main.cpp:35 and its alias in the identity half. *)
Definition in_page (va : N) : Prop := exists o, window_offset va = Some o /\ 0x400000 <= o < 0x600000.
