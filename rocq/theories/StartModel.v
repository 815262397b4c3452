(** Model of what main runs on and does first: the constructor table of kernel/Eospp.lds:17-27 and its walk
    (kernel/include/core/global_obj.hpp:8-11), and the write-protection of a page in kernel/main.cpp:35-41.
    Simplified: constructors do not write to the table; translations are cached per 2 MiB page; accessed and dirty bits are not kept. *)
From stdpp Require Import list.
From Coq Require Import NArith.
From Verif Require Import Base PagingModel SwitchModel E820Model.
Local Open Scope N_scope.
Local Open Scope outcome_scope.

(** ** Eospp.lds:17-27 *)
(** An input section: alignment and contents. The linker moves the location counter up to the alignment and appends the contents;
    what lies in the gap is whatever [m] has. *)
Record piece := { p_align : N; p_bytes : list N }.
(** linker: alignment and placement of sections (Eospp.lds) *)
Definition align_up (x a : N) : N := (x + a - 1) / a * a.
(** linker: alignment and placement of sections (Eospp.lds) *)
Fixpoint place (ps : list piece) (dot : N) (m : bytes) : N * bytes :=
  match ps with
  | [] => (dot, m)
  | p :: ps =>
      let d := align_up dot (p_align p) in
      place ps (d + N.of_nat (length (p_bytes p))) (store m d (p_bytes p))
  end.
(** an .init_array section of one object file: addresses of functions, aligned to 8 *)
Definition ctor_piece (fs : list N) : piece := {| p_align := 8; p_bytes := concat (map (le_bytes 8) fs) |}.
(** 19-26: start_ctors, end_ctors and memory. [arrays]: the .init_array sections in link order; [prio]: the .init_array.* ones in
    the order of their priorities. *)
Definition link_data (data : list piece) (arrays prio : list (list N)) (dot : N) (m : bytes) : N * N * bytes :=
  let (start, m) := place data dot m in                              (* 20 *)
  let (e, m) := place (map ctor_piece arrays) start m in             (* 23 *)
  let (e, m) := place (map ctor_piece prio) e m in                   (* 24 *)
  (start, e, m).

(** ** global_obj.hpp:8-11: the functions called, in order; a call of anything that is not a constructor is undefined *)
Fixpoint run_ctors (fuel : nat) (is_ctor : N -> bool) (m : bytes) (i e : N) : outcome (list N) :=
  if i =? e then Ok [] else
  match fuel with
  | O => Fuel
  | S fuel =>
      let f := le_val (E820Model.load m i 8) in
      if is_ctor f then fs <~ run_ctors fuel is_ctor m ((i + 8) mod 2 ^ 64) e ; Ok (f :: fs) else UB
  end.

(** ** main.cpp:35-41 *)
(** Physical memory and the cached translations by 2 MiB page: base address and rights. *)
Record machine := { m_mem : N -> N; m_tlb : N -> option mapping }.
(** The processor may forget cached translations at any time, and need not look at the tables while it has one
    (Intel SDM vol. 3, 4.10.2). [keep]: the pages it still remembers at this access. CR0.WP is set (C67). *)
Definition page_of (va : N) : N := va / 2 ^ 21.
(** processor: access through cached translations *)
Definition access (keep : N -> bool) (write : bool) (va : N) (s : machine) : res (N * machine) :=
  let tlb := fun pg => if keep pg then m_tlb s pg else None in
  match tlb (page_of va) with
  | Some p => if write && negb (writable p) then Stop PF
              else Go (phys p + va mod 2 ^ 21, {| m_mem := m_mem s; m_tlb := tlb |})
  | None =>
      match walk_at PagingModel.cr3 (quads (m_mem s)) va with
      | Some p =>
          if write && negb (writable p) then Stop PF
          else Go (phys p, {| m_mem := m_mem s;
            m_tlb := fun pg => if pg =? page_of va
                               then Some {| phys := phys p - va mod 2 ^ 21; writable := writable p; user := user p |} else tlb pg |})
      | None => Stop PF
      end
  end.
(** processor: access through cached translations *)
Definition read64 (keep : N -> bool) (va : N) (s : machine) : res (N * machine) :=
  x <- access keep false va s;; Go (quads (m_mem (snd x)) (fst x), snd x).
(** processor: access through cached translations *)
Definition write64 (keep : N -> bool) (va v : N) (s : machine) : res machine :=
  x <- access keep true va s;;
  Go {| m_mem := store (m_mem (snd x)) (fst x) (le_bytes 8 v); m_tlb := m_tlb (snd x) |}.
Definition cell : N := 0xFFFF800000400100.                 (* 35 *)
Definition pde2 : N := 0xFFFF800000103000 + 8 * 2.         (* 37: &PDE + 2; head.S:66-68 *)
(** 36-37 and then the write of 40; [k1].. : what is remembered at each access *)
Definition protect_page (k1 k2 k3 : N -> bool) (s : machine) : res machine :=
  s <- write64 k1 cell 2 s;;
  x <- read64 k2 pde2 s;;
  write64 k3 pde2 (N.ldiff (fst x) 2) (snd x).
(** as above, 36-37 *)
Definition main_writes (k1 k2 k3 k4 : N -> bool) (s : machine) : res machine :=
  s <- protect_page k1 k2 k3 s;;
  write64 k4 cell 2 s.
