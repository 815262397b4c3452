(** Model of the end of main (kernel/main.cpp:35-46) on a processor that keeps accessed and dirty bits, caches translations
    and may look addresses up, forget translations and run the rest of the kernel's writes between any two accesses.
    Simplified: the rest of the kernel (printf and its callees) appears as writes of single bytes at arbitrary places outside
    the tables and the page at 4 MiB; what these calls print is in ConsoleModel.v. *)
From Coq Require Import ZArith String Ascii.
From stdpp Require Import gmap.
From Verif Require Import Base PagingModel SwitchModel E820Model StubModel PrintfModel VesaModel ConsoleModel ConsoleFault StartModel.
Local Open Scope N_scope.

(** ** The processor (Intel SDM vol. 3, 4.7, 4.8, 4.10) *)
(** A cached translation: base address and rights of a page, and whether the dirty bit was set when it was cached. *)
Record cached := { c_map : mapping; c_dirty : bool }.
(** model only: memory and cached translations *)
Record proc := { pm : N -> N; tlb : N -> option cached }.
(** 4.5: the entries used to translate [va], the one that maps the page last *)
Definition path (m : N -> N) (va : N) : list N :=
  let a4 := PagingModel.cr3 + 8 * index va 39 in
  let a3 := frame (m a4) 12 + 8 * index va 30 in
  if N.testbit (m a3) 7 then [a4; a3] else
  let a2 := frame (m a3) 12 + 8 * index va 21 in
  if N.testbit (m a2) 7 then [a4; a3; a2] else [a4; a3; a2; frame (m a2) 12 + 8 * index va 12].
(** 4.8: bit 5 is set in every entry used, bit 6 in the one that maps the page, if the access is a write *)
Definition mark (bits a : N) (m : N -> N) : N -> N := store m a (le_bytes 8 (N.lor (quads m a) bits)).
(** Intel SDM vol. 3, 4.7, 4.8, 4.10: an access by the processor *)
Fixpoint mark_path (w : bool) (l : list N) (m : N -> N) : N -> N :=
  match l with
  | [] => m
  | [a] => mark (if w then 0x60 else 0x20) a m
  | a :: l => mark_path w l (mark 0x20 a m)
  end.
(** Result of an access: the physical address, or a page fault with the error code of 4.7: bit 0 if the page was present,
    bit 1 if the access was a write (all accesses are made in supervisor mode, no reserved bit is set). *)
Inductive reached (A : Type) := At (a : A) | Fault (code : N).
Arguments At {A}. Arguments Fault {A}.
(** Intel SDM vol. 3, 4.7, 4.8, 4.10: an access by the processor *)
Definition code_of (present write : bool) : N := (if present then 1 else 0) + (if write then 2 else 0).
(** 4.10.2: a translation is looked up in the tables if none is cached, or if the page is written to for the first time. CR0.WP is set (C67). *)
Definition lookup (w : bool) (va : N) (s : proc) : reached (N * proc) :=
  match walk_at PagingModel.cr3 (quads (pm s)) va with
  | None => Fault (code_of false w)
  | Some p =>
      if w && negb (writable p) then Fault (code_of true w) else
      let m := mark_path w (path (quads (pm s)) va) (pm s) in
      At (phys p, {| pm := m;
        tlb := fun pg => if pg =? page_of va
          then Some {| c_map := {| phys := phys p - va mod 2 ^ 21; writable := writable p; user := user p |};
                       c_dirty := N.testbit (quads m (List.last (path (quads (pm s)) va) 0)) 6 |}
          else tlb s pg |})
  end.
(** Intel SDM vol. 3, 4.7, 4.8, 4.10: an access by the processor *)
Definition access (w : bool) (va : N) (s : proc) : reached (N * proc) :=
  match tlb s (page_of va) with
  | Some c =>
      if w && negb (writable (c_map c)) then Fault (code_of true w)
      else if w && negb (c_dirty c) then lookup w va s
      else At (phys (c_map c) + va mod 2 ^ 21, s)
  | None => lookup w va s
  end.
(** Intel SDM vol. 3, 4.7, 4.8, 4.10: an access by the processor *)
Definition read64 (va : N) (s : proc) : reached (N * proc) :=
  match access false va s with At (a, s) => At (quads (pm s) a, s) | Fault c => Fault c end.
(** Intel SDM vol. 3, 4.7, 4.8, 4.10: an access by the processor *)
Definition write64 (va v : N) (s : proc) : reached proc :=
  match access true va s with
  | At (a, s) => At {| pm := store (pm s) a (le_bytes 8 v); tlb := tlb s |}
  | Fault c => Fault c
  end.

(** ** What happens between the accesses of main *)
(** [Look]: any instruction or data that is read, or prefetched; [Forget]: 4.10.2.2, at any time; [Poke]: one byte written. *)
Inductive event := Forget (pg : N) | Look (va : N) | Poke (va v : N).
(** Intel SDM vol. 3, 4.7, 4.8, 4.10: an access by the processor *)
Definition happen (e : event) (s : proc) : reached proc :=
  match e with
  | Forget pg => At {| pm := pm s; tlb := fun q => if q =? pg then None else tlb s q |}
  | Look va => match access false va s with At (_, s) => At s | Fault _ => At s end
  | Poke va v =>
      match access true va s with
      | At (a, s) => At {| pm := store (pm s) a [v mod 256]; tlb := tlb s |}
      | Fault c => Fault c
      end
  end.
(** model only: the operations of a program in order *)
Fixpoint passes (l : list event) (s : proc) : reached proc :=
  match l with [] => At s | e :: l => match happen e s with At s => passes l s | Fault c => Fault c end end.

(** ** main.cpp:35-46 *)
Definition then_ {A B} (x : reached A) (f : A -> reached B) : reached B := match x with At a => f a | Fault c => Fault c end.
(** 36-38: the entry that is printed, and the processor; [e0] .. [e3]: what happens before each access *)
Definition protect (e0 e1 e2 e3 : list event) (s : proc) : reached (N * proc) :=
  then_ (passes e0 s) (fun s => then_ (write64 cell 2 s) (fun s =>
  then_ (passes e1 s) (fun s => then_ (read64 pde2 s) (fun x =>
  then_ (passes e2 (snd x)) (fun s => then_ (write64 pde2 (N.ldiff (fst x) 2) s) (fun s =>
  then_ (passes e3 s) (fun s => read64 pde2 s))))))).
(** 40-44: [Looped pde v]: the endless loop is reached after [v] was printed; [Faulted pde code]: the write of 40 faults *)
Inductive ending := Looped (pde v : N) (s : proc) | Faulted (pde code : N) (s : proc).
(** main.cpp:36-44 *)
Definition main_end (e0 e1 e2 e3 e4 e5 : list event) (s : proc) : reached ending :=
  then_ (protect e0 e1 e2 e3 s) (fun x =>
  then_ (passes e4 (snd x)) (fun s =>
    match write64 cell 2 s with
    | Fault code => At (Faulted (fst x) code s)
    | At s => then_ (passes e5 s) (fun s => then_ (read64 cell s) (fun y => At (Looped (fst x) (fst y) (snd y))))
    end)).

(** ** The screen *)
(** interrupt.cpp:7, e820.cpp:43, main.cpp:14, 38, 39 as in ConsoleModel.v, then either main.cpp:44 or, from the interrupted
    program [m] through the stub of vector 14 (isrs.s), interrupt.cpp:236-239; both end in an endless loop.
    [bm]: memory with the map of the BIOS; [ex], [buf]: addresses of the exception names and of printf's buffer. *)
Definition screen_of (h : StubModel.machine -> StubModel.machine) (ra top t c : Z) (m : StubModel.machine)
    (ex : N -> N) (buf : N) (bm : E820Model.bytes) (x : ending) (k : kernel) : outcome kernel :=
  let (entries, available) := e820_init bm in
  match x with
  | Looped pde v _ =>
      obind (boot_prints buf (N.of_nat (length entries)) available pde k)
        (fun k => printfs buf [(bytes "*p = %ul" ++ newline, [A64 v])] k)
  | Faulted pde code _ =>
      obind (boot_prints buf (N.of_nat (length entries)) available pde k)
        (fun k => fault_handler ex buf (fault_of (exec_list h ra (isr_entry 14) (cpu_enter top t c (Some (Z.of_N code)) m))) k)
  end.
