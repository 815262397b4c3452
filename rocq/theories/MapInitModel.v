(** Model of memory::init, kernel/src/core/physical_allocator.cpp:6-31, as the calls of printf it makes.
    Simplified: the header that declares struct Memory_E820_Formate is not in the repository; by its use the record has five unsigned ints,
    address1, address2, length1, length2 and type, without padding (20 bytes, as the loader stores them), the 1s being the low halves. *)
From stdpp Require Import list.
From Coq Require Import ZArith NArith String Ascii SpecFloat.
From Verif Require Import PrintfModel ConsoleModel E820Model.
Local Open Scope N_scope.
Local Notation ascii := (ConsoleModel.bytes).

(** an unsigned int of the record at [p] *)
Definition u32_at (m : bytes) (p : N) : N := le_val (load m p 4).
(** members of the record (physical_allocator.cpp:13-27) *)
Definition address1 (m : bytes) (p : N) : N := u32_at m p.
(** members of the record (physical_allocator.cpp:13-27) *)
Definition address2 (m : bytes) (p : N) : N := u32_at m (p + 4).
(** members of the record (physical_allocator.cpp:13-27) *)
Definition length1 (m : bytes) (p : N) : N := u32_at m (p + 8).
(** members of the record (physical_allocator.cpp:13-27) *)
Definition length2 (m : bytes) (p : N) : N := u32_at m (p + 12).
(** members of the record (physical_allocator.cpp:13-27) *)
Definition type_ (m : bytes) (p : N) : N := u32_at m (p + 16).

(** model only: tab and line feed of the formats *)
Definition tab : list N := [9].
(** model only: tab and line feed of the formats *)
Definition nl : list N := [10].
(** 11 *)
Definition header_format : list N :=
  ascii "Display Physics Address MAP,Type(1:RAM,2:ROM or Reserved,3:ACPI Reclaim Memory,4:ACPI NVS Memory,Others:Undefine)"%string ++ nl.
(** 18 *)
Definition line_format : list N :=
  ascii "Address:%ud,%ud"%string ++ tab ++ ascii "Length:%ud,%ud"%string ++ tab ++ ascii "Type:%ud"%string ++ nl.
(** 30 *)
Definition total_format : list N := ascii "TotalMem = %.5f MB"%string ++ nl.

(** 14-28: [n] iterations are left *)
Fixpoint init_loop (n : nat) (m : bytes) (p : N) (TotalMem : spec_float) : list (list N * list arg) * spec_float :=
  match n with
  | O => ([], TotalMem)
  | S n =>
      if 4 <? type_ m p then ([], TotalMem)                                              (* 16-17 *)
      else
        let call := (line_format, [A32 (address2 m p); A32 (address1 m p); A32 (length2 m p); A32 (length1 m p); A32 (type_ m p)]) in  (* 18 *)
        let TotalMem :=
          if type_ m p =? 1 then                                                         (* 20-25 *)
            SFadd 53 1024 (SFadd 53 1024 TotalMem (dbl_of_Z (Z.of_N (length1 m p)))) (dbl_of_Z (Z.of_N (N.shiftl (length2 m p) 32 mod 2 ^ 64)))
          else TotalMem in
        let '(calls, TotalMem) := init_loop n m (p + 20) TotalMem in (call :: calls, TotalMem)
  end.
(** 12: the window at 0xffff800000000000 shows physical memory *)
Definition map_at : N := 0x7e00.
(** 29 *)
Definition usage (TotalMem : spec_float) : spec_float := SFdiv 53 1024 (SFdiv 53 1024 TotalMem (dbl_of_Z 1024)) (dbl_of_Z 1024).
(** 6-31 *)
Definition init_calls (m : bytes) : list (list N * list arg) :=
  let '(lines, TotalMem) := init_loop 16 m map_at (S754_zero false) in
  (header_format, []) :: lines ++ [(total_format, [ADbl (usage TotalMem)])].
