(** C105: the memory map as memory::init prints it (kernel/src/core/physical_allocator.cpp:6-31). *)
From stdpp Require Import gmap list.
From Coq Require Import ZArith String.
From Verif Require Import PrintfModel E820Model E820Spec MapInitModel MapInitSpec MapInitMore MapInitProofs.
Local Open Scope N_scope.

(** memory::init prints the title, one line for every record it finds, and the usable memory in megabytes to five digits.
    Missing for the full statement: totals of 2^53 bytes and more, where the double loses bytes (C105_total_refuted),
    and the records found are those of the loader only under the conditions of C105_map (C105_map_refuted). *)
Theorem C105_lines_partial : forall m : bytes, is_memory m -> ram (records m) < 2 ^ 53 ->
  Forall2 call_prints (init_calls m) ([eq title] ++ map record_line (records m) ++ [total_line (ram (records m))]).
Proof. exact init_prints. Qed.
Print Assumptions C105_lines_partial.

(** The records found are those stored exactly if there are at most 16, none has a type above 4, and, unless there are 16, what follows has one. *)
Theorem C105_map : forall (m : bytes) (es : list e820_entry), Forall entry_ok es ->
  (records (store_map m 0x7e00 es) = es <->
   (List.length es <= 16)%nat /\ Forall (fun e => e_type e <= 4) es /\
   (List.length es = 16%nat \/ 4 < e_type (read_entry m (0x7e00 + 20 * N.of_nat (List.length es))))).
Proof. exact records_exact. Qed.
Print Assumptions C105_map.
(** three records, 1 GB; the memory behind them reads 0xff *)
Example C105_example : is_memory (store_map no_memory 0x7e00 three) /\ records (store_map no_memory 0x7e00 three) = three /\ ram three = 0x3ff9fc00 /\
  Forall entry_ok three /\ 4 < e_type (read_entry no_memory (0x7e00 + 20 * N.of_nat (List.length three))).
Proof. exact map_demo. Qed.

(** Records 2^53, 1, 1, 1, 1, 1, 1 bytes long add up to 2^53 in a double; the line ends in 0 instead of 1. *)
Theorem C105_total_refuted : exists m : bytes, is_memory m /\
  Forall (fun r => e_type r = 1 /\ e_addr r + e_len r <= 2 ^ 64) (records m) /\
  ~ call_prints (List.last (init_calls m) ([], [])) (total_line (ram (records m))).
Proof. exact total_wrong. Qed.
Print Assumptions C105_total_refuted.

(** One stored record in zeroed memory is printed as sixteen, and of seventeen only sixteen are printed. *)
Theorem C105_map_refuted :
  (exists (m : bytes) es, is_memory m /\ good_map es /\ List.length es = 1%nat /\ List.length (records (store_map m 0x7e00 es)) = 16%nat) /\
  (exists (m : bytes) es, is_memory m /\ good_map es /\ List.length es = 17%nat /\ records (store_map m 0x7e00 es) = take 16 es).
Proof. exact map_wrong. Qed.
Print Assumptions C105_map_refuted.
