(** C90: the port functions. *)
From Coq Require Import NArith String List.
From Verif Require GateModel.
From Verif Require Import PortModel PortSpec PortProofs.
Import ListNotations.
Local Open Scope N_scope.

(** C90: out_byte writes its byte to its port on every device and however the compiler passes the port; what C46 assumes of it. *)
Theorem C90_out_byte_partial : writes out_byte B1.
Proof. exact out_byte_ok. Qed.
Print Assumptions C90_out_byte_partial.
Example C90_out_byte_example : passes 0x20 (Imm 0x20) /\ passes 0x3F8 InDx /\
  (forall s, call pic_ports out_byte (Imm 0x20) 0x20 0x11 s = Some (0x11, GateModel.out_byte 0x20 0x11 s)) /\
  fill 20 B1 (Imm 0x20) (t_text out_byte) = "outb %al,$32"%string.
Proof. exact (conj (conj eq_refl eq_refl) (conj I (conj (fun s => out_byte_ok _ pic_ports (Imm 0x20) 0x20 0x11 s (conj eq_refl eq_refl)) eq_refl))). Qed.

(** C90: the other five are refused by the assembler wherever they are used. *)
Theorem C90_others_refuted : Forall refused [in_byte; in_word; out_word; in_dword; out_dword].
Proof. exact five_refused. Qed.
Print Assumptions C90_others_refuted.
Example C90_others_example : fill 20 B1 InDx (t_text in_byte) = "inb %al %dx"%string /\ code in_byte InDx = None.
Proof. exact (conj eq_refl eq_refl). Qed.

(** C90: the comma that is missing repairs the two writes but not the three reads, whose operands are also in the wrong order. *)
Theorem C90_comma : writes (repaired out_word) B2 /\ writes (repaired out_dword) B4 /\
  Forall refused [repaired in_byte; repaired in_word; repaired in_dword] /\ (forall z, delivers (in_right z) z).
Proof. exact (conj out_word_repaired (conj out_dword_repaired (conj reads_refused in_right_ok))). Qed.
Print Assumptions C90_comma.
Example C90_comma_example : t_text (repaired out_word) = "outw %[data],%[port]"%string /\ code (repaired out_word) InDx = Some (Outp B2 InDx) /\
  t_text (repaired in_word) = "inb %[v],%[port]"%string /\ code (repaired in_word) InDx = None.
Proof. exact (conj eq_refl (conj eq_refl (conj eq_refl eq_refl))). Qed.
