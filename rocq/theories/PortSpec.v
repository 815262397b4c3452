(** What is asked of the port functions of io.hpp. *)
From Coq Require Import NArith String Ascii List.
From Verif Require GateModel.
From Verif Require Import PortModel.
Local Open Scope N_scope.

(** The call writes the [z] wide [a] to the port and does nothing else, however the compiler passes the port. *)
Definition writes (t : template) (z : size) : Prop :=
  forall D (dv : devices D) p port a d, passes port p -> call dv t p port a d = Some (a, dev_out dv z port a d).
(** The call returns what the port delivers and leaves the device as a read does. *)
Definition delivers (t : template) (z : size) : Prop :=
  forall D (dv : devices D) p port a d, passes port p -> call dv t p port a d = Some (dev_in dv z port d).
(** The file is refused by the assembler wherever the function is used. *)
Definition refused (t : template) : Prop := forall p port, passes port p -> code t p = None.
(** The same text with a comma for its second space. *)
Fixpoint comma (seen : bool) (s : string) : string :=
  match s with
  | EmptyString => EmptyString
  | String c s => if Ascii.eqb c " " then (if seen then String "," s else String c (comma true s)) else String c (comma seen s)
  end.
Definition repaired (t : template) : template := {| t_size := t_size t; t_text := comma false (t_text t) |}.
(** the texts the manual asks for *)
Definition in_right (z : size) : template :=
  {| t_size := z; t_text := match z with B1 => "inb %[port],%[v]" | B2 => "inw %[port],%[v]" | B4 => "inl %[port],%[v]" end |}.
(** the two interrupt controllers of GateModel.v as devices *)
Definition pic_ports : devices GateModel.pics :=
  {| dev_in := fun _ _ s => (0, s); dev_out := fun _ port v s => GateModel.out_byte port v s |}.
