(** What code needs of the stack. *)
From Coq Require Import ZArith List.
From Verif Require Import Base NestModel.
Import ListNotations.
Local Open Scope Z_scope.

(** [ends d g l d' g']: from rsp [d] and [g] open guards, [l] comes to rsp [d'] and [g'] open guards; what is called by [Sys]
    gives the stack back. *)
Inductive ends : Z -> nat -> list ins -> Z -> nat -> Prop :=
| ENil d g : ends d g [] d g
| EMove d g x l d' g' : ends (d + x) g l d' g' -> ends d g (Move x :: l) d' g'
| ECli d g l d' g' : ends d g l d' g' -> ends d g (Cli :: l) d' g'
| ESti d g l d' g' : ends d g l d' g' -> ends d g (Sti :: l) d' g'
| ESave d g l d' g' : ends d (S g) l d' g' -> ends d g (Save :: l) d' g'
| ERestore d g l d' g' : ends d g l d' g' -> ends d (S g) (Restore :: l) d' g'
| ESys d g n l d' g' : ends d g l d' g' -> ends d g (Sys n :: l) d' g'.
(** Code that leaves rsp as it was and closes its guards. *)
Definition closed (l : list ins) : Prop := ends 0 0 l 0 0.

(** What a stub takes at most before it calls its handler: 15 bytes to align the stack, five words by the processor, 16 by the stub
    and the return address. *)
Definition stub_needs : Z := 15 + 8 * (5 + 16 + 1).
(** [room sys b l]: [b] bytes are enough for [l] if there are no interrupts. *)
Inductive room (sys : nat -> list ins) : Z -> list ins -> Prop :=
| RNil b : 0 <= b -> room sys b []
| RMove b d l : 0 <= b -> room sys (b + d) l -> room sys b (Move d :: l)
| RSys b n l : room sys (b - stub_needs) (sys n) -> room sys b l -> room sys b (Sys n :: l)
| RFlag b i l : In i [Cli; Sti; Save; Restore] -> room sys b l -> room sys b (i :: l).

(** Code that does not let interrupts in. *)
Definition keeps_out (l : list ins) : Prop := ~ In Sti l /\ forall n, ~ In (Sys n) l.

(** Interrupts under way. *)
Definition depth (m : cpu) : nat := length (filter f_hw (frames m)).
