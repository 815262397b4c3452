(** The life of one page of memory, and the accounts of a zone as sums over the lives of its pages. *)
From stdpp Require Import list.
From Coq Require Import NArith.
From Verif Require Import PageModel.
Local Open Scope N_scope.

(** A page is in nobody's hands, has one owner, or is lent (marked referenced or shared). *)
Inductive hold := Unheld | Held | Lent.
Global Instance hold_dec : EqDecision hold.
Proof. solve_decision. Defined.
(** How it is held, its references, its bit in the bitmap, and what its zone has charged for it: pages in use and links. *)
Record life := Life { how : hold; refs : N; marked : bool; charged : N; linked : N }.
Definition newborn : life := Life Unheld 0 false 0 0.

(** The flags lend the page: one of the two reference flags is among them. *)
Definition lends (r sh f : N) : bool := negb (N.land f r =? 0) || negb (N.land f sh =? 0).
(** The page is taken, with flags that lend it ([lend]) and that are all zero ([nothing]). *)
Definition take (lend nothing : bool) (l : life) : life :=
  match how l with
  | Unheld => Life (if nothing then Unheld else if lend then Lent else Held) (refs l + 1) true (charged l + 1) (linked l + 1)
  | Lent => Life Lent (refs l + 1) (marked l) (charged l) (linked l + 1)
  | Held => if lend then Life Lent (refs l + 1) (marked l) (charged l) (linked l + 1)
            else Life Held (refs l) true (charged l) (linked l)
  end.
(** It is given back: an owner's page loses its mark; a lent page goes with its last reference and keeps it. *)
Definition give (l : life) : life :=
  match how l with
  | Unheld => l
  | Lent => if refs l =? 1 then Life Unheld 0 (marked l) (charged l - 1) (linked l - 1)
            else Life Lent (refs l - 1) (marked l) (charged l) (linked l - 1)
  | Held => Life Unheld 0 false (charged l - 1) (linked l - 1)
  end.
(** A life under a list of calls: only those for the page matter. *)
Definition event (r sh : N) (i : nat) (l : life) (o : page_op) : life :=
  match o with
  | OpInit j f => if decide (j = i) then take (lends r sh f) (f =? 0) l else l
  | OpClean j => if decide (j = i) then give l else l
  end.
Definition life_of (r sh : N) (ops : list page_op) (i : nat) : life := fold_left (event r sh i) ops newborn.
(** Sums over the lives of the pages of a zone. *)
Fixpoint lsum (f : life -> N) (zi : nat) (ps : list page) (ls : list life) : N :=
  match ps, ls with
  | p :: ps, l :: ls => (if decide (pg_zone p = zi) then f l else 0) + lsum f zi ps ls
  | _, _ => 0
  end.
Definition lives (r sh : N) (ops : list page_op) (n : nat) : list life := map (life_of r sh ops) (seq 0 n).
(** The calls name existing pages. *)
Definition op_in (n : nat) (o : page_op) : Prop := match o with OpInit i _ | OpClean i => (i < n)%nat end.
