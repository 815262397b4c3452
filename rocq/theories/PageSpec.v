(** What the page bookkeeping should say, computed from the pages in use. *)
From stdpp Require Import list.
From Coq Require Import NArith.
From Verif Require Import E820Model PageModel.
Local Open Scope N_scope.

Definition bit (m : N -> N) (b : N) : bool := N.testbit (m (b / 64)) (b mod 64).
Definition in_use (p : page) : bool := negb (pg_attr p =? 0).

(** Sum over the pages that belong to zone [zi]. *)
Fixpoint zsum (f : page -> N) (zi : nat) (ps : list page) : N :=
  match ps with
  | [] => 0
  | p :: ps => (if decide (pg_zone p = zi) then f p else 0) + zsum f zi ps
  end.
Definition pages_used (zi : nat) (ps : list page) : N := zsum (fun p => if in_use p then 1 else 0) zi ps.
Definition pages_free (zi : nat) (ps : list page) : N := zsum (fun p => if in_use p then 0 else 1) zi ps.
Definition pages_refs (zi : nat) (ps : list page) : N := zsum pg_refs zi ps.

(** Layout: page i describes physical page i and belongs to an existing zone. *)
Definition layout_ok (s : mm) : Prop :=
  forall i p, pages s !! i = Some p -> pg_phy p = N.of_nat i /\ (pg_zone p < length (zones s))%nat.
(** Per-zone counts agree with the pages. *)
Definition counts_ok (s : mm) : Prop :=
  forall zi z, zones s !! zi = Some z ->
    z_using z = pages_used zi (pages s) /\ z_free z = pages_free zi (pages s) /\ z_links z = pages_refs zi (pages s).
(** Pages in use have their bit set; and the bitmap says nothing else. *)
Definition bits_cover (s : mm) : Prop := forall i p, pages s !! i = Some p -> in_use p = true -> bit (bits s) (N.of_nat i) = true.
Definition bits_exact (s : mm) : Prop := forall i p, pages s !! i = Some p -> bit (bits s) (N.of_nat i) = in_use p.
(** Unused pages have no references; a page not marked referenced has exactly one. *)
Definition refs_ok (pgref pgshare : N) (s : mm) : Prop :=
  forall i p, pages s !! i = Some p ->
    (in_use p = false -> pg_refs p = 0) /\
    (in_use p = true -> 1 <= pg_refs p) /\
    (in_use p = true -> N.land (pg_attr p) pgref = 0 -> N.land (pg_attr p) pgshare = 0 -> pg_refs p = 1).

(** Freshly set up: nothing in use. *)
Definition fresh (s : mm) : Prop :=
  layout_ok s /\
  (forall i p, pages s !! i = Some p -> pg_attr p = 0 /\ pg_refs p = 0 /\ bit (bits s) (N.of_nat i) = false) /\
  (forall zi z, zones s !! zi = Some z -> z_using z = 0 /\ z_free z = pages_free zi (pages s) /\ z_links z = 0) /\
  N.of_nat (length (pages s)) < 2 ^ 64.
(** The history calls page_init and page_clean on existing pages, with flags that are not zero. *)
Definition op_ok (s : mm) (op : page_op) : Prop :=
  match op with
  | OpInit i flags => (i < length (pages s))%nat /\ flags <> 0
  | OpClean i => (i < length (pages s))%nat
  end.
Definition op_plain (pgref pgshare : N) (op : page_op) : Prop :=
  match op with
  | OpInit _ flags => N.land flags pgref = 0 /\ N.land flags pgshare = 0
  | OpClean _ => True
  end.

(** What alloc_pages promises: [n] consecutive pages from [pg], inside zone z, all free before and
    marked after; no other bit changed. *)
Definition alloc_right (s s' : mm) (z : zone) (pg n : N) : Prop :=
  z_start z <= pg /\ pg + n <= z_end z /\
  (forall b, pg <= b < pg + n -> bit (bits s) b = false) /\
  (forall b, bit (bits s') b = bit (bits s) b || ((pg <=? b) && (b <? pg + n))) /\
  (forall b, z_start z <= b < pg -> (forall i, i < n -> bit (bits s) (b + i) = false) -> False).

(** Whole 2 MiB pages inside an entry of usable memory. *)
Definition page_inside (e : e820_entry) (b : N) : Prop :=
  e_type e = 1 /\ e_addr e <= b * 2097152 /\ (b + 1) * 2097152 <= e_addr e + e_len e.
Definition page_insideb (e : e820_entry) (b : N) : bool :=
  (e_type e =? 1) && (e_addr e <=? b * 2097152) && ((b + 1) * 2097152 <=? e_addr e + e_len e).
(** How many entries hold the whole page [b]. *)
Definition holders (es : list e820_entry) (b : N) : nat := length (filter (fun e => page_insideb e b = true) es).
(** Entries do not reach the end of the address space. *)
Definition entry_sane (e : e820_entry) : Prop := e_addr e + e_len e + 2097152 < 2 ^ 64.

(** A zone as alloc_pages finds it: bits outside are set, pages with a clear bit are unused. *)
Definition alloc_ready (s : mm) (zi : nat) (z : zone) : Prop :=
  layout_ok s /\ zones s !! zi = Some z /\ (forall w, bits s w < 2 ^ 64) /\ z_end z < 2 ^ 43 /\
  (forall b, bit (bits s) b = false ->
     z_start z <= b < z_end z /\ exists p, pages s !! N.to_nat b = Some p /\ pg_attr p = 0).

(** Unused pages among the pages a zone covers. *)
Definition unused_in (ps : list page) (z : zone) : N :=
  N.of_nat (length (List.filter (fun i => match ps !! i with Some p => pg_attr p =? 0 | None => false end)
    (seq (N.to_nat (z_start z)) (N.to_nat (z_end z - z_start z))))).
