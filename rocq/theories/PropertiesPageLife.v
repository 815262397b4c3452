(** C44, exactly: every page, the bitmap and the zone accounts after any history. *)
From stdpp Require Import list.
From Coq Require Import NArith.
From Verif Require Import Base PageModel PageSpec PageExamples PageLifeSpec PageLife.
Local Open Scope N_scope.

(** From a fresh state, after any history of fewer than 2^64 calls of page_init and page_clean on existing pages,
    with any flags at all, each page is as its life says (references, bit, in use, lent), the bits of other
    pages are untouched, and each zone has counted what the lives of its pages add up to; the free count is
    the initial one less the pages charged, wrapped at 64 bits. *)
Theorem C44_life : forall r sh s ops, fresh s -> Forall (op_in (length (pages s))) ops -> N.of_nat (length ops) < 2 ^ 64 ->
  exists s', page_run r sh s ops = Ok s' /\ length (pages s') = length (pages s) /\
    (forall i p, pages s' !! i = Some p -> let l := life_of r sh ops i in
       pg_refs p = refs l /\ bit (bits s') (N.of_nat i) = marked l /\
       (in_use p = true <-> how l <> Unheld) /\ (lends r sh (pg_attr p) = true <-> how l = Lent)) /\
    (forall b, N.of_nat (length (pages s)) <= b -> bit (bits s') b = bit (bits s) b) /\
    (forall zi z, zones s' !! zi = Some z -> let ls := lives r sh ops (length (pages s)) in
       z_using z = lsum charged zi (pages s') ls /\ z_links z = lsum linked zi (pages s') ls /\
       z_free z < 2 ^ 64 /\ (z_free z + lsum charged zi (pages s') ls) mod 2 ^ 64 = pages_free zi (pages s)).
Proof. exact life_exact. Qed.
Print Assumptions C44_life.
(** When no flags are zero: a page is charged once exactly while it is held, its links are its references,
    and while held its bit is set. What remains wrong is the bit of a page that was last given back while lent. *)
Theorem C44_charged : forall r sh ops i, Forall (fun o => match o with OpInit _ f => f <> 0 | OpClean _ => True end) ops ->
  let l := life_of r sh ops i in charged l = (if decide (how l = Unheld) then 0 else 1) /\ linked l = refs l /\
    (how l = Unheld -> refs l = 0) /\ (how l <> Unheld -> marked l = true /\ 1 <= refs l) /\ (how l = Held -> refs l = 1).
Proof. exact charged_once. Qed.
Print Assumptions C44_charged.
Example C44_life_example : fresh demo_mm /\ Forall (op_in (length (pages demo_mm))) life_ops /\
  map (life_of 1 2 life_ops) [0;5;7;9;11]%nat =
    [Life Held 1 true 1 1; Life Unheld 1 true 1 1; Life Unheld 0 true 0 0; Life Lent 1 true 1 1; Life Unheld 0 false 0 0] /\
  match page_run 1 2 demo_mm life_ops with
  | Ok s => match zones s !! 0%nat with Some z => z_using z = 2 /\ z_free z = 127 /\ z_links z = 2 | None => False end
  | _ => False
  end.
Proof. exact life_demo. Qed.
