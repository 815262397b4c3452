(** C43: the answer of alloc_pages in every case. *)
From stdpp Require Import list.
From Coq Require Import NArith.
From Verif Require Import Base PageModel PageSpec PageExamples PageExactSpec PageExact PageExactExamples.
Local Open Scope N_scope.

(** C43: for every state, selector and number there is one verdict, and alloc_pages follows it; [hw] tells whether over-wide shifts are
    undefined, as in the language, or done modulo 64, as by the processor. *)
Theorem C43_exact : forall hw r sh u s sel number flags, pages_sane s -> 1 <= number <= 64 ->
  exists v, answer hw (bits s) number (zones_of u s sel) v /\ (forall v', answer hw (bits s) number (zones_of u s sel) v' -> v' = v) /\
    alloc_pages hw r sh u s sel number flags =
    match v with Found pg => hand_out r sh s pg number flags | Nothing => Ok (None, s) | Undefined => UB end.
Proof. exact alloc_exact. Qed.
Print Assumptions C43_exact.
Example C43_exact_example : (pages_sane ready_mm /\ zones_of 0 ready_mm ZONE_NORMAL = [demo_zone]) /\ answer false (bits ready_mm) 3 [demo_zone] (Found 1).
Proof. exact (conj ready_sane ready_answer). Qed.
Example C43_exact_wrong : answer false bits5 1 [zone5] (Found 10) /\ bit bits5 6 = false /\ bit bits5 10 = true /\ bit bits5 5 = true.
Proof. exact zone5_answer. Qed.

(** C43: the page handed out is the page tested only in the first word of a zone that begins at the second page of a word. *)
Theorem C43_handed_out_exact : forall z q, z_end z < 2 ^ 43 -> looked_at z q -> z_start z <= z_end z ->
  (handed_out z q = q <-> z_start z mod 64 = 1 /\ q < z_start z + 63).
Proof. exact handed_out_exact. Qed.
Print Assumptions C43_handed_out_exact.
Example C43_handed_out_example : looked_at zone5 6 /\ handed_out zone5 6 = 10.
Proof. exact zone5_handed. Qed.
