(** Cases for PageExact.v. *)
From stdpp Require Import list.
From Coq Require Import NArith Lia ZifyBool ZifyNat ZifyN.
From Verif Require Import Base PageModel PageSpec PageExamples PageExactSpec.
Local Open Scope N_scope.
Ltac Zify.zify_post_hook ::= Z.div_mod_to_equations.

Lemma ready_sane : pages_sane ready_mm /\ zones_of 0 ready_mm ZONE_NORMAL = [demo_zone].
Proof.
  assert (E : zones ready_mm = [demo_zone; {| z_start := 0; z_end := 1; z_using := 1; z_free := 0; z_links := 1 |}]) by (vm_compute; reflexivity).
  split; [split; [exact ready_bits|split]|vm_compute; reflexivity].
  - rewrite E. constructor; [|constructor; [|constructor]]; cbn [z_start z_end demo_zone]; lia.
  - rewrite E. discriminate.
Qed.
Lemma ready_answer : answer false (bits ready_mm) 3 [demo_zone] (Found 1).
Proof.
  change 1 with (handed_out demo_zone 1). apply answer_found; [cbn; lia|].
  apply search_found.
  - left. vm_compute. split; [discriminate|reflexivity].
  - split; [|intros X; vm_compute in X; discriminate].
    destruct ready_demo as (_ & _ & _ & _). intros i Hi. change (bits ready_mm) with (set_bit demo_bits 0).
    assert (i = 0 \/ i = 1 \/ i = 2) as [-> | [-> | ->]] by lia; vm_compute; reflexivity.
  - intros q [H|H] L; cbn [demo_zone z_start] in H; lia.
  - right. intros q [H|H] L; cbn [demo_zone z_start] in H; change (1 mod 64) with 1 in H; lia.
Qed.
(** A zone of pages 5 to 9: the run at page 6 is taken for free and page 10, behind the zone, is handed out. *)
Definition zone5 : zone := {| z_start := 5; z_end := 10; z_using := 1; z_free := 4; z_links := 1 |}.
Definition bits5 : N -> N := fun w => if w =? 0 then 18446744073709550655 else 18446744073709551615.
Lemma zone5_answer : answer false bits5 1 [zone5] (Found 10) /\ bit bits5 6 = false /\ bit bits5 10 = true /\ bit bits5 5 = true.
Proof.
  split; [|vm_compute; auto]. change 10 with (handed_out zone5 6). apply answer_found; [cbn; lia|].
  apply search_found.
  - left. vm_compute. split; [discriminate|reflexivity].
  - split; [|intros X; vm_compute in X; discriminate]. intros i Hi. assert (i = 0) as -> by lia. vm_compute. reflexivity.
  - intros q [H|H] L [A _]; cbn [zone5 z_start z_end] in H; change (5 mod 64) with 5 in H; [|lia].
    assert (q = 5) as -> by lia. specialize (A 0 ltac:(lia)). vm_compute in A. discriminate.
  - right. intros q [H|H] L; cbn [zone5 z_start] in H; change (5 mod 64) with 5 in H; lia.
Qed.
Lemma zone5_handed : looked_at zone5 6 /\ handed_out zone5 6 = 10.
Proof. split; [left; vm_compute; split; [discriminate|reflexivity]|vm_compute; reflexivity]. Qed.
