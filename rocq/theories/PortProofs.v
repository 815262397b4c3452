(** Proofs about PortModel.v. *)
From Coq Require Import NArith String Ascii List Bool Lia.
From Verif Require Import PortModel PortSpec.
Import ListNotations.
Local Open Scope N_scope.

Definition place_eqb (p q : place) : bool := match p, q with InDx, InDx => true | Imm n, Imm k => n =? k | _, _ => false end.
Definition insn_eqb (i j : insn) : bool :=
  match i, j with Inp z p, Inp y q | Outp z p, Outp y q => size_eqb z y && place_eqb p q | _, _ => false end.
Definition same (x y : option insn) : bool := match x, y with Some i, Some j => insn_eqb i j | None, None => true | _, _ => false end.
Lemma same_eq x y : same x y = true -> x = y.
Proof.
  destruct x as [[z p|z p]|], y as [[y q|y q]|]; cbn; try easy; intros H; apply andb_true_iff in H as [Hz Hp];
    (assert (z = y) by (destruct z, y; easy)); subst; destruct p, q; cbn in Hp; try easy; apply N.eqb_eq in Hp; subst; easy.
Qed.
Definition places : list place := InDx :: map (fun n => Imm (N.of_nat n)) (seq 0 256).
Lemma places_all p port : passes port p -> In p places.
Proof.
  destruct p as [|n]; [left; easy|]. intros [-> H]. right. apply in_map_iff. exists (N.to_nat port). split.
  - f_equal. lia.
  - apply in_seq. lia.
Qed.
Lemma by_places (f g : place -> option insn) : forallb (fun p => same (f p) (g p)) places = true ->
  forall p port, passes port p -> f p = g p.
Proof. intros H p port Hp. rewrite forallb_forall in H. apply same_eq, H, (places_all p port Hp). Qed.

Lemma writes_of t z : (forall p port, passes port p -> code t p = Some (Outp z p)) -> writes t z.
Proof.
  intros H D dv p port a d Hp. unfold call. rewrite (H p port Hp). cbn. destruct p as [|n]; [easy|]. destruct Hp as [-> _]. easy.
Qed.
Lemma out_byte_ok : writes out_byte B1.
Proof. apply writes_of. apply (by_places (code out_byte) (fun p => Some (Outp B1 p))). vm_compute. reflexivity. Qed.
Lemma out_word_repaired : writes (repaired out_word) B2.
Proof. apply writes_of. apply (by_places (code (repaired out_word)) (fun p => Some (Outp B2 p))). vm_compute. reflexivity. Qed.
Lemma out_dword_repaired : writes (repaired out_dword) B4.
Proof. apply writes_of. apply (by_places (code (repaired out_dword)) (fun p => Some (Outp B4 p))). vm_compute. reflexivity. Qed.
Lemma refused_of t : forallb (fun p => same (code t p) None) places = true -> refused t.
Proof. intros H p port. apply (by_places (code t) (fun _ => None) H). Qed.
Lemma five_refused : Forall refused [in_byte; in_word; out_word; in_dword; out_dword].
Proof. repeat apply Forall_cons; try apply Forall_nil; apply refused_of; vm_compute; reflexivity. Qed.
Lemma reads_refused : Forall refused [repaired in_byte; repaired in_word; repaired in_dword].
Proof. repeat apply Forall_cons; try apply Forall_nil; apply refused_of; vm_compute; reflexivity. Qed.
Lemma delivers_of t z : (forall p port, passes port p -> code t p = Some (Inp z p)) -> delivers t z.
Proof.
  intros H D dv p port a d Hp. unfold call. rewrite (H p port Hp). cbn. destruct p as [|n]; [easy|]. destruct Hp as [-> _]. easy.
Qed.
Lemma in_right_ok z : delivers (in_right z) z.
Proof.
  apply delivers_of. apply (by_places (code (in_right z)) (fun p => Some (Inp z p))). destruct z; vm_compute; reflexivity.
Qed.
