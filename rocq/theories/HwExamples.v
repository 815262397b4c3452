(** Concrete cases and refutations for the memory map and the console. *)
From stdpp Require Import list.
From Coq Require Import NArith ZArith Lia ZifyBool ZifyNat ZifyN.
From Verif Require Import Base E820Model E820Spec E820Proofs VesaModel VesaSpec VesaProofs.
Local Open Scope N_scope.

Definition demo_map : list e820_entry :=
  [ {| e_addr := 0; e_len := 0x9fc00; e_type := 1 |};
    {| e_addr := 0x9fc00; e_len := 0x400; e_type := 2 |};
    {| e_addr := 0x100000; e_len := 0x1ff00000; e_type := 1 |} ].
Lemma demo_map_ok :
  Forall entry_ok demo_map /\ Forall entry_plain demo_map /\ (length demo_map <= 20)%nat /\
  ~ entry_plain (read_entry (fun _ => 0) (e820_addr + 20 * N.of_nat (length demo_map))) /\
  usable_total demo_map = 0x1ff9fc00.
Proof.
  split; [repeat constructor; cbn; lia|]. split; [repeat constructor; cbn; lia|].
  split; [cbn; lia|]. split; [|reflexivity]. intros [H _]. revert H. vm_compute. intros [H _]. apply H. reflexivity.
Qed.

Definition one_entry : list e820_entry := [ {| e_addr := 0; e_len := 0x9fc00; e_type := 1 |} ].
Lemma stale_refuted : exists m es,
  Forall entry_ok es /\ Forall entry_plain es /\ (length es < 20)%nat /\
  fst (e820_init (store_map m e820_addr es)) <> es /\
  snd (e820_init (store_map m e820_addr es)) <> usable_total es mod 2 ^ 64.
Proof.
  exists (store_map (fun _ => 0) (e820_addr + 20) one_entry), one_entry.
  split; [repeat constructor; cbn; lia|]. split; [repeat constructor; cbn; lia|].
  split; [cbn; lia|]. split; vm_compute; discriminate.
Qed.

Lemma early_stop_refuted : exists m es,
  Forall entry_ok es /\ (length es < 20)%nat /\
  e820_init (store_map m e820_addr es) = ([], 0) /\ usable_total es <> 0.
Proof.
  exists (fun _ => 0), ({| e_addr := 0; e_len := 4096; e_type := 5 |} :: one_entry).
  split; [repeat constructor; cbn; lia|]. split; [cbn; lia|]. split; [vm_compute; reflexivity|vm_compute; discriminate].
Qed.

Lemma long_refuted : exists m es,
  Forall entry_ok es /\ Forall entry_plain es /\
  snd (e820_init (store_map m e820_addr es)) <> usable_total es mod 2 ^ 64.
Proof.
  exists (fun _ => 0), (replicate 21 {| e_addr := 0; e_len := 4096; e_type := 1 |}).
  split; [repeat constructor; cbn; lia|]. split; [repeat constructor; cbn; lia|]. vm_compute. discriminate.
Qed.

Local Open Scope Z_scope.
(** The state after Vesa::Init on a black screen. *)
Definition blank_screen : vesa := {| xpos := 0; ypos := 0; pix := fun _ => 0 |}.
Lemma blank_ok : cursor_ok blank_screen /\ Forall (fun c => c <> 10) [72; 105; 9; 33].
Proof. split; [unfold cursor_ok; cbn; lia|]. repeat constructor; lia. Qed.
Lemma blank_plain : cursor_ok blank_screen /\ Forall plain [72; 105] /\
  cursor_cell blank_screen + Z.of_nat (length [72; 105]) < 180 * 56 /\ black_ahead blank_screen.
Proof.
  split; [unfold cursor_ok; cbn; lia|]. split; [repeat constructor; lia|]. split; [unfold cursor_cell; cbn [xpos ypos blank_screen length]; lia|].
  intros X Y _ _. reflexivity.
Qed.
Lemma newline_escape font fc : color_print font fc (replicate 56 10 ++ [65]) blank_screen = UB.
Proof.
  pose proof (print_stays font fc (replicate 56 10 ++ [65]) blank_screen ltac:(cbn; lia) ltac:(cbn; lia)) as H.
  exact H.
Qed.
