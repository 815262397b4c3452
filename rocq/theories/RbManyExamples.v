(** Concrete programs over several sets. *)
From stdpp Require Import gmap list.
From Coq Require Import ZArith.
From Verif Require Import Base RbModel RbSpec RbRun RbManySpec RbMany.
Local Open Scope Z_scope.

Definition swapping : list (mcmd (A := Z)) :=
  [MNew [5; 3; 9; 5]; MCopy 0; MOn 0 (Add 4); MMove 0; MOn 0 (Add 1); MSwap 0 1; MAssign 2 0; MOn 2 (Add 7);
   MMoveAssign 1 2; MAssignList 0 [8; 8]; MAssign 1 1; MMoveAssign 0 0; MDrop 2].
Definition shown (fuel : nat) (u : bool) (cs : list (mcmd (A := Z))) : outcome (list (option (list Z)) * nat) :=
  match mrun Z.ltb fuel u cs with
  | Ok (hs, s) =>
      Ok ((fun o => match o with
                    | Some t => match forward fuel (hd t) s with Ok l => Some (snd <$> l) | _ => None end
                    | None => None end) <$> hs, size (cells s))
  | UB => UB
  | Fuel => Fuel
  end.
Lemma swapping_set : shown 12 true swapping = Ok ([Some [8]; Some [3; 5; 7; 9]; None], 7%nat) /\
  meffects Z.ltb true swapping [] = [Some [8]; Some [3; 5; 7; 9]; None] /\ (madds swapping < 12)%nat /\ existsb erases swapping = false.
Proof. vm_compute. repeat split; repeat constructor. Qed.
Lemma swapping_multi : shown 12 false swapping = Ok ([Some [8; 8]; Some [3; 5; 5; 7; 9]; None], 9%nat) /\
  meffects Z.ltb false swapping [] = [Some [8; 8]; Some [3; 5; 5; 7; 9]; None].
Proof. vm_compute. done. Qed.
Definition all_gone : list (mcmd (A := Z)) := swapping ++ [MDrop 0; MDrop 1].
Lemma all_gone_none : shown 12 true all_gone = Ok ([None; None; None], 0%nat).
Proof. vm_compute. done. Qed.
