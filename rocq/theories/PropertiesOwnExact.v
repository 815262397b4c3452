(** C38, C39: which programs over any and function are defined. *)
From stdpp Require Import gmap.
From Verif Require Import Base OwnModel OwnSpec OwnProofs OwnExactSpec OwnExact.
Local Open Scope N_scope.

(** C38: every program over any is decided: it does what plain values do, or, when it names an
    object that is not there, builds one over a live one or writes to no value, it is undefined. *)
Theorem C38_exact : forall {X} (os : list (hop X)), named os ->
  match hspec_run ∅ os with
  | Some σ => exists w, any_run own_empty os = Ok w /\
      (forall s v, σ !! s = Some v -> any_value w s = Ok v) /\
      (forall s, σ !! s = None -> slots w !! s = None)
  | None => any_run own_empty os = UB
  end.
Proof. exact @any_decided. Qed.
Print Assumptions C38_exact.
Definition wrong : list (hop N) := [HOf 1 10; HMove 2 1; HCopy 3 1; HWrite 1 (fun x => x + 1)].
Example C38_exact_case : named wrong /\ hspec_run ∅ wrong = None /\ any_run own_empty wrong = UB /\
  is_Some (hspec_run ∅ (take 3 wrong)).
Proof.
  split; [repeat constructor; discriminate|]. split; [vm_compute; reflexivity|].
  split; [vm_compute; reflexivity|]. eexists. vm_compute. reflexivity.
Qed.

(** C39: a program over function is defined exactly when it is right and copies no empty function;
    otherwise it is undefined. *)
Theorem C39_exact : forall {X} (os : list (hop X)), named os ->
  (exists w, fun_run own_empty os = Ok w) <-> is_Some (hspec_run ∅ os) /\ no_empty_copy ∅ os.
Proof. exact @fun_defined. Qed.
Print Assumptions C39_exact.
Theorem C39_decided : forall {X} (os : list (hop X)), named os ->
  (exists w, fun_run own_empty os = Ok w) \/ fun_run own_empty os = UB.
Proof. exact @fun_decided. Qed.
Print Assumptions C39_decided.
(** The same first three steps: right for any, undefined for function, which copies what was moved. *)
Example C39_exact_case : named (take 3 wrong) /\ is_Some (hspec_run ∅ (take 3 wrong)) /\
  ~ no_empty_copy ∅ (take 3 wrong) /\ fun_run own_empty (take 3 wrong) = UB /\
  no_empty_copy ∅ (take 2 wrong) /\ exists w, fun_run own_empty (take 2 wrong) = Ok w.
Proof.
  split; [repeat constructor; discriminate|]. split; [eexists; vm_compute; reflexivity|].
  split; [intros (_ & _ & H & _); apply H; vm_compute; reflexivity|].
  split; [vm_compute; reflexivity|]. split; [vm_compute; auto|]. eexists. vm_compute. reflexivity.
Qed.
