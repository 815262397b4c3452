(** How the processor and a programmer read the same data. *)
From stdpp Require Import gmap.
From Coq Require Import NArith.
From Verif Require Import GateModel.
Local Open Scope N_scope.

(** A 64-bit gate as the processor decodes its 128 bits (Intel SDM vol. 3, 6.14.1). *)
Definition field (x lo len : N) : N := (x / 2 ^ lo) mod 2 ^ len.
Record decoded := { d_offset : N; d_selector : N; d_ist : N; d_type : N; d_dpl : N; d_present : N }.
Definition decode_gate (x : N) : decoded :=
  {| d_offset := field x 0 16 + field x 48 16 * 2 ^ 16 + field x 64 32 * 2 ^ 32;
     d_selector := field x 16 16;
     d_ist := field x 32 3;
     d_type := field x 40 5;
     d_dpl := field x 45 2;
     d_present := field x 47 1 |}.

(** Registration, line by line: which handler and data a line has. *)
Definition reg_spec (valid : N -> bool) (σ : gmap N (N * N)) (o : reg_op) : gmap N (N * N) * bool :=
  match o with
  | Reg l h d =>
      if valid l then match σ !! l with None => (<[l := (h, d)]> σ, true) | Some _ => (σ, false) end
      else (σ, false)
  | Unreg l h =>
      match σ !! l with
      | Some (h0, _) => if h0 =? h then (delete l σ, true) else (σ, false)
      | None => (σ, false)
      end
  end.
Fixpoint reg_spec_run (valid : N -> bool) (σ : gmap N (N * N)) (os : list reg_op) : gmap N (N * N) * list bool :=
  match os with
  | [] => (σ, [])
  | o :: os => let (σ1, b) := reg_spec valid σ o in
               let (σ2, bs) := reg_spec_run valid σ1 os in (σ2, b :: bs)
  end.
(** Real handlers have a non-null address. *)
Definition op_nonnull (o : reg_op) : Prop :=
  match o with Reg _ h _ => h <> 0 | Unreg _ h => h <> 0 end.
Definition drop_data (o : reg_op) : reg_op :=
  match o with Reg l h _ => Reg l h 0 | o => o end.

(** Fully nested mode: a controller offers line [n] only while no line of equal or higher
    priority (lower or equal number) is in service. *)
Definition can_ack (n : N) (c : pic) : Prop := forall i, N.testbit (p_isr c) i = true -> n < i.
Definition can_deliver (n : N) (s : pics) : Prop :=
  if n <? 8 then can_ack n (master s) else can_ack 2 (master s) /\ can_ack (n - 8) (slave s).

(** The interrupt flag. *)
Definition enabled (fl : N) : bool := N.testbit fl 9.
Fixpoint no_enable (s : stmt) : bool :=
  match s with
  | SEnable => false
  | SSeq a b => no_enable a && no_enable b
  | SGuard b => no_enable b
  | _ => true
  end.
(** [inside s]: the bodies of all guards occurring in [s]. *)
Fixpoint points_inside (fl : N) (s : stmt) : list N :=
  match s with
  | SGuard body => snd (run_stmt (N.clearbit fl IF_bit) body)
  | SSeq a b => points_inside fl a ++ points_inside (fst (run_stmt fl a)) b
  | _ => []
  end.

Definition kernel_gate (a dpl : N) : decoded :=
  {| d_offset := a; d_selector := 8; d_ist := 0; d_type := 14; d_dpl := dpl; d_present := 1 |}.
