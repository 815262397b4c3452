(** What shared and weak handles are supposed to do, without any counters: every handle belongs to at
    most one group, the handles that came from one construction; a group may have an object. *)
From stdpp Require Import gmap.
From Coq Require Import ZArith.
From Verif Require Import Base SharedModel.

(** A group was started with a null pointer, an object of a plain class, or one of a class derived from
    enable_shared_from_this, which then knows its group or not. *)
Inductive kind := KNull | KPlain | KSelf (linked : bool).
Record spec := { sg : gmap nat (option nat); wg : gmap nat (option nat); kinds : list kind }.
Definition spec0 : spec := {| sg := ∅; wg := ∅; kinds := [] |}.

(** How many handles of [m] belong to group [g]. *)
Definition members (m : gmap nat (option nat)) (g : nat) : nat :=
  size (filter (fun p => p.2 = Some g) m).
(** Some shared handle belongs to [g]. *)
Definition alive (w : spec) (g : nat) : bool := negb (members (sg w) g =? 0)%nat.
(** Some handle of either kind belongs to [g]. *)
Definition held (w : spec) (g : nat) : bool := negb (members (sg w) g + members (wg w) g =? 0)%nat.
Definition has_object (k : kind) : bool := match k with KNull => false | _ => true end.
(** The object a handle of group [g] points at; objects are named by their groups. *)
Definition points_at (w : spec) (g : option nat) : option nat :=
  match g with
  | None => None
  | Some g => match kinds w !! g with Some k => if has_object k then Some g else None | None => None end
  end.

Definition made_kind (r : raw) : kind := match r with RNull => KNull | RPlain => KPlain | RSelf => KSelf true end.
(** reset(p) does not tell the object *)
Definition reset_kind (r : raw) : kind := match r with RNull => KNull | RPlain => KPlain | RSelf => KSelf false end.

Definition set_s (m : gmap nat (option nat)) (w : spec) : spec := {| sg := m; wg := wg w; kinds := kinds w |}.
Definition set_w (m : gmap nat (option nat)) (w : spec) : spec := {| sg := sg w; wg := m; kinds := kinds w |}.
Definition add_kind (k : kind) (w : spec) : spec := {| sg := sg w; wg := wg w; kinds := kinds w ++ [k] |}.

(** A new variable, an existing one. *)
Definition new_s (x : nat) (g : option nat) (w : spec) : option spec :=
  match sg w !! x with None => Some (set_s (<[x := g]> (sg w)) w) | Some _ => None end.
Definition new_w (x : nat) (g : option nat) (w : spec) : option spec :=
  match wg w !! x with None => Some (set_w (<[x := g]> (wg w)) w) | Some _ => None end.
Definition upd_s (x : nat) (g : option nat) (w : spec) : option spec :=
  match sg w !! x with Some _ => Some (set_s (<[x := g]> (sg w)) w) | None => None end.
Definition upd_w (x : nat) (g : option nat) (w : spec) : option spec :=
  match wg w !! x with Some _ => Some (set_w (<[x := g]> (wg w)) w) | None => None end.
(** A new variable in a group of its own that has no object: what a failed lock gives. *)
Definition alone (x : nat) (w : spec) : option spec :=
  w' ← new_s x (Some (length (kinds w))) w; Some (add_kind KNull w').
(** The group an object knows. *)
Definition own_group (g : option nat) (w : spec) : option (option nat) :=
  g ← g; match kinds w !! g with Some (KSelf l) => Some (if l then Some g else None) | _ => None end.

(** The commands a program may give; [None] for a program that names a handle wrongly. *)
Definition sstep (c : cmd) (w : spec) : option spec :=
  match c with
  | SDefault x => new_s x None w
  | SMake x r => w' ← new_s x (Some (length (kinds w))) w; Some (add_kind (made_kind r) w')
  | SCopy x y => g ← sg w !! y; new_s x g w
  | SMove x y => g ← sg w !! y; w' ← new_s x g w; upd_s y None w'
  | SAssign x y | SAssignConv x y => g ← sg w !! y; upd_s x g w
  | SAssignMove x y => g ← sg w !! y; w' ← upd_s y None w; upd_s x g w'
  | SAssignNull x | SReset x => upd_s x None w
  | SResetTo x r => w' ← upd_s x (Some (length (kinds w))) w; Some (add_kind (reset_kind r) w')
  | SSwap x y => g ← sg w !! x; h ← sg w !! y; w' ← upd_s x h w; upd_s y g w'
  | SDrop x => _ ← sg w !! x; Some (set_s (delete x (sg w)) w)
  | WDefault x => new_w x None w
  | WFrom x y => g ← sg w !! y; new_w x g w
  | WCopy x y => g ← wg w !! y; new_w x g w
  | WMove x y => g ← wg w !! y; w' ← new_w x g w; upd_w y None w'
  | WAssign x y => g ← wg w !! y; upd_w x g w
  | WAssignMove x y => g ← wg w !! y; w' ← upd_w y None w; upd_w x g w'
  | WAssignFrom x y => g ← sg w !! y; upd_w x g w
  | WSwap x y => g ← wg w !! x; h ← wg w !! y; w' ← upd_w x h w; upd_w y g w'
  | WDrop x => _ ← wg w !! x; Some (set_w (delete x (wg w)) w)
  | SLock x y =>
      g ← wg w !! y;
      match g with
      | Some g => if alive w g then new_s x (Some g) w else alone x w
      | None => alone x w
      end
  | SFromThis x y =>
      g ← sg w !! y; o ← own_group g w;
      match o with Some g => new_s x (Some g) w | None => alone x w end
  | WFromThis x y => g ← sg w !! y; o ← own_group g w; new_w x o w
  end.
(** Handle 0 is not a program's. *)
Definition proper (c : cmd) : bool :=
  match c with
  | SDefault x | SMake x _ | SAssignNull x | SReset x | SResetTo x _ | SDrop x | WDefault x | WDrop x =>
      negb (x =? 0)%nat
  | SCopy x y | SMove x y | SAssign x y | SAssignMove x y | SAssignConv x y | SSwap x y | WFrom x y
  | WCopy x y | WMove x y | WAssign x y | WAssignMove x y | WAssignFrom x y | WSwap x y
  | SLock x y | SFromThis x y | WFromThis x y => negb (x =? 0)%nat && negb (y =? 0)%nat
  end.
Fixpoint srun (cs : list cmd) (w : spec) : option spec :=
  match cs with
  | [] => Some w
  | c :: cs => if proper c then w ← sstep c w; srun cs w else None
  end.

(** How often [n] occurs. *)
Definition times (l : list nat) (n : nat) : nat := count_occ Nat.eq_dec l n.

(** The accounts of a state agree with the groups:
    every shared handle points at its group's object, and its use_count is the number of shared handles
    in the group;
    every object exists as long as a shared handle does, and has been destroyed once when none does;
    every block exists as long as a handle of either kind does, and has been freed once when none does. *)
Record accounts (w : spec) (s : state) : Prop := {
  acc_shared x g : sg w !! x = Some g ->
    exists h, sh x s = Ok h /\ hp h = points_at w g /\
      use_count h s = Ok (match g with Some g => Z.of_nat (members (sg w) g) | None => 0%Z end);
  acc_weak x g : wg w !! x = Some g ->
    exists h, wk x s = Ok h /\
      use_count h s = Ok (match g with Some g => Z.of_nat (members (sg w) g) | None => 0%Z end);
  acc_object g k : kinds w !! g = Some k -> has_object k = true ->
    (is_Some (objs s !! g) <-> alive w g = true) /\
    times (destroyed s) g = if alive w g then 0 else 1;
  acc_block g k : kinds w !! g = Some k ->
    (is_Some (blocks s !! g) <-> held w g = true) /\
    times (freed s) g = if held w g then 0 else 1;
  acc_only_object g k : kinds w !! g = Some k -> has_object k = false -> objs s !! g = None /\ times (destroyed s) g = 0;
  acc_only g : kinds w !! g = None ->
    objs s !! g = None /\ blocks s !! g = None /\ times (destroyed s) g = 0 /\ times (freed s) g = 0
}.
