(** What shared and weak handles are supposed to do when objects hold handles, without any counters: every handle
    belongs to at most one group, the handles that came from one construction; a group may have an object, and an
    object has members.  After every operation the objects that nothing keeps go, with their members. *)
From stdpp Require Import gmap.
From Coq Require Import ZArith.
From Verif Require Import Base GraphModel.

(** [kinds]: what each group was started with. *)
Record spec := { sg : gmap loc (option nat); wg : gmap loc (option nat); kinds : list raw }.
Definition spec0 : spec := {| sg := ∅; wg := ∅; kinds := [] |}.

(** How many handles of [m] belong to group [g]. *)
Definition members (m : gmap loc (option nat)) (g : nat) : nat :=
  size (filter (fun p => p.2 = Some g) m).
(** Some shared handle belongs to [g]. *)
Definition alive (w : spec) (g : nat) : bool := negb (members (sg w) g =? 0)%nat.
(** Some handle of either kind belongs to [g]. *)
Definition held (w : spec) (g : nat) : bool := negb (members (sg w) g + members (wg w) g =? 0)%nat.
Definition has_object (k : raw) : bool := match k with RNull => false | RObj _ _ => true end.
(** The object a handle of group [g] points at; objects are named by their groups. *)
Definition points_at (w : spec) (g : option nat) : option nat :=
  match g with
  | None => None
  | Some g => match kinds w !! g with Some k => if has_object k then Some g else None | None => None end
  end.

(** An object goes if all the shared handles of its group are members of objects that go.  (So objects that hold
    one another in a circle do not.) *)
Inductive goes (m : gmap loc (option nat)) (g : nat) : Prop :=
  Goes : (forall l, m !! l = Some (Some g) -> exists o i, l = Field o i /\ goes m o) -> goes m g.
(** [w'] is [w] without the members of the objects that go. *)
Definition settled (w w' : spec) : Prop :=
  kinds w' = kinds w /\
  (forall x, sg w' !! Var x = sg w !! Var x) /\ (forall x, wg w' !! Var x = wg w !! Var x) /\
  (forall o i, goes (sg w) o -> sg w' !! Field o i = None /\ wg w' !! Field o i = None) /\
  (forall o i, ~ goes (sg w) o -> sg w' !! Field o i = sg w !! Field o i /\ wg w' !! Field o i = wg w !! Field o i).

Definition set_s (m : gmap loc (option nat)) (w : spec) : spec := {| sg := m; wg := wg w; kinds := kinds w |}.
Definition set_w (m : gmap loc (option nat)) (w : spec) : spec := {| sg := sg w; wg := m; kinds := kinds w |}.
(** A new variable, an existing handle. *)
Definition new_s (x : nat) (g : option nat) (w : spec) : option spec :=
  match sg w !! Var x with None => Some (set_s (<[Var x := g]> (sg w)) w) | Some _ => None end.
Definition new_w (x : nat) (g : option nat) (w : spec) : option spec :=
  match wg w !! Var x with None => Some (set_w (<[Var x := g]> (wg w)) w) | Some _ => None end.
Definition upd_s (x : loc) (g : option nat) (w : spec) : option spec :=
  match sg w !! x with Some _ => Some (set_s (<[x := g]> (sg w)) w) | None => None end.
Definition upd_w (x : loc) (g : option nat) (w : spec) : option spec :=
  match wg w !! x with Some _ => Some (set_w (<[x := g]> (wg w)) w) | None => None end.

(** The members of a new object of group [g], in no group. *)
Fixpoint fresh_members (g n : nat) (l : list bool) (k : bool) : gmap loc (option nat) :=
  match l with
  | [] => ∅
  | b :: l => if eqb b k then <[Field g n := None]> (fresh_members g (S n) l k) else fresh_members g (S n) l k
  end.
(** A new group of kind [r], with the members of its object. *)
Definition add_group (r : raw) (w : spec) : spec :=
  let g := length (kinds w) in
  {| sg := fresh_members g 0 (layout r) true ∪ sg w; wg := fresh_members g 0 (layout r) false ∪ wg w; kinds := kinds w ++ [r] |}.
(** An object of a class derived from enable_shared_from_this is told its group by a constructor. *)
Definition link (r : raw) (w : spec) : option spec :=
  match r with RObj true _ => upd_w (Field (length (kinds w) - 1) 0) (Some (length (kinds w) - 1)) w | _ => Some w end.
(** A new variable in a group of its own that has no object: what a failed lock gives. *)
Definition alone (x : nat) (w : spec) : option spec := new_s x (Some (length (kinds w))) (add_group RNull w).
(** The group known to the object that a handle of group [g] points at. *)
Definition own_group (g : option nat) (w : spec) : option (option nat) :=
  g ← g; match kinds w !! g with Some (RObj true _) => wg w !! Field g 0 | _ => None end.
Definition lock_group (x : nat) (g : option nat) (w : spec) : option spec :=
  match g with
  | Some g => if alive w g then new_s x (Some g) w else alone x w
  | None => alone x w
  end.

(** The commands a program may give; [None] for a program that names a handle wrongly. *)
Definition sstep (c : cmd) (w : spec) : option spec :=
  match c with
  | SDefault x => new_s x None w
  | SMake x r => w' ← new_s x (Some (length (kinds w))) (add_group r w); link r w'
  | SCopy x y => g ← sg w !! y; new_s x g w
  | SMove x y => g ← sg w !! y; w' ← new_s x g w; upd_s y None w'
  | SAssign x y | SAssignConv x y => g ← sg w !! y; upd_s x g w
  | SAssignMove x y => g ← sg w !! y; w' ← upd_s y None w; upd_s x g w'
  | SAssignNull x | SReset x => upd_s x None w
  | SResetTo x r => _ ← sg w !! x; upd_s x (Some (length (kinds w))) (add_group r w)
  | SSwap x y => g ← sg w !! x; h ← sg w !! y; w' ← upd_s x h w; upd_s y g w'
  | SDrop x => _ ← sg w !! Var x; Some (set_s (delete (Var x) (sg w)) w)
  | WDefault x => new_w x None w
  | WFrom x y => g ← sg w !! y; new_w x g w
  | WCopy x y => g ← wg w !! y; new_w x g w
  | WMove x y => g ← wg w !! y; w' ← new_w x g w; upd_w y None w'
  | WAssign x y => g ← wg w !! y; upd_w x g w
  | WAssignMove x y => g ← wg w !! y; w' ← upd_w y None w; upd_w x g w'
  | WAssignFrom x y => g ← sg w !! y; upd_w x g w
  | WSwap x y => g ← wg w !! x; h ← wg w !! y; w' ← upd_w x h w; upd_w y g w'
  | WDrop x => _ ← wg w !! Var x; Some (set_w (delete (Var x) (wg w)) w)
  | SLock x y => g ← wg w !! y; lock_group x g w
  | SFromThis x y => g ← sg w !! y; o ← own_group g w; lock_group x o w
  | WFromThis x y => g ← sg w !! y; o ← own_group g w; new_w x o w
  end.
(** Variable 0 is not a program's. *)
Definition named (l : loc) : bool := match l with inl x => negb (x =? 0)%nat | inr _ => true end.
Definition proper (c : cmd) : bool :=
  match c with
  | SDefault x | SMake x _ | SDrop x | WDefault x | WDrop x => negb (x =? 0)%nat
  | SAssignNull x | SReset x | SResetTo x _ => named x
  | SCopy x y | SMove x y | WFrom x y | WCopy x y | WMove x y | SLock x y | SFromThis x y | WFromThis x y =>
      negb (x =? 0)%nat && named y
  | SAssign x y | SAssignMove x y | SAssignConv x y | SSwap x y
  | WAssign x y | WAssignMove x y | WAssignFrom x y | WSwap x y => named x && named y
  end.
(** reset(p) and the converting assignment use the handle after the old object went: it must not go with it.
    During the assignment the parameter is a handle of the new group. *)
Definition survives (c : cmd) (w : spec) : Prop :=
  match c with
  | SResetTo (inr (o, i)) _ => ~ goes (<[Field o i := None]> (sg w)) o
  | SAssignConv (inr (o, i)) y => forall g, sg w !! y = Some g -> ~ goes (<[Field o i := None]> (<[Var 0 := g]> (sg w))) o
  | _ => True
  end.
(** Programs. *)
Inductive srun : list cmd -> spec -> spec -> Prop :=
| srun_nil w : srun [] w w
| srun_cons c cs w w1 w2 w3 : proper c = true -> survives c w -> sstep c w = Some w1 -> settled w1 w2 -> srun cs w2 w3 ->
    srun (c :: cs) w w3.

(** How often [n] occurs. *)
Definition times (l : list nat) (n : nat) : nat := count_occ Nat.eq_dec l n.
(** How many handles a program brings into being. *)
Definition made_by (c : cmd) : nat :=
  match c with SMake _ r => S (length (layout r)) | SResetTo _ r => length (layout r) | _ => 1 end.
Definition made (cs : list cmd) : nat := sum_list_with made_by cs.

(** The accounts of a state agree with the groups:
    every shared handle points at its group's object, and its use_count is the number of shared handles
    in the group;
    every object exists as long as a shared handle does, and has been destroyed once when none does;
    every block exists as long as a handle of either kind does, and has been freed once when none does. *)
Record accounts (w : spec) (s : state) : Prop := {
  acc_shared x g : sg w !! x = Some g ->
    exists h, sh x s = Ok h /\ hp h = points_at w g /\
      use_count h s = Ok (match g with Some g => Z.of_nat (members (sg w) g) | None => 0%Z end);
  acc_weak x g : wg w !! x = Some g ->
    exists h, wk x s = Ok h /\
      use_count h s = Ok (match g with Some g => Z.of_nat (members (sg w) g) | None => 0%Z end);
  acc_object g k : kinds w !! g = Some k -> has_object k = true ->
    (is_Some (objs s !! g) <-> alive w g = true) /\
    times (destroyed s) g = if alive w g then 0 else 1;
  acc_block g k : kinds w !! g = Some k ->
    (is_Some (blocks s !! g) <-> held w g = true) /\
    times (freed s) g = if held w g then 0 else 1;
  acc_only_object g k : kinds w !! g = Some k -> has_object k = false -> objs s !! g = None /\ times (destroyed s) g = 0;
  acc_only g : kinds w !! g = None ->
    objs s !! g = None /\ blocks s !! g = None /\ times (destroyed s) g = 0 /\ times (freed s) g = 0;
  acc_no_more x : (sg w !! x = None -> shs s !! x = None) /\ (wg w !! x = None -> wks s !! x = None)
}.

(** Following shared handles from a variable one comes to group [g]. *)
Inductive reached (m : gmap loc (option nat)) : nat -> Prop :=
| reached_var x g : m !! Var x = Some (Some g) -> reached m g
| reached_member o i g : reached m o -> m !! Field o i = Some (Some g) -> reached m g.
(** No circles: every object comes before the ones it holds. *)
Definition ordered (m : gmap loc (option nat)) (rank : nat -> nat) : Prop :=
  forall o i g, m !! Field o i = Some (Some g) -> (rank o < rank g)%nat.
