(** Model of estl/list.hpp: a circular doubly linked list around a sentinel.

    A node is the sentinel [node_] inside list object [x] ([H x]) or the [k]-th node ever created with
    new ([N k]); addresses are not reused. Touching a node that does not exist is [UB]. The downcast
    of the sentinel to node_type* (list.hpp:52-58) is a change of type only.
    [lax]: a member function may be called on a null pointer as long as it does not use it
    (get_next() on a null next_, list.hpp:60-74, as gcc lets pass); with [lax = false] this is [UB]
    as the language says. list_size_ is an unbounded integer. *)
From stdpp Require Import gmap countable.
From Coq Require Import ZArith.
From Verif Require Import Base.
Local Open Scope Z_scope.
Local Open Scope outcome_scope.

(** model only: the sentinel of a list object, or a node *)
Inductive loc := H (x : nat) | N (k : nat).
Global Instance loc_eq_dec : EqDecision loc. Proof. solve_decision. Defined.
Global Instance loc_countable : Countable loc.
Proof.
  refine (inj_countable' (fun l => match l with H x => inl x | N k => inr k end)
    (fun s => match s with inl x => H x | inr k => N k end) _).
  intros []; reflexivity.
Defined.

Section list.
Context {A : Type} (lax : bool).

(** list.hpp:75-76, 109; the sentinel has no value *)
Record cell := { nx : option loc; pv : option loc; vl : option A }.
(** list.hpp:476-477 *)
Record heap := { cells : gmap loc cell; sizes : gmap nat Z; made : nat }.

(** model only: access to one component of the state *)
Definition get (a : loc) (s : heap) : outcome cell := of_option (cells s !! a).
(** model only: update of one component of the state *)
Definition put (a : loc) (c : cell) (s : heap) : heap :=
  {| cells := <[a := c]> (cells s); sizes := sizes s; made := made s |}.
(** a->next_ = b; a->prv_ = b; and the value of a node *)
Definition set_nx (a : loc) (b : option loc) (s : heap) : outcome heap :=
  c <~ get a s ; Ok (put a {| nx := b; pv := pv c; vl := vl c |} s).
(** model only: update of one component of the state *)
Definition set_pv (a : loc) (b : option loc) (s : heap) : outcome heap :=
  c <~ get a s ; Ok (put a {| nx := nx c; pv := b; vl := vl c |} s).
(** model only: access to one component of the state *)
Definition value (a : loc) (s : heap) : outcome A := c <~ get a s ; of_option (vl c).
(** model only: update of one component of the state *)
Definition set_value (a : loc) (v : A) (s : heap) : outcome heap :=
  c <~ get a s ; _ <~ of_option (vl c) ; Ok (put a {| nx := nx c; pv := pv c; vl := Some v |} s).

(** 10-18 *)
Definition link_next (this rhs : loc) (s : heap) : outcome heap :=
  c <~ get this s ;
  s <~ match nx c with
       | Some n => s <~ set_pv n (Some rhs) s ; set_nx rhs (Some n) s
       | None => Ok s
       end ;
  s <~ set_nx this (Some rhs) s ;
  set_pv rhs (Some this) s.
(** 19-27; next_ and prv_ of [this] are read when the statement runs *)
Definition link_prv (this rhs : loc) (s : heap) : outcome heap :=
  c <~ get this s ;
  s <~ match pv c with
       | Some p => s <~ set_nx p (Some rhs) s ; c <~ get this s ; set_pv rhs (pv c) s
       | None => Ok s
       end ;
  s <~ set_nx rhs (Some this) s ;
  set_pv this (Some rhs) s.
(** 28-33 *)
Definition unlink_next (this : loc) (s : heap) : outcome heap :=
  c <~ get this s ;
  s <~ match nx c with Some n => set_pv n None s | None => Ok s end ;
  set_nx this None s.
(** 34-39 *)
Definition unlink_prv (this : loc) (s : heap) : outcome heap :=
  c <~ get this s ;
  s <~ match pv c with Some p => set_nx p None s | None => Ok s end ;
  set_pv this None s.
(** 40-50 *)
Definition unlink (this : loc) (s : heap) : outcome heap :=
  c <~ get this s ;
  s <~ match nx c with Some n => set_pv n (pv c) s | None => Ok s end ;
  c <~ get this s ;
  s <~ match pv c with Some p => set_nx p (nx c) s | None => Ok s end ;
  s <~ set_nx this None s ;
  set_pv this None s.

(** 60-74: next_->cast_to_driver() *)
Definition on_null (p : option loc) : outcome (option loc) :=
  match p with None => if lax then Ok None else UB | Some _ => Ok p end.
(** as above, 60-74 *)
Definition get_next (a : loc) (s : heap) : outcome (option loc) := c <~ get a s ; on_null (nx c).
(** as above, 60-74 *)
Definition get_prv (a : loc) (s : heap) : outcome (option loc) := c <~ get a s ; on_null (pv c).
(** The same where the result is dereferenced or compared as an iterator: it must not be null. *)
Definition next (a : loc) (s : heap) : outcome loc := p <~ get_next a s ; of_option p.
(** 60-74, not null *)
Definition prev (a : loc) (s : heap) : outcome loc := p <~ get_prv a s ; of_option p.

(** 466-468: new node_type(...), 75-76 *)
Definition create_node (v : A) (s : heap) : loc * heap :=
  (N (made s), {| cells := <[N (made s) := {| nx := None; pv := None; vl := Some v |}]> (cells s);
                  sizes := sizes s; made := S (made s) |}).
(** 470-472: delete; only what new returned can be deleted *)
Definition destory_node (a : loc) (s : heap) : outcome heap :=
  match a with
  | H _ => UB
  | N _ => _ <~ get a s ; Ok {| cells := delete a (cells s); sizes := sizes s; made := made s |}
  end.

(** list_size_ *)
Definition size (h : nat) (s : heap) : outcome Z := of_option (sizes s !! h).
(** model only: update of one component of the state *)
Definition set_size (h : nat) (n : Z) (s : heap) : outcome heap :=
  _ <~ size h s ; Ok {| cells := cells s; sizes := <[h := n]> (sizes s); made := made s |}.
(** 406-412 *)
Definition empty (h : nat) (s : heap) : outcome bool := n <~ size h s ; Ok (n =? 0).

(** 242-245; the object must not exist yet *)
Definition list_new (h : nat) (s : heap) : outcome heap :=
  match sizes s !! h with
  | Some _ => UB
  | None =>
      link_next (H h) (H h)
        {| cells := <[H h := {| nx := None; pv := None; vl := None |}]> (cells s);
           sizes := <[h := 0]> (sizes s); made := made s |}
  end.

(** 390-404 *)
Definition list_begin (h : nat) (s : heap) : outcome loc := next (H h) s.
(** as above, 390-404 *)
Definition list_end (h : nat) : loc := H h.

(** 360-366; push_back 297-303. [v] has been read from the argument; the node exists before any link
    changes. *)
Definition emplace_back (h : nat) (v : A) (s : heap) : outcome heap :=
  let (n, s) := create_node v s in
  s <~ link_prv (H h) n s ;
  k <~ size h s ; set_size h (k + 1) s.
(** 368-374; push_front 290-295 *)
Definition emplace_front (h : nat) (v : A) (s : heap) : outcome heap :=
  let (n, s) := create_node v s in
  s <~ link_next (H h) n s ;
  k <~ size h s ; set_size h (k + 1) s.
(** 305-317 *)
Definition insert (h : nat) (pos : loc) (v : A) (s : heap) : outcome (loc * heap) :=
  let (n, s) := create_node v s in
  s <~ link_prv pos n s ;
  k <~ size h s ; s <~ set_size h (k + 1) s ;
  Ok (n, s).
(** 319-325 *)
Definition erase (h : nat) (pos : loc) (s : heap) : outcome (loc * heap) :=
  n <~ next pos s ;
  s <~ unlink pos s ;
  k <~ size h s ; s <~ set_size h (k - 1) s ;
  s <~ destory_node pos s ;
  Ok (n, s).
(** 332-336: the nodes from [cur] up to [last] are deleted; how many *)
Fixpoint erase_loop (fuel : nat) (cur last : loc) (n : Z) (s : heap) : outcome (Z * heap) :=
  match fuel with
  | O => Fuel
  | S f =>
      if decide (cur = last) then Ok (n, s)
      else tmp <~ next cur s ; s <~ destory_node cur s ; erase_loop f tmp last (n + 1) s
  end.
(** 327-340 *)
Definition erase_range (fuel : nat) (h : nat) (first last : loc) (s : heap) : outcome (loc * heap) :=
  p <~ prev first s ;
  s <~ unlink_next p s ;
  ' (n, s) <~ erase_loop fuel first last 0 s ;
  s <~ link_next p last s ;
  k <~ size h s ; s <~ set_size h (k - n) s ;
  Ok (last, s).
(** 342-349 *)
Definition pop_back (h : nat) (s : heap) : outcome heap :=
  e <~ empty h s ;
  if e then Ok s
  else
    p <~ prev (H h) s ;
    s <~ unlink p s ;
    s <~ destory_node p s ;
    k <~ size h s ; set_size h (k - 1) s.
(** 351-358 *)
Definition pop_front (h : nat) (s : heap) : outcome heap :=
  e <~ empty h s ;
  if e then Ok s
  else
    n <~ next (H h) s ;
    s <~ unlink n s ;
    s <~ destory_node n s ;
    k <~ size h s ; set_size h (k - 1) s.

(** 376-388 *)
Definition front (h : nat) (s : heap) : outcome A := a <~ list_begin h s ; value a s.
(** as above, 376-388 *)
Definition back (h : nat) (s : heap) : outcome A := a <~ prev (list_end h) s ; value a s.

(** 414-441; [h] is *this *)
Definition swap (h r : nat) (s : heap) : outcome heap :=
  rhs_next <~ next (H r) s ;
  rhs_prv <~ prev (H r) s ;
  lhs_next <~ next (H h) s ;
  lhs_prv <~ prev (H h) s ;
  s <~ unlink_next (H r) s ;
  s <~ unlink_prv (H r) s ;
  s <~ unlink_next (H h) s ;
  s <~ unlink_prv (H h) s ;
  re <~ empty r s ;
  s <~ (if re then link_next (H h) (H h) s
        else s <~ link_next (H h) rhs_next s ; link_prv (H h) rhs_prv s) ;
  he <~ empty h s ;
  s <~ (if he then link_next (H r) (H r) s
        else s <~ link_next (H r) lhs_next s ; link_prv (H r) lhs_prv s) ;
  n <~ size h s ; m <~ size r s ;
  s <~ set_size h m s ; set_size r n s.

(** 454-458: until the null link *)
Fixpoint clear_loop (fuel : nat) (cur : option loc) (s : heap) : outcome heap :=
  match cur with
  | None => Ok s
  | Some c =>
      match fuel with
      | O => Fuel
      | S f => tmp <~ get_next c s ; s <~ destory_node c s ; clear_loop f tmp s
      end
  end.
(** 443-460; line 448 reads the last node without using it *)
Definition clear (fuel : nat) (h : nat) (s : heap) : outcome heap :=
  e <~ empty h s ;
  if e then Ok s
  else
    first <~ get_next (H h) s ;
    _ <~ get_prv (H h) s ;
    s <~ unlink_prv (H h) s ;
    s <~ unlink_next (H h) s ;
    s <~ link_next (H h) (H h) s ;
    s <~ link_prv (H h) (H h) s ;
    s <~ clear_loop fuel first s ;
    set_size h 0 s.
(** 462-464, and the object ceases to exist *)
Definition list_destroy (fuel : nat) (h : nat) (s : heap) : outcome heap :=
  s <~ clear fuel h s ;
  Ok {| cells := delete (H h) (cells s); sizes := delete h (sizes s); made := made s |}.

(** 249-251: push_back of every element from [it] to [last] *)
Fixpoint copy_loop (fuel : nat) (h : nat) (it last : loc) (s : heap) : outcome heap :=
  match fuel with
  | O => Fuel
  | S f =>
      if decide (it = last) then Ok s
      else v <~ value it s ; s <~ emplace_back h v s ; it <~ next it s ; copy_loop f h it last s
  end.
(** 247-252 *)
Definition list_copy (fuel : nat) (h r : nat) (s : heap) : outcome heap :=
  s <~ list_new h s ; b <~ list_begin r s ; copy_loop fuel h b (list_end r) s.
(** 255-257 *)
Fixpoint push_all (h : nat) (l : list A) (s : heap) : outcome heap :=
  match l with [] => Ok s | v :: l => s <~ emplace_back h v s ; push_all h l s end.
(** 253-258 *)
Definition list_init (h : nat) (l : list A) (s : heap) : outcome heap := s <~ list_new h s ; push_all h l s.
(** 259-262 *)
Definition list_move (h r : nat) (s : heap) : outcome heap := s <~ list_new h s ; swap r h s.
(** 264-267: list object 0 is the parameter, built by copy or move and destroyed on return *)
Definition assign_copy (fuel : nat) (h r : nat) (s : heap) : outcome heap :=
  s <~ list_copy fuel 0 r s ; s <~ swap 0 h s ; list_destroy fuel 0 s.
(** as above, 264-267 *)
Definition assign_move (fuel : nat) (h r : nat) (s : heap) : outcome heap :=
  s <~ list_move 0 r s ; s <~ swap 0 h s ; list_destroy fuel 0 s.

(** Loops over a list: from begin() by ++ until end(), from end() by -- until begin(). *)
Fixpoint walk (fuel : nat) (it last : loc) (s : heap) : outcome (list A) :=
  if decide (it = last) then Ok []
  else
    match fuel with
    | O => Fuel
    | S f => v <~ value it s ; it <~ next it s ; r <~ walk f it last s ; Ok (v :: r)
    end.
(** model only: loop over the list *)
Definition forward (fuel : nat) (h : nat) (s : heap) : outcome (list A) :=
  b <~ list_begin h s ; walk fuel b (list_end h) s.
(** model only: loop over the list *)
Fixpoint walk_back (fuel : nat) (it first : loc) (s : heap) : outcome (list A) :=
  if decide (it = first) then Ok []
  else
    match fuel with
    | O => Fuel
    | S f => it <~ prev it s ; v <~ value it s ; r <~ walk_back f it first s ; Ok (v :: r)
    end.
(** model only: loop over the list *)
Definition backward (fuel : nat) (h : nat) (s : heap) : outcome (list A) :=
  b <~ list_begin h s ; walk_back fuel (list_end h) b s.

(** 276-282: the counter is an int; incrementing 2^31 - 1 is [UB] *)
Fixpoint eq_loop (eqb : A -> A -> bool) (fuel : nat) (i n : Z) (p q : loc) (s : heap) : outcome bool :=
  match fuel with
  | O => Fuel
  | S f =>
      if i <? n then
        v <~ value p s ; w <~ value q s ;
        if negb (eqb v w) then Ok false
        else
          p <~ next p s ; q <~ next q s ;
          if i + 1 <? 2 ^ 31 then eq_loop eqb f (i + 1) n p q s else UB
      else Ok true
  end.
(** 269-284 *)
Definition list_eq (eqb : A -> A -> bool) (fuel : nat) (h r : nat) (s : heap) : outcome bool :=
  n <~ size h s ; m <~ size r s ;
  if negb (n =? m) then Ok false
  else p <~ list_begin h s ; q <~ list_begin r s ; eq_loop eqb fuel 0 n p q s.

(** Programs over numbered lists (from 1 on) and numbered iterators. An argument is a value from
    outside, or *i for an iterator i into list x. *)
Inductive larg := AVal (v : A) | AIter (i x : nat).
Inductive lcmd :=
| LNew (x : nat) | LInit (x : nat) (l : list A) | LCopy (x y : nat) | LMove (x y : nat) | LDestroy (x : nat)
| LPushBack (x : nat) (a : larg) | LPushFront (x : nat) (a : larg)
| LInsert (x i : nat) (a : larg) (j : nat) (* j = x.insert(i, a) *)
| LErase (x i j : nat)                     (* j = x.erase(i) *)
| LEraseRange (x i k j : nat)              (* j = x.erase(i, k) *)
| LPopBack (x : nat) | LPopFront (x : nat) | LClear (x : nat)
| LSwap (x y : nat) | LAssign (x y : nat) | LMoveAssign (x y : nat)
| LBegin (i x : nat) | LEnd (i x : nat)
| LNext (i x : nat) | LPrev (i x : nat)    (* ++i, --i; i stands in x *)
| LWrite (i x : nat) (v : A).              (* *i = v *)

Notation env := (gmap nat loc).
(** model only: a variable of the program *)
Definition iter (e : env) (i : nat) : outcome loc := of_option (e !! i).
(** model only: an argument of the program *)
Definition read_arg (e : env) (a : larg) (s : heap) : outcome A :=
  match a with AVal v => Ok v | AIter i _ => p <~ iter e i ; value p s end.
(** Loops get as much fuel as nodes have ever been created, and one more round. *)
Definition fuel_of (s : heap) : nat := S (made s).

(** model only: one operation of a program *)
Definition lstep (st : env * heap) (c : lcmd) : outcome (env * heap) :=
  let (e, s) := st in
  let keep r := s <~ r ; Ok (e, s) in
  let yield j r := ' (p, s) <~ r ; Ok (<[j := p]> e, s) in
  match c with
  | LNew x => keep (list_new x s)
  | LInit x l => keep (list_init x l s)
  | LCopy x y => keep (list_copy (fuel_of s) x y s)
  | LMove x y => keep (list_move x y s)
  | LDestroy x => keep (list_destroy (fuel_of s) x s)
  | LPushBack x a => keep (v <~ read_arg e a s ; emplace_back x v s)
  | LPushFront x a => keep (v <~ read_arg e a s ; emplace_front x v s)
  | LInsert x i a j => yield j (p <~ iter e i ; v <~ read_arg e a s ; insert x p v s)
  | LErase x i j => yield j (p <~ iter e i ; erase x p s)
  | LEraseRange x i k j => yield j (p <~ iter e i ; q <~ iter e k ; erase_range (fuel_of s) x p q s)
  | LPopBack x => keep (pop_back x s)
  | LPopFront x => keep (pop_front x s)
  | LClear x => keep (clear (fuel_of s) x s)
  | LSwap x y => keep (swap x y s)
  | LAssign x y => keep (assign_copy (fuel_of s) x y s)
  | LMoveAssign x y => keep (assign_move (fuel_of s) x y s)
  | LBegin i x => yield i (p <~ list_begin x s ; Ok (p, s))
  | LEnd i x => yield i (_ <~ size x s ; Ok (list_end x, s))
  | LNext i x => yield i (p <~ iter e i ; p <~ next p s ; Ok (p, s))
  | LPrev i x => yield i (p <~ iter e i ; p <~ prev p s ; Ok (p, s))
  | LWrite i x v => keep (p <~ iter e i ; set_value p v s)
  end.
(** model only: the operations of a program in order *)
Fixpoint lrun (st : env * heap) (cs : list lcmd) : outcome (env * heap) :=
  match cs with [] => Ok st | c :: cs => st <~ lstep st c ; lrun st cs end.

(** model only: the state before anything happens *)
Definition heap0 : heap := {| cells := ∅; sizes := ∅; made := 0 |}.
End list.
Arguments cell : clear implicits.
Arguments heap : clear implicits.
Arguments larg : clear implicits.
Arguments lcmd : clear implicits.
