(** Model of shared_ptr, weak_ptr and enable_shared_from_this (estl/memory.hpp:326-807), one thread at a time,
    for objects whose members are themselves shared_ptr and weak_ptr.  (SharedModel.v has the same functions for
    objects without such members, ThreadsModel.v the counters under threads.)

    A handle is a variable of the program ([Var]) or a member of a managed object ([Field]).  A control block and
    the object handed to it get the same number, the numbers never being reused.  Variable 0 is kept for by-value
    parameters and temporaries.  Destroying an object destroys its members, which may destroy further objects:
    the recursion of ~shared_count through dispose() is followed with fuel.  The lifetime of an object ends when its
    destructor starts, that of a member when its own does.  The counters are uint64_t and wrap.  Touching a freed
    block or a handle that does not exist is [UB].  Destructors do nothing but destroy the members; the upcasts of
    the converting members are the identity; the deleter is the default one. *)
From stdpp Require Import gmap.
From Coq Require Import ZArith.
From Verif Require Import Base.
Local Open Scope Z_scope.
Local Open Scope outcome_scope.

(** memory.hpp:371-372, 399; [ptr] is ptr_ *)
Record block := { sc : Z; wc : Z; ptr : option nat }.
(** 667-668 and 726-727: ptr_ and the impl_ of refcount_ *)
Record handle := { hp : option nat; hc : option nat }.
(** A variable, or the member at a position of an object. *)
Notation loc := (nat + nat * nat)%type.
Notation Var n := (@inl nat (nat * nat) n%nat).
Notation Field o i := (@inr nat (nat * nat) (o%nat, i%nat)).
(** A managed object: its members in the order of declaration, true for a shared_ptr and false for a weak_ptr.
    If the class derives from enable_shared_from_this the base is member 0, M_weak_this_ (806). *)
Record obj := { from_this : bool; lay : list bool }.
(** [destroyed] and [freed]: the objects destroyed and the blocks freed, in order. *)
Record state := {
  blocks : gmap nat block; objs : gmap nat obj;
  shs : gmap loc handle; wks : gmap loc handle;
  nxt : nat; destroyed : list nat; freed : list nat }.

(** model only: unsigned 64-bit arithmetic *)
Definition wrap (z : Z) : Z := z mod 2 ^ 64.
(** model only: an empty handle *)
Definition null : handle := {| hp := None; hc := None |}.

(** model only: access to one component of the state *)
Definition get_block (b : nat) (s : state) : outcome block := of_option (blocks s !! b).
(** model only: update of one component of the state *)
Definition put_block (b : nat) (k : block) (s : state) : state :=
  {| blocks := <[b := k]> (blocks s); objs := objs s; shs := shs s; wks := wks s;
     nxt := nxt s; destroyed := destroyed s; freed := freed s |}.
(** model only: update of one component of the state *)
Definition put_obj (o : nat) (v : obj) (s : state) : state :=
  {| blocks := blocks s; objs := <[o := v]> (objs s); shs := shs s; wks := wks s;
     nxt := nxt s; destroyed := destroyed s; freed := freed s |}.
(** model only: update of one component of the state *)
Definition with_shs (m : gmap loc handle) (s : state) : state :=
  {| blocks := blocks s; objs := objs s; shs := m; wks := wks s;
     nxt := nxt s; destroyed := destroyed s; freed := freed s |}.
(** model only: update of one component of the state *)
Definition with_wks (m : gmap loc handle) (s : state) : state :=
  {| blocks := blocks s; objs := objs s; shs := shs s; wks := m;
     nxt := nxt s; destroyed := destroyed s; freed := freed s |}.
(** A handle variable: read it, assign to it, bring it into being, end it. *)
Definition sh (x : loc) (s : state) : outcome handle := of_option (shs s !! x).
(** model only: access to one component of the state *)
Definition wk (w : loc) (s : state) : outcome handle := of_option (wks s !! w).
(** model only: update of a handle variable *)
Definition put_sh (x : loc) (h : handle) (s : state) : outcome state :=
  _ <~ sh x s ; Ok (with_shs (<[x := h]> (shs s)) s).
(** model only: update of a handle variable *)
Definition put_wk (w : loc) (h : handle) (s : state) : outcome state :=
  _ <~ wk w s ; Ok (with_wks (<[w := h]> (wks s)) s).
(** model only: update of a handle variable *)
Definition new_sh (x : loc) (h : handle) (s : state) : outcome state :=
  match shs s !! x with Some _ => UB | None => Ok (with_shs (<[x := h]> (shs s)) s) end.
(** model only: update of a handle variable *)
Definition new_wk (w : loc) (h : handle) (s : state) : outcome state :=
  match wks s !! w with Some _ => UB | None => Ok (with_wks (<[w := h]> (wks s)) s) end.
(** model only: update of a handle variable *)
Definition end_sh (x : loc) (s : state) : state := with_shs (delete x (shs s)) s.
(** model only: update of a handle variable *)
Definition end_wk (w : loc) (s : state) : state := with_wks (delete w (wks s)) s.

(** 341-343 *)
Definition copy_weak_ref (b : nat) (s : state) : outcome state :=
  k <~ get_block b s ; Ok (put_block b {| sc := sc k; wc := wrap (wc k + 1); ptr := ptr k |} s).
(** 344-346 *)
Definition copy_shared_ref (b : nat) (s : state) : outcome state :=
  k <~ get_block b s ; Ok (put_block b {| sc := wrap (sc k + 1); wc := wc k; ptr := ptr k |} s).
(** 360-362 *)
Definition shared_release (b : nat) (s : state) : outcome (Z * state) :=
  k <~ get_block b s ;
  Ok (wrap (sc k - 1), put_block b {| sc := wrap (sc k - 1); wc := wc k; ptr := ptr k |} s).
(** 363-365 *)
Definition weak_release (b : nat) (s : state) : outcome (Z * state) :=
  k <~ get_block b s ;
  Ok (wrap (wc k - 1), put_block b {| sc := sc k; wc := wrap (wc k - 1); ptr := ptr k |} s).
(** 351-355: [count] is the local variable. The exchange stores and the loop goes round when the
    counter equals [count]; otherwise it loads the counter into [count] and the loop ends. *)
Fixpoint lock_loop (fuel : nat) (b : nat) (count : Z) (s : state) : outcome (bool * state) :=
  match fuel with
  | O => Fuel
  | S f =>
      if count =? 0 then Ok (false, s)
      else
        k <~ get_block b s ;
        if sc k =? count
        then lock_loop f b count (put_block b {| sc := wrap (count + 1); wc := wc k; ptr := ptr k |} s)
        else Ok (true, s)
  end.
(** 348-358 *)
Definition lock (b : nat) (s : state) : outcome (bool * state) :=
  k <~ get_block b s ; lock_loop 3 b (sc k) s.

(** 394-396 *)
Definition distory (b : nat) (s : state) : outcome state :=
  _ <~ get_block b s ;
  Ok {| blocks := delete b (blocks s); objs := objs s; shs := shs s; wks := wks s;
        nxt := nxt s; destroyed := destroyed s; freed := freed s ++ [b] |}.
(** 511-516 as the destructor 526-528 calls it *)
Definition weak_count_release (impl : option nat) (s : state) : outcome state :=
  match impl with
  | None => Ok s
  | Some b => ' (r, s) <~ weak_release b s ; if r =? 0 then distory b s else Ok s
  end.
(** The members of object [o] at positions [ks] go, the last declared first; [rel] is the destructor of a shared_count. *)
Fixpoint end_fields (rel : option nat -> state -> outcome state) (o : nat) (ks : list (nat * bool)) (s : state) : outcome state :=
  match ks with
  | [] => Ok s
  | (i, true) :: ks =>
      h <~ sh (Field o i) s ; s <~ rel (hc h) (end_sh (Field o i) s) ; end_fields rel o ks s
  | (i, false) :: ks =>
      h <~ wk (Field o i) s ; s <~ weak_count_release (hc h) (end_wk (Field o i) s) ; end_fields rel o ks s
  end.
(** model only: members with their positions *)
Definition positions (l : list bool) : list (nat * bool) := imap (fun i k => (i, k)) l.
(** delete ptr *)
Definition delete_obj (rel : option nat -> state -> outcome state) (o : nat) (s : state) : outcome state :=
  v <~ of_option (objs s !! o) ;
  end_fields rel o (rev (positions (lay v)))
    {| blocks := blocks s; objs := delete o (objs s); shs := shs s; wks := wks s;
       nxt := nxt s; destroyed := destroyed s ++ [o]; freed := freed s |}.
(** 388-392 *)
Definition dispose (rel : option nat -> state -> outcome state) (b : nat) (s : state) : outcome state :=
  k <~ get_block b s ; match ptr k with Some o => delete_obj rel o s | None => Ok s end.
(** 449-458 as the destructor 460-462 calls it *)
Fixpoint release_fuel (f : nat) (impl : option nat) (s : state) : outcome state :=
  match f with
  | O => Fuel
  | S f =>
      match impl with
      | None => Ok s
      | Some b =>
          ' (r, s) <~ shared_release b s ;
          if r =? 0 then
            s <~ dispose (release_fuel f) b s ;
            ' (r, s) <~ weak_release b s ;
            if r =? 0 then distory b s else Ok s
          else Ok s
      end
  end.
(** Every level of the recursion ends an object, so this much is enough. *)
Definition shared_count_release (impl : option nat) (s : state) : outcome state :=
  release_fuel (S (size (objs s))) impl s.

(** What is handed to a constructor: a null pointer, or a new object with the members [l], of a class derived from
    enable_shared_from_this ([self]) or not. *)
Inductive raw := RNull | RObj (self : bool) (l : list bool).
(** model only: which members are shared_ptr *)
Definition layout (r : raw) : list bool :=
  match r with RNull => [] | RObj self l => if self then false :: l else l end.
(** the members at positions from [n] start out empty (553-554, 678-679) *)
Fixpoint new_fields (o n : nat) (l : list bool) (s : state) : state :=
  match l with
  | [] => s
  | k :: l => new_fields o (S n) l (if k then with_shs (<[Field o n := null]> (shs s)) s else with_wks (<[Field o n := null]> (wks s)) s)
  end.
(** new T, giving the pointer *)
Definition new_obj (r : raw) (s : state) : option nat * state :=
  match r with
  | RNull => (None, s)
  | RObj self _ => (Some (nxt s), new_fields (nxt s) 0 (layout r) (put_obj (nxt s) {| from_this := self; lay := layout r |} s))
  end.
(** 416-418, 330-331: new count_impl *)
Definition new_block (o : option nat) (s : state) : nat * state :=
  (nxt s, {| blocks := <[nxt s := {| sc := 1; wc := 1; ptr := o |}]> (blocks s); objs := objs s;
             shs := shs s; wks := wks s; nxt := S (nxt s); destroyed := destroyed s; freed := freed s |}).

(** 420-425; 483-488, 495-500 *)
Definition shared_count_copy (impl : option nat) (s : state) : outcome state :=
  match impl with Some b => copy_shared_ref b s | None => Ok s end.
(** as above, 420-425; 483-488, 495-500 *)
Definition weak_count_copy (impl : option nat) (s : state) : outcome state :=
  match impl with Some b => copy_weak_ref b s | None => Ok s end.

(** 553-554 *)
Definition s_default (x : loc) (s : state) : outcome state := new_sh x null s.
(** 556-557, also 578-580 *)
Definition s_copy (x y : loc) (s : state) : outcome state :=
  h <~ sh y s ; s <~ shared_count_copy (hc h) s ; new_sh x h s.
(** 559-562, also 582-586 *)
Definition s_move (x y : loc) (s : state) : outcome state :=
  h <~ sh y s ;
  s <~ put_sh y {| hp := hp h; hc := None |} s ;
  s <~ new_sh x h s ;
  put_sh y null s.
(** 606-609 *)
Definition s_swap (x y : loc) (s : state) : outcome state :=
  h <~ sh x s ; k <~ sh y s ; s <~ put_sh x k s ; put_sh y h s.
(** ~shared_ptr: the destructor of refcount_ *)
Definition s_drop (x : loc) (s : state) : outcome state :=
  h <~ sh x s ; shared_count_release (hc h) (end_sh x s).
(** 678-679 *)
Definition w_default (w : loc) (s : state) : outcome state := new_wk w null s.
(** 681-682 *)
Definition w_copy (w v : loc) (s : state) : outcome state :=
  h <~ wk v s ; s <~ weak_count_copy (hc h) s ; new_wk w h s.
(** 684-687 *)
Definition w_move (w v : loc) (s : state) : outcome state :=
  h <~ wk v s ;
  s <~ put_wk v {| hp := hp h; hc := None |} s ;
  s <~ new_wk w h s ;
  put_wk v null s.
(** 689-695 *)
Definition w_from (w x : loc) (s : state) : outcome state :=
  h <~ sh x s ; s <~ weak_count_copy (hc h) s ; new_wk w h s.
(** 714-717 *)
Definition w_swap (w v : loc) (s : state) : outcome state :=
  h <~ wk w s ; k <~ wk v s ; s <~ put_wk w k s ; put_wk v h s.
(** the implicit destructor of weak_ptr (its count is released, 483-500) *)
Definition w_drop (w : loc) (s : state) : outcome state :=
  h <~ wk w s ; weak_count_release (hc h) (end_wk w s).
(** 709-712, the parameter built by copy, by move or from a shared_ptr *)
Definition w_assign (w v : loc) (s : state) : outcome state :=
  s <~ w_copy (Var 0) v s ; s <~ w_swap (Var 0) w s ; w_drop (Var 0) s.
(** as above, 709-712 *)
Definition w_assign_move (w v : loc) (s : state) : outcome state :=
  s <~ w_move (Var 0) v s ; s <~ w_swap (Var 0) w s ; w_drop (Var 0) s.
(** as above, 709-712 *)
Definition w_assign_from (w x : loc) (s : state) : outcome state :=
  s <~ w_from (Var 0) x s ; s <~ w_swap (Var 0) w s ; w_drop (Var 0) s.

(** 657-664: M_weak_this_ of the object is assigned from this shared_ptr *)
Definition construct_shared_from_this (x : loc) (s : state) : outcome state :=
  h <~ sh x s ;
  match hp h with
  | None => Ok s
  | Some o =>
      v <~ of_option (objs s !! o) ;
      if from_this v then w_assign_from (Field o 0) x s else Ok s
  end.
(** 564-568, 570-576 and make_shared 780-783 *)
Definition s_make (x : loc) (r : raw) (s : state) : outcome state :=
  let (o, s) := new_obj r s in
  let (b, s) := new_block o s in
  s <~ new_sh x {| hp := o; hc := Some b |} s ;
  construct_shared_from_this x s.
(** 588-591, the parameter built by copy or by move *)
Definition s_assign (x y : loc) (s : state) : outcome state :=
  s <~ s_copy (Var 0) y s ; s <~ s_swap (Var 0) x s ; s_drop (Var 0) s.
(** as above, 588-591 *)
Definition s_assign_move (x y : loc) (s : state) : outcome state :=
  s <~ s_move (Var 0) y s ; s <~ s_swap (Var 0) x s ; s_drop (Var 0) s.
(** 601-604 *)
Definition s_assign_null (x : loc) (s : state) : outcome state :=
  s <~ s_default (Var 0) s ; s <~ s_swap (Var 0) x s ; s_drop (Var 0) s.
(** 621-624: the temporary shared_count takes what refcount_ held and goes *)
Definition s_reset (x : loc) (s : state) : outcome state :=
  h <~ sh x s ;
  s <~ put_sh x {| hp := None; hc := hc h |} s ;
  s <~ put_sh x {| hp := None; hc := None |} s ;
  shared_count_release (hc h) s.
(** 615-619; ptr_ is set after the old object went *)
Definition s_reset_to (x : loc) (r : raw) (s : state) : outcome state :=
  let (o, s) := new_obj r s in
  let (b, s) := new_block o s in
  h <~ sh x s ;
  s <~ put_sh x {| hp := hp h; hc := Some b |} s ;
  s <~ shared_count_release (hc h) s ;
  put_sh x {| hp := o; hc := Some b |} s.
(** 593-599 with the parameter built by copy (578-580); 597: shared_count::operator= (436-439) on a copy *)
Definition s_assign_conv (x y : loc) (s : state) : outcome state :=
  s <~ s_copy (Var 0) y s ;
  s <~ s_reset x s ;
  r <~ sh (Var 0) s ;
  h <~ sh x s ;
  s <~ put_sh x {| hp := hp r; hc := hc h |} s ;
  s <~ shared_count_copy (hc r) s ;
  s <~ put_sh x {| hp := hp r; hc := hc r |} s ;
  s <~ shared_count_release (hc h) s ;
  s_drop (Var 0) s.

(** 445-447, 476-478, 611-613, 701-703: use_count *)
Definition use_count (h : handle) (s : state) : outcome Z :=
  match hc h with Some b => k <~ get_block b s ; Ok (sc k) | None => Ok 0 end.
(** 522-524 and 705-707 on the handle [h]: 653-655 adopts the count; nullptr converts by 564-568 *)
Definition lock_into (x : loc) (h : handle) (s : state) : outcome state :=
  ' (ok, s) <~ match hc h with Some b => lock b s | None => Ok (false, s) end ;
  if ok then new_sh x h s else s_make x RNull s.
(** shared_ptr x(w.lock()) *)
Definition w_lock (x w : loc) (s : state) : outcome state := h <~ wk w s ; lock_into x h s.
(** the member M_weak_this_ of the object [y] points to *)
Definition this_member (y : loc) (s : state) : outcome handle :=
  h <~ sh y s ;
  o <~ of_option (hp h) ;
  v <~ of_option (objs s !! o) ;
  if from_this v then wk (Field o 0) s else UB.
(** 791-793: shared_ptr x(y->shared_from_this()) *)
Definition s_from_this (x y : loc) (s : state) : outcome state := m <~ this_member y s ; lock_into x m s.
(** 795-797: weak_ptr w(y->shared_from_this_weak()) *)
Definition w_from_this (w y : loc) (s : state) : outcome state :=
  m <~ this_member y s ; s <~ weak_count_copy (hc m) s ; new_wk w m s.

(** Programs. The first handle named is the one constructed, assigned to or ended; S for shared_ptr and
    W for weak_ptr. Variables are constructed and ended by the program, members with their object. *)
Inductive cmd :=
| SDefault (x : nat) | SMake (x : nat) (r : raw) | SCopy (x : nat) (y : loc) | SMove (x : nat) (y : loc)
| SAssign (x y : loc) | SAssignMove (x y : loc) | SAssignConv (x y : loc) | SAssignNull (x : loc)
| SReset (x : loc) | SResetTo (x : loc) (r : raw) | SSwap (x y : loc) | SDrop (x : nat)
| WDefault (w : nat) | WFrom (w : nat) (x : loc) | WCopy (w : nat) (v : loc) | WMove (w : nat) (v : loc)
| WAssign (w v : loc) | WAssignMove (w v : loc) | WAssignFrom (w x : loc) | WSwap (w v : loc) | WDrop (w : nat)
| SLock (x : nat) (w : loc) | SFromThis (x : nat) (y : loc) | WFromThis (w : nat) (y : loc).

(** model only: one operation of a program *)
Definition step (c : cmd) (s : state) : outcome state :=
  match c with
  | SDefault x => s_default (Var x) s | SMake x r => s_make (Var x) r s | SCopy x y => s_copy (Var x) y s
  | SMove x y => s_move (Var x) y s | SAssign x y => s_assign x y s | SAssignMove x y => s_assign_move x y s
  | SAssignConv x y => s_assign_conv x y s | SAssignNull x => s_assign_null x s
  | SReset x => s_reset x s | SResetTo x r => s_reset_to x r s | SSwap x y => s_swap x y s
  | SDrop x => s_drop (Var x) s
  | WDefault w => w_default (Var w) s | WFrom w x => w_from (Var w) x s | WCopy w v => w_copy (Var w) v s
  | WMove w v => w_move (Var w) v s | WAssign w v => w_assign w v s | WAssignMove w v => w_assign_move w v s
  | WAssignFrom w x => w_assign_from w x s | WSwap w v => w_swap w v s | WDrop w => w_drop (Var w) s
  | SLock x w => w_lock (Var x) w s | SFromThis x y => s_from_this (Var x) y s | WFromThis w y => w_from_this (Var w) y s
  end.
(** model only: the operations of a program in order *)
Fixpoint run (cs : list cmd) (s : state) : outcome state :=
  match cs with [] => Ok s | c :: cs => s <~ step c s ; run cs s end.
(** model only: the state before anything happens *)
Definition state0 : state :=
  {| blocks := ∅; objs := ∅; shs := ∅; wks := ∅; nxt := 0; destroyed := []; freed := [] |}.
