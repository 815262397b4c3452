(** Model of shared_ptr, weak_ptr, enable_shared_from_this and their counters: estl/memory.hpp:326-807,
    one thread at a time. (SharedThreads.v has the counters under threads.)

    A control block and the object handed to it get the same number, the numbers never being reused.
    Handles are numbered variables; number 0 is kept for by-value parameters and temporaries. The
    managed object may derive from enable_shared_from_this and then holds a weak_ptr; it holds no other
    handle. The counters are uint64_t and wrap. Touching a freed block, a destroyed object or a handle
    that does not exist is [UB]. Memory orders do not matter to one thread. The upcast from U* to T* in
    the converting members is the identity; the deleter is the default one. *)
From stdpp Require Import gmap.
From Coq Require Import ZArith.
From Verif Require Import Base.
Local Open Scope Z_scope.
Local Open Scope outcome_scope.

(** memory.hpp:371-372, 399; [ptr] is ptr_ *)
Record block := { sc : Z; wc : Z; ptr : option nat }.
(** 667-668 and 726-727: ptr_ and the impl_ of refcount_ *)
Record handle := { hp : option nat; hc : option nat }.
(** A managed object: M_weak_this_ (806) if the class derives from enable_shared_from_this. *)
Record obj := { weak_this : option handle }.
(** [destroyed] and [freed]: the objects destroyed and the blocks freed, in order. *)
Record state := {
  blocks : gmap nat block; objs : gmap nat obj;
  shs : gmap nat handle; wks : gmap nat handle;
  nxt : nat; destroyed : list nat; freed : list nat }.

(** model only: unsigned 64-bit arithmetic *)
Definition wrap (z : Z) : Z := z mod 2 ^ 64.
(** model only: an empty handle *)
Definition null : handle := {| hp := None; hc := None |}.

(** model only: access to one component of the state *)
Definition get_block (b : nat) (s : state) : outcome block := of_option (blocks s !! b).
(** model only: update of one component of the state *)
Definition put_block (b : nat) (k : block) (s : state) : state :=
  {| blocks := <[b := k]> (blocks s); objs := objs s; shs := shs s; wks := wks s;
     nxt := nxt s; destroyed := destroyed s; freed := freed s |}.
(** model only: update of one component of the state *)
Definition put_obj (o : nat) (v : obj) (s : state) : state :=
  {| blocks := blocks s; objs := <[o := v]> (objs s); shs := shs s; wks := wks s;
     nxt := nxt s; destroyed := destroyed s; freed := freed s |}.
(** model only: update of one component of the state *)
Definition with_shs (m : gmap nat handle) (s : state) : state :=
  {| blocks := blocks s; objs := objs s; shs := m; wks := wks s;
     nxt := nxt s; destroyed := destroyed s; freed := freed s |}.
(** model only: update of one component of the state *)
Definition with_wks (m : gmap nat handle) (s : state) : state :=
  {| blocks := blocks s; objs := objs s; shs := shs s; wks := m;
     nxt := nxt s; destroyed := destroyed s; freed := freed s |}.
(** A handle variable: read it, assign to it, bring it into being, end it. *)
Definition sh (x : nat) (s : state) : outcome handle := of_option (shs s !! x).
(** model only: access to one component of the state *)
Definition wk (w : nat) (s : state) : outcome handle := of_option (wks s !! w).
(** model only: update of a handle variable *)
Definition put_sh (x : nat) (h : handle) (s : state) : outcome state :=
  _ <~ sh x s ; Ok (with_shs (<[x := h]> (shs s)) s).
(** model only: update of a handle variable *)
Definition put_wk (w : nat) (h : handle) (s : state) : outcome state :=
  _ <~ wk w s ; Ok (with_wks (<[w := h]> (wks s)) s).
(** model only: update of a handle variable *)
Definition new_sh (x : nat) (h : handle) (s : state) : outcome state :=
  match shs s !! x with Some _ => UB | None => Ok (with_shs (<[x := h]> (shs s)) s) end.
(** model only: update of a handle variable *)
Definition new_wk (w : nat) (h : handle) (s : state) : outcome state :=
  match wks s !! w with Some _ => UB | None => Ok (with_wks (<[w := h]> (wks s)) s) end.
(** model only: update of a handle variable *)
Definition end_sh (x : nat) (s : state) : state := with_shs (delete x (shs s)) s.
(** model only: update of a handle variable *)
Definition end_wk (w : nat) (s : state) : state := with_wks (delete w (wks s)) s.

(** 341-343 *)
Definition copy_weak_ref (b : nat) (s : state) : outcome state :=
  k <~ get_block b s ; Ok (put_block b {| sc := sc k; wc := wrap (wc k + 1); ptr := ptr k |} s).
(** 344-346 *)
Definition copy_shared_ref (b : nat) (s : state) : outcome state :=
  k <~ get_block b s ; Ok (put_block b {| sc := wrap (sc k + 1); wc := wc k; ptr := ptr k |} s).
(** 360-362 *)
Definition shared_release (b : nat) (s : state) : outcome (Z * state) :=
  k <~ get_block b s ;
  Ok (wrap (sc k - 1), put_block b {| sc := wrap (sc k - 1); wc := wc k; ptr := ptr k |} s).
(** 363-365 *)
Definition weak_release (b : nat) (s : state) : outcome (Z * state) :=
  k <~ get_block b s ;
  Ok (wrap (wc k - 1), put_block b {| sc := sc k; wc := wrap (wc k - 1); ptr := ptr k |} s).
(** 351-355: [count] is the local variable. The exchange stores and the loop goes round when the
    counter equals [count]; otherwise it loads the counter into [count] and the loop ends. *)
Fixpoint lock_loop (fuel : nat) (b : nat) (count : Z) (s : state) : outcome (bool * state) :=
  match fuel with
  | O => Fuel
  | S f =>
      if count =? 0 then Ok (false, s)
      else
        k <~ get_block b s ;
        if sc k =? count
        then lock_loop f b count (put_block b {| sc := wrap (count + 1); wc := wc k; ptr := ptr k |} s)
        else Ok (true, s)
  end.
(** 348-358 *)
Definition lock (b : nat) (s : state) : outcome (bool * state) :=
  k <~ get_block b s ; lock_loop 3 b (sc k) s.

(** 394-396 *)
Definition distory (b : nat) (s : state) : outcome state :=
  _ <~ get_block b s ;
  Ok {| blocks := delete b (blocks s); objs := objs s; shs := shs s; wks := wks s;
        nxt := nxt s; destroyed := destroyed s; freed := freed s ++ [b] |}.
(** 511-516 as the destructor 526-528 calls it *)
Definition weak_count_release (impl : option nat) (s : state) : outcome state :=
  match impl with
  | None => Ok s
  | Some b => ' (r, s) <~ weak_release b s ; if r =? 0 then distory b s else Ok s
  end.
(** delete ptr: the destructor ends the member M_weak_this_ (789, 806), then the memory goes *)
Definition delete_obj (o : nat) (s : state) : outcome state :=
  v <~ of_option (objs s !! o) ;
  s <~ match weak_this v with Some h => weak_count_release (hc h) s | None => Ok s end ;
  Ok {| blocks := blocks s; objs := delete o (objs s); shs := shs s; wks := wks s;
        nxt := nxt s; destroyed := destroyed s ++ [o]; freed := freed s |}.
(** 388-392 *)
Definition dispose (b : nat) (s : state) : outcome state :=
  k <~ get_block b s ; match ptr k with Some o => delete_obj o s | None => Ok s end.
(** 449-458 as the destructor 460-462 calls it *)
Definition shared_count_release (impl : option nat) (s : state) : outcome state :=
  match impl with
  | None => Ok s
  | Some b =>
      ' (r, s) <~ shared_release b s ;
      if r =? 0 then
        s <~ dispose b s ;
        ' (r, s) <~ weak_release b s ;
        if r =? 0 then distory b s else Ok s
      else Ok s
  end.

(** What is handed to a constructor: a null pointer, or a new object of a plain class, or one of a class
    derived from enable_shared_from_this. *)
Inductive raw := RNull | RPlain | RSelf.
(** new T, giving the pointer; 788: M_weak_this_ starts out empty *)
Definition new_obj (r : raw) (s : state) : option nat * state :=
  match r with
  | RNull => (None, s)
  | RPlain => (Some (nxt s), put_obj (nxt s) {| weak_this := None |} s)
  | RSelf => (Some (nxt s), put_obj (nxt s) {| weak_this := Some null |} s)
  end.
(** 416-418, 330-331: new count_impl *)
Definition new_block (o : option nat) (s : state) : nat * state :=
  (nxt s, {| blocks := <[nxt s := {| sc := 1; wc := 1; ptr := o |}]> (blocks s); objs := objs s;
             shs := shs s; wks := wks s; nxt := S (nxt s); destroyed := destroyed s; freed := freed s |}).

(** 420-425; 483-488, 495-500 *)
Definition shared_count_copy (impl : option nat) (s : state) : outcome state :=
  match impl with Some b => copy_shared_ref b s | None => Ok s end.
(** as above, 420-425; 483-488, 495-500 *)
Definition weak_count_copy (impl : option nat) (s : state) : outcome state :=
  match impl with Some b => copy_weak_ref b s | None => Ok s end.

(** 553-554 *)
Definition s_default (x : nat) (s : state) : outcome state := new_sh x null s.
(** 556-557, also 578-580 *)
Definition s_copy (x y : nat) (s : state) : outcome state :=
  h <~ sh y s ; s <~ shared_count_copy (hc h) s ; new_sh x h s.
(** 559-562, also 582-586 *)
Definition s_move (x y : nat) (s : state) : outcome state :=
  h <~ sh y s ;
  s <~ put_sh y {| hp := hp h; hc := None |} s ;
  s <~ new_sh x h s ;
  put_sh y null s.
(** 606-609 *)
Definition s_swap (x y : nat) (s : state) : outcome state :=
  h <~ sh x s ; k <~ sh y s ; s <~ put_sh x k s ; put_sh y h s.
(** ~shared_ptr: the destructor of refcount_ *)
Definition s_drop (x : nat) (s : state) : outcome state :=
  h <~ sh x s ; s <~ shared_count_release (hc h) s ; Ok (end_sh x s).
(** 678-679 *)
Definition w_default (w : nat) (s : state) : outcome state := new_wk w null s.
(** 681-682 *)
Definition w_copy (w v : nat) (s : state) : outcome state :=
  h <~ wk v s ; s <~ weak_count_copy (hc h) s ; new_wk w h s.
(** 684-687 *)
Definition w_move (w v : nat) (s : state) : outcome state :=
  h <~ wk v s ;
  s <~ put_wk v {| hp := hp h; hc := None |} s ;
  s <~ new_wk w h s ;
  put_wk v null s.
(** 689-695 *)
Definition w_from (w x : nat) (s : state) : outcome state :=
  h <~ sh x s ; s <~ weak_count_copy (hc h) s ; new_wk w h s.
(** 714-717 *)
Definition w_swap (w v : nat) (s : state) : outcome state :=
  h <~ wk w s ; k <~ wk v s ; s <~ put_wk w k s ; put_wk v h s.
(** the implicit destructor of weak_ptr (its count is released, 483-500) *)
Definition w_drop (w : nat) (s : state) : outcome state :=
  h <~ wk w s ; s <~ weak_count_release (hc h) s ; Ok (end_wk w s).
(** 709-712, the parameter built by copy, by move or from a shared_ptr *)
Definition w_assign (w v : nat) (s : state) : outcome state :=
  s <~ w_copy 0 v s ; s <~ w_swap 0 w s ; w_drop 0 s.
(** as above, 709-712 *)
Definition w_assign_move (w v : nat) (s : state) : outcome state :=
  s <~ w_move 0 v s ; s <~ w_swap 0 w s ; w_drop 0 s.
(** as above, 709-712 *)
Definition w_assign_from (w x : nat) (s : state) : outcome state :=
  s <~ w_from 0 x s ; s <~ w_swap 0 w s ; w_drop 0 s.

(** 657-664: M_weak_this_ of the object is assigned from this shared_ptr, that is 689-691, 709-717: the parameter in weak handle 0 takes
    the member's place and goes with the old one *)
Definition construct_shared_from_this (x : nat) (s : state) : outcome state :=
  h <~ sh x s ;
  match hp h with
  | None => Ok s
  | Some o =>
      v <~ of_option (objs s !! o) ;
      match weak_this v with
      | None => Ok s
      | Some _ =>
          s <~ w_from 0 x s ;
          v <~ of_option (objs s !! o) ;
          old <~ of_option (weak_this v) ;
          k <~ wk 0 s ;
          let s := put_obj o {| weak_this := Some k |} s in
          s <~ put_wk 0 old s ;
          w_drop 0 s
      end
  end.
(** 564-568, 570-576 and make_shared 780-783 *)
Definition s_make (x : nat) (r : raw) (s : state) : outcome state :=
  let (o, s) := new_obj r s in
  let (b, s) := new_block o s in
  s <~ new_sh x {| hp := o; hc := Some b |} s ;
  construct_shared_from_this x s.
(** 588-591, the parameter built by copy or by move *)
Definition s_assign (x y : nat) (s : state) : outcome state :=
  s <~ s_copy 0 y s ; s <~ s_swap 0 x s ; s_drop 0 s.
(** as above, 588-591 *)
Definition s_assign_move (x y : nat) (s : state) : outcome state :=
  s <~ s_move 0 y s ; s <~ s_swap 0 x s ; s_drop 0 s.
(** 601-604 *)
Definition s_assign_null (x : nat) (s : state) : outcome state :=
  s <~ s_default 0 s ; s <~ s_swap 0 x s ; s_drop 0 s.
(** 621-624: the temporary shared_count takes what refcount_ held and goes *)
Definition s_reset (x : nat) (s : state) : outcome state :=
  h <~ sh x s ;
  s <~ put_sh x {| hp := None; hc := hc h |} s ;
  s <~ put_sh x {| hp := None; hc := None |} s ;
  shared_count_release (hc h) s.
(** 615-619; ptr_ is set after the old object went *)
Definition s_reset_to (x : nat) (r : raw) (s : state) : outcome state :=
  let (o, s) := new_obj r s in
  let (b, s) := new_block o s in
  h <~ sh x s ;
  s <~ put_sh x {| hp := hp h; hc := Some b |} s ;
  s <~ shared_count_release (hc h) s ;
  put_sh x {| hp := o; hc := Some b |} s.
(** 593-599 with the parameter built by copy (578-580); 597: shared_count::operator= (436-439) on a copy *)
Definition s_assign_conv (x y : nat) (s : state) : outcome state :=
  s <~ s_copy 0 y s ;
  s <~ s_reset x s ;
  r <~ sh 0 s ;
  h <~ sh x s ;
  s <~ put_sh x {| hp := hp r; hc := hc h |} s ;
  s <~ shared_count_copy (hc r) s ;
  s <~ put_sh x {| hp := hp r; hc := hc r |} s ;
  s <~ shared_count_release (hc h) s ;
  s_drop 0 s.

(** 445-447, 476-478, 611-613, 701-703: use_count *)
Definition use_count (h : handle) (s : state) : outcome Z :=
  match hc h with Some b => k <~ get_block b s ; Ok (sc k) | None => Ok 0 end.
(** 522-524 and 705-707 on the handle [h]: 653-655 adopts the count; nullptr converts by 564-568 *)
Definition lock_into (x : nat) (h : handle) (s : state) : outcome state :=
  ' (ok, s) <~ match hc h with Some b => lock b s | None => Ok (false, s) end ;
  if ok then new_sh x h s else s_make x RNull s.
(** shared_ptr x(w.lock()) *)
Definition w_lock (x w : nat) (s : state) : outcome state := h <~ wk w s ; lock_into x h s.
(** 791-793: shared_ptr x(y->shared_from_this()) *)
Definition s_from_this (x y : nat) (s : state) : outcome state :=
  h <~ sh y s ;
  o <~ of_option (hp h) ;
  v <~ of_option (objs s !! o) ;
  m <~ of_option (weak_this v) ;
  lock_into x m s.
(** 795-797: weak_ptr w(y->shared_from_this_weak()) *)
Definition w_from_this (w y : nat) (s : state) : outcome state :=
  h <~ sh y s ;
  o <~ of_option (hp h) ;
  v <~ of_option (objs s !! o) ;
  m <~ of_option (weak_this v) ;
  s <~ weak_count_copy (hc m) s ; new_wk w m s.

(** Programs. The first handle named is the one constructed, assigned to or ended; S for shared_ptr and
    W for weak_ptr. *)
Inductive cmd :=
| SDefault (x : nat) | SMake (x : nat) (r : raw) | SCopy (x y : nat) | SMove (x y : nat)
| SAssign (x y : nat) | SAssignMove (x y : nat) | SAssignConv (x y : nat) | SAssignNull (x : nat)
| SReset (x : nat) | SResetTo (x : nat) (r : raw) | SSwap (x y : nat) | SDrop (x : nat)
| WDefault (w : nat) | WFrom (w x : nat) | WCopy (w v : nat) | WMove (w v : nat)
| WAssign (w v : nat) | WAssignMove (w v : nat) | WAssignFrom (w x : nat) | WSwap (w v : nat) | WDrop (w : nat)
| SLock (x w : nat) | SFromThis (x y : nat) | WFromThis (w y : nat).

(** model only: one operation of a program *)
Definition step (c : cmd) (s : state) : outcome state :=
  match c with
  | SDefault x => s_default x s | SMake x r => s_make x r s | SCopy x y => s_copy x y s
  | SMove x y => s_move x y s | SAssign x y => s_assign x y s | SAssignMove x y => s_assign_move x y s
  | SAssignConv x y => s_assign_conv x y s | SAssignNull x => s_assign_null x s
  | SReset x => s_reset x s | SResetTo x r => s_reset_to x r s | SSwap x y => s_swap x y s
  | SDrop x => s_drop x s
  | WDefault w => w_default w s | WFrom w x => w_from w x s | WCopy w v => w_copy w v s
  | WMove w v => w_move w v s | WAssign w v => w_assign w v s | WAssignMove w v => w_assign_move w v s
  | WAssignFrom w x => w_assign_from w x s | WSwap w v => w_swap w v s | WDrop w => w_drop w s
  | SLock x w => w_lock x w s | SFromThis x y => s_from_this x y s | WFromThis w y => w_from_this w y s
  end.
(** model only: the operations of a program in order *)
Fixpoint run (cs : list cmd) (s : state) : outcome state :=
  match cs with [] => Ok s | c :: cs => s <~ step c s ; run cs s end.
(** model only: the state before anything happens *)
Definition state0 : state :=
  {| blocks := ∅; objs := ∅; shs := ∅; wks := ∅; nxt := 0; destroyed := []; freed := [] |}.
