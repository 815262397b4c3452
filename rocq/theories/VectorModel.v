(** Model of estl/vector.hpp (estd::vector with estd::allocator). A vector is its three pointers; the
    elements are in [mem]. [esz] is sizeof(T), [dflt] the value T() has, [smk] whether moving an
    element onto itself keeps its value. A const& and an && parameter differ only in the [arg]
    passed. *)
From stdpp Require Import gmap list.
From Coq Require Import ZArith.
From Verif Require Import Base ObjModel.
Local Open Scope Z_scope.
Local Open Scope outcome_scope.

(** lines 342-344 *)
Record vec := { vstart : ptr; vfinish : ptr; veos : ptr }.
(** lines 23-24 *)
Definition vec0 : vec := {| vstart := Null; vfinish := Null; veos := Null |}.

(** lines 301-307 and 244-246 *)
Definition vsize (v : vec) : outcome Z := psub (vfinish v) (vstart v).
(** as above, 301-307; 244-246 *)
Definition vcapacity (v : vec) : outcome Z := psub (veos v) (vstart v).
(** as above, 301-307; 244-246 *)
Definition vempty (v : vec) : outcome bool := n <~ vsize v ; Ok (n =? 0).
(** model only: update of one component of the state *)
Definition set_finish (v : vec) (p : ptr) : vec := {| vstart := vstart v; vfinish := p; veos := veos v |}.

(** lines 248-252: estd::swap on each pointer; the result is the new *this and rhs *)
Definition vswap (v w : vec) : vec * vec := (w, v).

Section vector.
Context {A : Type} (esz : Z) (dflt : A) (smk : bool).
Notation mem := (mem A).

(** lines 318-322 *)
Definition vallocate (cap : Z) (m : mem) : outcome (vec * mem) :=
  ' (p, m1) <~ alloc_buf esz cap m ;
  e <~ padd p cap ;
  Ok ({| vstart := p; vfinish := p; veos := e |}, m1).

(** lines 65-73 *)
Definition vdestroy (v : vec) (m : mem) : outcome mem :=
  n <~ vsize v ;
  m1 <~ (if n =? 0 then Ok m else destroy_range (S (Z.to_nat n)) (vstart v) (vfinish v) m) ;
  c <~ vcapacity v ;
  if c =? 0 then Ok m1 else free_buf (vstart v) m1.

(** lines 75-83, given ensure_capacity *)
Definition push_back_with (ec : Z -> vec -> mem -> outcome (vec * mem)) (a : arg A) (v : vec) (m : mem)
    : outcome (vec * mem) :=
  n <~ vsize v ;
  ' (v1, m1) <~ ec (n + 1) v m ;
  ' (x, m2) <~ read_arg a m1 ;
  m3 <~ ctor (vfinish v1) x m2 ;
  f <~ padd (vfinish v1) 1 ;
  Ok (set_finish v1 f, m3).

(** lines 336-338: for (auto& it : v) push_back(estd::move(it)) *)
Fixpoint move_elems (fuel : nat) (pb : arg A -> vec -> mem -> outcome (vec * mem)) (it last : ptr) (v : vec) (m : mem)
    : outcome (vec * mem) :=
  match fuel with
  | O => Fuel
  | S f =>
      if ptr_eqb it last then Ok (v, m)
      else ' (v1, m1) <~ pb (AMoveRef it) v m ; p <~ padd it 1 ; move_elems f pb p last v1 m1
  end.

(** lines 324-339; [fuel] bounds the mutual recursion with push_back. The local vector takes the old
    buffer (lines 60-63) and its destructor runs at the end. *)
Fixpoint ensure_capacity (fuel : nat) (size : Z) (v : vec) (m : mem) : outcome (vec * mem) :=
  match fuel with
  | O => Fuel
  | S f =>
      cap <~ vcapacity v ;
      if size <=? cap then Ok (v, m)
      else
        let dbl := (cap * 2) mod 2 ^ 64 in
        let newcap := if size <? dbl then dbl else size in
        let '(old, _) := vswap vec0 v in
        ' (v1, m1) <~ vallocate newcap m ;
        n <~ vsize old ;
        ' (v2, m2) <~ move_elems (S (Z.to_nat n)) (push_back_with (ensure_capacity f)) (vstart old) (vfinish old) v1 m1 ;
        m3 <~ vdestroy old m2 ;
        Ok (v2, m3)
  end.
(** The recursion is two deep. *)
Definition ensure := ensure_capacity 2.
(** push_back with the growth above *)
Definition push_back := push_back_with ensure.
(** lines 196-201 *)
Definition emplace_back := push_back.
(** lines 281-283 *)
Definition reserve (n : Z) (v : vec) (m : mem) : outcome (vec * mem) := ensure n v m.

(** lines 28-29: push_back of each element of the list *)
Fixpoint push_all (l : list A) (v : vec) (m : mem) : outcome (vec * mem) :=
  match l with
  | [] => Ok (v, m)
  | a :: l' => ' (v1, m1) <~ push_back (AVal a) v m ; push_all l' v1 m1
  end.
(** lines 25-30 *)
Definition vinit (l : list A) (m : mem) : outcome (vec * mem) :=
  ' (v, m1) <~ vallocate (Z.of_nat (length l)) m ; push_all l v m1.

(** construct(p + i, a) for i = 0 .. n-1: lines 34-35, 43-44, 260-262 *)
Fixpoint construct_n (n : nat) (p : ptr) (a : A) (m : mem) : outcome mem :=
  match n with
  | O => Ok m
  | S n' => m1 <~ ctor p (Some a) m ; q <~ padd p 1 ; construct_n n' q a m1
  end.
(** lines 31-38 *)
Definition vfill (n : Z) (a : A) (m : mem) : outcome (vec * mem) :=
  ' (v, m1) <~ vallocate n m ;
  m2 <~ construct_n (Z.to_nat n) (vstart v) a m1 ;
  f <~ padd (vstart v) n ;
  Ok (set_finish v f, m2).
(** lines 40-47 *)
Definition vsized (n : Z) (m : mem) : outcome (vec * mem) := vfill n dflt m.

(** lines 54-56 *)
Fixpoint copy_elems (fuel : nat) (it last : ptr) (v : vec) (m : mem) : outcome (vec * mem) :=
  match fuel with
  | O => Fuel
  | S f =>
      if ptr_eqb it last then Ok (v, m)
      else
        x <~ load it m ;
        m1 <~ ctor (vfinish v) x m ;
        g <~ padd (vfinish v) 1 ;
        p <~ padd it 1 ;
        copy_elems f p last (set_finish v g) m1
  end.
(** lines 49-58 *)
Definition vcopy (rhs : vec) (m : mem) : outcome (vec * mem) :=
  n <~ vsize rhs ;
  if n =? 0 then Ok (vec0, m)
  else
    ' (v, m1) <~ vallocate n m ;
    copy_elems (S (Z.to_nat n)) (vstart rhs) (vfinish rhs) v m1.

(** lines 60-63: the new vector, then what is left in rhs *)
Definition vmove (rhs : vec) : vec * vec := let '(rhs', this) := vswap rhs vec0 in (this, rhs').

(** M_start_[i] = estd::move(M_start_[i - 1]) for i = hi, hi-1, ..., hi-k+1:
    lines 88-90, 100-102, 115-117, 129-131, 145-147 *)
Fixpoint shift_up (k : nat) (s : ptr) (i : Z) (m : mem) : outcome mem :=
  match k with
  | O => Ok m
  | S k' =>
      p <~ padd s i ; q <~ padd s (i - 1) ;
      m1 <~ move_assign smk p q m ;
      shift_up k' s (i - 1) m1
  end.

(** lines 109-136 *)
Definition insert_at (pos : ptr) (a : arg A) (v : vec) (m : mem) : outcome (vec * mem) :=
  idx <~ psub pos (vstart v) ;
  n <~ vsize v ;
  ' (v1, m1) <~ ensure (n + 1) v m ;
  m2 <~ ctor (vfinish v1) (Some dflt) m1 ;
  n1 <~ vsize v1 ;
  m3 <~ shift_up (Z.to_nat (n1 - idx)) (vstart v1) n1 m2 ;
  ' (x, m4) <~ read_arg a m3 ;
  d <~ padd (vstart v1) idx ;
  m5 <~ assign d x m4 ;
  f <~ padd (vfinish v1) 1 ;
  Ok (set_finish v1 f, m5).

(** lines 85-107 *)
Definition push_front (a : arg A) (v : vec) (m : mem) : outcome (vec * mem) :=
  n <~ vsize v ;
  ' (v1, m1) <~ ensure (n + 1) v m ;
  m2 <~ ctor (vfinish v1) (Some dflt) m1 ;
  n1 <~ vsize v1 ;
  m3 <~ shift_up (Z.to_nat n1) (vstart v1) n1 m2 ;
  ' (x, m4) <~ read_arg a m3 ;
  m5 <~ assign (vstart v1) x m4 ;
  f <~ padd (vfinish v1) 1 ;
  Ok (set_finish v1 f, m5).

(** lines 138-156, one constructor argument *)
Definition emplace_at (pos : ptr) (a : arg A) (v : vec) (m : mem) : outcome (vec * mem) :=
  idx <~ psub pos (vstart v) ;
  n <~ vsize v ;
  ' (v1, m1) <~ ensure (n + 1) v m ;
  m2 <~ ctor (vfinish v1) (Some dflt) m1 ;
  n1 <~ vsize v1 ;
  m3 <~ shift_up (Z.to_nat (n1 - idx)) (vstart v1) n1 m2 ;
  d <~ padd (vstart v1) idx ;
  m4 <~ dtor d m3 ;
  ' (x, m5) <~ read_arg a m4 ;
  m6 <~ ctor d x m5 ;
  f <~ padd (vfinish v1) 1 ;
  Ok (set_finish v1 f, m6).

(** lines 161-163: i from index while i < bound *)
Fixpoint shift_down (fuel : nat) (s : ptr) (i bound : Z) (m : mem) : outcome mem :=
  match fuel with
  | O => Fuel
  | S f =>
      if i <? bound then
        p <~ padd s i ; q <~ padd s (i + 1) ;
        m1 <~ move_assign smk p q m ;
        shift_down f s (i + 1) bound m1
      else Ok m
  end.
(** lines 158-168. size() - 1 wraps on an empty vector. Every round uses a slot, so the capacity
    bounds the loop. *)
Definition erase_at (pos : ptr) (v : vec) (m : mem) : outcome (vec * mem) :=
  idx <~ psub pos (vstart v) ;
  n <~ vsize v ;
  c <~ vcapacity v ;
  m1 <~ shift_down (S (Z.to_nat c)) (vstart v) idx ((n - 1) mod 2 ^ 64) m ;
  f <~ padd (vfinish v) (-1) ;
  m2 <~ dtor f m1 ;
  Ok (set_finish v f, m2).

(** lines 175-177 *)
Fixpoint shift_range (k : nat) (s : ptr) (des src : Z) (m : mem) : outcome mem :=
  match k with
  | O => Ok m
  | S k' =>
      p <~ padd s des ; q <~ padd s src ;
      m1 <~ move_assign smk p q m ;
      shift_range k' s (des + 1) (src + 1) m1
  end.
(** destory(p + i), i = 0 .. k-1: lines 179-181 *)
Fixpoint destroy_n (k : nat) (p : ptr) (m : mem) : outcome mem :=
  match k with
  | O => Ok m
  | S k' => m1 <~ dtor p m ; q <~ padd p 1 ; destroy_n k' q m1
  end.
(** lines 170-186 *)
Definition erase_range (first last : ptr) (v : vec) (m : mem) : outcome (vec * mem) :=
  src <~ psub last (vstart v) ;
  des <~ psub first (vstart v) ;
  n <~ psub (vfinish v) last ;
  m1 <~ shift_range (Z.to_nat n) (vstart v) des src m ;
  sz <~ vsize v ;
  p <~ padd (vstart v) (des + n) ;
  m2 <~ destroy_n (Z.to_nat (sz - (des + n))) p m1 ;
  Ok (set_finish v p, m2).

(** lines 188-194 *)
Definition pop_back (v : vec) (m : mem) : outcome (vec * mem) :=
  p <~ padd (vfinish v) (-1) ; erase_at p v m.
(** as above, 188-194 *)
Definition pop_front (v : vec) (m : mem) : outcome (vec * mem) := erase_at (vstart v) v m.

(** destory(M_finish_ - i - 1), i = 0 .. k-1: lines 268-270 *)
Fixpoint destroy_back (k : nat) (p : ptr) (m : mem) : outcome mem :=
  match k with
  | O => Ok m
  | S k' => q <~ padd p (-1) ; m1 <~ dtor q m ; destroy_back k' q m1
  end.
(** lines 254-274 *)
Definition resize (n : Z) (v : vec) (m : mem) : outcome (vec * mem) :=
  sz <~ vsize v ;
  if sz <? n then
    ' (v1, m1) <~ ensure n v m ;
    sz1 <~ vsize v1 ;
    m2 <~ construct_n (Z.to_nat (n - sz1)) (vfinish v1) dflt m1 ;
    f <~ padd (vfinish v1) (n - sz1) ;
    Ok (set_finish v1 f, m2)
  else if n <? sz then
    m1 <~ destroy_back (Z.to_nat (sz - n)) (vfinish v) m ;
    f <~ padd (vfinish v) (- (sz - n)) ;
    Ok (set_finish v f, m1)
  else Ok (v, m).

(** lines 276-279 *)
Definition vclear (v : vec) (m : mem) : outcome (vec * mem) :=
  n <~ vsize v ;
  m1 <~ destroy_range (S (Z.to_nat n)) (vstart v) (vfinish v) m ;
  Ok (set_finish v (vstart v), m1).

(** lines 203-206, lvalue argument: rhs is a copy, takes the old contents and is destroyed *)
Definition copy_assign (v rhs : vec) (m : mem) : outcome (vec * mem) :=
  ' (t, m1) <~ vcopy rhs m ;
  let '(v', t') := vswap v t in
  m2 <~ vdestroy t' m1 ;
  Ok (v', m2).

(** lines 309-315, 228-242 *)
Definition vget (i : Z) (v : vec) (m : mem) : outcome (option A) := p <~ padd (vstart v) i ; load p m.
(** as above, 309-315, 228-242 *)
Definition vset (i : Z) (a : arg A) (v : vec) (m : mem) : outcome mem :=
  p <~ padd (vstart v) i ; ' (x, m1) <~ read_arg a m ; assign p x m1.
(** as above, 309-315, 228-242 *)
Definition vfront (v : vec) (m : mem) : outcome (option A) := load (vstart v) m.
(** as above, 309-315, 228-242 *)
Definition vback (v : vec) (m : mem) : outcome (option A) := p <~ padd (vfinish v) (-1) ; load p m.

(** Range for over begin(), end() (lines 285-299). *)
Fixpoint iterate (fuel : nat) (it last : ptr) (m : mem) : outcome (list (option A)) :=
  match fuel with
  | O => Fuel
  | S f =>
      if ptr_eqb it last then Ok []
      else x <~ load it m ; p <~ padd it 1 ; l <~ iterate f p last m ; Ok (x :: l)
  end.
(** as above, 285-299 *)
Definition viter (v : vec) (m : mem) : outcome (list (option A)) :=
  n <~ vsize v ; iterate (S (Z.to_nat n)) (vstart v) (vfinish v) m.

(** lines 212-215. The counter is an int: incrementing 2^31 - 1 is [UB]. [eqb] compares two values;
    comparing an unspecified one is [UB] here. *)
Definition elem_eq (eqb : A -> A -> bool) (x y : option A) : outcome bool :=
  match x, y with Some a, Some b => Ok (eqb a b) | _, _ => UB end.
(** as above, 212-215 *)
Fixpoint eq_loop (eqb : A -> A -> bool) (fuel : nat) (i n : Z) (v w : vec) (m : mem) : outcome bool :=
  match fuel with
  | O => Fuel
  | S f =>
      if i <? n then
        x <~ vget i v m ; y <~ vget i w m ;
        b <~ elem_eq eqb x y ;
        if b then (if i + 1 <? 2 ^ 31 then eq_loop eqb f (i + 1) n v w m else UB) else Ok false
      else Ok true
  end.
(** lines 208-218 *)
Definition vequal (eqb : A -> A -> bool) (v w : vec) (m : mem) : outcome bool :=
  n <~ vsize v ; n' <~ vsize w ;
  if n =? n' then eq_loop eqb (S (Z.to_nat n)) 0 n v w m else Ok false.

(** Programs: vector variables are numbered. *)
Inductive vcmd :=
| CNew (x : nat) | CInit (x : nat) (l : list A) | CFill (x : nat) (n : Z) (a : A) | CSized (x : nat) (n : Z)
| CCopy (x y : nat) | CMove (x y : nat) | CDestroy (x : nat)
| CPushBack (x : nat) (a : A) | CPushFront (x : nat) (a : A) | CInsert (x : nat) (i : Z) (a : A)
| CEmplace (x : nat) (i : Z) (a : A) | CEmplaceBack (x : nat) (a : A) | CSet (x : nat) (i : Z) (a : A)
| CErase (x : nat) (i : Z) | CEraseRange (x : nat) (i j : Z) | CPopBack (x : nat) | CPopFront (x : nat)
| CResize (x : nat) (n : Z) | CReserve (x : nat) (n : Z) | CClear (x : nat)
| CAssign (x y : nat) | CMoveAssign (x y : nat) | CSwap (x y : nat).

Notation env := (gmap nat vec).
(** model only: a variable of the program *)
Definition var (e : env) (x : nat) : outcome vec := of_option (e !! x).
(** Declare [x]; it must not be in use. *)
Definition declare (e : env) (x : nat) (r : outcome (vec * mem)) : outcome (env * mem) :=
  match e !! x with
  | Some _ => UB
  | None => ' (v, m) <~ r ; Ok (<[x := v]> e, m)
  end.
(** model only: a variable of the program *)
Definition update (e : env) (x : nat) (f : vec -> outcome (vec * mem)) : outcome (env * mem) :=
  v <~ var e x ; ' (v', m) <~ f v ; Ok (<[x := v']> e, m).

Definition vstep (s : env * mem) (c : vcmd) : outcome (env * mem) :=
  let '(e, m) := s in
  match c with
  | CNew x => declare e x (Ok (vec0, m))
  | CInit x l => declare e x (vinit l m)
  | CFill x n a => declare e x (vfill n a m)
  | CSized x n => declare e x (vsized n m)
  | CCopy x y => declare e x (w <~ var e y ; vcopy w m)
  | CMove x y =>
      w <~ var e y ;
      let '(v, w') := vmove w in
      declare (<[y := w']> e) x (Ok (v, m))
  | CDestroy x => v <~ var e x ; m1 <~ vdestroy v m ; Ok (delete x e, m1)
  | CPushBack x a => update e x (fun v => push_back (AVal a) v m)
  | CPushFront x a => update e x (fun v => push_front (AVal a) v m)
  | CInsert x i a => update e x (fun v => p <~ padd (vstart v) i ; insert_at p (AVal a) v m)
  | CEmplace x i a => update e x (fun v => p <~ padd (vstart v) i ; emplace_at p (AVal a) v m)
  | CEmplaceBack x a => update e x (fun v => emplace_back (AVal a) v m)
  | CSet x i a => update e x (fun v => m1 <~ vset i (AVal a) v m ; Ok (v, m1))
  | CErase x i => update e x (fun v => p <~ padd (vstart v) i ; erase_at p v m)
  | CEraseRange x i j =>
      update e x (fun v => p <~ padd (vstart v) i ; q <~ padd (vstart v) j ; erase_range p q v m)
  | CPopBack x => update e x (fun v => pop_back v m)
  | CPopFront x => update e x (fun v => pop_front v m)
  | CResize x n => update e x (fun v => resize n v m)
  | CReserve x n => update e x (fun v => reserve n v m)
  | CClear x => update e x (fun v => vclear v m)
  | CAssign x y => w <~ var e y ; update e x (fun v => copy_assign v w m)
  | CMoveAssign x y =>
      (* the parameter takes y's buffer, swaps with x and dies with x's old one (lines 203-206) *)
      w <~ var e y ;
      let '(t, w') := vmove w in
      let e1 := <[y := w']> e in
      v <~ var e1 x ;
      let '(v', t') := vswap v t in
      m1 <~ vdestroy t' m ;
      Ok (<[x := v']> e1, m1)
  | CSwap x y =>
      v <~ var e x ; w <~ var e y ;
      let '(v', w') := vswap v w in
      Ok (<[y := w']> (<[x := v']> e), m)
  end.
(** model only: the operations of a program in order *)
Fixpoint vrun (s : env * mem) (cs : list vcmd) : outcome (env * mem) :=
  match cs with
  | [] => Ok s
  | c :: cs' => s1 <~ vstep s c ; vrun s1 cs'
  end.
End vector.
Arguments vcmd : clear implicits.
