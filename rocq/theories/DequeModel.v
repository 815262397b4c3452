(** estd::deque (estl/deque.hpp), estd::queue (estl/queue.hpp), estd::stack (estl/stack.hpp).
    One memory holds the element blocks and the arrays of block pointers: a slot value is an element
    ([inl]) or the address of a block ([inr]). *)
From stdpp Require Import gmap list.
From Coq Require Import ZArith.
From Verif Require Import Base ObjModel.
Local Open Scope Z_scope.
Local Open Scope outcome_scope.

Section deque.
Context {A : Type} (esz : Z).
Notation val := (A + nat)%type.
Notation mem := (mem val).
Notation arg := (arg val).

(** size_t arithmetic. *)
Definition w64 (x : Z) : Z := x mod 2 ^ 64.

(** deque.hpp 343-348. *)
Record deq := { dblocks : ptr; dbs : Z; dsize : Z; dfirst : Z; dlast : Z }.
(** 116-117. *)
Definition deq0 : deq := {| dblocks := Null; dbs := 0; dsize := 0; dfirst := 0; dlast := 0 |}.

(** Storing a pointer in a slot of a pointer array: pointers are trivial, so the slot may be
    uninitialised. *)
Definition store_ptr (p : ptr) (b : nat) (m : mem) : outcome mem :=
  ' (_, _, _, c) <~ slot m p ;
  match c with Raw => ctor p (Some (inr b)) m | Live _ => assign p (Some (inr b)) m end.
(** Reading one; an uninitialised slot is [UB]. *)
Definition load_ptr (p : ptr) (m : mem) : outcome nat :=
  v <~ load p m ;
  match v with Some (inr b) => Ok b | _ => UB end.
(** 333-335. *)
Definition obj_ptr (d : deq) (n : Z) (m : mem) : outcome ptr :=
  p <~ padd (dblocks d) (n / 16) ; b <~ load_ptr p m ; Ok (Ptr b (n mod 16)).

(** delete[] of a pointer array (323-327); the slots go without any action in the code. *)
Fixpoint drop_ptrs (k : nat) (p : ptr) (m : mem) : outcome mem :=
  match k with
  | O => Ok m
  | S k' =>
      ' (_, _, _, c) <~ slot m p ;
      m1 <~ match c with Raw => Ok m | Live _ => dtor p m end ;
      p' <~ padd p 1 ; drop_ptrs k' p' m1
  end.
(** as above, 323-327 *)
Definition free_ptrs (p : ptr) (m : mem) : outcome mem :=
  match p with
  | Null => Ok m
  | Ptr b _ => cs <~ of_option (blocks m !! b) ; m1 <~ drop_ptrs (length cs) p m ; free_buf p m1
  end.

(** 318-320: while (start != end). *)
Fixpoint alloc_blocks (k : nat) (p : ptr) (start : Z) (m : mem) : outcome mem :=
  match k with
  | O => Ok m
  | S k' =>
      ' (q, m1) <~ alloc_buf esz 16 m ;
      match q with
      | Ptr b _ => s <~ padd p start ; m2 <~ store_ptr s b m1 ; alloc_blocks k' p (start + 1) m2
      | Null => UB
      end
  end.
(** 315-322. The loop runs end - start times. *)
Definition alloc_control (size start stop : Z) (m : mem) : outcome (ptr * mem) :=
  ' (p, m1) <~ alloc_buf 8 size m ;
  m2 <~ alloc_blocks (Z.to_nat (stop - start)) p start m1 ;
  Ok (p, m2).
(** 280-282 and 306-308: for (int i = 0; i < block_size_; i++) new[i + off] = blocks_[i]. *)
Fixpoint copy_ptrs (k : nat) (i off : Z) (dst src : ptr) (m : mem) : outcome mem :=
  match k with
  | O => Ok m
  | S k' =>
      p <~ padd src i ; b <~ load_ptr p m ; q <~ padd dst (i + off) ; m1 <~ store_ptr q b m ;
      if i =? 2 ^ 31 - 1 then UB else copy_ptrs k' (i + 1) off dst src m1
  end.

(** 265-289. *)
Definition ensure_front (n : Z) (d : deq) (m : mem) : outcome (deq * mem) :=
  if n <=? dfirst d then Ok (d, m)
  else
    let nb := w64 (n + 16 - 1) / 16 in
    ' (np, m1) <~ alloc_control (nb + dbs d) 0 nb m ;
    ' (first, last, m2) <~
      (if dbs d =? 0 then Ok (w64 (w64 (16 * nb) - 1), w64 (w64 (16 * nb) - 1), m1)
       else m2 <~ copy_ptrs (Z.to_nat (dbs d)) 0 (dbs d) np (dblocks d) m1 ;
            Ok (w64 (dfirst d + 16 * nb), w64 (dlast d + 16 * nb), m2)) ;
    m3 <~ free_ptrs (dblocks d) m2 ;
    Ok ({| dblocks := np; dbs := dbs d + nb; dsize := dsize d; dfirst := first; dlast := last |}, m3).
(** 291-313. *)
Definition ensure_back (n : Z) (d : deq) (m : mem) : outcome (deq * mem) :=
  let capacity := if dbs d =? 0 then 0 else w64 (16 * dbs d - (dlast d + 1)) in
  if n <=? capacity then Ok (d, m)
  else
    let nb := w64 (n + 16 - 1) / 16 in
    ' (np, m1) <~ alloc_control (nb + dbs d) (dbs d) (nb + dbs d) m ;
    ' (first, last, m2) <~
      (if dbs d =? 0 then Ok (0, 0, m1)
       else m2 <~ copy_ptrs (Z.to_nat (dbs d)) 0 0 np (dblocks d) m1 ; Ok (dfirst d, dlast d, m2)) ;
    m3 <~ free_ptrs (dblocks d) m2 ;
    Ok ({| dblocks := np; dbs := dbs d + nb; dsize := dsize d; dfirst := first; dlast := last |}, m3).

(** 239-249; push_back 173-179. *)
Definition emplace_back (a : arg) (d : deq) (m : mem) : outcome (deq * mem) :=
  ' (d1, m1) <~ ensure_back 1 d m ;
  let d2 := {| dblocks := dblocks d1; dbs := dbs d1; dsize := w64 (dsize d1 + 1); dfirst := dfirst d1;
               dlast := if dsize d1 =? 0 then dlast d1 else w64 (dlast d1 + 1) |} in
  p <~ obj_ptr d2 (dlast d2) m1 ;
  ' (v, m2) <~ read_arg a m1 ;
  m3 <~ ctor p v m2 ;
  Ok (d2, m3).
(** 251-262; push_front 181-187. *)
Definition emplace_front (a : arg) (d : deq) (m : mem) : outcome (deq * mem) :=
  ' (d1, m1) <~ ensure_front 1 d m ;
  let d2 := {| dblocks := dblocks d1; dbs := dbs d1; dsize := w64 (dsize d1 + 1);
               dfirst := if dsize d1 =? 0 then dfirst d1 else w64 (dfirst d1 - 1);
               dlast := dlast d1 |} in
  p <~ obj_ptr d2 (dfirst d2) m1 ;
  ' (v, m2) <~ read_arg a m1 ;
  m3 <~ ctor p v m2 ;
  Ok (d2, m3).

(** 337-341. *)
Definition decrease (d : deq) : deq :=
  let size := w64 (dsize d - 1) in
  let mid := dbs d / 2 * 16 in
  {| dblocks := dblocks d; dbs := dbs d; dsize := size;
     dfirst := if size =? 0 then mid else dfirst d; dlast := if size =? 0 then mid else dlast d |}.
(** 189-192. *)
Definition pop_front (d : deq) (m : mem) : outcome (deq * mem) :=
  p <~ obj_ptr d (dfirst d) m ; m1 <~ dtor p m ;
  Ok (decrease {| dblocks := dblocks d; dbs := dbs d; dsize := dsize d; dfirst := w64 (dfirst d + 1); dlast := dlast d |}, m1).
(** 194-197. *)
Definition pop_back (d : deq) (m : mem) : outcome (deq * mem) :=
  p <~ obj_ptr d (dlast d) m ; m1 <~ dtor p m ;
  Ok (decrease {| dblocks := dblocks d; dbs := dbs d; dsize := dsize d; dfirst := dfirst d; dlast := w64 (dlast d - 1) |}, m1).

(** 198-204. *)
Definition dempty (d : deq) : bool := dsize d =? 0.
(** 206-220: iterators are indexes; end() is last_ + 1. A loop from begin() by ++ until it equals
    end() runs end - begin times. *)
Definition dbegin (d : deq) : Z := dfirst d.
(** as above, 206-220 *)
Definition dend (d : deq) : Z := w64 (dlast d + 1).
(** as above, 206-220 *)
Definition steps (d : deq) : nat := Z.to_nat (w64 (dend d - dbegin d)).
(** 149-155, 27-32: both operator[] and the iterators index from the start of the first block. *)
Definition dget (i : Z) (d : deq) (m : mem) : outcome (option val) := p <~ obj_ptr d i m ; load p m.
(** 157-171. *)
Definition dfront (d : deq) (m : mem) : outcome (option val) := dget (dfirst d) d m.
(** as above, 157-171 *)
Definition dback (d : deq) (m : mem) : outcome (option val) := dget (dlast d) d m.
(** Reading all elements in order. *)
Fixpoint iterate (k : nat) (i : Z) (d : deq) (m : mem) : outcome (list (option val)) :=
  match k with
  | O => Ok []
  | S k' => v <~ dget i d m ; r <~ iterate k' (w64 (i + 1)) d m ; Ok (v :: r)
  end.
(** model only: reading all elements in order *)
Definition diter (d : deq) (m : mem) : outcome (list (option val)) := iterate (steps d) (dbegin d) d m.

(** allocator.hpp 18-25 with deque iterators. *)
Fixpoint destroy_iter (k : nat) (i : Z) (d : deq) (m : mem) : outcome mem :=
  match k with
  | O => Ok m
  | S k' => p <~ obj_ptr d i m ; m1 <~ dtor p m ; destroy_iter k' (w64 (i + 1)) d m1
  end.
(** 221-228. *)
Definition dclear (d : deq) (m : mem) : outcome (deq * mem) :=
  if dempty d then Ok (d, m)
  else
    m1 <~ destroy_iter (steps d) (dbegin d) d m ;
    let mid := dbs d / 2 * 16 in
    Ok ({| dblocks := dblocks d; dbs := dbs d; dsize := 0; dfirst := mid; dlast := mid |}, m1).

(** 138-140: for (int i = 0; i < block_size_; i++). *)
Fixpoint free_blocks (k : nat) (i : Z) (p : ptr) (m : mem) : outcome mem :=
  match k with
  | O => Ok m
  | S k' =>
      q <~ padd p i ; b <~ load_ptr q m ; m1 <~ free_buf (Ptr b 0) m ;
      if i =? 2 ^ 31 - 1 then UB else free_blocks k' (i + 1) p m1
  end.
(** 135-142. *)
Definition ddestroy (d : deq) (m : mem) : outcome mem :=
  ' (d1, m1) <~ dclear d m ;
  m2 <~ free_blocks (Z.to_nat (dbs d1)) 0 (dblocks d1) m1 ;
  free_ptrs (dblocks d1) m2.

(** 230-236. *)
Definition dswap (d e : deq) : deq * deq := (e, d).
(** 121-122: for (auto& it : rhs) push_back(it). *)
Fixpoint copy_iter (k : nat) (i : Z) (rhs d : deq) (m : mem) : outcome (deq * mem) :=
  match k with
  | O => Ok (d, m)
  | S k' =>
      p <~ obj_ptr rhs i m ; ' (d1, m1) <~ emplace_back (ARef p) d m ;
      copy_iter k' (w64 (i + 1)) rhs d1 m1
  end.
(** 119-123. *)
Definition dcopy (rhs : deq) (m : mem) : outcome (deq * mem) := copy_iter (steps rhs) (dbegin rhs) rhs deq0 m.
(** 125-128: the new deque and what is left of rhs. *)
Definition dmove (rhs : deq) : deq * deq := let '(rhs', this) := dswap rhs deq0 in (this, rhs').
(** 132-133. *)
Fixpoint push_all (l : list A) (d : deq) (m : mem) : outcome (deq * mem) :=
  match l with
  | [] => Ok (d, m)
  | a :: l' => ' (d1, m1) <~ emplace_back (AVal (inl a)) d m ; push_all l' d1 m1
  end.
(** 130-134. *)
Definition dinit (l : list A) (m : mem) : outcome (deq * mem) := push_all l deq0 m.
(** 144-147: [rhs] is the parameter; it swaps with this and is destroyed. *)
Definition assign_from (this rhs : deq) (m : mem) : outcome (deq * mem) :=
  let '(rhs', this') := dswap rhs this in
  m1 <~ ddestroy rhs' m ; Ok (this', m1).

(** Programs: deque variables are numbered. [DPushBackOf x i] pushes a reference to the element at
    iterator begin() + i of the same deque. *)
Inductive dcmd :=
| DNew (x : nat) | DInit (x : nat) (l : list A) | DCopy (x y : nat) | DMove (x y : nat) | DDestroy (x : nat)
| DPushBack (x : nat) (a : A) | DPushFront (x : nat) (a : A)
| DPushBackOf (x : nat) (i : Z) | DPushFrontOf (x : nat) (i : Z)
| DPopBack (x : nat) | DPopFront (x : nat) | DClear (x : nat)
| DAssign (x y : nat) | DMoveAssign (x y : nat) | DSwap (x y : nat).

Notation env := (gmap nat deq).
(** model only: a variable of the program *)
Definition var (e : env) (x : nat) : outcome deq := of_option (e !! x).
(** model only: a variable of the program *)
Definition declare (e : env) (x : nat) (r : outcome (deq * mem)) : outcome (env * mem) :=
  match e !! x with
  | Some _ => UB
  | None => ' (v, m) <~ r ; Ok (<[x := v]> e, m)
  end.
(** model only: a variable of the program *)
Definition update (e : env) (x : nat) (f : deq -> outcome (deq * mem)) : outcome (env * mem) :=
  v <~ var e x ; ' (v', m) <~ f v ; Ok (<[x := v']> e, m).

(** model only: one operation of a program *)
Definition dstep (s : env * mem) (c : dcmd) : outcome (env * mem) :=
  let '(e, m) := s in
  match c with
  | DNew x => declare e x (Ok (deq0, m))
  | DInit x l => declare e x (dinit l m)
  | DCopy x y => declare e x (w <~ var e y ; dcopy w m)
  | DMove x y => w <~ var e y ; let '(v, w') := dmove w in declare (<[y := w']> e) x (Ok (v, m))
  | DDestroy x => v <~ var e x ; m1 <~ ddestroy v m ; Ok (delete x e, m1)
  | DPushBack x a => update e x (fun d => emplace_back (AVal (inl a)) d m)
  | DPushFront x a => update e x (fun d => emplace_front (AVal (inl a)) d m)
  | DPushBackOf x i => update e x (fun d => p <~ obj_ptr d (dbegin d + i) m ; emplace_back (ARef p) d m)
  | DPushFrontOf x i => update e x (fun d => p <~ obj_ptr d (dbegin d + i) m ; emplace_front (ARef p) d m)
  | DPopBack x => update e x (fun d => pop_back d m)
  | DPopFront x => update e x (fun d => pop_front d m)
  | DClear x => update e x (fun d => dclear d m)
  | DAssign x y => w <~ var e y ; ' (t, m1) <~ dcopy w m ; update e x (fun d => assign_from d t m1)
  | DMoveAssign x y =>
      w <~ var e y ; let '(t, w') := dmove w in update (<[y := w']> e) x (fun d => assign_from d t m)
  | DSwap x y =>
      v <~ var e x ; w <~ var e y ;
      let '(v', w') := dswap v w in Ok (<[y := w']> (<[x := v']> e), m)
  end.
(** model only: the operations of a program in order *)
Fixpoint drun (s : env * mem) (cs : list dcmd) : outcome (env * mem) :=
  match cs with
  | [] => Ok s
  | c :: cs' => s1 <~ dstep s c ; drun s1 cs'
  end.

(** utility.hpp 37-41 on two deques: T tmp(move(lhs)); lhs = move(rhs); rhs = move(tmp); ~tmp. *)
Definition std_swap (l r : deq) (m : mem) : outcome (deq * deq * mem) :=
  let '(tmp, l1) := dmove l in
  let '(t, r1) := dmove r in
  ' (l2, m1) <~ assign_from l1 t m ;
  let '(t', tmp') := dmove tmp in
  ' (r2, m2) <~ assign_from r1 t' m1 ;
  m3 <~ ddestroy tmp' m2 ;
  Ok (l2, r2, m3).

(** queue.hpp: push 33-39 and emplace 44-47, pop 41-43, swap 29-31, operator= 24-27 (the parameter is
    a copy, or takes over a moved queue), constructors 16-22. *)
Inductive qcmd :=
| QNew (x : nat) | QCopy (x y : nat) | QMove (x y : nat) | QDestroy (x : nat)
| QPush (x : nat) (a : A) | QPop (x : nat) | QAssign (x y : nat) | QSwap (x y : nat).
(** operator=: rhs.swap( *this), then rhs is destroyed. *)
Definition q_assign (this rhs : deq) (m : mem) : outcome (deq * mem) :=
  ' (rhs', this', m1) <~ std_swap rhs this m ; m2 <~ ddestroy rhs' m1 ; Ok (this', m2).
Definition qstep (s : env * mem) (c : qcmd) : outcome (env * mem) :=
  let '(e, m) := s in
  match c with
  | QNew x => declare e x (Ok (deq0, m))
  | QCopy x y => declare e x (w <~ var e y ; dcopy w m)
  | QMove x y => w <~ var e y ; let '(v, w') := dmove w in declare (<[y := w']> e) x (Ok (v, m))
  | QDestroy x => v <~ var e x ; m1 <~ ddestroy v m ; Ok (delete x e, m1)
  | QPush x a => update e x (fun d => emplace_back (AVal (inl a)) d m)
  | QPop x => update e x (fun d => pop_front d m)
  | QAssign x y => w <~ var e y ; ' (t, m1) <~ dcopy w m ; update e x (fun d => q_assign d t m1)
  | QSwap x y =>
      v <~ var e x ; w <~ var e y ;
      if Nat.eqb x y then
        (* lhs and rhs are the same object *)
        let '(tmp, v1) := dmove v in
        let '(t, v2) := dmove v1 in
        ' (v3, m1) <~ assign_from v2 t m ;
        let '(t', tmp') := dmove tmp in
        ' (v4, m2) <~ assign_from v3 t' m1 ;
        m3 <~ ddestroy tmp' m2 ;
        Ok (<[x := v4]> e, m3)
      else ' (v', w', m1) <~ std_swap v w m ; Ok (<[y := w']> (<[x := v']> e), m1)
  end.
(** model only: the operations of a program in order *)
Fixpoint qrun (s : env * mem) (cs : list qcmd) : outcome (env * mem) :=
  match cs with
  | [] => Ok s
  | c :: cs' => s1 <~ qstep s c ; qrun s1 cs'
  end.

(** stack.hpp: push 32-38 and emplace 60-63, pop 48-50, swap 23-25 (deque::swap), operator= 27-30,
    constructors 15-21. *)
Inductive kcmd :=
| KNew (x : nat) | KCopy (x y : nat) | KMove (x y : nat) | KDestroy (x : nat)
| KPush (x : nat) (a : A) | KPop (x : nat) | KAssign (x y : nat) | KSwap (x y : nat).
(** model only: one operation of a program *)
Definition kstep (s : env * mem) (c : kcmd) : outcome (env * mem) :=
  let '(e, m) := s in
  match c with
  | KNew x => declare e x (Ok (deq0, m))
  | KCopy x y => declare e x (w <~ var e y ; dcopy w m)
  | KMove x y => w <~ var e y ; let '(v, w') := dmove w in declare (<[y := w']> e) x (Ok (v, m))
  | KDestroy x => v <~ var e x ; m1 <~ ddestroy v m ; Ok (delete x e, m1)
  | KPush x a => update e x (fun d => emplace_back (AVal (inl a)) d m)
  | KPop x => update e x (fun d => pop_back d m)
  | KAssign x y => w <~ var e y ; ' (t, m1) <~ dcopy w m ; update e x (fun d => assign_from d t m1)
  | KSwap x y =>
      v <~ var e x ; w <~ var e y ;
      let '(v', w') := dswap v w in Ok (<[y := w']> (<[x := v']> e), m)
  end.
(** model only: the operations of a program in order *)
Fixpoint krun (s : env * mem) (cs : list kcmd) : outcome (env * mem) :=
  match cs with
  | [] => Ok s
  | c :: cs' => s1 <~ kstep s c ; krun s1 cs'
  end.
End deque.
Arguments dcmd : clear implicits.
Arguments qcmd : clear implicits.
Arguments kcmd : clear implicits.
