(** Threads sharing one object through shared_ptr and weak_ptr: the counters of estl/memory.hpp:326-373
    under interleaving.

    Each thread has its own handles; all belong to one control block. An operation is cut into the
    accesses it makes to the block and the object, in program order; one such access is one step, and any
    thread may make the next one. The atomics (estl/atomic.hpp over the compiler's built-ins) are taken as
    sequentially consistent. Between operations a thread may start any operation its handles allow, so a
    schedule stands for every program. A handle may also be handed to another thread. The managed class is
    a plain one with the default deleter. An access to the freed block or the destroyed object is [UB]. *)
From stdpp Require Import list.
From Coq Require Import ZArith.
From Verif Require Import Base.
Local Open Scope Z_scope.

(** model only: unsigned 64-bit arithmetic *)
Definition wrap (z : Z) : Z := z mod 2 ^ 64.

(** Where a thread stands inside an operation:
    [Dispose] at memory.hpp:451, [WeakRel] at 453, [Free] at 454 (or 513 when called by a weak handle),
    [Locking c] at the head of the loop 351-355 with [c] in the variable count. *)
Inductive pc := Idle | Dispose | WeakRel | Free | Locking (count : Z).
(** model only: what a thread owns and where it stands *)
Record thread := { shn : nat; wkn : nat; at_ : pc }.
(** [sc], [wc]: the counters. [alive], [there]: object and block exist. [ndes], [nfre]: how often they were
    destroyed and freed. *)
Record world := {
  sc : Z; wc : Z; alive : bool; there : bool; ndes : nat; nfre : nat; threads : list thread }.

Inductive action :=
| CopyS         (* shared_ptr from a shared_ptr: 556-557, 420-425, 344-346 *)
| CopyWS        (* weak_ptr from a shared_ptr: 689-691, 495-500, 341-343 *)
| CopyW         (* weak_ptr from a weak_ptr: 681-682, 483-488 *)
| DropS         (* ~shared_ptr up to the test in 450 *)
| DropW         (* ~weak_ptr up to the test in 512 *)
| Deref         (* a use of the object through a shared_ptr: 634-640 *)
| Count         (* use_count() of some handle: 611-613 *)
| GiveS (j : nat) | GiveW (j : nat)   (* a handle is moved to thread j *)
| LockW         (* lock() of a weak_ptr up to the load in 349 *)
| Go.           (* the next access of the operation begun *)

Definition upd (i : nat) (t : thread) (sc' wc' : Z) (w : world) : world :=
  {| sc := sc'; wc := wc'; alive := alive w; there := there w; ndes := ndes w; nfre := nfre w;
     threads := <[i := t]> (threads w) |}.
(** An access to the block. *)
Definition touch (w w' : world) : option (outcome world) := Some (if there w then Ok w' else UB).

(** model only: one access of thread i *)
Definition exec (i : nat) (a : action) (w : world) : option (outcome world) :=
  t ← threads w !! i;
  match a, at_ t with
  | CopyS, Idle =>
      if (0 <? shn t)%nat
      then touch w (upd i {| shn := S (shn t); wkn := wkn t; at_ := Idle |} (wrap (sc w + 1)) (wc w) w)
      else None
  | CopyWS, Idle =>
      if (0 <? shn t)%nat
      then touch w (upd i {| shn := shn t; wkn := S (wkn t); at_ := Idle |} (sc w) (wrap (wc w + 1)) w)
      else None
  | CopyW, Idle =>
      if (0 <? wkn t)%nat
      then touch w (upd i {| shn := shn t; wkn := S (wkn t); at_ := Idle |} (sc w) (wrap (wc w + 1)) w)
      else None
  | DropS, Idle =>
      match shn t with
      | S n =>
          let r := wrap (sc w - 1) in
          touch w (upd i {| shn := n; wkn := wkn t; at_ := if r =? 0 then Dispose else Idle |} r (wc w) w)
      | O => None
      end
  | DropW, Idle =>
      match wkn t with
      | S n =>
          let r := wrap (wc w - 1) in
          touch w (upd i {| shn := shn t; wkn := n; at_ := if r =? 0 then Free else Idle |} (sc w) r w)
      | O => None
      end
  | Deref, Idle => if (0 <? shn t)%nat then Some (if alive w then Ok w else UB) else None
  | Count, Idle => if (0 <? shn t + wkn t)%nat then touch w w else None
  | GiveS j, Idle =>
      match shn t with
      | S n =>
          if decide (i = j) then None else
          u ← threads w !! j;
          match at_ u with
          | Idle =>
              Some (Ok (upd j {| shn := S (shn u); wkn := wkn u; at_ := Idle |} (sc w) (wc w)
                    (upd i {| shn := n; wkn := wkn t; at_ := Idle |} (sc w) (wc w) w)))
          | _ => None
          end
      | O => None
      end
  | GiveW j, Idle =>
      match wkn t with
      | S n =>
          if decide (i = j) then None else
          u ← threads w !! j;
          match at_ u with
          | Idle =>
              Some (Ok (upd j {| shn := shn u; wkn := S (wkn u); at_ := Idle |} (sc w) (wc w)
                    (upd i {| shn := shn t; wkn := n; at_ := Idle |} (sc w) (wc w) w)))
          | _ => None
          end
      | O => None
      end
  | LockW, Idle =>
      if (0 <? wkn t)%nat
      then touch w (upd i {| shn := shn t; wkn := wkn t; at_ := Locking (sc w) |} (sc w) (wc w) w)
      else None
  | Go, Dispose =>
      (* 388-392: ptr_ is read from the block and the object deleted *)
      Some (if there w && alive w
            then Ok {| sc := sc w; wc := wc w; alive := false; there := true; ndes := S (ndes w); nfre := nfre w;
                       threads := <[i := {| shn := shn t; wkn := wkn t; at_ := WeakRel |}]> (threads w) |}
            else UB)
  | Go, WeakRel =>
      let r := wrap (wc w - 1) in
      touch w (upd i {| shn := shn t; wkn := wkn t; at_ := if r =? 0 then Free else Idle |} (sc w) r w)
  | Go, Free =>
      Some (if there w
            then Ok {| sc := sc w; wc := wc w; alive := alive w; there := false; ndes := ndes w; nfre := S (nfre w);
                       threads := <[i := {| shn := shn t; wkn := wkn t; at_ := Idle |}]> (threads w) |}
            else UB)
  | Go, Locking c =>
      (* 352-353, then the exchange in 355: it succeeds when the counter equals count, and then the loop
         goes round; otherwise lock() returns true and 653-655 adopts the count *)
      if c =? 0 then Some (Ok (upd i {| shn := shn t; wkn := wkn t; at_ := Idle |} (sc w) (wc w) w))
      else if sc w =? c
      then touch w (upd i {| shn := shn t; wkn := wkn t; at_ := Locking c |} (wrap (c + 1)) (wc w) w)
      else touch w (upd i {| shn := S (shn t); wkn := wkn t; at_ := Idle |} (sc w) (wc w) w)
  | _, _ => None
  end.

(** A schedule; [None] when it asks for a step that is not there to be made. *)
Fixpoint sched (l : list (nat * action)) (w : world) : option (outcome world) :=
  match l with
  | [] => Some (Ok w)
  | (i, a) :: l =>
      match exec i a w with
      | Some (Ok w) => sched l w
      | r => r
      end
  end.
(** A fresh shared_ptr (564-568) in thread 0 of [n] threads. *)
Definition fresh (n : nat) : world :=
  {| sc := 1; wc := 1; alive := true; there := true; ndes := 0; nfre := 0;
     threads := {| shn := 1; wkn := 0; at_ := Idle |} :: replicate n {| shn := 0; wkn := 0; at_ := Idle |} |}.
