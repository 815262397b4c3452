(** Model of the copy and move members of the classes in estl, and of the choice a compiler makes among
    them: which of  X b(a)  and  b = a  compile, for [a] a variable, a constant or a temporary.

    The rules of the language used are those for implicitly declared members ([class.copy.ctor],
    [class.copy.assign] of C++17) and for the ranking of one argument of the class's own type
    ([over.match.best], [over.ics.rank]). A type is known by which of the six expressions it
    supports. Simplified: an element type is constructible from its own type only, not from a tuple or a
    node around it; swap of two elements is the general one (utility.hpp:36-41); volatile is left out. *)
From Coq Require Import List Bool.
Import ListNotations.

(** The argument: a variable, a constant, or a temporary (or the result of estd::move). *)
Inductive cat := LV | CLV | RV.
(** What a type X supports:  X b(a)  and  b = a  for every [a]. *)
Record caps := { cons : cat -> bool; asg : cat -> bool }.

(** The parameter of a candidate, for an argument of the class's own type:
    const X&, X&&, X; the same with X's template arguments deduced; T&& with T deduced. *)
Inductive par := PConst | PRRef | PVal | PTConst | PTRRef | PTVal | PFwd.
(** A candidate: parameter, whether it is deleted, and whether its body compiles for the argument. *)
Record cand := { cpar : par; cdel : bool; cbody : cat -> bool }.

(** C++: overload resolution between the candidates *)
Definition template (p : par) : bool := match p with PTConst | PTRRef | PTVal | PFwd => true | _ => false end.
(** X&& takes temporaries only. *)
Definition viable (c : cat) (p : par) : bool :=
  match p, c with (PRRef | PTRRef), RV => true | (PRRef | PTRRef), _ => false | _, _ => true end.
(** How the parameter is bound. *)
Inductive bind := ByLRef | ByCRef | ByRRef | ByCopy.
(** C++: overload resolution between the candidates *)
Definition binding (c : cat) (p : par) : bind :=
  match p, c with
  | (PVal | PTVal), _ => ByCopy
  | (PConst | PTConst), _ => ByCRef
  | (PRRef | PTRRef), _ => ByRRef
  | PFwd, LV => ByLRef | PFwd, CLV => ByCRef | PFwd, RV => ByRRef
  end.
(** [over.ics.rank]: X&& before const X& for temporaries, X& before const X& for variables; a copy is
    neither better nor worse than a reference. *)
Definition closer (x y : bind) : bool :=
  match x, y with (ByRRef | ByLRef), ByCRef => true | _, _ => false end.
(** [temp.func.order]: const X<U>&, X<U>&& and X<U> are more special than T&&. *)
Definition special (x y : par) : bool :=
  match x, y with (PTConst | PTRRef | PTVal), PFwd => true | _, _ => false end.
(** [over.match.best] *)
Definition beats (c : cat) (x y : par) : bool :=
  if closer (binding c x) (binding c y) then true
  else if closer (binding c y) (binding c x) then false
  else if negb (template x) && template y then true
  else if template x && negb (template y) then false
  else special x y.
(** The candidate that beats all others; none if the call is ambiguous or nothing is viable. *)
Fixpoint pick (c : cat) (before rest : list cand) : option cand :=
  match rest with
  | [] => None
  | x :: rest =>
      if forallb (fun y => beats c (cpar x) (cpar y)) (before ++ rest) then Some x
      else pick c (before ++ [x]) rest
  end.
(** C++: overload resolution between the candidates *)
Definition resolve (c : cat) (l : list cand) : option cand :=
  pick c [] (filter (fun x => viable c (cpar x)) l).

(** How a class declares one of its four special members. *)
Inductive decl := Silent | Default | Delete | Own (p : par) (body : cat -> bool).
(** C++: special members *)
Definition declared (d : decl) : bool := match d with Silent => false | _ => true end.
(** A class: copy constructor, move constructor, copy assignment, move assignment, whether it declares a
    destructor, its further constructors and assignments that take one argument of its own type, and its bases and members. *)
Record cls := {
  cc : decl; mc : decl; ca : decl; ma : decl; dtor : bool;
  ctors : list cand; asgs : list cand; parts : list caps }.

(** C++: special members *)
Definition yes (c : cat) : bool := true.
(** C++: special members *)
Definition no (c : cat) : bool := false.
(** All parts can be built, or assigned to, from a constant or from a temporary. *)
Definition all_cons (c : cat) (l : list caps) : bool := forallb (fun a => cons a c) l.
(** C++: special members *)
Definition all_asg (c : cat) (l : list caps) : bool := forallb (fun a => asg a c) l.

(** [class.copy.ctor]/6-7 *)
Definition copy_ctor (k : cls) : list cand :=
  match cc k with
  | Own p b => [{| cpar := p; cdel := false; cbody := b |}]
  | Delete => [{| cpar := PConst; cdel := true; cbody := yes |}]
  | Default => [{| cpar := PConst; cdel := negb (all_cons CLV (parts k)); cbody := yes |}]
  | Silent =>
      [{| cpar := PConst; cdel := declared (mc k) || declared (ma k) || negb (all_cons CLV (parts k)); cbody := yes |}]
  end.
(** [class.copy.ctor]/8-10: one that is defaulted and would be deleted is ignored *)
Definition move_ctor (k : cls) : list cand :=
  let d := if all_cons RV (parts k) then [{| cpar := PRRef; cdel := false; cbody := yes |}] else [] in
  match mc k with
  | Own p b => [{| cpar := p; cdel := false; cbody := b |}]
  | Delete => [{| cpar := PRRef; cdel := true; cbody := yes |}]
  | Default => d
  | Silent => if declared (cc k) || declared (ca k) || declared (ma k) || dtor k then [] else d
  end.
(** [class.copy.assign]/2, 7 *)
Definition copy_asg (k : cls) : list cand :=
  match ca k with
  | Own p b => [{| cpar := p; cdel := false; cbody := b |}]
  | Delete => [{| cpar := PConst; cdel := true; cbody := yes |}]
  | Default => [{| cpar := PConst; cdel := negb (all_asg CLV (parts k)); cbody := yes |}]
  | Silent =>
      [{| cpar := PConst; cdel := declared (mc k) || declared (ma k) || negb (all_asg CLV (parts k)); cbody := yes |}]
  end.
(** [class.copy.assign]/4, 7 *)
Definition move_asg (k : cls) : list cand :=
  let d := if all_asg RV (parts k) then [{| cpar := PRRef; cdel := false; cbody := yes |}] else [] in
  match ma k with
  | Own p b => [{| cpar := p; cdel := false; cbody := b |}]
  | Delete => [{| cpar := PRRef; cdel := true; cbody := yes |}]
  | Default => d
  | Silent => if declared (cc k) || declared (mc k) || declared (ca k) || dtor k then [] else d
  end.

(** X b(a) *)
Definition constructs (k : cls) (c : cat) : bool :=
  match resolve c (copy_ctor k ++ move_ctor k ++ ctors k) with
  | Some f => negb (cdel f) && cbody f c
  | None => false
  end.
(** b = a; a parameter taken by value is built first *)
Definition assigns (k : cls) (c : cat) : bool :=
  match resolve c (copy_asg k ++ move_asg k ++ asgs k) with
  | Some f => negb (cdel f) && cbody f c && (match cpar f with PVal | PTVal => constructs k c | _ => true end)
  | None => false
  end.
(** C++: special members *)
Definition made (k : cls) : caps := {| cons := constructs k; asg := assigns k |}.

(** b = v for [v] of another type that converts to the class and [own] telling that the class itself declares operator=
    for it. An operator= of a base is hidden by the class's implicit ones, so what is left is to convert and assign. *)
Definition takes_value (k : cls) (own : bool) : bool := own || assigns k RV.

(** swap of two elements, utility.hpp:36-41 *)
Definition swaps (a : caps) : bool := cons a RV && asg a RV.
(** pointers, integers *)
Definition scalar : caps := {| cons := yes; asg := yes |}.

(** pair.hpp:11-44: 12, 13, 17-18, 20-21; 23-28, 30-35 *)
Definition pair_cls (a b : caps) : cls := {|
  cc := Default; mc := Default; ca := Silent; ma := Silent; dtor := false;
  ctors := [ {| cpar := PTConst; cdel := false; cbody := fun _ => cons a CLV && cons b CLV |};
             {| cpar := PTRRef; cdel := false; cbody := fun _ => cons a RV && cons b RV |} ];
  asgs := [ {| cpar := PTConst; cdel := false; cbody := fun _ => asg a CLV && asg b CLV |};
            {| cpar := PTRRef; cdel := false; cbody := fun _ => asg a RV && asg b RV |} ];
  parts := [a; b] |}.

(** tuple.hpp:39-59, 65-81: 45-46 takes anything and hands it to the element *)
Definition tuple_value_cls (a : caps) : cls := {|
  cc := Default; mc := Default; ca := Silent; ma := Silent; dtor := false;
  ctors := [ {| cpar := PFwd; cdel := false; cbody := no |} ]; asgs := [];
  parts := [a] |}.
(** tuple.hpp:86-115; 93-97 asks is_constructible the wrong way round and is off for one argument of this
    type. The bodies 105-114 cast away const and use the assignment of tuple_value, which is deleted. *)
Definition tuple_impl_cls (l : list caps) : cls := {|
  cc := Default; mc := Default; ca := Own PConst no; ma := Own PRRef no; dtor := false;
  ctors := []; asgs := [];
  parts := map (fun a => made (tuple_value_cls a)) l |}.
(** tuple.hpp:117-163: 122, 123; 127-129, on for the own type because of 98-103; 131-135; 140-147 with 148-150, 31-34, 187-190 *)
Definition tuple_base (l : list caps) (a1 a2 : decl) : cls := {|
  cc := Default; mc := Default; ca := a1; ma := a2; dtor := false;
  ctors := [ {| cpar := PFwd; cdel := false;
                cbody := fun c => match c with RV => all_cons RV l | _ => all_cons CLV l end |};
             {| cpar := PTConst; cdel := false; cbody := fun _ => all_cons CLV l |};
             {| cpar := PTRRef; cdel := false; cbody := fun _ => all_cons RV l |} ];
  asgs := []; parts := [made (tuple_impl_cls l)] |}.
(** as above, tuple.hpp:117-163; 127-129; 98-103; 131-135; 140-147; 148-150, 31-34, 187-190 *)
Definition tuple_cls (l : list caps) : cls :=
  let built := constructs (tuple_base l Silent Silent) in
  tuple_base l (Own PConst (fun _ => built CLV && forallb swaps l)) (Own PRRef (fun _ => built RV && forallb swaps l)).

(** Containers of elements [a]. vector.hpp:49-58, 60-63, 65-71, 203-206; deque.hpp:119-123, 125-128, 135-142,
    144-147; list.hpp:247-252, 259-262, 264-267, 462-464; rb_tree.hpp:612-617, 619-622, 629-632, 634-637 *)
Definition container_cls (a : caps) : cls := {|
  cc := Own PConst (fun _ => cons a CLV); mc := Own PRRef yes; ca := Own PVal yes; ma := Silent; dtor := true;
  ctors := []; asgs := []; parts := [scalar] |}.
(** Adapters around a container [a]. set.hpp:26-30, 42-45, 174-178, 190-193; queue.hpp:18-22, 24-31; stack.hpp:17-30. Only the one of
    queue swaps the containers by utility.hpp:36-41; the others use the container's own. *)
Definition adapter_cls (a : caps) (general : bool) : cls := {|
  cc := Own PConst (fun _ => cons a CLV); mc := Own PRRef (fun _ => cons a RV);
  ca := Own PVal (fun _ => if general then swaps a else true); ma := Silent; dtor := false;
  ctors := []; asgs := []; parts := [a] |}.

(** memory.hpp:91-177 with a deleter [d]: 109-111, 113-114, 116, 123-127, 172-173. The deleter goes into the tuple by
    tuple.hpp:125, which copies: the pointer is a variable in memory.hpp:70-71, and that turns 127-129 off (DeleterModel.tuple_from). *)
Definition unique_cls (d : caps) : cls := {|
  cc := Delete; mc := Own PRRef (fun _ => cons d CLV); ca := Delete; ma := Own PRRef (fun _ => asg d RV); dtor := true;
  ctors := [ {| cpar := PTRRef; cdel := false; cbody := fun _ => cons d CLV |} ]; asgs := []; parts := [] |}.
(** memory.hpp:411-468 and 474-534: 420-425, 431-434, 436-439, 460-462; 483-493, 502-505, 526-528 *)
Definition count_cls : cls := {|
  cc := Own PConst yes; mc := Own PRRef yes; ca := Own PVal yes; ma := Silent; dtor := true;
  ctors := []; asgs := []; parts := [scalar] |}.
(** memory.hpp:547-669: 556-562, 578-586, 588-599 *)
Definition shared_cls : cls := {|
  cc := Own PConst (fun _ => constructs count_cls CLV); mc := Own PRRef (fun _ => constructs count_cls RV);
  ca := Own PVal (fun _ => swaps (made count_cls)); ma := Silent; dtor := false;
  ctors := [ {| cpar := PTConst; cdel := false; cbody := yes |}; {| cpar := PTRRef; cdel := false; cbody := yes |} ];
  asgs := [ {| cpar := PTVal; cdel := false; cbody := yes |} ]; parts := [scalar; made count_cls] |}.
(** memory.hpp:671-728: 681-687, 709-717 *)
Definition weak_cls : cls := {|
  cc := Own PConst (fun _ => constructs count_cls CLV); mc := Own PRRef (fun _ => constructs count_cls RV);
  ca := Own PVal (fun _ => swaps (made count_cls)); ma := Silent; dtor := false;
  ctors := []; asgs := []; parts := [scalar; made count_cls] |}.
(** memory.hpp:786-806 *)
Definition from_this_cls : cls := {|
  cc := Silent; mc := Silent; ca := Silent; ma := Silent; dtor := true;
  ctors := []; asgs := []; parts := [made weak_cls] |}.

(** any.hpp:5-103: 10-12 and 17-19, the latter off for any itself; 14-15, 21-24, 30-33; 40-44, 46-49.
    The body of 10-12 does not compile. *)
Definition any_cls : cls := {|
  cc := Own PConst yes; mc := Own PRRef yes; ca := Own PVal yes; ma := Silent; dtor := true;
  ctors := [ {| cpar := PTConst; cdel := false; cbody := no |} ];
  asgs := [ {| cpar := PFwd; cdel := false; cbody := yes |} ]; parts := [scalar] |}.
(** any a(v) for [v] of another type [t]: const T& (10-12) and T&& (17-19); 19 moves from [v] *)
Definition any_of (t : caps) (c : cat) : bool :=
  match resolve c [ {| cpar := PTConst; cdel := false; cbody := no |};
                    {| cpar := PFwd; cdel := false; cbody := fun c => match c with CLV => cons t CLV | _ => cons t RV end |} ] with
  | Some f => cbody f c
  | None => false
  end.
(** functional.hpp:108-155: 117-123, 130-139, 148-151; 113-115 is off for function itself *)
Definition function_cls : cls := {|
  cc := Own PConst yes; mc := Own PRRef yes; ca := Own PVal yes; ma := Silent; dtor := true;
  ctors := []; asgs := [ {| cpar := PFwd; cdel := false; cbody := yes |} ]; parts := [scalar] |}.
(** defer.hpp:6-40 with a callable [f]: 12-13, 15-16, 18-21, 27-35 *)
Definition defer_cls (f : caps) : cls := {|
  cc := Own PConst (fun _ => cons f CLV); mc := Own PRRef (fun _ => cons f RV);
  ca := Own PVal (fun _ => swaps f); ma := Silent; dtor := true;
  ctors := []; asgs := []; parts := [f; scalar] |}.

(** array.hpp:6-78, bitset.hpp:7-58, iterator.hpp:72-198 (normal_iterator), deque.hpp:12-98, list.hpp:115-225, memory.hpp:60-88 of parts [l]: nothing declared *)
Definition plain_cls (l : list caps) : cls := {|
  cc := Silent; mc := Silent; ca := Silent; ma := Silent; dtor := false; ctors := []; asgs := []; parts := l |}.
(** string_view.hpp:28-29 *)
Definition view_cls : cls := {|
  cc := Default; mc := Silent; ca := Default; ma := Silent; dtor := false; ctors := []; asgs := []; parts := [scalar; scalar] |}.
(** iterator.hpp:217-222 around an iterator [a] *)
Definition reverse_cls (a : caps) : cls := {|
  cc := Own PConst (fun _ => cons a CLV); mc := Silent; ca := Default; ma := Silent; dtor := false;
  ctors := [ {| cpar := PTConst; cdel := false; cbody := fun _ => cons a RV |} ]; asgs := []; parts := [a] |}.

(** utility.hpp:24-34 *)
Definition nocopy_cls : cls := {|
  cc := Delete; mc := Silent; ca := Delete; ma := Silent; dtor := true; ctors := []; asgs := []; parts := [] |}.
(** atomic.hpp:22-215 of a value [a], and 220-266, which inherit the constructors only; 268-339 *)
Definition atomic_impl_cls (a : caps) : cls := plain_cls [made nocopy_cls; a].
(** as above, atomic.hpp:22-215; 220-266; 268-339 *)
Definition atomic_cls (a : caps) : cls := plain_cls [made (atomic_impl_cls a)].
(** as above, atomic.hpp:22-215; 220-266; 268-339 *)
Definition atomic_bool_cls : cls := plain_cls [made nocopy_cls; made (atomic_impl_cls scalar)].
(** The assignments of a value: atomic<T> declares none of its own (131-139 are the base's); atomic<bool> does (276-282). *)
Definition atomic_takes (a : caps) : bool := takes_value (atomic_cls a) false.
(** as above, 131-139; 276-282 *)
Definition atomic_bool_takes : bool := takes_value atomic_bool_cls true.
