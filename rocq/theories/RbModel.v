(** Model of estl/rb_tree.hpp, and of set and multiset in estl/set.hpp which only forward to it.

    Nodes live at addresses 0, 1, ... in the order of creation; addresses are not reused. The header of a
    tree is a node without a value. Null is [None]. Following a null pointer, touching a node that was
    deleted or reading the value of a header is [UB]. [root()], [min_node()] and [max_node()] are references
    to the fields parent, left and right of the header, so the functions that get them by reference take
    the header [H] here. The value is its own key (set and multiset; get_key, 82-95, is the identity).
    [lt] is compare_. Each loop takes a bound on the number of rounds. *)
From stdpp Require Import gmap.
From Coq Require Import ZArith.
From Verif Require Import Base.
Local Open Scope outcome_scope.

(** rb_tree.hpp:8-9 *)
Inductive color := Red | Black.
Global Instance color_eq_dec : EqDecision color. Proof. solve_decision. Defined.
Notation loc := nat.

Section rb.
Context {A : Type} (lt : A -> A -> bool).

(** 43-47, 80 *)
Record node := { col : color; lf : option loc; rt : option loc; pa : option loc; vl : option A }.
(** model only: nodes by address *)
Record heap := { cells : gmap loc node; made : nat }.

(** model only: access to one component of the state *)
Definition get (x : loc) (s : heap) : outcome node := of_option (cells s !! x).
(** model only: update of one component of the state *)
Definition put (x : loc) (n : node) (s : heap) : heap := {| cells := <[x := n]> (cells s); made := made s |}.
(** model only: update of one component of the state *)
Definition set_col (x : loc) (c : color) (s : heap) : outcome heap :=
  n <~ get x s ; Ok (put x {| col := c; lf := lf n; rt := rt n; pa := pa n; vl := vl n |} s).
(** model only: update of one component of the state *)
Definition set_lf (x : loc) (p : option loc) (s : heap) : outcome heap :=
  n <~ get x s ; Ok (put x {| col := col n; lf := p; rt := rt n; pa := pa n; vl := vl n |} s).
(** model only: update of one component of the state *)
Definition set_rt (x : loc) (p : option loc) (s : heap) : outcome heap :=
  n <~ get x s ; Ok (put x {| col := col n; lf := lf n; rt := p; pa := pa n; vl := vl n |} s).
(** model only: update of one component of the state *)
Definition set_pa (x : loc) (p : option loc) (s : heap) : outcome heap :=
  n <~ get x s ; Ok (put x {| col := col n; lf := lf n; rt := rt n; pa := p; vl := vl n |} s).
(** model only: access to one component of the state *)
Definition left (x : loc) (s : heap) : outcome (option loc) := n <~ get x s ; Ok (lf n).
(** model only: access to one component of the state *)
Definition right (x : loc) (s : heap) : outcome (option loc) := n <~ get x s ; Ok (rt n).
(** the parent where it is used as a node: it must not be null *)
Definition parent (x : loc) (s : heap) : outcome loc := n <~ get x s ; of_option (pa n).
(** 27-33 *)
Definition is_red (x : loc) (s : heap) : outcome bool := n <~ get x s ; Ok (bool_decide (col n = Red)).
(** p && p->is_red() *)
Definition red_at (p : option loc) (s : heap) : outcome bool :=
  match p with Some x => is_red x s | None => Ok false end.
(** if (p) p->set_color_black() *)
Definition blacken_at (p : option loc) (s : heap) : outcome heap :=
  match p with Some x => set_col x Black s | None => Ok s end.
(** model only: access to one component of the state *)
Definition key (x : loc) (s : heap) : outcome A := n <~ get x s ; of_option (vl n).

(** 307-310 *)
Definition is_lchild (x : loc) (s : heap) : outcome bool :=
  p <~ parent x s ; l <~ left p s ; Ok (bool_decide (l = Some x)).
(** 312-318 *)
Fixpoint tree_min (fuel : nat) (x : loc) (s : heap) : outcome loc :=
  match fuel with
  | O => Fuel
  | S f => l <~ left x s ; match l with Some y => tree_min f y s | None => Ok x end
  end.
(** 320-326 *)
Fixpoint tree_max (fuel : nat) (x : loc) (s : heap) : outcome loc :=
  match fuel with
  | O => Fuel
  | S f => r <~ right x s ; match r with Some y => tree_max f y s | None => Ok x end
  end.
(** 333-336 *)
Fixpoint next_up (fuel : nat) (x : loc) (s : heap) : outcome loc :=
  match fuel with
  | O => Fuel
  | S f => b <~ is_lchild x s ; p <~ parent x s ; if b : bool then Ok p else next_up f p s
  end.
(** 328-337 *)
Definition tree_next (fuel : nat) (x : loc) (s : heap) : outcome loc :=
  r <~ right x s ; match r with Some y => tree_min fuel y s | None => next_up fuel x s end.

(** root() 905-907; the pointer itself *)
Definition root (H : loc) (s : heap) : outcome (option loc) := n <~ get H s ; Ok (pa n).
(** 349-355, 371-377, 454-459 and 468-473: [y] takes the place of [x] under the parent of [x] *)
Definition replace (H : loc) (x : loc) (y : option loc) (s : heap) : outcome heap :=
  r <~ root H s ;
  if bool_decide (r = Some x) then set_pa H y s
  else
    b <~ is_lchild x s ; p <~ parent x s ;
    if b : bool then set_lf p y s else set_rt p y s.
(** 339-359 *)
Definition rotate_left (H x : loc) (s : heap) : outcome heap :=
  r <~ right x s ; y <~ of_option r ;
  l <~ left y s ;
  s <~ set_rt x l s ;
  l <~ left y s ;
  s <~ match l with Some z => set_pa z (Some x) s | None => Ok s end ;
  n <~ get x s ;
  s <~ set_pa y (pa n) s ;
  s <~ replace H x (Some y) s ;
  s <~ set_lf y (Some x) s ;
  set_pa x (Some y) s.
(** 361-381 *)
Definition rotate_right (H x : loc) (s : heap) : outcome heap :=
  l <~ left x s ; y <~ of_option l ;
  r <~ right y s ;
  s <~ set_lf x r s ;
  r <~ right y s ;
  s <~ match r with Some z => set_pa z (Some x) s | None => Ok s end ;
  n <~ get x s ;
  s <~ set_pa y (pa n) s ;
  s <~ replace H x (Some y) s ;
  s <~ set_pa x (Some y) s ;
  set_rt y (Some x) s.

(** 386-423, with the loop condition 386 *)
Fixpoint insert_loop (fuel : nat) (H x : loc) (s : heap) : outcome heap :=
  match fuel with
  | O => Fuel
  | S f =>
      r <~ root H s ;
      if bool_decide (r = Some x) then Ok s
      else
        p <~ parent x s ;
        pr <~ is_red p s ;
        if negb pr then Ok s
        else
          b <~ is_lchild p s ;
          g <~ parent p s ;
          if b : bool then
            uncle <~ right g s ;
            ur <~ red_at uncle s ;
            if ur : bool then
              s <~ set_col p Black s ;
              s <~ blacken_at uncle s ;
              s <~ set_col g Red s ;
              insert_loop f H g s
            else
              bx <~ is_lchild x s ;
              ' (x, s) <~ (if negb bx then s <~ rotate_left H p s ; Ok (p, s) else Ok (x, s)) ;
              (* 399-401: the parent is coloured twice, the grandparent not at all *)
              p <~ parent x s ;
              s <~ set_col p Black s ;
              s <~ set_col p Red s ;
              g <~ parent p s ;
              rotate_right H g s
          else
            uncle <~ left g s ;
            ur <~ red_at uncle s ;
            if ur : bool then
              s <~ set_col p Black s ;
              s <~ blacken_at uncle s ;
              s <~ set_col g Red s ;
              insert_loop f H g s
            else
              bx <~ is_lchild x s ;
              ' (x, s) <~ (if bx : bool then s <~ rotate_right H p s ; Ok (p, s) else Ok (x, s)) ;
              p <~ parent x s ;
              s <~ set_col p Black s ;
              g <~ parent p s ;
              s <~ set_col g Red s ;
              rotate_left H g s
  end.
(** 383-425 *)
Definition insert_rebalance (fuel : nat) (H x : loc) (s : heap) : outcome heap :=
  s <~ set_col x Red s ;
  s <~ insert_loop fuel H x s ;
  r <~ root H s ; r <~ of_option r ;
  set_col r Black s.

(** !p || !p->is_red() *)
Definition not_red (p : option loc) (s : heap) : outcome bool := b <~ red_at p s ; Ok (negb b).
(** 482-544; [x] may be null, [xp] is its parent. The result is x at the end of the loop. *)
Fixpoint erase_loop (fuel : nat) (H : loc) (x : option loc) (xp : loc) (s : heap) : outcome (option loc * heap) :=
  match fuel with
  | O => Fuel
  | S f =>
      r <~ root H s ;
      nr <~ not_red x s ;
      if bool_decide (x = r) || negb nr then Ok (x, s)
      else
        l <~ left xp s ; rr <~ right xp s ;
        if bool_decide (x = l) && bool_decide (is_Some rr) then
          b <~ of_option rr ;
          br <~ is_red b s ;
          ' (b, s) <~ (if br : bool then
                         s <~ set_col b Black s ;
                         s <~ set_col xp Red s ;
                         s <~ rotate_left H xp s ;
                         b <~ right xp s ; Ok (b, s)
                       else Ok (Some b, s)) ;
          match b with
          | None => Ok (x, s)
          | Some b =>
              bl <~ left b s ; brr <~ right b s ;
              n1 <~ not_red bl s ; n2 <~ not_red brr s ;
              if n1 && n2 then
                s <~ set_col b Red s ;
                p <~ parent xp s ;
                erase_loop f H (Some xp) p s
              else
                b <~ (if n2 : bool then
                        s <~ blacken_at bl s ;
                        s <~ set_col b Red s ;
                        s <~ rotate_right H b s ;
                        b <~ right xp s ; b <~ of_option b ; Ok (b, s)
                      else Ok (b, s)) ;
                let (b, s) := b : loc * heap in
                n <~ get xp s ;
                s <~ set_col b (col n) s ;
                s <~ set_col xp Black s ;
                brr <~ right b s ;
                s <~ blacken_at brr s ;
                s <~ rotate_left H xp s ;
                Ok (x, s)
          end
        else if bool_decide (x = rr) && bool_decide (is_Some l) then
          b <~ of_option l ;
          br <~ is_red b s ;
          ' (b, s) <~ (if br : bool then
                         s <~ set_col b Black s ;
                         s <~ set_col xp Red s ;
                         s <~ rotate_right H xp s ;
                         b <~ left xp s ; Ok (b, s)
                       else Ok (Some b, s)) ;
          match b with
          | None => Ok (x, s)
          | Some b =>
              bl <~ left b s ; brr <~ right b s ;
              n1 <~ not_red bl s ; n2 <~ not_red brr s ;
              if n1 && n2 then
                s <~ set_col b Red s ;
                p <~ parent xp s ;
                erase_loop f H (Some xp) p s
              else
                b <~ (if n1 : bool then
                        s <~ blacken_at brr s ;
                        s <~ set_col b Red s ;
                        s <~ rotate_left H b s ;
                        b <~ left xp s ; b <~ of_option b ; Ok (b, s)
                      else Ok (b, s)) ;
                let (b, s) := b : loc * heap in
                n <~ get xp s ;
                s <~ set_col b (col n) s ;
                s <~ set_col xp Black s ;
                bl <~ left b s ;
                s <~ blacken_at bl s ;
                s <~ rotate_right H xp s ;
                Ok (x, s)
          end
        else erase_loop f H x xp s
  end.
(** 432-480: unlink [z]. The result is x, xp and the colour of y at line 481. *)
Definition erase_unlink (fuel : nat) (H z : loc) (s : heap) : outcome (option loc * loc * color * heap) :=
  zl <~ left z s ; zr <~ right z s ;
  match zl, zr with
  | Some l, Some r =>
      (* 432: both children, y is the next node *)
      y <~ tree_next fuel z s ;
      yl <~ left y s ; yr <~ right y s ;
      let x := match yl with Some _ => yl | None => yr end in
      if bool_decide (y = z) then UB (* y != z whenever it terminates *)
      else
        s <~ set_pa l (Some y) s ;
        s <~ set_lf y (Some l) s ;
        ' (xp, s) <~ (if bool_decide (y = r) then Ok (y, s)
                      else
                        yp <~ parent y s ;
                        s <~ match x with Some x => set_pa x (Some yp) s | None => Ok s end ;
                        s <~ set_lf yp x s ;
                        s <~ set_rt y (Some r) s ;
                        s <~ set_pa r (Some y) s ;
                        Ok (yp, s)) ;
        s <~ replace H z (Some y) s ;
        nz <~ get z s ;
        s <~ set_pa y (pa nz) s ;
        ny <~ get y s ;
        nz <~ get z s ;
        s <~ set_col y (col nz) s ;
        s <~ set_col z (col ny) s ;
        Ok (x, xp, col ny, s)
  | _, _ =>
      (* 462-478: y = z *)
      let x := match zl with Some _ => zl | None => zr end in
      xp <~ parent z s ;
      s <~ match x with Some x => set_pa x (Some xp) s | None => Ok s end ;
      s <~ replace H z x s ;
      h <~ get H s ;
      s <~ (if bool_decide (lf h = Some z) then
              m <~ match x with None => Ok xp | Some x => tree_min fuel x s end ; set_lf H (Some m) s
            else Ok s) ;
      h <~ get H s ;
      s <~ (if bool_decide (rt h = Some z) then
              m <~ match x with None => Ok xp | Some x => tree_max fuel x s end ; set_rt H (Some m) s
            else Ok s) ;
      nz <~ get z s ;
      Ok (x, xp, col nz, s)
  end.
(** 427-549 *)
Definition erase_rebalance (fuel : nat) (H z : loc) (s : heap) : outcome heap :=
  ' (x, xp, c, s) <~ erase_unlink fuel H z s ;
  if bool_decide (c = Red) then Ok s
  else ' (x, s) <~ erase_loop fuel H x xp s ; blacken_at x s.

(** 166-182: the iterator is the node. [up] is the loop 173-177 with node and parent *)
Fixpoint inc_up (fuel : nat) (x p : loc) (s : heap) : outcome (loc * loc) :=
  match fuel with
  | O => Fuel
  | S f =>
      r <~ right p s ;
      if bool_decide (r = Some x) then q <~ parent p s ; inc_up f p q s else Ok (x, p)
  end.
(** as above, 166-182; 173-177 *)
Definition increment (fuel : nat) (x : loc) (s : heap) : outcome loc :=
  r <~ right x s ;
  match r with
  | Some y => tree_min fuel y s
  | None =>
      p <~ parent x s ;
      ' (x, p) <~ inc_up fuel x p s ;
      r <~ right x s ;
      Ok (if bool_decide (r = Some p) then x else p)
  end.
(** 194-197 *)
Fixpoint dec_up (fuel : nat) (x p : loc) (s : heap) : outcome loc :=
  match fuel with
  | O => Fuel
  | S f =>
      l <~ left p s ;
      if bool_decide (l = Some x) then q <~ parent p s ; dec_up f p q s else Ok p
  end.
(** 184-201 *)
Definition decrement (fuel : nat) (x : loc) (s : heap) : outcome loc :=
  p <~ parent x s ; np <~ get p s ; rd <~ is_red x s ;
  if bool_decide (pa np = Some x) && rd then r <~ right x s ; of_option r
  else
    l <~ left x s ;
    match l with
    | Some y => tree_max fuel y s
    | None => dec_up fuel x p s
    end.

(** 646-657: begin(); end() is the header *)
Definition tbegin (H : loc) (s : heap) : outcome loc := n <~ get H s ; of_option (lf n).
(** 551-569: n counts in a size_t; it cannot wrap before the nodes run out *)
Fixpoint dist_loop (fuel f : nat) (i j : loc) (s : heap) : outcome Z :=
  if bool_decide (i = j) then Ok 0%Z
  else match f with
       | O => Fuel
       | S f => i <~ increment fuel i s ; n <~ dist_loop fuel f i j s ; Ok (n + 1)%Z
       end.
(** as above, 551-569 *)
Definition distance (fuel : nat) (i j : loc) (s : heap) : outcome Z := dist_loop fuel fuel i j s.

(** 845-873, and the loop of find 679-688, 693-702 *)
Fixpoint lower_loop (fuel : nat) (k : A) (n : loc) (c : option loc) (s : heap) : outcome loc :=
  match c with
  | None => Ok n
  | Some c =>
      match fuel with
      | O => Fuel
      | S f =>
          v <~ key c s ;
          if negb (lt v k) then l <~ left c s ; lower_loop f k c l s
          else r <~ right c s ; lower_loop f k n r s
      end
  end.
(** as above, 845-873; 679-688, 693-702 *)
Definition lower_bound (fuel : nat) (H : loc) (k : A) (s : heap) : outcome loc :=
  r <~ root H s ; lower_loop fuel k H r s.
(** 875-902 *)
Fixpoint upper_loop (fuel : nat) (k : A) (n : loc) (c : option loc) (s : heap) : outcome loc :=
  match c with
  | None => Ok n
  | Some c =>
      match fuel with
      | O => Fuel
      | S f =>
          v <~ key c s ;
          if lt k v then l <~ left c s ; upper_loop f k c l s
          else r <~ right c s ; upper_loop f k n r s
      end
  end.
(** as above, 875-902 *)
Definition upper_bound (fuel : nat) (H : loc) (k : A) (s : heap) : outcome loc :=
  r <~ root H s ; upper_loop fuel k H r s.
(** 678-705 *)
Definition find (fuel : nat) (H : loc) (k : A) (s : heap) : outcome loc :=
  n <~ lower_bound fuel H k s ;
  if bool_decide (n = H) then Ok H else v <~ key n s ; Ok (if lt k v then H else n).
(** 766-771 *)
Definition equal_range_multi (fuel : nat) (H : loc) (k : A) (s : heap) : outcome (loc * loc) :=
  i <~ lower_bound fuel H k s ; j <~ upper_bound fuel H k s ; Ok (i, j).
(** 773-780; make_pair takes references (pair.hpp:75-78), so the second is read after it++ *)
Definition equal_range_unique (fuel : nat) (H : loc) (k : A) (s : heap) : outcome (loc * loc) :=
  i <~ find fuel H k s ;
  if bool_decide (i = H) then Ok (i, i) else j <~ increment fuel i s ; Ok (i, j).
(** 706-709, 710-712 *)
Definition count_multi (fuel : nat) (H : loc) (k : A) (s : heap) : outcome Z :=
  ' (i, j) <~ equal_range_multi fuel H k s ; distance fuel i j s.
(** as above, 706-709, 710-712 *)
Definition count_unique (fuel : nat) (H : loc) (k : A) (s : heap) : outcome Z :=
  i <~ find fuel H k s ; Ok (if bool_decide (i = H) then 0 else 1)%Z.

(** 991-995 *)
Definition create_node (v : A) (s : heap) : loc * heap :=
  (made s, {| cells := <[made s := {| col := Red; lf := None; rt := None; pa := None; vl := Some v |}]> (cells s);
              made := S (made s) |}).
(** 997-999 *)
Definition destory_node (x : loc) (s : heap) : outcome heap :=
  _ <~ get x s ; Ok {| cells := delete x (cells s); made := made s |}.
(** 923-935 and 937-945: [n] is node, [b] is on_left *)
Fixpoint pos_loop (fuel : nat) (k : A) (n : loc) (b : bool) (c : option loc) (s : heap) : outcome (loc * bool) :=
  match c with
  | None => Ok (n, b)
  | Some c =>
      match fuel with
      | O => Fuel
      | S f =>
          v <~ key c s ;
          let b := lt k v in
          c' <~ (if b then left c s else right c s) ;
          pos_loop f k c b c' s
      end
  end.
(** as above, 923-935; 937-945 *)
Definition insert_multi_pos (fuel : nat) (H : loc) (k : A) (s : heap) : outcome (loc * bool) :=
  r <~ root H s ; pos_loop fuel k H true r s.
(** 936-962 *)
Definition insert_unique_pos (fuel : nat) (H : loc) (k : A) (s : heap) : outcome (loc * bool * bool) :=
  ' (n, b) <~ insert_multi_pos fuel H k s ;
  bg <~ tbegin H s ;
  if b && (bool_decide (n = H) || bool_decide (n = bg)) then Ok (n, b, true)
  else
    it <~ (if b : bool then decrement fuel n s else Ok n) ;
    v <~ key it s ;
    Ok (n, b, lt v k).
(** 967-985 *)
Definition insert_node_at (fuel : nat) (H n x : loc) (b : bool) (s : heap) : outcome heap :=
  s <~ set_pa x (Some n) s ;
  s <~ (if bool_decide (n = H) then
          s <~ set_pa H (Some x) s ; s <~ set_lf H (Some x) s ; set_rt H (Some x) s
        else if b then
          s <~ set_lf n (Some x) s ;
          h <~ get H s ;
          if bool_decide (lf h = Some n) then set_lf H (Some x) s else Ok s
        else
          s <~ set_rt n (Some x) s ;
          h <~ get H s ;
          if bool_decide (rt h = Some n) then set_rt H (Some x) s else Ok s) ;
  insert_rebalance fuel H x s.

(** 1002-1003: header_ and count_ of a tree object; count_ is unbounded here *)
Record tree := { hd : loc; ct : Z }.
(** 594-598: the new node is the header *)
Definition tree_new (s : heap) : outcome (tree * heap) :=
  let h := made s in
  let s := {| cells := <[h := {| col := Red; lf := None; rt := None; pa := None; vl := None |}]> (cells s); made := S h |} in
  s <~ set_lf h (Some h) s ; s <~ set_rt h (Some h) s ;
  Ok ({| hd := h; ct := 0 |}, s).
(** 714-719 *)
Definition emplace_multi (fuel : nat) (t : tree) (v : A) (s : heap) : outcome (loc * tree * heap) :=
  let (x, s) := create_node v s in
  k <~ key x s ;
  ' (n, b) <~ insert_multi_pos fuel (hd t) k s ;
  s <~ insert_node_at fuel (hd t) n x b s ;
  Ok (x, {| hd := hd t; ct := ct t + 1 |}, s).
(** 721-732: the iterator, whether inserted *)
Definition emplace_unique (fuel : nat) (t : tree) (v : A) (s : heap) : outcome (loc * bool * tree * heap) :=
  let (x, s) := create_node v s in
  k <~ key x s ;
  ' (n, b, ok) <~ insert_unique_pos fuel (hd t) k s ;
  if ok : bool then
    s <~ insert_node_at fuel (hd t) n x b s ;
    Ok (x, true, {| hd := hd t; ct := ct t + 1 |}, s)
  else
    s <~ destory_node x s ;
    Ok (n, false, t, s).
(** 781-798 *)
Definition erase (fuel : nat) (t : tree) (x : loc) (s : heap) : outcome (loc * tree * heap) :=
  i <~ increment fuel x s ;
  s <~ erase_rebalance fuel (hd t) x s ;
  s <~ destory_node x s ;
  Ok (i, {| hd := hd t; ct := ct t - 1 |}, s).
(** 799-806 *)
Fixpoint erase_since (fuel : nat) (x : option loc) (s : heap) : outcome heap :=
  match x with
  | None => Ok s
  | Some x =>
      match fuel with
      | O => Fuel
      | S f =>
          r <~ right x s ;
          s <~ erase_since f r s ;
          l <~ left x s ;
          s <~ destory_node x s ;
          erase_since f l s
      end
  end.
(** 669-677 *)
Definition clear (fuel : nat) (t : tree) (s : heap) : outcome (tree * heap) :=
  if (ct t =? 0)%Z then Ok (t, s)
  else
    r <~ root (hd t) s ;
    s <~ erase_since fuel r s ;
    s <~ set_lf (hd t) (Some (hd t)) s ;
    s <~ set_rt (hd t) (Some (hd t)) s ;
    s <~ set_pa (hd t) None s ;
    Ok ({| hd := hd t; ct := 0 |}, s).
(** 634-637 *)
Definition tree_destroy (fuel : nat) (t : tree) (s : heap) : outcome heap :=
  ' (t, s) <~ clear fuel t s ; destory_node (hd t) s.
(** 829-831, 840-842: erase(first++); [first] moves on before the node goes *)
Fixpoint erase_range_loop (fuel f : nat) (t : tree) (i j : loc) (s : heap) : outcome (tree * heap) :=
  if bool_decide (i = j) then Ok (t, s)
  else
    match f with
    | O => Fuel
    | S f =>
        i' <~ increment fuel i s ;
        ' (_, t, s) <~ erase fuel t i s ;
        erase_range_loop fuel f t i' j s
    end.
(** 825-843 *)
Definition erase_range (fuel : nat) (t : tree) (i j : loc) (s : heap) : outcome (tree * heap) :=
  bg <~ tbegin (hd t) s ;
  if bool_decide (i = bg) && bool_decide (j = hd t) then clear fuel t s
  else erase_range_loop fuel fuel t i j s.
(** 808-813 *)
Definition erase_multi (fuel : nat) (t : tree) (k : A) (s : heap) : outcome (Z * tree * heap) :=
  ' (i, j) <~ equal_range_multi fuel (hd t) k s ;
  n <~ distance fuel i j s ;
  ' (t, s) <~ erase_range fuel t i j s ;
  Ok (n, t, s).
(** 815-823 *)
Definition erase_unique (fuel : nat) (t : tree) (k : A) (s : heap) : outcome (Z * tree * heap) :=
  i <~ find fuel (hd t) k s ;
  if bool_decide (i = hd t) then Ok (0%Z, t, s)
  else ' (_, t, s) <~ erase fuel t i s ; Ok (1%Z, t, s).

(** for (i = begin(); i != end(); ++i), the nodes met; and backwards from end() *)
Fixpoint walk (fuel f : nat) (i j : loc) (s : heap) : outcome (list (loc * A)) :=
  if bool_decide (i = j) then Ok []
  else match f with
       | O => Fuel
       | S f => v <~ key i s ; i' <~ increment fuel i s ; l <~ walk fuel f i' j s ; Ok ((i, v) :: l)
       end.
(** model only: loop over the tree *)
Definition forward (fuel : nat) (H : loc) (s : heap) : outcome (list (loc * A)) :=
  b <~ tbegin H s ; walk fuel fuel b H s.
(** model only: loop over the tree *)
Fixpoint walk_back (fuel f : nat) (i j : loc) (s : heap) : outcome (list (loc * A)) :=
  if bool_decide (i = j) then Ok []
  else match f with
       | O => Fuel
       | S f => i' <~ decrement fuel i s ; v <~ key i' s ; l <~ walk_back fuel f i' j s ; Ok ((i', v) :: l)
       end.
(** model only: loop over the tree *)
Definition backward (fuel : nat) (H : loc) (s : heap) : outcome (list (loc * A)) :=
  b <~ tbegin H s ; walk_back fuel fuel H b s.
End rb.
Arguments node : clear implicits.
Arguments heap : clear implicits.
