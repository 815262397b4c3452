(** What %f should print (C81): the sign, the integer part and the requested number of digits of a decimal fraction close to the value. *)
From stdpp Require Import gmap.
From Coq Require Import ZArith QArith Qabs Qround SpecFloat.
From Verif Require Import PrintfModel PrintfSpec.
Local Open Scope N_scope.

(** a finite double: 53 bits, exponents as in IEEE binary64 *)
Definition is_double (f : spec_float) : Prop :=
  valid_binary 53 1024 f = true /\ match f with S754_zero _ | S754_finite _ _ _ => True | _ => False end.
(** its absolute value *)
Definition magnitude (f : spec_float) : Q :=
  match f with
  | S754_finite _ m (Zneg p) => Zpos m # (2 ^ p)
  | S754_finite _ m e => inject_Z (Zpos m * 2 ^ e)
  | _ => 0%Q
  end.
Definition below_zero (f : spec_float) : bool := match f with S754_finite true _ _ => true | _ => false end.

(** [i].[q] with [k] fraction digits is a decimal next to [v], up to half a unit of the last digit and [slack] *)
Definition decimal_of (v : Q) (k : N) (slack : Q) (i q : N) : Prop :=
  (q < 10 ^ k)%N /\ (Qabs (inject_Z (Z.of_N (i * 10 ^ k + q)) - v * inject_Z (10 ^ Z.of_N k)) <= (1 # 2) + slack)%Q.

(** the texts %f may print for [x]: without precision the integer part, else [k] digits *)
Definition float_text (w : list N) (k : N) (slack : Q) (x : spec_float) (out : list N) : Prop :=
  if k =? 0 then
    exists di, numeral 10 false (Z.to_N (Qfloor (magnitude x))) di /\
      out = (if below_zero x then [45] else []) ++ padded (pad_of w) (width_of w) di
  else
    exists i q di dq, decimal_of (magnitude x) k slack i q /\ numeral 10 false i di /\ numeral 10 false q dq /\
      out = (if below_zero x then [45] else []) ++ padded (pad_of w) (width_of w) di ++ [46] ++ padded 48 k dq.

(** the directives of PrintfSpec and %f *)
Inductive renders_f (slack : Q) (m : gmap N N) : directive -> list arg -> list N -> list arg -> Prop :=
| RF_other d args out args' : renders m d args out args' -> renders_f slack m d args out args'
| RF_float w f fr args cnt x args1 out :
    take_stars (stars_of f) args None = Some (cnt, ADbl x :: args1) ->
    is_double x -> (magnitude x < inject_Z (2 ^ 63))%Q ->
    (match fr with Some ds => width_of ds | None => 0 end <= 9) ->
    float_text w (match fr with Some ds => width_of ds | None => 0 end) slack x out ->
    renders_f slack m (Conv w f fr 102) args out args1.
Inductive renders_all_f (slack : Q) (m : gmap N N) : list directive -> list arg -> list N -> list arg -> Prop :=
| RFA_nil args : renders_all_f slack m [] args [] args
| RFA_cons d ds args o args1 os args2 :
    renders_f slack m d args o args1 -> renders_all_f slack m ds args1 os args2 ->
    renders_all_f slack m (d :: ds) args (o ++ os) args2.
