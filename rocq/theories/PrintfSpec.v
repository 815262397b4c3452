(** What formatted output is supposed to be, independent of the formatter:
    a grammar of formats ([directive], [unparse]) and the text each directive
    stands for ([renders]).  Only the argument type of the model is shared. *)
From stdpp Require Import gmap.
From Coq Require Import ZArith.
From Verif Require Import PrintfModel StringSpec.
Local Open Scope N_scope.

(** ** Numerals *)

(** Value of a digit character in base up to 16; letters a-f or A-F. *)
Definition digit_value (upper : bool) (c : N) : option N :=
  if (48 <=? c) && (c <=? 57) then Some (c - 48)
  else if upper then (if (65 <=? c) && (c <=? 70) then Some (c - 55) else None)
  else (if (97 <=? c) && (c <=? 102) then Some (c - 87) else None).

(** Reading a digit string, most significant digit first. *)
Fixpoint read_number (b : N) (upper : bool) (cs : list N) (acc : N) : option N :=
  match cs with
  | [] => Some acc
  | c :: cs' =>
      match digit_value upper c with
      | Some v => if v <? b then read_number b upper cs' (acc * b + v) else None
      | None => None
      end
  end.

(** [cs] is the usual numeral of [n] in base [b]: it reads back as [n], is not empty
    and has no superfluous leading zero. *)
Definition numeral (b : N) (upper : bool) (n : N) (cs : list N) : Prop :=
  read_number b upper cs 0 = Some n /\ cs <> [] /\
  (forall cs', cs = 48 :: cs' -> cs' = []).

(** A numeral right-justified in [width] places with pad character [zero]. *)
Definition padded (zero width : N) (cs : list N) : list N :=
  replicate (N.to_nat (width - N.of_nat (length cs))) zero ++ cs.

(** ** Formats *)

Inductive directive :=
| Lit (c : N)
| Conv (width : list N) (fls : list N) (frac : option (list N)) (c : N).

Definition is_digit (c : N) : Prop := 48 <= c /\ c <= 57.
(** u m X x * *)
Definition is_flag (c : N) : Prop := c = 117 \/ c = 109 \/ c = 88 \/ c = 120 \/ c = 42.

Definition unparse1 (d : directive) : list N :=
  match d with
  | Lit c => [c]
  | Conv w f fr c =>
      37 :: w ++ f ++ match fr with Some ds => 46 :: ds | None => [] end ++ [c]
  end.
Definition unparse (ds : list directive) : list N := concat (map unparse1 ds).

(** Well-formed: the pieces can be told apart again. *)
Definition wf_directive (d : directive) : Prop :=
  match d with
  | Lit c => c <> 0 /\ c <> 37
  | Conv w f fr c =>
      Forall is_digit w /\ Forall is_flag f /\ c <> 0 /\
      match fr with
      | Some ds => Forall is_digit ds /\ ~ is_digit c
      | None => ~ is_flag c /\ c <> 46 /\ (f = [] -> ~ is_digit c)
      end
  end.

(** ** Meaning *)

(** Width: the decimal value of the digits in 32 bits. *)
Definition width_of (w : list N) : N :=
  fold_left (fun acc c => (acc * 10 + (c - 48)) mod 2 ^ 32) w 0.
(** Padding is with '0' exactly if the width starts with '0'. *)
Definition pad_of (w : list N) : N := match w with 48 :: _ => 48 | _ => 32 end.
(** Signed unless u, x or X is given. *)
Definition signed_of (f : list N) : bool :=
  negb (existsb (fun c => (c =? 117) || (c =? 88) || (c =? 120)) f).
(** Base and letter case: the last of x and X decides. *)
Definition base_of (f : list N) : N * bool :=
  fold_left (fun acc c => if c =? 120 then (16, false) else if c =? 88 then (16, true) else acc) f
            (10, false).
Definition max_of (f : list N) : bool := existsb (fun c => c =? 109) f.
Definition stars_of (f : list N) : nat := length (filter (fun c => c = 42) f).

(** The arguments of the stars: 64-bit counts, the last one is kept. *)
Fixpoint take_stars (k : nat) (args : list arg) (cnt : option N) : option (option N * list arg) :=
  match k with
  | O => Some (cnt, args)
  | S k' => match args with
            | A64 n :: r => take_stars k' r (Some (n mod 2 ^ 64))
            | _ => None
            end
  end.

(** Integer argument read as signed or unsigned of 32 or 64 bits. *)
Definition int_value (bits : N) (sg : bool) (raw : N) : Z :=
  let v := Z.of_N (raw mod 2 ^ bits) in
  if sg && (2 ^ (Z.of_N bits - 1) <=? v)%Z then (v - 2 ^ Z.of_N bits)%Z else v.

(** 32-bit conversions: i, d, D and signed z; 64-bit: l, L and unsigned z. *)
Definition int_bits (c : N) (sg : bool) : option N :=
  if (c =? 105) || (c =? 100) || (c =? 68) then Some 32
  else if (c =? 108) || (c =? 76) then Some 64
  else if c =? 122 then Some (if sg then 32 else 64)
  else None.

Definition raw_arg (bits : N) (args : list arg) : option (N * list arg) :=
  match args with
  | A32 n :: r => if bits =? 32 then Some (n, r) else None
  | A64 n :: r => if bits =? 64 then Some (n, r) else None
  | _ => None
  end.

(** Other conversion letters: everything except z i d l D L f p c s (and NUL) prints itself. *)
Definition prints_itself (c : N) : Prop :=
  c <> 0 /\ c <> 115 /\ c <> 122 /\ c <> 105 /\ c <> 100 /\ c <> 108 /\ c <> 68 /\ c <> 76 /\
  c <> 102 /\ c <> 112 /\ c <> 99.

(** [renders m d args out args']: in memory [m] (for strings) directive [d] consumes
    [args] down to [args'] and stands for the text [out]. *)
Inductive renders (m : gmap N N) : directive -> list arg -> list N -> list arg -> Prop :=
| R_lit c args : renders m (Lit c) args [c] args
| R_int w f fr c args cnt args1 bits raw args2 v ds :
    take_stars (stars_of f) args None = Some (cnt, args1) ->
    int_bits c (signed_of f) = Some bits ->
    raw_arg bits args1 = Some (raw, args2) ->
    v = int_value bits (signed_of f) raw ->
    v <> (- 2 ^ 63)%Z ->
    numeral (base_of f).1 (base_of f).2 (Z.to_N (Z.abs v)) ds ->
    renders m (Conv w f fr c) args
      ((if (v <? 0)%Z then [45] else []) ++
       padded (pad_of w) (if (c =? 105) && max_of f then 20 else width_of w) ds)
      args2
| R_ptr w f fr args cnt args1 p ds :
    take_stars (stars_of f) args None = Some (cnt, APtr p :: args1) ->
    numeral 16 true (p mod 2 ^ 64) ds ->
    renders m (Conv w f fr 112) args (padded 48 16 ds) args1
| R_chr w f fr args cnt n args1 :
    take_stars (stars_of f) args None = Some (cnt, A32 n :: args1) ->
    renders m (Conv w f fr 99) args [n mod 256] args1
| R_itself w f fr c args cnt args1 :
    take_stars (stars_of f) args None = Some (cnt, args1) ->
    prints_itself c ->
    renders m (Conv w f fr c) args [c] args1
| R_str w f fr args cnt args1 p s :
    take_stars (stars_of f) args None = Some (cnt, APtr p :: args1) ->
    (cnt = None \/ cnt = Some (2 ^ 64 - 1)) ->
    cstring_at m p (N.of_nat (length s)) ->
    (forall i c, s !! i = Some c -> m !! (p + N.of_nat i) = Some c) ->
    renders m (Conv w f fr 115) args s args1
| R_strn w f fr args n args1 p s :
    take_stars (stars_of f) args None = Some (Some n, APtr p :: args1) ->
    n <> 2 ^ 64 - 1 -> n = N.of_nat (length s) -> p <> 0 ->
    (forall i c, s !! i = Some c -> m !! (p + N.of_nat i) = Some c) ->
    renders m (Conv w f fr 115) args s args1.

Inductive renders_all (m : gmap N N) : list directive -> list arg -> list N -> list arg -> Prop :=
| RA_nil args : renders_all m [] args [] args
| RA_cons d ds args o args1 os args2 :
    renders m d args o args1 -> renders_all m ds args1 os args2 ->
    renders_all m (d :: ds) args (o ++ os) args2.

(** [m'] holds the text [cs] at [a] and agrees with [m] everywhere else. *)
Definition text_written (m : gmap N N) (a : N) (cs : list N) (m' : gmap N N) : Prop :=
  forall x, m' !! x = if (a <=? x) && (x <? a + N.of_nat (length cs))
                      then cs !! N.to_nat (x - a) else m !! x.

(** [m1] and [m2] agree outside the range [a, b). *)
Definition same_outside (m1 m2 : gmap N N) (a b : N) : Prop :=
  forall x, x < a \/ b <= x -> m1 !! x = m2 !! x.
