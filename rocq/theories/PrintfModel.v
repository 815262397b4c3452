(** Model of kernel/src/util/string.cpp, lines 99-394: sprintf_num, vslprintf, snprintf.

    The format is the list of its characters before the terminating NUL; reading index
    [length fmt] yields the NUL, reading further is the distinct failure [FmtOver].
    Output goes to byte memory; every store is checked against the caller's buffer
    [base, last), a store elsewhere is the distinct failure [Wild].
    The buffer itself is taken to be mapped.
    Variadic arguments are a list of typed values; va_arg with another type than the
    one passed, or with no argument left, is undefined in C ([BadArg]).
    Simplifications: pointers are unbounded integers except where the code converts a
    pointer difference to size_t; doubles are IEEE binary64 without NaN payloads (SpecFloat). *)
From stdpp Require Import gmap.
From Coq Require Import ZArith SpecFloat.
From Verif Require Import Base StringModel.
Local Open Scope N_scope.

(** model only: results *)
Inductive ferr := BadArg | BadRead | FmtOver | Wild | NoFuel.
(** model only: results *)
Inductive fres (A : Type) := FOk (a : A) | FErr (e : ferr).
Arguments FOk {A} a.
Arguments FErr {A} e.
(** model only: sequencing of results that may be missing *)
Definition fbind {A B} (x : fres A) (f : A -> fres B) : fres B :=
  match x with FOk a => f a | FErr e => FErr e end.
Declare Scope fres_scope.
Notation "x <~ e ; k" := (fbind e (fun x => k))
  (at level 100, e at next level, right associativity) : fres_scope.
Notation "' p <~ e ; k" := (fbind e (fun p => k))
  (at level 100, p strict pattern, e at next level, right associativity) : fres_scope.
Local Open Scope fres_scope.

(** An argument as passed: 32-bit integer, 64-bit integer, pointer, double (raw bits as N). *)
Inductive arg :=
| A32 (bits : N)
| A64 (bits : N)
| APtr (a : N)
| ADbl (f : spec_float).

(** model only: unsigned 64-bit arithmetic *)
Definition u32 (n : N) : N := n mod 2 ^ 32.
(** model only: unsigned 64-bit arithmetic *)
Definition u64 (n : N) : N := n mod 2 ^ 64.
(** Conversion of any integer to uint64_t / size_t. *)
Definition u64z (z : Z) : N := Z.to_N (z mod 2 ^ 64)%Z.
(** Two's complement readings. *)
Definition s32 (bits : N) : Z :=
  let b := Z.of_N (bits mod 2 ^ 32) in (if b <? 2 ^ 31 then b else b - 2 ^ 32)%Z.
(** two's complement *)
Definition s64 (bits : N) : Z :=
  let b := Z.of_N (bits mod 2 ^ 64) in (if b <? 2 ^ 63 then b else b - 2 ^ 64)%Z.

(** va_arg(args, int / int32_t / unsigned int / uint32_t) *)
Definition va32 (args : list arg) : fres (N * list arg) :=
  match args with A32 b :: r => FOk (u32 b, r) | _ => FErr BadArg end.
(** va_arg(args, long / unsigned long / size_t / int64_t / uint64_t) *)
Definition va64 (args : list arg) : fres (N * list arg) :=
  match args with A64 b :: r => FOk (u64 b, r) | _ => FErr BadArg end.
(** va_arg(args, u_char* / void* ) *)
Definition vaptr (args : list arg) : fres (N * list arg) :=
  match args with APtr b :: r => FOk (b, r) | _ => FErr BadArg end.
(** va_arg(args, double) *)
Definition vadbl (args : list arg) : fres (spec_float * list arg) :=
  match args with ADbl f :: r => FOk (f, r) | _ => FErr BadArg end.

(** The caller's buffer [base, last). *)
Record bounds := { base : N; last : N }.

(** A store through the output pointer:  *buf++ = c *)
Definition put (bd : bounds) (m : mem) (buf c : N) : fres (mem * N) :=
  if (base bd <=? buf) && (buf <? last bd) then FOk (<[buf := c]> m, buf + 1) else FErr Wild.

(** string.cpp:113-116: decimal digits written backwards into temp[0..19]; [p] is the
    number of free places left below, [acc] the digits already written. *)
Fixpoint dec_digits (p : nat) (n : N) (acc : list N) : fres (list N) :=
  match p with
  | O => FErr Wild
  | S p' =>
      let acc' := (n mod 10 + 48) :: acc in
      let n' := n / 10 in
      if n' =? 0 then FOk acc' else dec_digits p' n' acc'
  end.

(** string.cpp:108-109: the digit tables. *)
Definition hex_lower : list N := [48;49;50;51;52;53;54;55;56;57;97;98;99;100;101;102].
(** as above, string.cpp:108-109 *)
Definition hex_upper : list N := [48;49;50;51;52;53;54;55;56;57;65;66;67;68;69;70].

(** string.cpp:118-123 and 127-131 *)
Fixpoint hex_digits (table : list N) (p : nat) (n : N) (acc : list N) : fres (list N) :=
  match p with
  | O => FErr Wild
  | S p' =>
      match table !! N.to_nat (N.land n 15) with
      | None => FErr Wild
      | Some c =>
          let n' := N.shiftr n 4 in
          if n' =? 0 then FOk (c :: acc) else hex_digits table p' n' (c :: acc)
      end
  end.

(** string.cpp:138-140  while (len++ < width && buf < last) *buf++ = zero; *)
Fixpoint pad (fuel : nat) (bd : bounds) (m : mem) (buf len width zero : N) : fres (mem * N) :=
  if (len <? width) && (buf <? last bd) then
    match fuel with
    | O => FErr NoFuel
    | S f => '(m', buf') <~ put bd m buf zero; pad f bd m' buf' (len + 1) width zero
    end
  else FOk (m, buf).

(** Bytes of a local array stored one after the other through the output pointer. *)
Fixpoint puts (bd : bounds) (m : mem) (buf : N) (cs : list N) : fres (mem * N) :=
  match cs with
  | [] => FOk (m, buf)
  | c :: cs' => '(m', buf') <~ put bd m buf c; puts bd m' buf' cs'
  end.

(** string.cpp:144-150: copy of the digits, cut at [last]; memcpy from the local array
    (memcpy returns dest at once when dest is null or the length is 0).
    The word-wise loop of memcpy is replaced by single stores; by C02 the effect is the same. *)
Definition copy_digits (bd : bounds) (m : mem) (buf : N) (ds : list N) : fres (mem * N) :=
  let len0 := N.of_nat (length ds) in
  let len := if last bd <? buf + len0 then u64z (Z.of_N (last bd) - Z.of_N buf) else len0 in
  if (buf =? 0) || (len =? 0) then FOk (m, buf)
  else if len0 <? len then FErr Wild
  else puts bd m buf (take (N.to_nat len) ds).

(** string.cpp:99-151 *)
Definition sprintf_num (bd : bounds) (m : mem) (buf ui64 zero hexadecimal width : N)
  : fres (mem * N) :=
  ds <~ (if hexadecimal =? 0 then dec_digits 20 ui64 []
         else if hexadecimal =? 1 then hex_digits hex_lower 20 ui64 []
         else hex_digits hex_upper 20 ui64 []);
  '(m1, buf1) <~ pad (N.to_nat (last bd - buf)) bd m buf (N.of_nat (length ds)) width zero;
  copy_digits bd m1 buf1 ds.

(** Reading the format string. *)
Definition fmt_at (fmt : list N) (i : nat) : fres N :=
  match fmt !! i with
  | Some c => FOk c
  | None => if Nat.eqb i (length fmt) then FOk 0 else FErr FmtOver
  end.

(** string.cpp:175-177 and 206-208: decimal width in a uint32_t. *)
Fixpoint scan_digits (fuel : nat) (fmt : list N) (i : nat) (w : N) : fres (nat * N) :=
  c <~ fmt_at fmt i;
  if (48 <=? c) && (c <=? 57) then
    match fuel with
    | O => FErr NoFuel
    | S f => scan_digits f fmt (S i) (u32 (w * 10 + c + (2 ^ 32 - 48)))
    end
  else FOk (i, w).

(** string.cpp:169-173: the conversion state. *)
Record flags := { sign : bool; hex : N; max_width : bool; frac_width : N; slen : N }.
(** as above, string.cpp:169-173 *)
Definition flags0 : flags :=
  {| sign := true; hex := 0; max_width := false; frac_width := 0; slen := 2 ^ 64 - 1 |}.

(** string.cpp:179-222: flag characters; 117 'u' 109 'm' 88 'X' 120 'x' 46 '.' 42 '*' *)
Fixpoint scan_flags (fuel : nat) (fmt : list N) (i : nat) (args : list arg) (fl : flags)
  : fres (nat * list arg * flags) :=
  c <~ fmt_at fmt i;
  if c =? 46 then
    '(i', w) <~ scan_digits (length fmt) fmt (S i) (frac_width fl);
    FOk (i', args, {| sign := sign fl; hex := hex fl; max_width := max_width fl;
                      frac_width := w; slen := slen fl |})
  else
    match fuel with
    | O => FErr NoFuel
    | S f =>
        if c =? 117 then
          scan_flags f fmt (S i) args {| sign := false; hex := hex fl; max_width := max_width fl;
                                         frac_width := frac_width fl; slen := slen fl |}
        else if c =? 109 then
          scan_flags f fmt (S i) args {| sign := sign fl; hex := hex fl; max_width := true;
                                         frac_width := frac_width fl; slen := slen fl |}
        else if c =? 88 then
          scan_flags f fmt (S i) args {| sign := false; hex := 2; max_width := max_width fl;
                                         frac_width := frac_width fl; slen := slen fl |}
        else if c =? 120 then
          scan_flags f fmt (S i) args {| sign := false; hex := 1; max_width := max_width fl;
                                         frac_width := frac_width fl; slen := slen fl |}
        else if c =? 42 then
          '(n, args') <~ va64 args;
          scan_flags f fmt (S i) args' {| sign := sign fl; hex := hex fl; max_width := max_width fl;
                                          frac_width := frac_width fl; slen := n |}
        else FOk (i, args, fl)
    end.

(** string.cpp:229-231  while ( *p && buf < last ) *buf++ = *p++; *)
Fixpoint copy_cstr (fuel : nat) (bd : bounds) (m : mem) (buf p : N) : fres (mem * N) :=
  match m !! p with
  | None => FErr BadRead
  | Some c =>
      if negb (c =? 0) && (buf <? last bd) then
        match fuel with
        | O => FErr NoFuel
        | S f => '(m', buf') <~ put bd m buf c; copy_cstr f bd m' buf' (p + 1)
        end
      else FOk (m, buf)
  end.

(** string.cpp:234-235: memcpy of min(last - buf, slen) bytes. memcpy writes exactly
    [buf, buf+len) unless it returns early, so that range is what is checked. *)
Definition copy_counted (bd : bounds) (m : mem) (buf p slen : N) : fres (mem * N) :=
  let room := u64z (Z.of_N (last bd) - Z.of_N buf) in
  let len := if room <? slen then room else slen in
  if negb ((buf =? 0) || (p =? 0) || (len =? 0) || (buf =? p)) &&
     negb ((base bd <=? buf) && (buf + len <=? last bd)) then FErr Wild
  else match memcpy m buf p len with
       | Ok r => FOk r
       | UB => FErr BadRead
       | Base.Fuel => FErr NoFuel
       end.

(** Double operations (IEEE binary64, round to nearest even). *)
Definition dbl_of_Z (z : Z) : spec_float := binary_normalize 53 1024 z 0 false.
(** IEEE binary64: 0.5, and f < 0 *)
Definition dbl_half : spec_float := binary_normalize 53 1024 1 (-1) false.
(** Truncation towards zero; None for NaN and infinities. *)
Definition dbl_trunc (f : spec_float) : option Z :=
  match f with
  | S754_zero _ => Some 0%Z
  | S754_finite s m e =>
      let a := match e with
               | Z0 => Zpos m
               | Zpos p => (Zpos m * 2 ^ Zpos p)%Z
               | Zneg p => (Zpos m / 2 ^ Zpos p)%Z
               end in
      Some (if s then - a else a)%Z
  | _ => None
  end.
(** (int64_t)f: undefined when the truncated value does not fit. *)
Definition dbl_to_i64 (f : spec_float) : fres Z :=
  match dbl_trunc f with
  | Some z => if ((- 2 ^ 63 <=? z) && (z <? 2 ^ 63))%Z then FOk z else FErr BadArg
  | None => FErr BadArg
  end.
(** (uint64_t)f *)
Definition dbl_to_u64 (f : spec_float) : fres N :=
  match dbl_trunc f with
  | Some z => if ((0 <=? z) && (z <? 2 ^ 64))%Z then FOk (Z.to_N z) else FErr BadArg
  | None => FErr BadArg
  end.
(** IEEE binary64: 0.5, and f < 0 *)
Definition dbl_lt0 (f : spec_float) : bool := SFltb f (S754_zero false).

(** string.cpp:306-309: scale in a uint32_t *)
Definition frac_scale (fw : N) : N := N.iter fw (fun s => u32 (s * 10)) 1.

(** string.cpp:294-331: %f *)
Definition conv_float (bd : bounds) (m : mem) (buf zero width fw : N) (f0 : spec_float)
  : fres (mem * N) :=
  '(m1, buf1, f) <~
    (if dbl_lt0 f0 then '(m1, b1) <~ put bd m buf 45; FOk (m1, b1, SFopp f0) else FOk (m, buf, f0));
  i <~ dbl_to_i64 f;
  let ui := u64z i in
  '(ui1, frac) <~
    (if fw =? 0 then FOk (ui, 0)
     else
       let scale := frac_scale fw in
       fr <~ dbl_to_u64
              (SFadd 53 1024
                 (SFmul 53 1024 (SFsub 53 1024 f (dbl_of_Z (Z.of_N ui))) (dbl_of_Z (Z.of_N scale)))
                 dbl_half);
       if fr =? scale then FOk (u64 (ui + 1), 0) else FOk (ui, fr));
  '(m2, buf2) <~ sprintf_num bd m1 buf1 ui1 zero 0 width;
  if fw =? 0 then FOk (m2, buf2)
  else
    '(m3, buf3) <~ (if buf2 <? last bd then put bd m2 buf2 46 else FOk (m2, buf2));
    sprintf_num bd m3 buf3 frac 48 0 fw.

(** string.cpp:360-370: sign, magnitude and rendering of an integer conversion.
    Negating the smallest int64_t is undefined. *)
Definition conv_int (bd : bounds) (m : mem) (buf zero width : N) (sg : bool) (hx : N) (i64 : Z) (ui64 : N)
  : fres (mem * N) :=
  '(m1, buf1, u) <~
    (if sg then
       if (i64 <? 0)%Z then
         '(m1, b1) <~ put bd m buf 45;
         if (i64 =? - 2 ^ 63)%Z then FErr BadArg else FOk (m1, b1, u64z (- i64))
       else FOk (m, buf, u64z i64)
     else FOk (m, buf, ui64));
  sprintf_num bd m1 buf1 u zero hx width.

(** Loop state: memory, output pointer, format index, remaining arguments. *)
Record pst := { pm : mem; pbuf : N; pfmt : nat; pargs : list arg }.

(** string.cpp:224-372: the conversion character [c] at index [i]. Letters:
    115 's' 122 'z' 105 'i' 100 'd' 108 'l' 68 'D' 76 'L' 102 'f' 112 'p' 99 'c' 37 '%'.
    [i32]/[i64]: signed reading of 32- and 64-bit arguments. *)
Definition convert (bd : bounds) (fmt : list N) (m : mem) (buf : N) (i : nat) (args : list arg)
           (zero width : N) (fl : flags) : fres pst :=
  c <~ fmt_at fmt i;
  let done := fun (r : mem * N) (args' : list arg) =>
    FOk {| pm := r.1; pbuf := r.2; pfmt := S i; pargs := args' |} in
  let int32 := fun (w : N) =>
    '(b, a) <~ va32 args;
    r <~ conv_int bd m buf zero w (sign fl) (hex fl) (s32 b) b; done r a in
  let int64 := fun (_ : unit) =>
    '(b, a) <~ va64 args;
    r <~ conv_int bd m buf zero width (sign fl) (hex fl) (s64 b) b; done r a in
  if c =? 115 then
    '(p, a) <~ vaptr args;
    r <~ (if slen fl =? 2 ^ 64 - 1 then copy_cstr (N.to_nat (last bd - buf)) bd m buf p
          else copy_counted bd m buf p (slen fl));
    done r a
  else if c =? 122 then
    (if sign fl then int32 width else int64 tt)
  else if c =? 105 then int32 (if max_width fl then 20 else width)
  else if c =? 100 then int32 width
  else if c =? 108 then int64 tt
  else if c =? 68 then int32 width
  else if c =? 76 then int64 tt
  else if c =? 102 then
    '(f, a) <~ vadbl args;
    r <~ conv_float bd m buf zero width (frac_width fl) f; done r a
  else if c =? 112 then
    '(p, a) <~ vaptr args;
    r <~ conv_int bd m buf 48 16 false 2 0 (u64 p); done r a
  else if c =? 99 then
    '(d, a) <~ va32 args;
    r <~ put bd m buf (N.land d 255); done r a
  else if c =? 37 then
    r <~ put bd m buf 37; done r args
  else
    r <~ put bd m buf c; done r args.

(** One iteration of the loop at string.cpp:162-377, entered with a character [c] <> 0
    and buf < last. *)
Definition step (bd : bounds) (fmt : list N) (s : pst) (c : N) : fres pst :=
  if c =? 37 then
    let i1 := S (pfmt s) in
    c1 <~ fmt_at fmt i1;
    let zero := if c1 =? 48 then 48 else 32 in
    '(i2, width) <~ scan_digits (length fmt) fmt i1 0;
    '(i3, args, fl) <~ scan_flags (S (length fmt)) fmt i2 (pargs s) flags0;
    convert bd fmt (pm s) (pbuf s) i3 args zero width fl
  else
    '(m, b) <~ put bd (pm s) (pbuf s) c;
    FOk {| pm := m; pbuf := b; pfmt := S (pfmt s); pargs := pargs s |}.

(** as above, string.cpp:162-377 *)
Fixpoint vloop (fuel : nat) (bd : bounds) (fmt : list N) (s : pst) : fres pst :=
  c <~ fmt_at fmt (pfmt s);
  if negb (c =? 0) && (pbuf s <? last bd) then
    match fuel with
    | O => FErr NoFuel
    | S f => s' <~ step bd fmt s c; vloop f bd fmt s'
    end
  else FOk s.

(** string.cpp:153-384 *)
Definition vslprintf (m : mem) (buf last_ : N) (fmt : list N) (args : list arg) : fres (mem * N) :=
  let bd := {| base := buf; last := last_ |} in
  s <~ vloop (S (length fmt)) bd fmt {| pm := m; pbuf := buf; pfmt := 0; pargs := args |};
  if pbuf s <? last_ then put bd (pm s) (pbuf s) 0 else FOk (pm s, pbuf s).

(** string.cpp:386-394 *)
Definition snprintf (m : mem) (buf max : N) (fmt : list N) (args : list arg) : fres (mem * N) :=
  vslprintf m buf (buf + max) fmt args.
