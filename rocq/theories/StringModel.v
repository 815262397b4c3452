(** Model of kernel/src/util/string.cpp, lines 8-97: memcpy, memmove, strcpy, strlen,
    and of estl/algorithm.hpp, lines 15-20: cstrlen.

    Memory is a finite map from addresses to bytes; touching an unmapped address is [UB].
    Simplifications: addresses do not wrap (an object never straddles 2^64);
    alignment and type punning of the 8-byte accesses are not treated as undefined
    (x86-64, and the kernel relies on it); a pointer one before an object that is formed
    but not dereferenced (string.cpp:66-67 when n is a multiple of 8) is not treated as
    undefined. *)
From stdpp Require Import gmap.
From Verif Require Import Base.
Local Open Scope N_scope.
Local Open Scope outcome_scope.

Notation byte := N (only parsing).
Notation mem := (gmap N N) (only parsing).

(** One byte access through a char pointer. *)
Definition load8 (m : mem) (a : N) : outcome byte := of_option (m !! a).
(** C++: stores through char and uint64_t pointers *)
Definition store8 (m : mem) (a : N) (v : byte) : outcome mem :=
  match m !! a with
  | Some _ => Ok (<[a := v]> m)
  | None => UB
  end.

(** Access of a word as the list of its bytes, lowest address first. *)
Fixpoint load_bytes (m : mem) (a : N) (w : nat) : outcome (list byte) :=
  match w with
  | O => Ok []
  | S w' => b <~ load8 m a; bs <~ load_bytes m (a + 1) w'; Ok (b :: bs)
  end.
(** C++: stores through char and uint64_t pointers *)
Fixpoint store_bytes (m : mem) (a : N) (bs : list byte) : outcome mem :=
  match bs with
  | [] => Ok m
  | b :: bs' => m' <~ store8 m a b; store_bytes m' (a + 1) bs'
  end.
(** uint64_t accesses: all eight bytes are read, respectively written. *)
Definition load64 (m : mem) (a : N) : outcome (list byte) := load_bytes m a 8.
(** C++: stores through char and uint64_t pointers *)
Definition store64 (m : mem) (a : N) (w : list byte) : outcome mem := store_bytes m a w.

(** string.cpp:24-26  for (i = 0; i < loop; i++) dest64[i] = src64[i];
    [k] iterations remain, [i] is the loop index. *)
Fixpoint memcpy_words (k : nat) (i : N) (m : mem) (dest src : N) : outcome mem :=
  match k with
  | O => Ok m
  | S k' =>
      w <~ load64 m (src + 8 * i);
      m' <~ store64 m (dest + 8 * i) w;
      memcpy_words k' (i + 1) m' dest src
  end.

(** string.cpp:33-35  for (i = 0; i < n; i++) dest8[i] = src8[i]; *)
Fixpoint memcpy_tail (k : nat) (i : N) (m : mem) (dest8 src8 : N) : outcome mem :=
  match k with
  | O => Ok m
  | S k' =>
      b <~ load8 m (src8 + i);
      m' <~ store8 m (dest8 + i) b;
      memcpy_tail k' (i + 1) m' dest8 src8
  end.

(** string.cpp:8-38.  Returns the new memory and the returned pointer. *)
Definition memcpy (m : mem) (dest src n : N) : outcome (mem * N) :=
  if (dest =? 0) || (src =? 0) || (n =? 0) then Ok (m, dest)
  else if dest =? src then Ok (m, dest + n)
  else
    '(m1, dest8, src8, n1) <~
      (if 8 <=? n then
         let loop := n / 8 in
         m1 <~ memcpy_words (N.to_nat loop) 0 m dest src;
         Ok (m1, dest + loop * 8, src + loop * 8, n - loop * 8)
       else Ok (m, dest, src, n));
    m2 <~ memcpy_tail (N.to_nat n1) 0 m1 dest8 src8;
    Ok (m2, dest8 + n1).

(** string.cpp:61-63  *(dest64 - i - 1) = *(src64 - i - 1);
    [dend], [send] are the addresses dest + n and src + n. *)
Fixpoint memmove_words (k : nat) (i : N) (m : mem) (dend send : N) : outcome mem :=
  match k with
  | O => Ok m
  | S k' =>
      w <~ load64 m (send - 8 * i - 8);
      m' <~ store64 m (dend - 8 * i - 8) w;
      memmove_words k' (i + 1) m' dend send
  end.

(** string.cpp:69-71  for (i = 0; i < n; i++) *(dest8 - i) = *(src8 - i);
    [dlast], [slast] stand for one past the adjusted pointers of lines 66-67
    (dest8 + n, so that dest8 + n - 1 - i is [dlast - 1 - i] also when n = 0). *)
Fixpoint memmove_tail (k : nat) (i : N) (m : mem) (dlast slast : N) : outcome mem :=
  match k with
  | O => Ok m
  | S k' =>
      b <~ load8 m (slast - 1 - i);
      m' <~ store8 m (dlast - 1 - i) b;
      memmove_tail k' (i + 1) m' dlast slast
  end.

(** string.cpp:40-74 *)
Definition memmove (m : mem) (dest src n : N) : outcome (mem * N) :=
  if (dest =? 0) || (src =? 0) || (n =? 0) then Ok (m, dest)
  else if dest =? src then Ok (m, dest + n)
  else if dest <? src then memcpy m dest src n
  else
    '(m1, n1) <~
      (if 8 <=? n then
         let loop := n / 8 in
         m1 <~ memmove_words (N.to_nat loop) 0 m (dest + n) (src + n);
         Ok (m1, n - loop * 8)
       else Ok (m, n));
    m2 <~ memmove_tail (N.to_nat n1) 0 m1 (dest + n1) (src + n1);
    Ok (m2, dest + n).

(** string.cpp:85-87  do { *(dest++) = *(src++); } while ( *(dest - 1) != 0 );
    The byte just written is read back for the test, as in the source. *)
Fixpoint strcpy_loop (fuel : nat) (m : mem) (dest src : N) : outcome mem :=
  match fuel with
  | O => Fuel
  | S f =>
      b <~ load8 m src;
      m' <~ store8 m dest b;
      c <~ load8 m' dest;
      if c =? 0 then Ok m' else strcpy_loop f m' (dest + 1) (src + 1)
  end.

(** string.cpp:76-90 *)
Definition strcpy (fuel : nat) (m : mem) (dest src : N) : outcome (mem * N) :=
  if (dest =? 0) || (src =? 0) then Ok (m, dest)
  else if dest =? src then Ok (m, dest)
  else m' <~ strcpy_loop fuel m dest src; Ok (m', dest).

(** string.cpp:92-97; cstrlen in estl/algorithm.hpp:15-20 is the same loop. *)
Fixpoint strlen_loop (fuel : nat) (m : mem) (str n : N) : outcome N :=
  match fuel with
  | O => Fuel
  | S f =>
      b <~ load8 m str;
      if b =? 0 then Ok n else strlen_loop f m (str + 1) (n + 1)
  end.
(** as above, string.cpp:92-97; algorithm.hpp:15-20 *)
Definition strlen (fuel : nat) (m : mem) (str : N) : outcome N := strlen_loop fuel m str 0.
