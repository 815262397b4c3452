(** Model of kernel/src/io/veas.cpp:334-401: the text console.
    Simplifications: the frame buffer is the 1440*900 ints behind screen_, a write outside it is UB;
    cursor coordinates are unbounded integers; colours are integers; characters are bytes; the
    font (veas.cpp:10-320) is a parameter giving the byte of each glyph row. *)
From stdpp Require Import list.
From Coq Require Import ZArith.
From Verif Require Import Base.
Local Open Scope Z_scope.
Local Open Scope outcome_scope.

(** model only: the object vesa: position and pixels *)
Record vesa := { xpos : Z; ypos : Z; pix : Z -> Z }.
Definition screen_width : Z := 1440.   (* Init, 334-343 *)
Definition screen_height : Z := 900.
(** veas.cpp:338-339 *)
Definition width_char : Z := 8.
(** veas.cpp:338-339 *)
Definition height_char : Z := 16.
Definition BLACK : Z := 0.             (* vesa.hpp:8 *)
Definition WHITE : Z := 0xffffff.      (* vesa.hpp:7 *)

(** [*addr = v] for the int at index [p] *)
Definition write_pixel (p v : Z) (m : Z -> Z) : outcome (Z -> Z) :=
  if (0 <=? p) && (p <? screen_width * screen_height)
  then Ok (fun q => if q =? p then v else m q) else UB.

(** model only: loops over constant ranges *)
Fixpoint for_each (body : Z -> (Z -> Z) -> outcome (Z -> Z)) (is : list Z) (m : Z -> Z) : outcome (Z -> Z) :=
  match is with
  | [] => Ok m
  | i :: is => m <~ body i m; for_each body is m
  end.
(** model only: loops over constant ranges *)
Definition z8 : list Z := [0; 1; 2; 3; 4; 5; 6; 7].
(** model only: loops over constant ranges *)
Definition z16 : list Z := [0; 1; 2; 3; 4; 5; 6; 7; 8; 9; 10; 11; 12; 13; 14; 15].

(** 353-358: bits is 0x100 >> (j+1) in round j; a clear bit stores the pixel into itself *)
Definition put_row (fc byte addr : Z) (m : Z -> Z) : outcome (Z -> Z) :=
  for_each (fun j m =>
    let bits := Z.shiftr 0x100 (j + 1) in
    if negb (Z.land byte bits =? 0) then write_pixel (addr + j) fc m
    else write_pixel (addr + j) (m (addr + j)) m) z8 m.
(** 345-361; bg_color is not used by the source *)
Definition put_char (font : Z -> Z -> Z) (fc c : Z) (s : vesa) : outcome (Z -> Z) :=
  let x := xpos s * width_char in
  let y := ypos s * height_char in
  for_each (fun i m => put_row fc (font c i) (screen_width * (y + i) + x) m) z16 (pix s).

(** 394-401: [n] 8-byte stores, each of two pixels *)
Definition clear_step (st : outcome (Z * (Z -> Z))) : outcome (Z * (Z -> Z)) :=
  ' (i, m) <~ st; m <~ write_pixel (2 * i) BLACK m; m <~ write_pixel (2 * i + 1) BLACK m; Ok (i + 1, m).
(** as above, 394-401 *)
Definition clear_pixels (m : Z -> Z) : outcome (Z -> Z) :=
  ' (_, m) <~ N.iter (Z.to_N (screen_height * screen_width / 2)) clear_step (Ok (0, m)); Ok m.
(** as above, 394-401 *)
Definition clear (s : vesa) : outcome vesa :=
  m <~ clear_pixels (pix s); Ok {| xpos := 0; ypos := 0; pix := m |}.

(** 365-377: the lambda Put *)
Definition put (font : Z -> Z -> Z) (fc c : Z) (s : vesa) : outcome vesa :=
  m <~ put_char font fc c s;
  let x := xpos s + 1 in
  let '(x, y) := if screen_width / width_char <=? x then (0, ypos s + 1) else (x, ypos s) in
  let s := {| xpos := x; ypos := y; pix := m |} in
  if screen_height / height_char <=? y then clear s else Ok s.

(** model only: n times *)
Fixpoint put_n (font : Z -> Z -> Z) (fc c : Z) (n : nat) (s : vesa) : outcome vesa :=
  match n with O => Ok s | S n => s <~ put font fc c s; put_n font fc c n s end.

(** 379-392: one character; 10 is '\n', 9 is '\t', 32 is ' ' *)
Definition print1 (font : Z -> Z -> Z) (fc c : Z) (s : vesa) : outcome vesa :=
  if c =? 10 then Ok {| xpos := 0; ypos := ypos s + 1; pix := pix s |}
  else s <~ (if c =? 9 then put_n font fc 32 8 s else Ok s); put font fc c s.
(** 362-393 *)
Fixpoint color_print (font : Z -> Z -> Z) (fc : Z) (str : list Z) (s : vesa) : outcome vesa :=
  match str with
  | [] => Ok s
  | c :: str => s <~ print1 font fc c s; color_print font fc str s
  end.
