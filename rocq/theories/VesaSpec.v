(** A text screen of 180 columns and 56 lines of 8x16 cells. *)
From stdpp Require Import list.
From Coq Require Import ZArith.
From Verif Require Import VesaModel.
Local Open Scope Z_scope.

Definition pixel (s : vesa) (X Y : Z) : Z := pix s (1440 * Y + X).
Definition on_screen (X Y : Z) : Prop := 0 <= X < 1440 /\ 0 <= Y < 900.
(** The number of the cell a pixel lies in, counting left to right, top to bottom. *)
Definition cell_of (X Y : Z) : Z := 180 * (Y / 16) + X / 8.
Definition cursor_cell (s : vesa) : Z := 180 * ypos s + xpos s.
Definition cursor_ok (s : vesa) : Prop := 0 <= xpos s < 180 /\ 0 <= ypos s < 56.
(** Does the glyph of [c] have a dot at this place of its cell? *)
Definition glyph_dot (font : Z -> Z -> Z) (c X Y : Z) : bool :=
  Z.testbit (font c (Y mod 16)) (7 - X mod 8).
Definition plain (c : Z) : Prop := c <> 10 /\ c <> 9.

(** The cursor alone: does a text print only while the cursor is on the screen? *)
Definition advance (x y : Z) : Z * Z :=
  let k := 180 * y + x + 1 in if 56 * 180 <=? k then (0, 0) else (k mod 180, k / 180).
Fixpoint advance_n (n : nat) (x y : Z) : Z * Z :=
  match n with O => (x, y) | S n => let '(x, y) := advance x y in advance_n n x y end.
Fixpoint stays (text : list Z) (x y : Z) : bool :=
  match text with
  | [] => true
  | c :: text =>
      if c =? 10 then stays text 0 (y + 1)
      else (y <? 56) && let '(x, y) := advance_n (if c =? 9 then 9 else 1) x y in stays text x y
  end.
