(** A typewriter with 56 lines of 180 places.  Nothing is ever taken off the paper but the whole paper; a tab is nine
    strokes (so it is in the code, see C52_tab_refuted), the paper is changed as soon as the last place is filled. *)
From Coq Require Import ZArith String Ascii.
From stdpp Require Import gmap.
From Verif Require Import VesaModel VesaSpec PrintfModel PrintfSpec StringSpec.
Local Open Scope Z_scope.

(** [drawn n]: what has been struck in place [n], the latest first; [fresh_paper]: has the paper been changed? *)
Record console := { cx : Z; cy : Z; drawn : Z -> list Z; fresh_paper : bool }.
Definition strike (c : Z) (k : console) : console :=
  let here := 180 * cy k + cx k in
  if here + 1 =? 56 * 180 then {| cx := 0; cy := 0; drawn := fun _ => []; fresh_paper := true |}
  else {| cx := (here + 1) mod 180; cy := (here + 1) / 180;
          drawn := fun n => if n =? here then c :: drawn k n else drawn k n; fresh_paper := fresh_paper k |}.
Definition key (c : Z) (k : console) : console :=
  if c =? 10 then {| cx := 0; cy := cy k + 1; drawn := drawn k; fresh_paper := fresh_paper k |}
  else if c =? 9 then strike 9 (Nat.iter 8 (strike 32) k)
  else strike c k.
Definition type_text (text : list Z) (k : console) : console := fold_left (fun k c => key c k) text k.

(** The screen [s] shows the typewriter [k] on the picture [before]. *)
Definition shows (font : Z -> Z -> Z) (fc : Z) (before : vesa) (k : console) (s : vesa) : Prop :=
  xpos s = cx k /\ ypos s = cy k /\
  forall X Y, on_screen X Y ->
    pixel s X Y = if existsb (fun c => glyph_dot font c X Y) (drawn k (cell_of X Y)) then fc
                  else if fresh_paper k then BLACK else pixel before X Y.
(** The typewriter before anything is typed, its carriage at the cursor. *)
Definition carriage (x y : Z) : console := {| cx := x; cy := y; drawn := fun _ => []; fresh_paper := false |}.

(** The printable ASCII characters, blank or not. *)
Definition ink (c : Z) : Prop := 33 <= c <= 126.
(** What a reader sees in a place: the one character struck there, if it leaves ink. *)
Definition seen (l : list Z) : option Z :=
  match l with [c] => if (33 <=? c) && (c <=? 126) then Some c else None | _ => None end.

(** A text ends at its first NUL. *)
Fixpoint upto_nul (l : list N) : list N :=
  match l with [] => [] | c :: l => if (c =? 0)%N then [] else c :: upto_nul l end.
Definition as_text (l : list N) : list Z := map Z.of_N (upto_nul l).

(** ** Where strings lie *)
(** The characters [s] and a NUL at [p]. *)
Definition string_at (m : gmap N N) (p : N) (s : list N) : Prop :=
  Forall (fun c => c <> 0%N) s /\ forall i c, (s ++ [0%N]) !! i = Some c -> m !! (p + N.of_nat i)%N = Some c.
(** Memory with a buffer of 1024 bytes at [buf] and, apart from it, the strings [m0]. *)
Definition ready (m0 : gmap N N) (buf : N) (m : gmap N N) : Prop :=
  mapped m buf 1024 /\ forall x v, m0 !! x = Some v -> m !! x = Some v /\ (x < buf \/ buf + 1024 <= x)%N.
(** A call with a format, its arguments and what they stand for. *)
Record call := { c_fmt : list directive; c_args : list arg; c_out : list N }.
Definition right_call (m0 : gmap N N) (c : call) : Prop :=
  Forall wf_directive (c_fmt c) /\ (exists rest, renders_all m0 (c_fmt c) (c_args c) (c_out c) rest) /\ (length (c_out c) < 1024)%nat.
Definition all_text (cs : list call) : list Z := concat (map (fun c => as_text (c_out c)) cs).

(** ** Pages *)
(** Lines of fewer than 180 characters without newlines and tabs, and the text they make. *)
Definition line_ok (l : list Z) : Prop := Forall plain l /\ (length l < 180)%nat.
Definition lines_text (ls : list (list Z)) : list Z := concat (map (fun l => l ++ [10]) ls).
(** A page of lines: what stands in each place. *)
Definition page (lines : list (list Z)) (n : Z) : list Z :=
  match lines !! Z.to_nat (n / 180) with
  | Some l => match l !! Z.to_nat (n mod 180) with Some c => [c] | None => [] end
  | None => []
  end.
(** The screen [s] shows [lines] from line [y] on; above it is what was on [before], and so it is where no ink lies. *)
Definition shows_lines (font : Z -> Z -> Z) (before : vesa) (y : Z) (lines : list (list Z)) (s : vesa) : Prop :=
  xpos s = 0 /\ ypos s = y + Z.of_nat (length lines) /\
  forall X Y, on_screen X Y ->
    pixel s X Y = if (180 * y <=? cell_of X Y) && existsb (fun c => glyph_dot font c X Y) (page lines (cell_of X Y - 180 * y))
                  then 0xffffff else pixel before X Y.

(** Text in letters and numbers. *)
Definition letters (s : string) : list Z := map (fun a => Z.of_N (N_of_ascii a)) (list_ascii_of_string s).
Definition is_decimal (n : N) (l : list Z) : Prop := exists ds, numeral 10 false n ds /\ l = map Z.of_N ds.
Definition is_hex (n : N) (l : list Z) : Prop := exists ds, numeral 16 false n ds /\ l = map Z.of_N ds.
(** The exceptions that existed when AMD64 was introduced, in the wording of the kernel; the others are called reserved. *)
Definition exception_name (v : N) : string :=
  match v with
  | 0 => "Division by zero" | 1 => "Debugger" | 2 => "NMI" | 3 => "Breakpoint" | 4 => "Overflow" | 5 => "Bounds" | 6 => "Invalid Opcode"
  | 7 => "Coprocessor not available" | 8 => "Double fault" | 9 => "Coprocessor segment overrun" | 10 => "Invalid Task State Segment"
  | 11 => "Segment not present" | 12 => "Stack Fault" | 13 => "General protection fault" | 14 => "Page Fault" | 16 => "Math Fault"
  | 17 => "Alignment Check" | 18 => "Machine Check" | 19 => "SIMD Floating Point Exception" | _ => "Reserved"
  end%N%string.
(** The vectors the architecture defines today: also 20 (virtualization), 21 (control protection), 28 (hypervisor injection),
    29 (VMM communication) and 30 (security). *)
Definition architecture_defines (v : N) : bool := existsb (N.eqb v) [0;1;2;3;4;5;6;7;8;10;11;12;13;14;16;17;18;19;20;21;28;29;30]%N.
(** The report of exception [no] and the lines printed at boot. *)
Definition fault_report (no code ip flags cs_ sp_ ss_ : N) (name : string) (lines : list (list Z)) : Prop :=
  exists a b c d e f g,
    is_decimal no a /\ is_decimal code b /\ is_hex ip c /\ is_decimal flags d /\ is_decimal cs_ e /\ is_hex sp_ f /\ is_decimal ss_ g /\
    lines = [letters "Exception " ++ a ++ letters " " ++ letters name ++ letters " occured";
             letters "error_code = " ++ b ++ letters " rip = " ++ c ++ letters " rflags = " ++ d ++ letters " cs = " ++ e ++
             letters " rsp = " ++ f ++ letters " ss = " ++ g].
Definition boot_report (size megabytes pde : N) (lines : list (list Z)) : Prop :=
  exists a b c, is_decimal size a /\ is_decimal megabytes b /\ is_hex pde c /\
    lines = [letters "init Interrupt"; letters "e820 size = " ++ a ++ letters " total avalible memory = " ++ b ++ letters "MB";
             letters "A::A()"; letters "*(&PDE + 2) = " ++ c; letters "page read only"].
