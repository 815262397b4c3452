(** The text screen while the boot sector and the loader run: what they print by the BIOS (bootloader/boot.asm:18-47, 96-107, 125-150;
    bootloader/loader.asm:39-65, 68-82, 162-173, 248-252, 313-376).
    What is searched, read and asked for in between is a parameter here (C54-C57, C71, C87); the mode switch ends the text screen. *)
From Coq Require Import NArith Bool List.
Import ListNotations.
Local Open Scope N_scope.

(** ** The screen and the BIOS *)
(** 80 columns, 25 rows, several pages; a cell is a character and an attribute. Each page has its cursor. *)
Record text := { glyph : N -> N -> N -> N * N; row : N -> N; col : N -> N }.
(** the page that is visible *)
Definition shown : N := 0.
(** BIOS: cursor, characters and scrolling *)
Definition upd (f : N -> N) (p v : N) : N -> N := fun q => if q =? p then v else f q.
(** BIOS: cursor, characters and scrolling *)
Definition move (p r c : N) (s : text) : text := {| glyph := glyph s; row := upd (row s) p r; col := upd (col s) p c |}.
(** BIOS: cursor, characters and scrolling *)
Definition draw (p r c : N) (x : N * N) (s : text) : text :=
  {| glyph := fun q r' c' => if (q =? p) && (r' =? r) && (c' =? c) then x else glyph s q r' c'; row := row s; col := col s |}.
(** the rows go up, the last one becomes blank *)
Definition scroll (p : N) (s : text) : text :=
  {| glyph := fun q r c => if q =? p then if r <? 24 then glyph s q (r + 1) c else (32, 7) else glyph s q r c; row := row s; col := col s |}.
(** BIOS: cursor, characters and scrolling *)
Definition feed (p r c : N) (s : text) : text := if r <? 24 then move p (r + 1) c s else move p 24 c (scroll p s).
(** A character at the cursor of page [p]; [a]: the attribute, or the one that is there *)
Definition put (p : N) (a : option N) (ch : N) (s : text) : text :=
  let r := row s p in let c := col s p in
  if ch =? 7 then s
  else if ch =? 8 then move p r (c - 1) s
  else if ch =? 10 then feed p r c s
  else if ch =? 13 then move p r 0 s
  else
    let s := draw p r c (ch, match a with Some a => a | None => snd (glyph s p r c) end) s in
    if c <? 79 then move p r (c + 1) s else feed p r 0 s.
(** BIOS: cursor, characters and scrolling *)
Definition puts (p : N) (a : option N) (l : list N) (s : text) : text := fold_left (fun s ch => put p a ch s) l s.

(** int 10h, ah = 06h, al = 0: the window becomes blank *)
Definition int10_06 (bh ch cl dh dl : N) (s : text) : text :=
  {| glyph := fun p r c => if (p =? shown) && (ch <=? r) && (r <=? dh) && (cl <=? c) && (c <=? dl) then (32, bh) else glyph s p r c;
     row := row s; col := col s |}.
(** int 10h, ah = 02h *)
Definition int10_02 (bh dh dl : N) (s : text) : text := move bh dh dl s.
(** int 10h, ax = 1301h *)
Definition int10_13 (bh bl dh dl : N) (l : list N) (s : text) : text := puts bh (Some bl) l (move bh dh dl s).
(** int 10h, ah = 0eh. [paged]: the BIOS takes the page from bh, as the interface says; others take the visible one *)
Definition int10_0e (paged : bool) (bh al : N) (s : text) : text := put (if paged then bh else shown) None al s.

(** ** Strings in memory *)
Definition mem := N -> N.
(** [len] bytes from seg:off *)
Definition fetch (m : mem) (seg off len : N) : list N :=
  map (fun i => m (16 * seg + (off + N.of_nat i) mod 65536)) (seq 0 (N.to_nat len)).

(** ** boot.asm *)
(** [cs]: what the BIOS jumped with (19-22); [a1], [a2]: the addresses of the messages (15-16). [loader]: how many sectors the loader has if
    it is found. *)
(** 24-43 *)
Definition boot_start (m : mem) (cs a1 : N) (s : text) : text :=
  let s := int10_06 0x07 0 0 0x18 0x4f s in         (* 25-29 *)
  let s := int10_02 0 0 0 s in                      (* 31-34 *)
  int10_13 0 0x0f 0 0 (fetch m cs a1 16) s.         (* 36-43 *)
(** 125-146: for each sector, with the offset of the sector still in bx, of which bl is overwritten *)
Fixpoint boot_dots (paged : bool) (n : nat) (bx : N) (s : text) : text :=
  match n with
  | O => s
  | S n => boot_dots paged n ((bx + 512) mod 65536) (int10_0e paged (bx / 256) 46 s)
  end.
(** 18-150; [true]: the loader is entered *)
Definition boot (paged : bool) (m : mem) (cs a1 a2 : N) (loader : option nat) (s : text) : text * bool :=
  let s := boot_start m cs a1 s in
  match loader with
  | Some n => (boot_dots paged n 0 s, true)
  | None => (int10_13 0 0x8c 1 0 (fetch m cs a2 24) s, false)   (* 98-107 *)
  end.

(** ** loader.asm *)
(** 39-51: where the messages are *)
Record labels := { NoEosppBinMsg : N; GetMemoryMsg : N; FailedGetMemoryMsg : N; SuccessGetMemoryMsg : N; StartEosppLoaderMsg : N; GetSVGAMsg : N;
                   FailedGetSVGAMsg : N; FinishLoadEosppBinMsg : N; GetSVGAMsgSuccessMsg : N }.
(** 162-173; the state is the screen and OutLine (52), ds is 1000h *)
Definition Printf (m : mem) (ax bx : N) (st : text * N) : text * N :=
  let '(s, dx) := st in (int10_13 0 0x0f (dx / 256) (dx mod 256) (fetch m 0x1000 bx ax) s, (dx + 0x200) mod 65536).
(** How the search, the memory map and the video information turn out *)
Record answers := { has_kernel : bool; has_map : bool; has_svga : bool }.
(** 68-376; [true]: the loader goes on to set the video mode *)
Definition loader (m : mem) (L : labels) (w : answers) (s : text) : text * bool :=
  let st := Printf m 18 (StartEosppLoaderMsg L) (s, 0x200) in                       (* 80-82 *)
  if negb (has_kernel w) then (fst (Printf m 21 (NoEosppBinMsg L) st), false) else    (* 249-252 *)
  let st := Printf m 25 (FinishLoadEosppBinMsg L) st in                             (* 314-316 *)
  let st := Printf m 28 (GetMemoryMsg L) st in                                      (* 324-326 *)
  if negb (has_map w) then (fst (Printf m 29 (FailedGetMemoryMsg L) st), false) else  (* 345-348 *)
  let st := Printf m 30 (SuccessGetMemoryMsg L) st in                               (* 351-353 *)
  let st := Printf m 17 (GetSVGAMsg L) st in                                        (* 356-358 *)
  if negb (has_svga w) then (fst (Printf m 18 (FailedGetSVGAMsg L) st), false) else   (* 369-372 *)
  (fst (Printf m 24 (GetSVGAMsgSuccessMsg L) st), true).                            (* 374-376 *)

(** Both *)
Definition start_up (paged : bool) (m : mem) (cs a1 a2 : N) (L : labels) (sectors : option nat) (w : answers) (s : text) : text * bool :=
  let '(s, go) := boot paged m cs a1 a2 sectors s in if go then loader m L w s else (s, false).
