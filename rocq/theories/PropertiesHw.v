(** C42, C51-C53: memory map, text console, boot page tables. *)
From stdpp Require Import list.
From Coq Require Import NArith ZArith Bool Lia.
From Verif Require Import Base E820Model E820Spec E820Proofs VesaModel VesaSpec VesaProofs
  PagingModel PagingSpec PagingProofs HwExamples.
Local Open Scope N_scope.

(** C42 (part): a firmware table of at most 20 entries of types 1..4 and non-zero lengths, followed
    by bytes that do not look like such an entry, is reported exactly; the available memory is
    the sum of the usable lengths (modulo 2^64). Missing: see the three refutations. *)
Theorem C42_faithful_partial : forall m es,
  Forall entry_ok es -> Forall entry_plain es -> (length es <= 20)%nat ->
  (length es = 20%nat \/ ~ entry_plain (read_entry m (e820_addr + 20 * N.of_nat (length es)))) ->
  e820_init (store_map m e820_addr es) = (es, usable_total es mod 2 ^ 64).
Proof. exact init_exact. Qed.
Print Assumptions C42_faithful_partial.
Example C42_example :
  Forall entry_ok demo_map /\ Forall entry_plain demo_map /\ (length demo_map <= 20)%nat /\
  ~ entry_plain (read_entry (fun _ => 0) (e820_addr + 20 * N.of_nat (length demo_map))) /\
  usable_total demo_map = 0x1ff9fc00.
Proof. exact demo_map_ok. Qed.

(** C42 (part): for every memory content at most 20 entries, all of types 1..4 with non-zero
    lengths, are reported and the available memory is the sum over the reported entries. *)
Theorem C42_bounded : forall m,
  (length (fst (e820_init m)) <= 20)%nat /\ Forall entry_plain (fst (e820_init m)) /\
  snd (e820_init m) = usable_total (fst (e820_init m)) mod 2 ^ 64.
Proof. exact init_bounded. Qed.
Print Assumptions C42_bounded.

(** C42: exactly what is reported, for every memory content: the records from 0x7E00 on up to the
    first one that is not of type 1..4 with a non-zero length, at most 20 of them. *)
Theorem C42_reported : forall m es,
  fst (e820_init m) = es <->
  (length es <= 20)%nat /\
  (forall i e, es !! i = Some e -> read_entry m (e820_addr + 20 * N.of_nat i) = e /\ entry_plain e) /\
  (length es = 20%nat \/ ~ entry_plain (read_entry m (e820_addr + 20 * N.of_nat (length es)))).
Proof. exact init_reported. Qed.
Print Assumptions C42_reported.

(** C42: exactly which firmware tables, of any length and any types, are reported as they are. *)
Theorem C42_faithful_exact : forall m es, Forall entry_ok es ->
  (fst (e820_init (store_map m e820_addr es)) = es <->
   Forall entry_plain es /\ (length es <= 20)%nat /\
   (length es = 20%nat \/ ~ entry_plain (read_entry m (e820_addr + 20 * N.of_nat (length es))))).
Proof. exact init_faithful. Qed.
Print Assumptions C42_faithful_exact.
Example C42_faithful_example : fst (e820_init (store_map (fun _ => 0) e820_addr demo_map)) = demo_map.
Proof. vm_compute. reflexivity. Qed.

(** No terminator is stored: stale bytes behind the table become entries. *)
Theorem C42_stale_refuted : exists m es,
  Forall entry_ok es /\ Forall entry_plain es /\ (length es < 20)%nat /\
  fst (e820_init (store_map m e820_addr es)) <> es /\
  snd (e820_init (store_map m e820_addr es)) <> usable_total es mod 2 ^ 64.
Proof. exact stale_refuted. Qed.
Print Assumptions C42_stale_refuted.

(** An entry of type 5 (bad memory) or of zero length hides everything behind it. *)
Theorem C42_early_stop_refuted : exists m es,
  Forall entry_ok es /\ (length es < 20)%nat /\
  e820_init (store_map m e820_addr es) = ([], 0) /\ usable_total es <> 0.
Proof. exact early_stop_refuted. Qed.
Print Assumptions C42_early_stop_refuted.

(** Entries after the twentieth are dropped. *)
Theorem C42_long_refuted : exists m es,
  Forall entry_ok es /\ Forall entry_plain es /\
  snd (e820_init (store_map m e820_addr es)) <> usable_total es mod 2 ^ 64.
Proof. exact long_refuted. Qed.
Print Assumptions C42_long_refuted.

Local Open Scope Z_scope.

(** C51: exactly which texts keep inside the frame buffer: those that print no character while
    the cursor is below line 55. *)
Theorem C51_exact : forall font fc text s, 0 <= xpos s < 180 -> 0 <= ypos s ->
  if stays text (xpos s) (ypos s)
  then exists s', color_print font fc text s = Ok s'
  else color_print font fc text s = UB.
Proof. exact print_stays. Qed.
Print Assumptions C51_exact.

(** C51 (part): text without newlines always stays inside. Missing: newlines, see below. *)
Theorem C51_inside_partial : forall font fc text s, cursor_ok s -> Forall (fun c => c <> 10) text ->
  exists s', color_print font fc text s = Ok s'.
Proof. exact print_inside. Qed.
Print Assumptions C51_inside_partial.
Example C51_example : cursor_ok blank_screen /\ Forall (fun c => c <> 10) [72; 105; 9; 33].
Proof. exact blank_ok. Qed.

(** From the state after Init, 56 newlines and one letter write outside the frame buffer,
    whatever the font. *)
Theorem C51_refuted : forall font fc, color_print font fc (replicate 56 10 ++ [65]) blank_screen = UB.
Proof. exact newline_escape. Qed.
Print Assumptions C51_refuted.

(** C52: text without control characters that ends before the last cell: cell by cell from the
    cursor, each pixel of the i-th cell shows the dot of the i-th character or keeps its colour;
    all other pixels are unchanged. *)
Theorem C52_cells_partial : forall font fc text s,
  cursor_ok s -> Forall plain text -> cursor_cell s + Z.of_nat (length text) < 180 * 56 ->
  exists s', color_print font fc text s = Ok s' /\
  cursor_ok s' /\ cursor_cell s' = cursor_cell s + Z.of_nat (length text) /\
  forall X Y, on_screen X Y ->
    pixel s' X Y =
    match text !! Z.to_nat (cell_of X Y - cursor_cell s) with
    | Some c => if (cursor_cell s <=? cell_of X Y) && glyph_dot font c X Y then fc else pixel s X Y
    | None => pixel s X Y
    end.
Proof. exact print_cells. Qed.
Print Assumptions C52_cells_partial.
Example C52_example : cursor_ok blank_screen /\ Forall plain [72; 105] /\
  cursor_cell blank_screen + Z.of_nat (length [72; 105]) < 180 * 56 /\ black_ahead blank_screen.
Proof. exact blank_plain. Qed.

(** C52 (part): on a screen that is black from the cursor on, the cells show exactly the glyphs. *)
Theorem C52_on_black_partial : forall font fc text s,
  cursor_ok s -> Forall plain text -> cursor_cell s + Z.of_nat (length text) < 180 * 56 -> black_ahead s ->
  exists s', color_print font fc text s = Ok s' /\ black_ahead s' /\
  forall i c X Y, text !! i = Some c -> on_screen X Y -> cell_of X Y = cursor_cell s + Z.of_nat i ->
    pixel s' X Y = if glyph_dot font c X Y then fc else BLACK.
Proof. exact print_on_black. Qed.
Print Assumptions C52_on_black_partial.

(** Over old contents the background colour is not drawn: pixels without a dot keep theirs. *)
Theorem C52_background_refuted : forall font fc s c X Y,
  cursor_ok s -> plain c -> cursor_cell s + 1 < 180 * 56 -> on_screen X Y ->
  cell_of X Y = cursor_cell s -> glyph_dot font c X Y = false ->
  exists s', color_print font fc [c] s = Ok s' /\ pixel s' X Y = pixel s X Y.
Proof. exact background_kept. Qed.
Print Assumptions C52_background_refuted.

(** The character printed in the last cell is erased with the whole screen. *)
Theorem C52_last_cell_refuted : forall font fc c s,
  cursor_ok s -> plain c -> cursor_cell s = 180 * 56 - 1 ->
  exists s', color_print font fc [c] s = Ok s' /\ xpos s' = 0 /\ ypos s' = 0 /\
  forall X Y, on_screen X Y -> pixel s' X Y = BLACK.
Proof. exact print_last. Qed.
Print Assumptions C52_last_cell_refuted.

(** C52: newline. *)
Theorem C52_newline : forall font fc s,
  color_print font fc [10] s = Ok {| xpos := 0; ypos := ypos s + 1; pix := pix s |}.
Proof. exact print_newline. Qed.
Print Assumptions C52_newline.

(** A tab advances nine cells, not eight (the tab character itself is printed too). *)
Theorem C52_tab_refuted : forall font fc s,
  cursor_ok s -> cursor_cell s + 9 < 180 * 56 ->
  exists s', color_print font fc [9] s = Ok s' /\ cursor_cell s' = cursor_cell s + 9.
Proof. exact tab_cells. Qed.
Print Assumptions C52_tab_refuted.

Local Open Scope N_scope.
(** C53: the exact meaning of the boot tables for all 2^64 virtual addresses, whatever the rest
    of memory holds; all mapped pages are writable and supervisor-only. *)
Theorem C53_translation : forall other va, va < 2 ^ 64 ->
  boot_walk other va =
  match expected_phys va with
  | Some p => Some {| phys := p; writable := true; user := false |}
  | None => None
  end.
Proof. exact boot_walk_spec. Qed.
Print Assumptions C53_translation.
Example C53_example :
  expected_phys 0xffff800000a12345 = Some 0xe0012345 /\ expected_phys 0x7e00 = Some 0x7e00 /\
  expected_phys 0xffff900000000000 = None /\ expected_phys 0x1a00000 = None.
Proof. vm_compute. repeat split. Qed.

Theorem C53_frame_buffer : forall other i, i < 1440 * 900 * 4 ->
  boot_walk other (0xffff800000a00000 + i) = Some {| phys := 0xe0000000 + i; writable := true; user := false |}.
Proof. exact frame_buffer. Qed.
Print Assumptions C53_frame_buffer.

Theorem C53_low_memory : forall other o, o < 0xa00000 ->
  boot_walk other o = Some {| phys := o; writable := true; user := false |} /\
  boot_walk other (0xffff800000000000 + o) = Some {| phys := o; writable := true; user := false |}.
Proof. exact low_memory. Qed.
Print Assumptions C53_low_memory.

(** C53: the write protection of main.cpp:38 affects exactly 0x400000..0x5fffff. *)
Theorem C53_main_protect : forall other va, va < 2 ^ 64 ->
  main_walk other va =
  match boot_walk other va with
  | Some m => Some {| phys := phys m; user := user m;
      writable := negb (match window_offset va with
                        | Some o => (0x400000 <=? o) && (o <? 0x600000) | None => false end) |}
  | None => None
  end.
Proof. exact main_walk_spec. Qed.
Print Assumptions C53_main_protect.
