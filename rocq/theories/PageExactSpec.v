(** What alloc_pages of physical_allocator.cpp:275-353 answers, for every state. *)
From stdpp Require Import list.
From Coq Require Import NArith.
From Verif Require Import Base PageModel PageSpec.
Local Open Scope N_scope.

(** The pages the search looks at in a zone, in ascending order: of the word with the first page only those up to 64 - r, where r is the
    place of the first page in its word; of all later words up to the one with the page behind the zone, every page. *)
Definition looked_at (z : zone) (q : N) : Prop :=
  let r := z_start z mod 64 in let w := z_start z - r in
  (z_start z <= q /\ q + r < w + 64) \/ (w + 64 <= q /\ q / 64 <= z_end z / 64).
(** What it takes for free: [n] clear bits from q on; at the first page of a word the same bits of the next word must be clear as well. *)
Definition clear (m : N -> N) (q n : N) : Prop := forall i, i < n -> bit m (q + i) = false.
Definition taken_free (m : N -> N) (q n : N) : Prop := clear m q n /\ (q mod 64 = 0 -> clear m (q + 64) n).
(** The page handed out for the run at q: too high by r - 1 in the first word, too low by one in the later ones. *)
Definition handed_out (z : zone) (q : N) : N :=
  let r := z_start z mod 64 in
  if q <? z_start z - r + 64 then (q + r + (2 ^ 64 - 1)) mod 2 ^ 64 else (q - 1) mod 2 ^ 64.

Inductive verdict := Found (q : N) | Nothing | Undefined.
(** A search through the positions P. The first page of a word is never examined without an over-wide shift ([hw]: as the processor does it). *)
Inductive search (hw : bool) (m : N -> N) (n : N) (P : N -> Prop) : verdict -> Prop :=
| search_found q : P q -> taken_free m q n -> (forall q', P q' -> q' < q -> ~ taken_free m q' n) ->
    (hw = true \/ forall q', P q' -> q' <= q -> q' mod 64 <> 0) -> search hw m n P (Found q)
| search_nothing : (forall q, P q -> ~ taken_free m q n) -> (hw = true \/ forall q, P q -> q mod 64 <> 0) -> search hw m n P Nothing
| search_undefined q : hw = false -> P q -> q mod 64 = 0 -> (forall q', P q' -> q' < q -> ~ taken_free m q' n) -> search hw m n P Undefined.

(** Zone by zone; zones with too few free pages are passed over. *)
Inductive answer (hw : bool) (m : N -> N) (n : N) : list zone -> verdict -> Prop :=
| answer_nil : answer hw m n [] Nothing
| answer_skip z zs v : z_free z < n -> answer hw m n zs v -> answer hw m n (z :: zs) v
| answer_next z zs v : n <= z_free z -> search hw m n (looked_at z) Nothing -> answer hw m n zs v -> answer hw m n (z :: zs) v
| answer_found z zs q : n <= z_free z -> search hw m n (looked_at z) (Found q) -> answer hw m n (z :: zs) (Found (handed_out z q))
| answer_undefined z zs : n <= z_free z -> search hw m n (looked_at z) Undefined -> answer hw m n (z :: zs) Undefined.

(** The zones a selector means: both DMA and NORMAL mean zone 0 only (lines 229-230, 286-296). *)
Definition zones_of (u : nat) (s : mm) (sel : zone_select) : list zone :=
  match sel with
  | ZONE_DMA | ZONE_NORMAL => take 1 (zones s)
  | ZONE_UNMAPED => drop u (zones s)
  | ZONE_OTHER => []
  end.
(** A bitmap of 64-bit words, zones not upside down and within 64 bits of address. *)
Definition pages_sane (s : mm) : Prop :=
  (forall w, bits s w < 2 ^ 64) /\ Forall (fun z => z_start z <= z_end z /\ z_end z < 2 ^ 43) (zones s) /\ zones s <> [].
(** Handing out: page_init on the pages from pg on. *)
Definition hand_out (r sh : N) (s : mm) (pg n flags : N) : outcome (option N * mm) :=
  omap (fun s' => (Some pg, s')) (page_run r sh s (map (fun i => OpInit i flags) (seq (N.to_nat pg) (N.to_nat n)))).
