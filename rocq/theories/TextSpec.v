(** What the text screen should show while the machine starts. *)
From Coq Require Import NArith Bool List String Ascii.
From Verif Require Import TextModel.
Import ListNotations.
Local Open Scope string_scope.
Local Open Scope list_scope.
Local Open Scope N_scope.

Definition chars (t : string) : list N := map N_of_ascii (list_ascii_of_string t).
Definition in_attr (a : N) (t : string) : list (N * N) := map (fun c => (c, a)) (chars t).
Definition dots (n : nat) : list (N * N) := repeat (46, 7) n.
(** what the loader says, in order *)
Definition reports (w : answers) : list string :=
  (["Start Eospp Loader"] ++
   if negb (has_kernel w) then ["Eospp.bin don't exist"] else
   ["Load Eospp.bin successful"; "Start to get hardware memory"] ++
   if negb (has_map w) then ["failed to get hardware memory"] else
   ["Get hardware memory successful"; "Start to get SVGA"] ++
   if negb (has_svga w) then ["failed to get SVGA"] else ["Get SVGA info successful"]).
(** every second row from the third on *)
Definition loader_row (w : answers) (r : N) : list (N * N) :=
  if (2 <=? r) && (r mod 2 =? 0) then match nth_error (reports w) (N.to_nat (r / 2 - 1)) with Some t => in_attr 0x0f t | None => [] end else [].
(** the rows of the screen; in the first two one dot for each sector of the loader *)
Definition line (sectors : option nat) (w : answers) (r : N) : list (N * N) :=
  match sectors with
  | None => match r with 0 => in_attr 0x0f "Start Eospp boot" | 1 => in_attr 0x8c "Eospp loader don't exist" | _ => [] end
  | Some n =>
      match r with
      | 0 => in_attr 0x0f "Start Eospp boot" ++ dots (min n 64)
      | 1 => dots (n - 64)
      | _ => loader_row w r
      end
  end.
Definition looks (s : text) (rows : N -> list (N * N)) : Prop :=
  forall r c, r < 25 -> c < 80 -> glyph s shown r c = nth (N.to_nat c) (rows r) (32, 7).

(** the strings are in memory *)
Definition at_ (m : mem) (a : N) (t : string) : Prop := forall i, (i < String.length t)%nat -> m (a + N.of_nat i) = nth i (chars t) 0.
Definition boot_loaded (m : mem) (a1 a2 : N) : Prop :=
  a1 + 16 <= 65536 /\ a2 + 24 <= 65536 /\ at_ m a1 "Start Eospp boot" /\ at_ m a2 "Eospp loader don't exist".
Definition message (m : mem) (a : N) (t : string) : Prop := a + 30 <= 65536 /\ at_ m (0x10000 + a) t.
Definition loader_loaded (m : mem) (L : labels) : Prop :=
  message m (NoEosppBinMsg L) "Eospp.bin don't exist" /\ message m (GetMemoryMsg L) "Start to get hardware memory" /\
  message m (FailedGetMemoryMsg L) "failed to get hardware memory" /\ message m (SuccessGetMemoryMsg L) "Get hardware memory successful" /\
  message m (StartEosppLoaderMsg L) "Start Eospp Loader" /\ message m (GetSVGAMsg L) "Start to get SVGA" /\
  message m (FailedGetSVGAMsg L) "failed to get SVGA" /\ message m (FinishLoadEosppBinMsg L) "Load Eospp.bin successful" /\
  message m (GetSVGAMsgSuccessMsg L) "Get SVGA info successful".
(** all the same, but only [k] dots *)
Definition line_with (k : nat) (w : answers) (r : N) : list (N * N) := line (Some k) w r.
(** the dots end before the third row, where the loader writes *)
Definition fits (sectors : option nat) : Prop := match sectors with Some n => (n <= 144)%nat | None => True end.
