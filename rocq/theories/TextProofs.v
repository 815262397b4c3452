(** Proofs for TextModel.v. *)
From Coq Require Import ZArith NArith Bool List String Ascii Lia ZifyBool ZifyN ZifyNat.
From Verif Require Import TextModel TextSpec.
Import ListNotations.
Local Open Scope N_scope.
Ltac Zify.zify_post_hook ::= Z.div_mod_to_equations.

Definition printable (c : N) : Prop := 13 < c.
Definition len {A} (l : list A) : N := N.of_nat (List.length l).
Definition pos (s : text) (p : N) : N := 80 * row s p + col s p.
Definition good (s : text) (p : N) : Prop := row s p < 25 /\ col s p < 80.

Lemma put_other p a ch s q : q <> p -> row (put p a ch s) q = row s q /\ col (put p a ch s) q = col s q /\
  forall r c, glyph (put p a ch s) q r c = glyph s q r c.
Proof.
  intros Hq. assert (q =? p = false) as E by lia. unfold put, feed.
  repeat match goal with |- context [if ?b then _ else _] => destruct b end; cbn; unfold upd; rewrite ?E; cbn; auto.
Qed.
Lemma put_at p a ch s : printable ch -> good s p -> pos s p < 1999 -> let s' := put p a ch s in
  good s' p /\ pos s' p = pos s p + 1 /\
  forall q r c, r < 25 -> c < 80 -> glyph s' q r c =
    if (q =? p) && (80 * r + c =? pos s p) then (ch, match a with Some a => a | None => snd (glyph s q r c) end) else glyph s q r c.
Proof.
  unfold printable, good, pos. intros Hc [Hr Hk] Hp. cbn zeta. unfold put.
  replace (ch =? 7) with false by lia. replace (ch =? 8) with false by lia. replace (ch =? 10) with false by lia. replace (ch =? 13) with false by lia.
  assert (forall q r c, r < 25 -> c < 80 -> (q =? p) && (r =? row s p) && (c =? col s p) = (q =? p) && (80 * r + c =? 80 * row s p + col s p)) as E.
  { intros q r c Hr' Hc'. clear - Hr Hk Hr' Hc'. lia. }
  assert (forall q r c, r < 25 -> c < 80 -> (if (q =? p) && (r =? row s p) && (c =? col s p)
    then (ch, match a with Some a => a | None => snd (glyph s p (row s p) (col s p)) end) else glyph s q r c) =
    if (q =? p) && (80 * r + c =? 80 * row s p + col s p) then (ch, match a with Some a => a | None => snd (glyph s q r c) end) else glyph s q r c) as G.
  { intros q r c Hr' Hc'. rewrite <- E by assumption. destruct ((q =? p) && (r =? row s p) && (c =? col s p)) eqn:X; [|reflexivity].
    assert (q = p /\ r = row s p /\ c = col s p) as (-> & -> & ->) by (clear - X; lia). reflexivity. }
  destruct (col s p <? 79) eqn:Hlt; [|unfold feed; replace (row s p <? 24) with true by lia];
    unfold move, draw; cbn [row col glyph]; unfold upd; rewrite !N.eqb_refl; (split; [lia|]); (split; [lia|]); intros q r c Hr' Hc'; apply G; assumption.
Qed.
Lemma puts_at p a l : forall s, Forall printable l -> good s p -> pos s p + len l < 2000 -> let s' := puts p a l s in
  good s' p /\ pos s' p = pos s p + len l /\
  forall q r c, r < 25 -> c < 80 -> glyph s' q r c =
    if (q =? p) && (pos s p <=? 80 * r + c) && (80 * r + c <? pos s p + len l)
    then (nth (N.to_nat (80 * r + c - pos s p)) l 0, match a with Some a => a | None => snd (glyph s q r c) end) else glyph s q r c.
Proof.
  unfold len. induction l as [|ch l IH]; intros s Hl Hg Hp; cbn zeta; cbn [puts fold_left].
  - split; [exact Hg|]. split; [cbn; lia|]. intros q r c _ _. change (N.of_nat (List.length (@nil N))) with 0. replace ((q =? p) && (pos s p <=? 80 * r + c) && (80 * r + c <? pos s p + 0)) with false by lia. reflexivity.
  - inversion Hl as [|? ? Hch Hl']; subst. cbn [List.length] in Hp. destruct (put_at p a ch s Hch Hg ltac:(lia)) as (G1 & P1 & E1).
    destruct (IH (put p a ch s) Hl' G1 ltac:(lia)) as (G2 & P2 & E2). fold (puts p a l (put p a ch s)).
    split; [exact G2|]. split; [cbn [List.length]; lia|]. intros q r c Hr Hc. rewrite (E2 q r c Hr Hc), P1, (E1 q r c Hr Hc). cbn [List.length].
    set (x := 80 * r + c). destruct (N.eqb_spec q p) as [->|Hq]; cbn [andb]; [|reflexivity].
    destruct (N.eqb_spec x (pos s p)) as [Ex|Ex].
    + rewrite Ex. replace (pos s p + 1 <=? pos s p) with false by lia. cbn [andb]. rewrite N.leb_refl. replace (pos s p <? _) with true by lia.
      cbn [andb]. rewrite N.sub_diag. reflexivity.
    + replace (pos s p + 1 <=? x) with (pos s p <=? x) by lia. replace (x <? pos s p + 1 + N.of_nat (List.length l)) with (x <? pos s p + N.of_nat (S (List.length l))) by lia.
      destruct ((pos s p <=? x) && (x <? pos s p + N.of_nat (S (List.length l)))) eqn:Eb; [|reflexivity].
      replace (N.to_nat (x - pos s p)) with (S (N.to_nat (x - (pos s p + 1)))) by lia. reflexivity.
Qed.

(** ** strings *)
Lemma chars_len t : List.length (chars t) = String.length t.
Proof. unfold chars. rewrite map_length. induction t; cbn; congruence. Qed.
Lemma fetch_at m seg off t : at_ m (16 * seg + off) t -> off + N.of_nat (String.length t) <= 65536 ->
  fetch m seg off (N.of_nat (String.length t)) = chars t.
Proof.
  intros Ha Ho. unfold fetch. rewrite Nat2N.id. apply (nth_ext _ _ 0 0); [rewrite map_length, seq_length, chars_len; reflexivity|].
  rewrite map_length, seq_length. intros i Hi. rewrite (nth_indep _ 0 (m (16 * seg + (off + N.of_nat 0) mod 65536))) by (rewrite map_length, seq_length; exact Hi).
  rewrite (map_nth (fun i => m (16 * seg + (off + N.of_nat i) mod 65536)) (seq 0 (String.length t)) 0%nat i), seq_nth by exact Hi. cbn [plus].
  rewrite N.mod_small by lia. rewrite <- Ha by exact Hi. f_equal. lia.
Qed.

(** ** whole rows *)
Lemma looks_ext s f g : (forall r, r < 25 -> f r = g r) -> looks s f -> looks s g.
Proof. intros E H r c Hr Hc. rewrite <- E by exact Hr. auto. Qed.
Lemma write_row s rows a r0 l : looks s rows -> rows r0 = [] -> r0 < 25 -> len l < 80 -> Forall printable l ->
  let s' := int10_13 0 a r0 0 l s in
  looks s' (fun r => if r =? r0 then map (fun c => (c, a)) l else rows r) /\ good s' 0 /\ pos s' 0 = 80 * r0 + len l.
Proof.
  intros H H0 Hr0 Hl Hp. unfold int10_13. cbn zeta.
  assert (good (move 0 r0 0 s) 0 /\ pos (move 0 r0 0 s) 0 = 80 * r0) as [G P] by (unfold good, pos, move, upd; cbn [row col]; rewrite !N.eqb_refl; lia).
  destruct (puts_at 0 (Some a) l (move 0 r0 0 s) Hp G ltac:(lia)) as (G' & P' & E). rewrite P in *. split; [|auto].
  intros r c Hr Hc. rewrite (E shown r c Hr Hc). clear E. cbn [glyph move shown N.eqb andb]. specialize (H r c Hr Hc).
  unfold len in *. destruct (N.eqb_spec r r0) as [->|Hne].
  - destruct (c <? N.of_nat (List.length l)) eqn:Ec.
    + replace (80 * r0 <=? 80 * r0 + c) with true by lia. replace (80 * r0 + c <? 80 * r0 + N.of_nat (List.length l)) with true by lia. cbn [andb].
      replace (80 * r0 + c - 80 * r0) with c by lia. rewrite (nth_indep _ (32, 7) (0, a)) by (rewrite map_length; lia).
      rewrite (map_nth (fun c => (c, a))). reflexivity.
    + replace (80 * r0 + c <? 80 * r0 + N.of_nat (List.length l)) with false by lia. rewrite andb_false_r. rewrite H, H0.
      rewrite !nth_overflow; [reflexivity|rewrite map_length; lia|cbn; lia].
  - replace ((80 * r0 <=? 80 * r + c) && (80 * r + c <? 80 * r0 + N.of_nat (List.length l))) with false by lia. exact H.
Qed.
Definition clean (t : string) : bool := forallb (fun c => 13 <? c) (chars t) && (String.length t <? 80)%nat.
Lemma clean_ok t : clean t = true -> Forall printable (chars t) /\ len (chars t) < 80.
Proof.
  unfold clean, len. intros H. apply andb_true_iff in H as [H1 H2]. rewrite chars_len. split; [|lia].
  apply Forall_forall. intros c Hc. rewrite forallb_forall in H1. specialize (H1 c Hc). unfold printable. lia.
Qed.
(** ** the boot sector *)
Lemma boot_start_ok m a1 s : a1 + 16 <= 65536 -> at_ m a1 "Start Eospp boot" -> let s' := boot_start m 0 a1 s in
  looks s' (fun r => if r =? 0 then in_attr 0x0f "Start Eospp boot" else []) /\ good s' 0 /\ pos s' 0 = 16.
Proof.
  intros Ha Hm. cbn zeta. unfold boot_start.
  replace (fetch m 0 a1 16) with (chars "Start Eospp boot") by (symmetry; apply (fetch_at m 0 a1 "Start Eospp boot"); cbn; assumption).
  destruct (clean_ok "Start Eospp boot" eq_refl) as [Hp Hl].
  refine (write_row _ (fun _ => []) 0x0f 0 _ _ eq_refl eq_refl Hl Hp).
  intros r c Hr Hc. replace (nth (N.to_nat c) ([] : list (N * N)) (32, 7)) with (32, 7) by (destruct (N.to_nat c); reflexivity).
  unfold int10_02, int10_06, move. cbn [glyph]. replace (0 <=? r) with true by lia. replace (r <=? 24) with true by lia.
  replace (0 <=? c) with true by lia. replace (c <=? 79) with true by lia. reflexivity.
Qed.
Lemma dots_puts n : forall bx s, boot_dots false n bx s = puts shown None (repeat 46 n) s.
Proof. induction n as [|n IH]; intros bx s; [reflexivity|]. cbn [boot_dots repeat]. rewrite IH. reflexivity. Qed.
Lemma dots_ok n s : (n <= 144)%nat -> looks s (fun r => if r =? 0 then in_attr 0x0f "Start Eospp boot" else []) -> good s 0 -> pos s 0 = 16 ->
  forall rows, (forall r, 2 <= r -> rows r = []) -> rows 0 = in_attr 0x0f "Start Eospp boot" ++ dots (min n 64) -> rows 1 = dots (n - 64) ->
  looks (puts shown None (repeat 46 n) s) rows.
Proof.
  intros Hn H G P rows R2 R0 R1. assert (Forall printable (repeat 46 n)) as Hp.
  { apply Forall_forall. intros x Hx. apply repeat_spec in Hx. subst. unfold printable. lia. }
  destruct (puts_at shown None (repeat 46 n) s Hp G) as (_ & _ & E). { unfold len. rewrite repeat_length. unfold shown. lia. }
  intros r c Hr Hc. rewrite (E shown r c Hr Hc). clear E. specialize (H r c Hr Hc). unfold shown in *. rewrite P, N.eqb_refl. cbn [andb]. unfold len. rewrite repeat_length.
  assert (forall i k, nth i (repeat 46 k) 0 = if (i <? k)%nat then 46 else 0) as NR.
  { induction i as [|i IHi]; intros [|k]; cbn; try reflexivity. rewrite IHi. reflexivity. }
  assert (forall i k, nth i (dots k) (32, 7) = if (i <? k)%nat then (46, 7) else (32, 7)) as ND.
  { induction i as [|i IHi]; intros [|k]; cbn; try reflexivity. unfold dots in IHi. rewrite IHi. reflexivity. }
  rewrite NR. destruct (N.eqb_spec r 0) as [->|Hr0]; [|destruct (N.eqb_spec r 1) as [->|Hr1]].
  - rewrite R0. rewrite N.mul_0_r, N.add_0_l. assert (List.length (in_attr 0x0f "Start Eospp boot") = 16%nat) as L16 by reflexivity.
    destruct (16 <=? c) eqn:E16; cbn [andb].
    + rewrite app_nth2 by lia. rewrite L16, ND. rewrite nth_overflow in H by lia. rewrite H. cbn [snd].
      destruct (c <? 16 + N.of_nat n) eqn:En.
      * replace (N.to_nat (c - 16) <? n)%nat with true by lia. replace (N.to_nat c - 16 <? Nat.min n 64)%nat with true by lia. reflexivity.
      * replace (N.to_nat c - 16 <? Nat.min n 64)%nat with false by lia. reflexivity.
    + rewrite app_nth1 by lia. exact H.
  - rewrite R1, ND. replace (16 <=? 80 * 1 + c) with true by lia. cbn [andb].
    assert (glyph s 0 1 c = (32, 7)) as -> by (rewrite H; cbn; destruct (N.to_nat c); reflexivity). cbn [snd].
    destruct (80 * 1 + c <? 16 + N.of_nat n) eqn:En.
    + replace (N.to_nat (80 * 1 + c - 16) <? n)%nat with true by lia. replace (N.to_nat c <? n - 64)%nat with true by lia. reflexivity.
    + replace (N.to_nat c <? n - 64)%nat with false by lia. reflexivity.
  - rewrite R2 by lia. replace (80 * r + c <? 16 + N.of_nat n) with false by lia. rewrite andb_false_r, H. reflexivity.
Qed.

(** ** the loader *)
Lemma printf_ok m t a rows s r0 k : message m a t -> clean t = true -> (String.length t <= 30)%nat -> k = N.of_nat (String.length t) ->
  r0 < 25 -> looks s rows -> rows r0 = [] ->
  exists s', Printf m k a (s, 256 * r0) = (s', 256 * (r0 + 2)) /\ looks s' (fun r => if r =? r0 then in_attr 0x0f t else rows r).
Proof.
  intros [Ha Hm] Hc Hl -> Hr H H0. eexists. unfold Printf. split; [f_equal; lia|].
  replace (256 * r0 / 256) with r0 by lia. replace ((256 * r0) mod 256) with 0 by lia.
  rewrite fetch_at by (cbn -[N.of_nat N.le] in *; [assumption||lia..]).
  destruct (clean_ok t Hc) as [Hp Hl']. exact (proj1 (write_row s rows 0x0f r0 (chars t) H H0 Hr Hl' Hp)).
Qed.
Ltac line_ t := match goal with
  | Hs : looks ?s ?rows, Hm : message ?m ?a t |- context [Printf ?m ?k ?a (?s, ?dx)] =>
      let s' := fresh "s" in let E := fresh "E" in let H := fresh "H" in
      destruct (printf_ok m t a rows s (dx / 256) k Hm eq_refl ltac:(cbn; lia) eq_refl eq_refl Hs) as (s' & E & H);
      [cbn; auto|change (256 * (dx / 256)) with dx in E; let v := eval vm_compute in (256 * (dx / 256 + 2)) in change (256 * (dx / 256 + 2)) with v in E; rewrite E; clear E Hs]
  end.
Ltac fin_ FIN R := (split; [|reflexivity]); cbn [fst]; (eapply FIN; [| |eassumption]); cbn beta;
  [intros r Hr; repeat match goal with |- context [if ?b then _ else _] => replace b with false by lia end; reflexivity
  |intros r Hr Hr';
   assert (In r [2;3;4;5;6;7;8;9;10;11;12;13;14;15;16;17;18;19;20;21;22;23;24]) as Hin by (cbn [In]; lia); clear Hr Hr'; cbn [In] in Hin;
   repeat (destruct Hin as [<-|Hin]; [cbv -[N.le]; first [reflexivity|apply R; lia]|]); contradiction].
Lemma loader_ok m L w s rows : loader_loaded m L -> looks s rows -> (forall r, 2 <= r -> rows r = []) ->
  looks (fst (loader m L w s)) (fun r => if r <? 2 then rows r else loader_row w r) /\
  snd (loader m L w s) = has_kernel w && has_map w && has_svga w.
Proof.
  intros (M1 & M2 & M3 & M4 & M5 & M6 & M7 & M8 & M9) H R. destruct w as [k mp sv]. unfold loader, loader_row, reports. cbn [has_kernel has_map has_svga].
  assert (rows 2 = []) as R2 by (apply R; lia). assert (rows 4 = []) as R4 by (apply R; lia). assert (rows 6 = []) as R6 by (apply R; lia).
  assert (rows 8 = []) as R8 by (apply R; lia). assert (rows 10 = []) as R10 by (apply R; lia). assert (rows 12 = []) as R12 by (apply R; lia).
  assert (forall X : N -> list (N * N), (forall r, r < 2 -> X r = rows r) ->
    forall Y, (forall r, 2 <= r -> r < 25 -> X r = Y r) -> forall s', looks s' X -> looks s' (fun r => if r <? 2 then rows r else Y r)) as FIN.
  { intros X X1 Y X2 s' Hs'. apply (looks_ext s' X); [|exact Hs']. intros r Hr. destruct (r <? 2) eqn:E; [apply X1; lia|apply X2; lia]. }
  line_ "Start Eospp Loader"%string.
  destruct k; cbn [negb]; [|line_ "Eospp.bin don't exist"%string].
  - line_ "Load Eospp.bin successful"%string. line_ "Start to get hardware memory"%string.
    destruct mp; cbn [negb]; [|line_ "failed to get hardware memory"%string].
    + line_ "Get hardware memory successful"%string. line_ "Start to get SVGA"%string.
      destruct sv; cbn [negb]; [line_ "Get SVGA info successful"%string|line_ "failed to get SVGA"%string]; fin_ FIN R.
    + fin_ FIN R.
  - fin_ FIN R.
Qed.

(** ** both *)
Lemma line_low n w r : 2 <= r -> line (Some n) w r = loader_row w r.
Proof. intros H. unfold line. destruct r as [|[p|p|]]; try reflexivity; lia. Qed.
Lemma after_boot m L w s n : loader_loaded m L -> looks s (fun r => if r <? 2 then line (Some n) w r else []) ->
  looks (fst (loader m L w s)) (line (Some n) w) /\ snd (loader m L w s) = has_kernel w && has_map w && has_svga w.
Proof.
  intros HL H. destruct (loader_ok m L w s _ HL H) as [H1 H2]. { intros r Hr. replace (r <? 2) with false by lia. reflexivity. }
  split; [|exact H2]. eapply looks_ext; [|exact H1]. cbn beta. intros r _. destruct (r <? 2) eqn:E; [reflexivity|]. symmetry. apply line_low. lia.
Qed.
Lemma boot_screen m a1 n s w : boot_loaded m a1 0 \/ (a1 + 16 <= 65536 /\ at_ m a1 "Start Eospp boot") -> (n <= 144)%nat ->
  looks (puts shown None (repeat 46 n) (boot_start m 0 a1 s)) (fun r => if r <? 2 then line (Some n) w r else []).
Proof.
  intros Hb Hn. assert (a1 + 16 <= 65536 /\ at_ m a1 "Start Eospp boot") as [Ha Hm] by (destruct Hb as [(? & _ & ? & _)|?]; tauto).
  destruct (boot_start_ok m a1 s Ha Hm) as (H & G & P). apply (dots_ok n _ Hn H G P); [|reflexivity|reflexivity].
  intros r Hr. replace (r <? 2) with false by lia. reflexivity.
Qed.
Theorem screen m a1 a2 L sectors w s : boot_loaded m a1 a2 -> loader_loaded m L -> fits sectors ->
  looks (fst (start_up false m 0 a1 a2 L sectors w s)) (line sectors w) /\
  snd (start_up false m 0 a1 a2 L sectors w s) = match sectors with Some _ => has_kernel w && has_map w && has_svga w | None => false end.
Proof.
  intros (A1 & A2 & M1 & M2) HL Hf. unfold start_up, boot. destruct sectors as [n|]; cbn [fits] in Hf.
  - rewrite dots_puts. apply (after_boot m L w _ n HL). apply (boot_screen m a1 n s w); auto.
  - cbn [fst snd]. split; [|reflexivity]. destruct (boot_start_ok m a1 s A1 M1) as (H & _ & _).
    replace (fetch m 0 a2 24) with (chars "Eospp loader don't exist") by (symmetry; apply (fetch_at m 0 a2 "Eospp loader don't exist"); cbn; assumption).
    destruct (clean_ok "Eospp loader don't exist" eq_refl) as [Hp Hl].
    eapply looks_ext; [|exact (proj1 (write_row _ _ 0x8c 1 _ H eq_refl eq_refl Hl Hp))]. cbn beta. intros r Hr.
    destruct (N.eqb_spec r 1) as [->|]; [reflexivity|]. destruct (N.eqb_spec r 0) as [->|]; [reflexivity|]. unfold line. destruct r as [|[p|p|]]; try reflexivity; lia.
Qed.
Lemma looks_page s s' rows : (forall r c, glyph s' shown r c = glyph s shown r c) -> looks s rows -> looks s' rows.
Proof. intros E H r c Hr Hc. rewrite E. auto. Qed.
Lemma dots_away n : forall k s, (1 <= k)%nat -> (k + n <= 128)%nat -> forall r c, glyph (boot_dots true n (512 * N.of_nat k) s) shown r c = glyph s shown r c.
Proof.
  induction n as [|n IH]; intros k s Hk Hn r c; [reflexivity|]. cbn [boot_dots]. destruct (N.eq_dec (N.of_nat k) 127) as [E|E].
  - assert (n = 0%nat) as -> by lia. cbn [boot_dots]. unfold int10_0e. apply put_other. unfold shown. lia.
  - replace ((512 * N.of_nat k + 512) mod 65536) with (512 * N.of_nat (S k)) by lia. rewrite IH by lia. unfold int10_0e. apply put_other. unfold shown. lia.
Qed.
Theorem screen_paged m a1 a2 L n w s : boot_loaded m a1 a2 -> loader_loaded m L -> (1 <= n <= 128)%nat ->
  looks (fst (start_up true m 0 a1 a2 L (Some n) w s)) (line_with 1 w).
Proof.
  intros (A1 & A2 & M1 & M2) HL Hn. unfold start_up, boot, line_with. apply (after_boot m L w _ 1 HL). destruct n as [|n]; [lia|]. cbn [boot_dots].
  eapply looks_page; [intros r c; apply (dots_away n 1); lia|]. exact (boot_screen m a1 1 s w (or_intror (conj A1 M1)) ltac:(lia)).
Qed.

(** ** a memory with the messages *)
Definition place (l : list (N * string)) : mem := fun a =>
  fold_right (fun '(b, t) v => if (b <=? a) && (a <? b + N.of_nat (String.length t)) then nth (N.to_nat (a - b)) (chars t) 0 else v) 0 l.
Definition demo_labels : labels :=
  {| NoEosppBinMsg := 0x40; GetMemoryMsg := 0x60; FailedGetMemoryMsg := 0x80; SuccessGetMemoryMsg := 0xa0; StartEosppLoaderMsg := 0xc0;
     GetSVGAMsg := 0xe0; FailedGetSVGAMsg := 0x100; FinishLoadEosppBinMsg := 0x120; GetSVGAMsgSuccessMsg := 0x140 |}.
Definition demo : mem := place
  [(0x7d00, "Start Eospp boot"); (0x7d20, "Eospp loader don't exist"); (0x10040, "Eospp.bin don't exist"); (0x10060, "Start to get hardware memory");
   (0x10080, "failed to get hardware memory"); (0x100a0, "Get hardware memory successful"); (0x100c0, "Start Eospp Loader"); (0x100e0, "Start to get SVGA");
   (0x10100, "failed to get SVGA"); (0x10120, "Load Eospp.bin successful"); (0x10140, "Get SVGA info successful")]%string.
Fixpoint at_b (m : mem) (a : N) (l : list N) : bool := match l with [] => true | c :: l => (m a =? c) && at_b m (a + 1) l end.
Lemma at_b_ok m l : forall a, at_b m a l = true -> forall i, (i < List.length l)%nat -> m (a + N.of_nat i) = nth i l 0.
Proof.
  induction l as [|c l IH]; intros a H i Hi; cbn in *; [lia|]. apply andb_true_iff in H as [H1 H2]. destruct i as [|i].
  - cbn. rewrite N.add_0_r. lia.
  - cbn [nth]. rewrite <- (IH (a + 1) H2 i) by lia. f_equal. lia.
Qed.
Lemma at_ok m a t : at_b m a (chars t) = true -> at_ m a t.
Proof. intros H i Hi. apply (at_b_ok m (chars t) a H). rewrite chars_len. exact Hi. Qed.
Lemma demo_boot : boot_loaded demo 0x7d00 0x7d20.
Proof. split; [lia|]. split; [lia|]. split; apply at_ok; vm_compute; reflexivity. Qed.
Lemma demo_loader : loader_loaded demo demo_labels.
Proof. repeat split; try (cbn; lia); apply at_ok; vm_compute; reflexivity. Qed.
Definition dark : text := {| glyph := fun _ _ _ => (0, 0); row := fun _ => 0; col := fun _ => 0 |}.
Definition all_well : answers := {| has_kernel := true; has_map := true; has_svga := true |}.
Lemma paged_refuted : exists m a1 a2 L n w s, boot_loaded m a1 a2 /\ loader_loaded m L /\ (n <= 144)%nat /\
  ~ looks (fst (start_up true m 0 a1 a2 L (Some n) w s)) (line (Some n) w).
Proof.
  exists demo, 0x7d00, 0x7d20, demo_labels, 2%nat, all_well, dark. split; [exact demo_boot|]. split; [exact demo_loader|]. split; [lia|]. intros H.
  pose proof (screen_paged demo 0x7d00 0x7d20 demo_labels 2 all_well dark demo_boot demo_loader ltac:(lia)) as H'.
  specialize (H 0 17 eq_refl eq_refl). specialize (H' 0 17 eq_refl eq_refl). rewrite H' in H. clear H'. vm_compute in H. discriminate H.
Qed.
Lemma entry_refuted : exists m a1 a2 L n w s, boot_loaded m a1 a2 /\ loader_loaded m L /\ (n <= 144)%nat /\
  ~ looks (fst (start_up false m 0x7c0 a1 a2 L (Some n) w s)) (line (Some n) w).
Proof.
  exists demo, 0x7d00, 0x7d20, demo_labels, 0%nat, all_well, dark. split; [exact demo_boot|]. split; [exact demo_loader|]. split; [lia|]. intros H.
  specialize (H 0 0 eq_refl eq_refl). vm_compute in H. discriminate H.
Qed.
