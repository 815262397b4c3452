(** Concrete formats used as witnesses beside the theorems about the formatter. *)
From stdpp Require Import gmap.
From Coq Require Import ZArith Lia ZifyBool ZifyNat ZifyN.
From Verif Require Import Base StringModel StringSpec PrintfModel PrintfSpec PrintfProofs PrintfLoopProofs.
Local Open Scope N_scope.

Lemma sprintf_num_exact : forall (bd : bounds) (m : gmap N N) (buf n zero hexadecimal width : N),
  0 < base bd -> base bd <= buf -> buf <= last bd -> last bd < 2 ^ 64 -> n < 2 ^ 64 ->
  exists ds m',
    numeral (if hexadecimal =? 0 then 10 else 16) (negb (hexadecimal =? 0) && negb (hexadecimal =? 1)) n ds /\
    sprintf_num bd m buf n zero hexadecimal width =
      FOk (m', buf + N.of_nat (length (take (N.to_nat (last bd - buf)) (padded zero width ds)))) /\
    text_written m buf (take (N.to_nat (last bd - buf)) (padded zero width ds)) m'.
Proof.
  intros bd m buf n zero h width H0 H1 H2 H3 H4.
  destruct (sprintf_num_emits bd m buf n zero h width) as (ds & Hd & _ & (m' & Hr & Ht)); try assumption.
  { unfold wfb. lia. }
  exists ds, m'. split; [|split; [exact Hr|exact Ht]].
  unfold num_base, num_upper in Hd. destruct (h =? 0), (h =? 1); exact Hd.
Qed.

Lemma numeral_unique' : forall (b : N) (upper : bool) (ds1 ds2 : list N) (n : N),
  2 <= b -> numeral b upper n ds1 -> numeral b upper n ds2 -> ds1 = ds2.
Proof. intros b u ds1 ds2 n Hb. apply numeral_unique. exact Hb. Qed.

Lemma no_terminator :
  exists (m : gmap N N) (buf lst : N) (fmt : list N) (args : list arg) (m' : gmap N N) (e : N),
    0 < buf /\ buf < lst /\ vslprintf m buf lst fmt args = FOk (m', e) /\
    forall x, buf <= x -> x < lst -> m' !! x <> Some 0.
Proof.
  exists ∅, 1000, 1005, [104; 101; 108; 108; 111], []. do 2 eexists.
  split; [reflexivity|]. split; [reflexivity|]. split; [vm_compute; reflexivity|].
  intros x H1 H2.
  assert (x = 1000 \/ x = 1001 \/ x = 1002 \/ x = 1003 \/ x = 1004) as [->|[->|[->|[->| ->]]]] by lia;
    vm_compute; discriminate.
Qed.

Lemma percent_overread :
  exists (m : gmap N N) (buf lst : N) (fmt : list N) (args : list arg),
    0 < buf /\ buf < lst /\ Forall (fun c => c <> 0) fmt /\ vslprintf m buf lst fmt args = FErr FmtOver.
Proof.
  exists ∅, 1000, 1010, [97; 98; 99; 37], []. split; [reflexivity|]. split; [reflexivity|].
  split; [repeat constructor; discriminate|]. vm_compute. reflexivity.
Qed.

Lemma c07_demo :
  Forall wf_directive [Conv [] [42] None 100; Conv [] [] None 37] /\
  unparse [Conv [] [42] None 100; Conv [] [] None 37] = [37; 42; 100; 37; 37] /\
  vslprintf ∅ 1000 1010 [37; 42; 100; 37; 37] [] = FErr BadArg.
Proof.
  split; [|split; [reflexivity|vm_compute; reflexivity]].
  constructor; [|constructor; [|constructor]]; cbn; unfold is_flag, is_digit;
    repeat split; try (constructor; [tauto|constructor]); try constructor; try lia.
Qed.

Definition demo_format : list directive :=
  [Lit 97; Conv [48; 52] [120] None 100; Conv [] [] None 99; Conv [] [] None 115].
Definition demo_strings : gmap N N := <[200 := 104]> (<[201 := 105]> (<[202 := 0]> ∅)).
Definition demo_buffer : gmap N N :=
  demo_strings ∪ list_to_map ((fun k => (1000 + N.of_nat k, 0)) <$> seq 0 16).

Lemma demo_strings_inv x v : demo_strings !! x = Some v -> x = 200 \/ x = 201 \/ x = 202.
Proof.
  unfold demo_strings. rewrite !lookup_insert_Some, lookup_empty. intuition congruence.
Qed.

Lemma c08_demo :
  Forall wf_directive demo_format /\
  renders_all demo_strings demo_format [A32 255; A32 66; APtr 200] [97; 48; 48; 102; 102; 66; 104; 105] [] /\
  mapped demo_buffer 1000 16 /\
  (forall x v, demo_strings !! x = Some v -> demo_buffer !! x = Some v /\ (x < 1000 \/ 1000 + 16 <= x)).
Proof.
  split; [|split; [|split]].
  - constructor; [cbn; lia|].
    constructor; [|constructor; [|constructor; [|constructor]]]; cbn; unfold is_flag, is_digit.
    + split; [repeat constructor; lia|]. split; [constructor; [tauto|constructor]|].
      split; [lia|]. split; [lia|]. split; [lia|]. intros H. discriminate.
    + split; [constructor|]. split; [constructor|]. lia.
    + split; [constructor|]. split; [constructor|]. lia.
  - change [97; 48; 48; 102; 102; 66; 104; 105] with ([97] ++ [48; 48; 102; 102] ++ [66] ++ [104; 105] ++ []).
    eapply RA_cons; [apply R_lit|]. eapply RA_cons.
    + change [48; 48; 102; 102]
        with ((if (int_value 32 false 255 <? 0)%Z then [45] else []) ++
              padded (pad_of [48; 52]) (if (100 =? 105) && max_of [120] then 20 else width_of [48; 52]) [102; 102]).
      eapply (R_int _ [48; 52] [120] None 100 _ None _ 32 255); try reflexivity.
      * discriminate.
      * cbn. split; [reflexivity|]. split; [discriminate|]. intros cs' H. discriminate.
    + eapply RA_cons.
      * change [66] with [66 mod 256]. eapply (R_chr _ [] [] None _ None 66). reflexivity.
      * eapply RA_cons; [|apply RA_nil]. eapply (R_str _ [] [] None _ None _ 200).
        -- reflexivity.
        -- left. reflexivity.
        -- split; [reflexivity|]. intros i Hi. cbn in Hi.
           assert (i = 0 \/ i = 1) as [->| ->] by lia; eexists; (split; [reflexivity|discriminate]).
        -- intros [|[|i]] c H; cbn in H; [injection H as <-|injection H as <-|destruct i; discriminate]; reflexivity.
  - intros i Hi.
    assert (H : forallb (fun k => bool_decide (is_Some (demo_buffer !! (1000 + N.of_nat k)))) (seq 0 16) = true)
      by (vm_compute; reflexivity).
    rewrite forallb_forall in H. specialize (H (N.to_nat i)). rewrite bool_decide_eq_true, N2Nat.id in H.
    apply H. apply in_seq. lia.
  - intros x v H. split.
    + unfold demo_buffer. apply lookup_union_Some_l. exact H.
    + apply demo_strings_inv in H. lia.
Qed.

Lemma int64_min_undefined :
  exists (m : gmap N N) (buf max : N), 0 < buf /\ 30 <= max /\
    snprintf m buf max (unparse [Conv [] [] None 108]) [A64 (2 ^ 63)] = FErr BadArg.
Proof. exists ∅, 1000, 30. split; [reflexivity|]. split; [discriminate|]. vm_compute. reflexivity. Qed.
