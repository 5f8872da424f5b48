(** Property theorem C45_what_loads: exactly which bytes the bincode readers accept, as what.
    Vocabulary: SpecBincode.v (the format) and SpecSerial.v (same_circuit, same_test_case). *)
From Coq Require Import List Bool Arith NArith Lia.
From Coq Require Import Strings.Byte.
From Verif Require Import Res Bytes Text Utf8 Inputs Serial SpecSerial SerialFacts SpecBincode BincodeIff.
Import ListNotations.
Local Open Scope N_scope.

Theorem C45_what_loads :
  (forall bs c, from_bincode bs = Ok c -> exists x rest, bs = x ++ rest /\ bin_circuit x c) /\
  (forall x c rest, bin_circuit x c -> exists c', from_bincode (x ++ rest) = Ok c' /\ same_circuit c c') /\
  (forall bs t, test_case_from_bincode bs = Ok t -> exists x rest, bs = x ++ rest /\ bin_test_case x t) /\
  (forall x t rest, bin_test_case x t -> exists t', test_case_from_bincode (x ++ rest) = Ok t' /\ same_test_case t t').
Proof.
  destruct takes_circuit as [C1 C2], takes_test_case as [T1 T2].
  split; [|split; [|split]].
  - intros bs c H. unfold from_bincode in H. apply rbind_ok in H as ([c' r]&H&[= <-]). apply C1 in H as (x&->&Hx). eauto.
  - intros x c rest H. destruct (C2 _ _ rest H) as (c'&E&S). exists c'. split; [|exact S]. unfold from_bincode. rewrite E. reflexivity.
  - intros bs t H. unfold test_case_from_bincode in H. apply rbind_ok in H as ([c' r]&H&[= <-]). apply T1 in H as (x&->&Hx). eauto.
  - intros x c rest H. destruct (T2 _ _ rest H) as (c'&E&S). exists c'. split; [|exact S]. unfold test_case_from_bincode. rewrite E. reflexivity.
Qed.
Print Assumptions C45_what_loads.

(** Two circuits one encoding can stand for differ at most in the order their labels are listed. *)
Theorem C45_unambiguous :
  forall x c d, bin_circuit x c -> bin_circuit x d -> same_circuit c d.
Proof.
  intros x c d Hc Hd. destruct takes_circuit as [_ C2].
  destruct (C2 _ _ [] Hc) as (c'&E1&S1), (C2 _ _ [] Hd) as (d'&E2&S2).
  rewrite E1 in E2. injection E2 as <-.
  destruct S1 as (?&?&?&?&?&?&?&?&L1), S2 as (?&?&?&?&?&?&?&?&L2).
  unfold same_circuit. repeat (split; [congruence|]).
  destruct (s_wire_labels c), (s_wire_labels d), (s_wire_labels c'); cbn [same_labels] in *; try contradiction; [|exact I].
  intros k. rewrite (L1 k), (L2 k). reflexivity.
Qed.
Print Assumptions C45_unambiguous.

(** Non-vacuity: wire 7 is labelled twice, "a" and then "b"; the second label stands; a byte may
    follow.  An option tag other than 0 and 1 is an error. *)
Example bincode_repeated_label :
  let u4 n : list byte := n :: [x00; x00; x00] in
  let u8 n : list byte := n :: [x00; x00; x00; x00; x00; x00; x00] in
  let head := u4 x01 ++ u8 x01 ++ [x0d] ++ u4 x02 ++ u4 x00 ++ u4 x01 ++ u4 x00 ++ u4 x00 ++ u8 x00 in
  let enc t := head ++ [t] ++ u8 x02 ++ u4 x07 ++ u8 x01 ++ [x61] ++ u4 x07 ++ u8 x01 ++ [x62] in
  let c := SCircuit 1 [x0d] 2 0 1 0 0 [] (Some [(7, [98])]) in
  from_bincode (enc x01 ++ [xff]) = Ok c /\ from_bincode (enc x02) = Err (BTag 2) /\
  (exists x rest, enc x01 ++ [xff] = x ++ rest /\ bin_circuit x c).
Proof.
  intros u4 u8 head enc c. assert (E : from_bincode (enc x01 ++ [xff]) = Ok c) by (vm_compute; reflexivity).
  split; [exact E|]. split; [vm_compute; reflexivity|]. exact (proj1 C45_what_loads _ _ E).
Qed.
