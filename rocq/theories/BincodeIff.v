(** The bincode readers of Serial.v accept exactly what SpecBincode.v says. *)
From Coq Require Import List Bool Arith NArith ZArith Lia.
From Coq Require Import Strings.Byte.
From Verif Require Import Res Bytes Text Utf8 Inputs InputsFacts Serial SpecSerial SerialFacts SpecBincode SerialJsonIff.
Import ListNotations.
Local Open Scope N_scope.

Lemma number_of_le bs : number_of bs = le_val bs.
Proof. induction bs as [|b bs IH]; [reflexivity|]. cbn [number_of le_val]. rewrite IH. reflexivity. Qed.

(** The reader takes exactly the bytes of the value. *)
Definition takes {A} (same : A -> A -> Prop) (d : dec A) (bin : list byte -> A -> Prop) : Prop :=
  (forall bs a rest, d bs = Ok (a, rest) -> exists x, bs = x ++ rest /\ bin x a) /\
  (forall x a rest, bin x a -> exists a', d (x ++ rest) = Ok (a', rest) /\ same a a').
Definition takes_eq {A} (d : dec A) bin : Prop := takes (@eq A) d bin.
Lemma takes_eq_2 {A} (d : dec A) bin : takes_eq d bin -> forall x a rest, bin x a -> d (x ++ rest) = Ok (a, rest).
Proof. intros [_ H] x a rest Hb. destruct (H x a rest Hb) as (a'&E&<-). exact E. Qed.
Lemma takes_eq_intro {A} (d : dec A) (bin : list byte -> A -> Prop) :
  (forall bs a rest, d bs = Ok (a, rest) -> exists x, bs = x ++ rest /\ bin x a) ->
  (forall x a rest, bin x a -> d (x ++ rest) = Ok (a, rest)) -> takes_eq d bin.
Proof. intros H1 H2. split; [exact H1|]. intros x a rest H. exists a. split; [apply H2; exact H|reflexivity]. Qed.

Lemma takes_uint w : takes_eq (d_bind (d_take w) (fun b => d_ret (le_val b))) (bin_uint w).
Proof.
  apply takes_eq_intro.
  - intros bs a rest H. apply d_bind_ok in H as (b&r&H&[= <- <-]). apply d_take_inv in H as [-> H]. exists b. split; [reflexivity|].
    split; [exact H|apply number_of_le].
  - intros x a rest [H <-]. pose proof (number_of_le x) as E. rewrite (d_bind_step _ _ _ x rest) by (apply d_take_app; exact H). unfold d_ret. congruence.
Qed.
Lemma takes_u32 : takes_eq d_u32 (bin_uint 4). Proof. apply takes_uint. Qed.
Lemma takes_u64 : takes_eq d_u64 (bin_uint 8). Proof. apply takes_uint. Qed.

Lemma takes_items {A} (d : dec A) bin : takes_eq d bin -> forall n,
  (forall bs l rest, d_items d n bs = Ok (l, rest) -> exists items, bs = concat items ++ rest /\ Forall2 bin items l /\ length l = n) /\
  (forall items l rest, Forall2 bin items l -> length l = n -> d_items d n (concat items ++ rest) = Ok (l, rest)).
Proof.
  intros Hd n. induction n as [|n [IH1 IH2]]; split.
  - intros bs l rest [= <- <-]. exists []. split; [reflexivity|]. split; [constructor|reflexivity].
  - intros items l rest H Hl. destruct l; [|discriminate]. inversion H. reflexivity.
  - intros bs l rest H. cbn [d_items] in H. apply d_bind_ok in H as (a&r&H1&H). apply d_bind_ok in H as (l'&r'&H2&[= <- <-]).
    apply (proj1 Hd) in H1 as (x&->&Hx). apply IH1 in H2 as (items&->&Hi&Hl). exists (x :: items). cbn [concat length]. rewrite app_assoc.
    split; [reflexivity|]. split; [constructor; assumption|]. f_equal. exact Hl.
  - intros items l rest H Hl. destruct l as [|a l]; [discriminate|]. injection Hl as Hl. inversion H as [|x ? items' ? Hx Hi]; subst.
    cbn [concat d_items]. rewrite <- app_assoc. rewrite (d_bind_step _ _ _ a (concat items' ++ rest)) by (apply (takes_eq_2 _ _ Hd); exact Hx).
    rewrite (d_bind_step _ _ _ l rest) by (apply IH2; [exact Hi|reflexivity]). reflexivity.
Qed.
Lemma takes_seq {A} (d : dec A) bin : takes_eq d bin -> takes_eq (d_seq d) (bin_seq bin).
Proof.
  intros Hd. apply takes_eq_intro; unfold d_seq, bin_seq.
  - intros bs l rest H. apply d_bind_ok in H as (n&r&H1&H2). apply (proj1 takes_u64) in H1 as (c&->&Hc).
    apply (takes_items _ _ Hd) in H2 as (items&->&Hi&Hl). exists (c ++ concat items). rewrite app_assoc. split; [reflexivity|].
    exists c, items. rewrite Hl, N2Nat.id. auto.
  - intros x l rest (c&items&->&Hc&Hi). rewrite <- app_assoc.
    rewrite (d_bind_step _ _ _ (N.of_nat (length l)) (concat items ++ rest)) by (apply (takes_eq_2 _ _ takes_u64); exact Hc).
    apply (takes_items _ _ Hd); [exact Hi|]. rewrite Nat2N.id. reflexivity.
Qed.
Lemma takes_byte : takes_eq d_byte (fun bs b => bs = [b]).
Proof.
  apply takes_eq_intro.
  - intros bs a rest H. apply d_byte_sound in H as [-> _]. exists [a]. auto.
  - intros x a rest ->. exact (d_byte_reads a rest I).
Qed.
Lemma takes_bytes : takes_eq d_bytes bin_bytes.
Proof.
  pose proof (takes_seq _ _ takes_byte) as H. unfold d_bytes.
  assert (E : forall (l : list byte) items, Forall2 (fun bs b => bs = [b]) items l -> concat items = l).
  { intros l items G. induction G as [|x b items l -> G IH]; [reflexivity|]. cbn. f_equal. exact IH. }
  assert (S : forall l : list byte, Forall2 (fun bs b => bs = [b]) (map (fun b => [b]) l) l).
  { induction l; cbn [map]; constructor; auto. }
  apply takes_eq_intro.
  - intros bs l rest G. apply (proj1 H) in G as (x&->&c&items&->&Hc&Hi). exists (c ++ concat items). split; [reflexivity|].
    exists c. rewrite (E _ _ Hi). auto.
  - intros x l rest (c&->&Hc). apply (takes_eq_2 _ _ H). exists c, (map (fun b => [b]) l). rewrite (E _ _ (S l)). auto.
Qed.
Lemma takes_text : takes_eq d_str bin_text.
Proof.
  apply takes_eq_intro; unfold d_str, bin_text, bin_bytes.
  - intros bs t rest H. apply d_bind_ok in H as (n&r&H1&H). apply d_bind_ok in H as (b&r'&H2&H).
    apply (proj1 takes_u64) in H1 as (c&->&Hc). apply d_take_inv in H2 as [-> Hb].
    destruct (utf8_decode b) as [t'|] eqn:Eu; [|discriminate]. injection H as <- <-. apply utf8_decode_sound in Eu as [-> Hs].
    exists (c ++ utf8_encode t'). rewrite app_assoc. split; [reflexivity|]. split; [exact Hs|]. exists c. split; [reflexivity|].
    rewrite Hb, N2Nat.id. exact Hc.
  - intros x t rest [Hs (c&->&Hc)]. rewrite <- app_assoc. erewrite d_bind_step by (apply (takes_eq_2 _ _ takes_u64); exact Hc).
    rewrite Nat2N.id. erewrite d_bind_step by (apply d_take_app; reflexivity).
    unfold utf8_decode. rewrite utf8_decode_fuel_encode by (auto using Nat.le_refl). reflexivity.
Qed.
Lemma takes_option {A} (same : A -> A -> Prop) (d : dec A) bin : takes same d bin ->
  takes (fun a b => match a, b with None, None => True | Some x, Some y => same x y | _, _ => False end) (d_opt d) (bin_option bin).
Proof.
  intros [H1 H2]. split; unfold d_opt, bin_option.
  - intros bs o rest H. apply d_bind_ok in H as (t&r&Ht&H). apply d_u8_inv in Ht as [-> Hlt].
    destruct (N.eqb_spec t 0) as [->|H0]; [injection H as <- <-; exists [x00]; auto|].
    destruct (N.eqb_spec t 1) as [->|H1']; [|discriminate]. apply d_bind_ok in H as (a&r'&Ha&[= <- <-]).
    apply H1 in Ha as (x&->&Hx). exists (x01 :: x). split; [reflexivity|]. exists x. auto.
  - intros x [a|] rest H.
    + destruct H as (r&->&Hr). destruct (H2 r a rest Hr) as (a'&Ha&Hs). exists (Some a'). split; [|exact Hs].
      cbn [app]. rewrite (d_bind_step _ _ _ _ _ (d_u8_of x01 (r ++ rest))). cbn. rewrite (d_bind_step _ _ _ _ _ Ha). reflexivity.
    + subst x. exists None. split; [|exact I]. cbn [app]. rewrite (d_bind_step _ _ _ _ _ (d_u8_of x00 rest)). reflexivity.
Qed.
Lemma takes_entry {V} (d : dec V) bin : takes_eq d bin -> takes_eq (d_entry d) (bin_pair (bin_uint 4) bin).
Proof.
  intros Hd. apply takes_eq_intro; unfold d_entry, bin_pair.
  - intros bs p rest H. apply d_bind_ok in H as (k&r&H1&H). apply d_bind_ok in H as (v&r'&H2&[= <- <-]).
    apply (proj1 takes_u32) in H1 as (x&->&Hx). apply (proj1 Hd) in H2 as (y&->&Hy). exists (x ++ y). rewrite app_assoc. split; [reflexivity|].
    exists x, y. auto.
  - intros b [k v] rest (x&y&->&Hx&Hy). cbn [fst snd] in *. rewrite <- app_assoc.
    rewrite (d_bind_step _ _ _ _ _ (takes_eq_2 _ _ takes_u32 _ _ (y ++ rest) Hx)), (d_bind_step _ _ _ _ _ (takes_eq_2 _ _ Hd _ _ rest Hy)). reflexivity.
Qed.
Lemma takes_map {V} (d : dec V) bin : takes_eq d bin -> takes same_map (d_map d) (bin_map bin).
Proof.
  intros Hd. pose proof (takes_seq _ _ (takes_entry _ _ Hd)) as Hs. split; unfold d_map, bin_map.
  - intros bs m rest H. apply d_bind_ok in H as (l&r&H1&[= <- <-]). apply (proj1 Hs) in H1 as (x&->&Hx). exists x. split; [reflexivity|].
    destruct (inserted l ([] : nmap V) (NoDup_nil _)) as [G1 G2]. exists l. split; [exact Hx|]. split; [exact G1|].
    intros k v. rewrite <- get_in by exact G1. rewrite G2. split; [intros [G|[[=] _]]; exact G|auto].
  - intros x m rest (l&Hx&Hn&Hm). rewrite (d_bind_step _ _ _ _ _ (takes_eq_2 _ _ Hs _ _ rest Hx)). eexists. split; [reflexivity|].
    destruct (inserted l ([] : nmap V) (NoDup_nil _)) as [G1 G2]. intros k. destruct (nm_get k m) as [v|] eqn:E.
    + symmetry. apply G2. left. apply Hm. apply get_in; assumption.
    + match goal with |- _ = nm_get k ?q => set (mm := q) in * end. destruct (nm_get k mm) as [v|] eqn:E'; [|reflexivity]. exfalso. apply G2 in E' as [E'|[[=] _]].
      apply Hm in E'. apply get_in in E'; [congruence|exact Hn].
Qed.
Lemma takes_factor : takes_eq d_factor bin_factor.
Proof.
  apply takes_eq_intro; unfold d_factor, bin_factor.
  - intros bs p rest H. apply d_bind_ok in H as (k&r&H1&H). apply d_bind_ok in H as (v&r'&H2&[= <- <-]).
    apply (proj1 takes_u32) in H1 as (x&->&Hx). apply (proj1 takes_bytes) in H2 as (y&->&Hy). exists (x ++ y). rewrite app_assoc. split; [reflexivity|].
    exists x, y. auto.
  - intros b [k v] rest (x&y&->&Hx&Hy). cbn [f_wire_id f_coefficient_bytes] in *. rewrite <- app_assoc.
    rewrite (d_bind_step _ _ _ _ _ (takes_eq_2 _ _ takes_u32 _ _ (y ++ rest) Hx)), (d_bind_step _ _ _ _ _ (takes_eq_2 _ _ takes_bytes _ _ rest Hy)). reflexivity.
Qed.
Lemma takes_lc : takes_eq d_lc bin_lc.
Proof.
  pose proof (takes_seq _ _ takes_factor) as Hs. apply takes_eq_intro; unfold d_lc, bin_lc.
  - intros bs l rest H. apply d_bind_ok in H as (f&r&H1&[= <- <-]). apply (proj1 Hs) in H1. exact H1.
  - intros x l rest H. rewrite (d_bind_step _ _ _ _ _ (takes_eq_2 _ _ Hs _ _ rest H)). destruct l. reflexivity.
Qed.
Lemma takes_constraint : takes_eq d_constraint bin_constraint.
Proof.
  apply takes_eq_intro; unfold d_constraint, bin_constraint.
  - intros bs l rest H. apply d_bind_ok in H as (a&r1&H1&H). apply d_bind_ok in H as (b&r2&H2&H). apply d_bind_ok in H as (c&r3&H3&[= <- <-]).
    apply (proj1 takes_lc) in H1 as (x&->&Hx). apply (proj1 takes_lc) in H2 as (y&->&Hy). apply (proj1 takes_lc) in H3 as (z&->&Hz).
    exists (x ++ y ++ z). rewrite <- !app_assoc. split; [reflexivity|]. exists x, y, z. auto.
  - intros bs c rest (x&y&z&->&Hx&Hy&Hz). rewrite <- !app_assoc.
    rewrite (d_bind_step _ _ _ _ _ (takes_eq_2 _ _ takes_lc _ _ (y ++ z ++ rest) Hx)), (d_bind_step _ _ _ _ _ (takes_eq_2 _ _ takes_lc _ _ (z ++ rest) Hy)),
      (d_bind_step _ _ _ _ _ (takes_eq_2 _ _ takes_lc _ _ rest Hz)). destruct c. reflexivity.
Qed.
Lemma takes_circuit : takes same_circuit d_circuit bin_circuit.
Proof.
  pose proof (takes_seq _ _ takes_constraint) as Hs. destruct (takes_option _ _ _ (takes_map _ _ takes_text)) as [O1 O2].
  split; unfold d_circuit, bin_circuit.
  - intros bs c rest H.
    apply d_bind_ok in H as (fs&r1&H1&H). apply d_bind_ok in H as (pr&r2&H2&H). apply d_bind_ok in H as (nw&r3&H3&H).
    apply d_bind_ok in H as (po&r4&H4&H). apply d_bind_ok in H as (pi&r5&H5&H). apply d_bind_ok in H as (pv&r6&H6&H).
    apply d_bind_ok in H as (nc&r7&H7&H). apply d_bind_ok in H as (cs&r8&H8&H). apply d_bind_ok in H as (ls&r9&H9&[= <- <-]).
    apply (proj1 takes_u32) in H1 as (x1&->&H1), H3 as (x3&->&H3), H4 as (x4&->&H4), H5 as (x5&->&H5), H6 as (x6&->&H6), H7 as (x7&->&H7).
    apply (proj1 takes_bytes) in H2 as (x2&->&H2). apply (proj1 Hs) in H8 as (x8&->&H8). apply O1 in H9 as (x9&->&H9).
    exists (x1 ++ x2 ++ x3 ++ x4 ++ x5 ++ x6 ++ x7 ++ x8 ++ x9). rewrite <- !app_assoc. split; [reflexivity|].
    exists x1, x2, x3, x4, x5, x6, x7, x8, x9. split; [reflexivity|]. cbn [s_field_size s_prime_bytes s_n_wires s_n_pub_out s_n_pub_in s_n_prv_in s_n_constraints s_constraints s_wire_labels]. tauto.
  - intros bs c rest (x1&x2&x3&x4&x5&x6&x7&x8&x9&->&H1&H2&H3&H4&H5&H6&H7&H8&H9). rewrite <- !app_assoc.
    apply (takes_eq_2 _ _ takes_u32) with (rest := x2 ++ x3 ++ x4 ++ x5 ++ x6 ++ x7 ++ x8 ++ x9 ++ rest) in H1.
    apply (takes_eq_2 _ _ takes_bytes) with (rest := x3 ++ x4 ++ x5 ++ x6 ++ x7 ++ x8 ++ x9 ++ rest) in H2.
    apply (takes_eq_2 _ _ takes_u32) with (rest := x4 ++ x5 ++ x6 ++ x7 ++ x8 ++ x9 ++ rest) in H3.
    apply (takes_eq_2 _ _ takes_u32) with (rest := x5 ++ x6 ++ x7 ++ x8 ++ x9 ++ rest) in H4.
    apply (takes_eq_2 _ _ takes_u32) with (rest := x6 ++ x7 ++ x8 ++ x9 ++ rest) in H5.
    apply (takes_eq_2 _ _ takes_u32) with (rest := x7 ++ x8 ++ x9 ++ rest) in H6.
    apply (takes_eq_2 _ _ takes_u32) with (rest := x8 ++ x9 ++ rest) in H7.
    apply (takes_eq_2 _ _ Hs) with (rest := x9 ++ rest) in H8.
    destruct (O2 _ _ rest H9) as (ls&E9&S9).
    repeat (erewrite d_bind_step by eassumption). eexists. split; [reflexivity|].
    unfold same_circuit, same_labels. cbn [s_field_size s_prime_bytes s_n_wires s_n_pub_out s_n_pub_in s_n_prv_in s_n_constraints s_constraints s_wire_labels]. tauto.
Qed.
Lemma takes_witness : takes same_witness d_witness bin_witness.
Proof.
  destruct (takes_map _ _ takes_bytes) as [M1 M2]. split; unfold d_witness, bin_witness.
  - intros bs w rest H. apply d_bind_ok in H as (m&r&H&[= <- <-]). apply M1 in H. exact H.
  - intros x w rest H. destruct (M2 _ _ rest H) as (m&E&S). rewrite (d_bind_step _ _ _ _ _ E). eexists. split; [reflexivity|exact S].
Qed.
Lemma takes_test_case : takes same_test_case d_test_case bin_test_case.
Proof.
  destruct takes_circuit as [C1 C2], takes_witness as [W1 W2], (takes_option _ _ _ takes_text) as [O1 O2].
  split; unfold d_test_case, bin_test_case.
  - intros bs t rest H. apply d_bind_ok in H as (c&r1&H1&H). apply d_bind_ok in H as (w&r2&H2&H). apply d_bind_ok in H as (n&r3&H3&H).
    apply d_bind_ok in H as (d&r4&H4&[= <- <-]). apply C1 in H1 as (x1&->&H1). apply W1 in H2 as (x2&->&H2).
    apply (proj1 takes_text) in H3 as (x3&->&H3). apply O1 in H4 as (x4&->&H4).
    exists (x1 ++ x2 ++ x3 ++ x4). rewrite <- !app_assoc. split; [reflexivity|]. exists x1, x2, x3, x4. auto.
  - intros bs t rest (x1&x2&x3&x4&->&H1&H2&H3&H4). rewrite <- !app_assoc.
    destruct (C2 _ _ (x2 ++ x3 ++ x4 ++ rest) H1) as (c&E1&S1), (W2 _ _ (x3 ++ x4 ++ rest) H2) as (w&E2&S2), (O2 _ _ rest H4) as (d&E4&S4).
    apply (takes_eq_2 _ _ takes_text) with (rest := x4 ++ rest) in H3.
    repeat (erewrite d_bind_step by eassumption). eexists. split; [reflexivity|].
    unfold same_test_case. cbn [tc_circuit tc_witness tc_name tc_description]. split; [exact S1|]. split; [exact S2|]. split; [reflexivity|].
    destruct (tc_description t), d; try tauto. congruence.
Qed.
