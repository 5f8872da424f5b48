(** Property theorems C20, C21, C22 and the witness half of C23.
    The file format is specified in SpecWtns.v. *)
From Coq Require Import List Bool Arith NArith ZArith Lia.
From Coq Require Import Strings.Byte.
From Verif Require Import Res Bytes Reader R1cs SpecR1cs R1csFacts R1csJs Fld Bn254 Zp Wtns SpecWtns WtnsFacts WtnsJs WtnsJsExact.
Import ListNotations.
Local Open Scope N_scope.

(** The 32-byte little-endian encoding of a field element, and its decoding. *)
Definition encode_fr (x : Fr) : list byte := le_bytes 32 (Z.to_N (fr_val x)).
Definition canonical (v : list byte) : Prop :=
  32 <= blen v /\ (Z.of_N (le_val (firstn 32 v)) < bn_r)%Z.

(** A standard file with any unknown sections around its header and data. *)
Definition standard_file (prime : list byte) (vals : list (list byte)) (secs : list wsec) : Prop :=
  standard_secs prime vals secs /\ Forall wsec_ok secs /\ N.of_nat (length secs) < 2 ^ 32 /\
  prime <> [] /\ Forall (fun v => blen v = blen prime) vals.

Definition ex_prime : list byte := repeat x01 32.
Definition ex_vals : list (list byte) := [encode_fr (fr 1); encode_fr (fr 21); encode_fr (fr (-1))].
Definition ex_file : list wsec :=
  [WOther 9 [x00; x01]; WHeader ex_prime 3; WData (concat ex_vals); WOther 5 []].
Example ex_file_standard : standard_file ex_prime ex_vals ex_file /\ Forall canonical ex_vals.
Proof.
  split; [split; [|split; [|split; [|split]]]|].
  - exists [WOther 9 [x00; x01]], [], [WOther 5 []]. split; [repeat constructor|reflexivity].
  - repeat constructor; cbn; try reflexivity; discriminate.
  - reflexivity.
  - discriminate.
  - repeat constructor.
  - repeat constructor; vm_compute; congruence.
Qed.

(** ** Lemmas about standard files *)
Lemma fold_other {A} (g : A -> wsec -> A) u a :
  (forall a ty pl, g a (WOther ty pl) = a) ->
  Forall (fun s => match s with WOther _ _ => True | _ => False end) u -> fold_left g u a = a.
Proof.
  intros Hg Hu. revert a. induction Hu as [|s u Hs Hu IH]; intros a; [reflexivity|].
  destruct s; try contradiction. cbn. rewrite Hg. apply IH.
Qed.

Lemma standard_last prime vals secs : standard_secs prime vals secs ->
  last_header secs = (prime, N.of_nat (length vals)) /\ last_data secs = concat vals.
Proof.
  intros (u0&u1&u2&Hu&->). apply Forall_app in Hu. destruct Hu as [Hu0 Hu]. apply Forall_app in Hu.
  destruct Hu as [Hu1 Hu2]. unfold last_header, last_data.
  rewrite !fold_left_app. cbn [fold_left]. rewrite !fold_left_app. cbn [fold_left].
  repeat (rewrite fold_other; [|reflexivity|assumption]). auto.
Qed.

Lemma js_reads_other u w secs r :
  Forall (fun s => match s with WOther _ _ => True | _ => False end) u ->
  js_reads w secs r -> js_reads w (u ++ secs) r.
Proof. induction 1 as [|s u Hs Hu IH]; intros Hr; [exact Hr|]. destruct s; try contradiction. constructor. auto. Qed.

Lemma standard_js_reads prime vals secs : standard_secs prime vals secs -> prime <> [] ->
  Forall (fun v => blen v = blen prime) vals -> js_reads 0 secs (Some (map element_value vals)).
Proof.
  intros (u0&u1&u2&Hu&->) Hp Hv. apply Forall_app in Hu. destruct Hu as [Hu0 Hu]. apply Forall_app in Hu.
  destruct Hu as [Hu1 Hu2]. apply js_reads_other; [exact Hu0|]. constructor. apply js_reads_other; [exact Hu1|].
  assert (Hpz : blen prime <> 0). { destruct prime; [contradiction|]. rewrite blen_cons. lia. }
  rewrite <- (app_nil_r (map element_value vals)).
  apply (JRdata (blen prime) (concat vals) u2 vals [] (Some [])); auto.
  - rewrite app_nil_r. reflexivity.
  - rewrite blen_nil. lia.
  - rewrite <- (app_nil_r u2). apply js_reads_other; [exact Hu2|constructor].
Qed.

Lemma concat_nonempty prime vals : prime <> [] -> vals <> [] ->
  Forall (fun v => blen v = blen prime) vals -> concat vals <> [] /\
  blen (concat vals) = N.of_nat (length vals) * blen prime.
Proof.
  intros Hp Hn Hv.
  assert (Hc : length (concat vals) = (length vals * length prime)%nat).
  { apply concat_length_const. eapply Forall_impl; [|exact Hv]. cbn. unfold blen. intros; lia. }
  split; [|unfold blen; lia].
  intros E. rewrite E in Hc. destruct vals; [contradiction|]. destruct prime; [contradiction|]. discriminate.
Qed.

Theorem standard_cli prime vals secs : standard_file prime vals secs -> vals <> [] ->
  blen (wtns_bytes secs) < 2 ^ 63 ->
  wtns_from_bytes (wtns_bytes secs) = Ok (WitnessFile prime (N.of_nat (length vals)) vals).
Proof.
  intros (Hst&Hok&Hn&Hp&Hv) Hne Hf. destruct (standard_last _ _ _ Hst) as [Hh Hd].
  destruct (concat_nonempty prime vals Hp Hne Hv) as [Hc1 Hc2].
  destruct (wtns_exact secs _ _ _ Hok Hn Hf Hh Hd) as (_&_&_&H). apply H; auto.
  split; [reflexivity|exact Hv].
Qed.

Lemma fr_deserialize_spec v : fr_deserialize v <> None <-> canonical v.
Proof.
  unfold fr_deserialize, canonical. destruct (N.ltb_spec (blen v) 32) as [H|H].
  - split; [intros Hx; contradiction Hx; reflexivity|]. intros [Hx _]. lia.
  - destruct (Z.ltb_spec (Z.of_N (le_val (firstn 32 v))) bn_r) as [H1|H1]; split; intros Hx; auto.
    + discriminate.
    + contradiction Hx; reflexivity.
    + destruct Hx as [_ Hx]. lia.
Qed.
Lemma fr_deserialize_val v x : fr_deserialize v = Some x -> x = element_value v.
Proof.
  unfold fr_deserialize. destruct (blen v <? 32); [discriminate|].
  destruct (Z.of_N (le_val (firstn 32 v)) <? bn_r)%Z; [|discriminate]. intros H. injection H as <-. reflexivity.
Qed.

Lemma all_some_canonical vals : Forall canonical vals ->
  all_some (map fr_deserialize vals) = Some (map element_value vals).
Proof.
  induction 1 as [|v vals Hv Hvs IH]; [reflexivity|]. cbn [map all_some].
  apply fr_deserialize_spec in Hv. destruct (fr_deserialize v) as [x|] eqn:E; [|contradiction Hv; reflexivity].
  apply fr_deserialize_val in E. subst x. rewrite IH. reflexivity.
Qed.
Lemma all_some_none vals : ~ Forall canonical vals -> all_some (map fr_deserialize vals) = None.
Proof.
  induction vals as [|v vals IH]; intros H; [contradiction H; constructor|]. cbn [map all_some].
  destruct (fr_deserialize v) as [x|] eqn:E; [|reflexivity].
  rewrite IH; [reflexivity|]. intros Hc. apply H. constructor; [|exact Hc].
  apply fr_deserialize_spec. rewrite E. discriminate.
Qed.

Lemma encode_fr_value x : element_value (encode_fr x) = x /\ canonical (encode_fr x) /\ blen (encode_fr x) = 32.
Proof.
  assert (Hl : blen (encode_fr x) = 32) by (unfold encode_fr; apply blen_le_bytes).
  assert (Hb : (0 <= fr_val x < bn_r)%Z) by (apply zval_range).
  assert (Hv : le_val (firstn 32 (encode_fr x)) = Z.to_N (fr_val x)).
  { rewrite firstn_all2 by (unfold blen in Hl; lia). unfold encode_fr. apply le_val_small.
    apply N.lt_trans with (Z.to_N bn_r); [apply Z2N.inj_lt; lia|reflexivity]. }
  split; [|split; [split|]]; [|lia| |exact Hl].
  - unfold element_value, residue. rewrite Hv, Z2N.id by lia. exact (zp_zval bn_r bn_r_prime x).
  - rewrite Hv, Z2N.id by lia. lia.
Qed.

(** ** C20 *)
Theorem C20_reads_back_every_file :
  forall prime vals secs,
    standard_file prime vals secs -> vals <> [] -> blen (wtns_bytes secs) < 2 ^ 63 ->
    wtns_from_bytes (wtns_bytes secs) = Ok (WitnessFile prime (N.of_nat (length vals)) vals).
Proof. exact standard_cli. Qed.
Print Assumptions C20_reads_back_every_file.

Theorem C20_field_elements_round_trip :
  forall prime (xs : list Fr) secs,
    blen prime = 32 -> xs <> [] ->
    standard_file prime (map encode_fr xs) secs -> blen (wtns_bytes secs) < 2 ^ 63 ->
    cli_read_witness (wtns_bytes secs) = Ok xs.
Proof.
  intros prime xs secs Hp Hne Hst Hf. unfold cli_read_witness.
  rewrite (standard_cli prime (map encode_fr xs) secs Hst); [|destruct xs; [contradiction|discriminate]|exact Hf].
  cbn [rbind]. unfold to_field_elements. cbn [wf_values]. rewrite all_some_canonical.
  - cbn [of_option]. f_equal. rewrite map_map. rewrite <- (map_id xs) at 2. apply map_ext.
    intros x. apply encode_fr_value.
  - apply Forall_map, Forall_forall. intros x _. apply encode_fr_value.
Qed.
Print Assumptions C20_field_elements_round_trip.

(** Any sequence of sections: which of the four outcomes is determined by the last header and
    the last data section. *)
Theorem C20_outcome_of_any_sections :
  forall secs prime n d,
    Forall wsec_ok secs -> N.of_nat (length secs) < 2 ^ 32 -> blen (wtns_bytes secs) < 2 ^ 63 ->
    last_header secs = (prime, n) -> last_data secs = d ->
    (prime = [] -> wtns_from_bytes (wtns_bytes secs) = Err WNoHeader) /\
    (prime <> [] -> d = [] -> wtns_from_bytes (wtns_bytes secs) = Err WNoData) /\
    (prime <> [] -> d <> [] -> blen d <> n * blen prime ->
       wtns_from_bytes (wtns_bytes secs) = Err WSizeMismatch) /\
    (forall vals, prime <> [] -> d <> [] -> blen d = n * blen prime -> elements (blen prime) d vals ->
       wtns_from_bytes (wtns_bytes secs) = Ok (WitnessFile prime n vals)).
Proof. exact wtns_exact. Qed.
Print Assumptions C20_outcome_of_any_sections.

Theorem C20_accepted_files_carry_the_values :
  forall file w,
    wtns_from_bytes file = Ok w ->
    starts_with file (ascii_wtns ++ u32 2) /\
    wf_prime w <> [] /\ N.of_nat (length (wf_values w)) = wf_n w /\
    Forall (fun v => blen v = blen (wf_prime w)) (wf_values w) /\
    (exists p, occurs file p (u32 (blen (wf_prime w)) ++ wf_prime w ++ u32 (wf_n w))) /\
    (exists p, occurs file p (concat (wf_values w))).
Proof. exact wtns_sound. Qed.
Print Assumptions C20_accepted_files_carry_the_values.

Theorem C20_wrong_magic_or_version :
  forall file, ~ starts_with file (ascii_wtns ++ u32 2) -> is_err (wtns_from_bytes file).
Proof.
  intros f H. unfold wtns_from_bytes, w_from_bytes_m. unfold mbind at 1.
  destruct (w_read f 4 0) as [[m|e|] q1] eqn:E1; [|exact I|].
  2:{ unfold w_read in E1. cbn in E1. destruct (slice f 0 4); discriminate. }
  destruct (bytes_eqb m magic_wtns) eqn:Em; [|exact I]. apply bytes_eqb_eq in Em. subst m.
  apply w_read_sound in E1. destruct E1 as (_&[O1|O1]&->); [discriminate|].
  unfold mbind at 1. destruct (w_u32 f (0 + 4)) as [[v|e|] q2] eqn:E2; [|exact I|].
  2:{ unfold w_u32, mbind, w_read in E2. cbn in E2. destruct (slice f 4 4); discriminate. }
  destruct (N.eqb_spec v 2) as [->|]; [|exact I]. exfalso. apply H.
  apply w_u32_sound in E2. destruct E2 as (_&O2&_).
  assert (Ho : occurs f 0 (ascii_wtns ++ u32 2)) by (apply occurs_app; split; [exact O1|exact O2]).
  destruct Ho as (pre&rest&Hf&Hp). destruct pre; [|rewrite blen_cons in Hp; lia]. exists rest. exact Hf.
Qed.
Print Assumptions C20_wrong_magic_or_version.

(** The only panic is the allocation of a section announced as 2^63 bytes or more. *)
Theorem C20_panics_only_on_huge_sizes :
  forall file, wtns_from_bytes file = Panic ->
    exists p b, occurs file p b /\ blen b = 8 /\ 2 ^ 63 <= le_val b.
Proof. exact wtns_no_panic. Qed.
Print Assumptions C20_panics_only_on_huge_sizes.

Example C20_panic_reachable :
  wtns_from_bytes (ascii_wtns ++ u32 2 ++ u32 1 ++ u32 2 ++ u64 (2 ^ 63)) = Panic.
Proof. vm_compute. reflexivity. Qed.

(** ** C21 *)
Theorem C21_reads_back_every_file :
  forall W prime vals secs fuel,
    standard_file prime vals secs ->
    2 * blen (wtns_bytes secs) < W -> W <= 2 ^ 64 -> (length (wtns_bytes secs) < fuel)%nat ->
    js_parse_witness W (wtns_bytes secs) fuel = Ok (map element_value vals).
Proof.
  intros W prime vals secs fuel (Hst&Hok&Hn&Hp&Hv) Hf HW Hfu.
  apply (js_wtns_exact W secs (Some (map element_value vals))); auto.
  eapply standard_js_reads; eassumption.
Qed.
Print Assumptions C21_reads_back_every_file.

Theorem C21_field_elements_round_trip :
  forall W prime (xs : list Fr) secs fuel,
    blen prime = 32 -> standard_file prime (map encode_fr xs) secs ->
    2 * blen (wtns_bytes secs) < W -> W <= 2 ^ 64 -> (length (wtns_bytes secs) < fuel)%nat ->
    js_parse_witness W (wtns_bytes secs) fuel = Ok xs.
Proof.
  intros W prime xs secs fuel Hp Hst Hf HW Hfu.
  rewrite (C21_reads_back_every_file W prime (map encode_fr xs) secs fuel Hst Hf HW Hfu). f_equal.
  rewrite map_map. rewrite <- (map_id xs) at 2. apply map_ext. intros x. apply encode_fr_value.
Qed.
Print Assumptions C21_field_elements_round_trip.

(** Any sequence of sections: it ends with the concatenation of all whole elements, or never. *)
Theorem C21_outcome_of_any_sections :
  forall W secs r fuel,
    js_reads 0 secs r -> Forall wsec_ok secs -> N.of_nat (length secs) < 2 ^ 32 ->
    2 * blen (wtns_bytes secs) < W -> W <= 2 ^ 64 -> (length (wtns_bytes secs) < fuel)%nat ->
    js_parse_witness W (wtns_bytes secs) fuel =
      match r with Some l => Ok l | None => Err JsOutOfFuel end.
Proof. exact js_wtns_exact. Qed.
Print Assumptions C21_outcome_of_any_sections.

Example C21_outcome_defined : forall secs, exists r, js_reads 0 secs r.
Proof. intros secs. apply js_reads_total. Qed.

(** Refuted: a data section without a preceding non-empty header never ends, whatever
    number of iterations is granted. *)
Theorem C21_termination_refuted :
  forall d secs (fuel : nat),
    Forall wsec_ok secs -> N.of_nat (length secs) < 2 ^ 31 ->
    2 * blen (wtns_bytes (WHeader [] 0 :: WData d :: secs)) < 2 ^ 32 ->
    (length (wtns_bytes (WHeader [] 0 :: WData d :: secs)) < fuel)%nat ->
      js_parse_witness (2 ^ 32) (wtns_bytes (WData d :: secs)) fuel = Err JsOutOfFuel /\
      js_parse_witness (2 ^ 32) (wtns_bytes (WHeader [] 0 :: WData d :: secs)) fuel = Err JsOutOfFuel.
Proof.
  intros d secs fuel Hs Hn Hf Hfu.
  set (f1 := wtns_bytes (WData d :: secs)). set (f2 := wtns_bytes (WHeader [] 0 :: WData d :: secs)) in *.
  assert (Hle : blen f1 <= blen f2).
  { unfold f1, f2, wtns_bytes. cbn [flat_map]. rewrite !blen_app, !blen_u32. lia. }
  split.
  - apply (js_wtns_exact (2 ^ 32) (WData d :: secs) None).
    + constructor.
    + constructor; [exact I|exact Hs].
    + cbn [length]. clear - Hn. lia.
    + fold f1. clear - Hle Hf. lia.
    + discriminate.
    + fold f1. unfold blen in Hle. lia.
  - apply (js_wtns_exact (2 ^ 32) (WHeader [] 0 :: WData d :: secs) None).
    + constructor. constructor.
    + constructor; [split; reflexivity|]. constructor; [exact I|exact Hs].
    + cbn [length]. clear - Hn. lia.
    + fold f2. clear - Hf. lia.
    + discriminate.
    + exact Hfu.
Qed.
Print Assumptions C21_termination_refuted.

(** Every byte string below 2 GiB, exactly. It returns [l] iff the announced number of sections can
    be walked ([passes], SpecWtns.v) with values [l]; it refuses iff the magic or the version is
    wrong; it never ends (whatever the fuel from length + 3 on) iff the walk reaches a data section
    while the width is zero whose end is not before its start. Everything else is a panic. *)
Theorem C21_returns_iff :
  forall data fuel l, blen data < 2 ^ 31 -> (length data + 3 <= fuel)%nat ->
    (js_parse_witness (2 ^ 32) data fuel = Ok l <->
     exists n w q, wtns_announces data n /\ passes data 0 12 (N.to_nat n) w q l).
Proof. intros data fuel l H1 H2. exact (outcome_ok data H1 fuel H2 l). Qed.
Print Assumptions C21_returns_iff.

Theorem C21_never_ends_iff :
  forall data fuel, blen data < 2 ^ 31 -> (length data + 3 <= fuel)%nat ->
    (js_parse_witness (2 ^ 32) data fuel = Err JsOutOfFuel <->
     exists n j p l, wtns_announces data n /\ N.of_nat j < n /\ passes data 0 12 j 0 p l /\ endless data p).
Proof. intros data fuel H1 H2. exact (outcome_endless data H1 fuel H2). Qed.
Print Assumptions C21_never_ends_iff.

Theorem C21_refuses_iff :
  forall data fuel, blen data < 2 ^ 31 -> (length data + 3 <= fuel)%nat ->
    ((exists e, e <> JsOutOfFuel /\ js_parse_witness (2 ^ 32) data fuel = Err e) <->
     ~ occurs data 0 ascii_wtns \/ exists v, v < 2 ^ 32 /\ v <> 2 /\ occurs data 0 (ascii_wtns ++ u32 v)).
Proof. intros data fuel H1 H2. exact (outcome_refused data H1 fuel H2). Qed.
Print Assumptions C21_refuses_iff.

(** A reading of the above without positions: length + 3 iterations of each loop are enough
    unless there is a data section and the width in force can be zero. *)
Theorem C21_cause_of_non_termination :
  forall data fuel,
    blen data < 2 ^ 31 -> (length data + 3 <= fuel)%nat ->
    js_parse_witness (2 ^ 32) data fuel = Err JsOutOfFuel ->
    (exists p sz, occurs data p (u32 2 ++ u64 sz)) /\
    ((exists p sz, occurs data p (u32 1 ++ u64 sz ++ u32 0)) \/
     ~ exists sz, occurs data 12 (u32 1 ++ u64 sz)).
Proof. intros data fuel H1 H2. exact (js_wtns_stuck data H1 fuel H2). Qed.
Print Assumptions C21_cause_of_non_termination.

(** The walk of a malformed file: the size of the data section (2^32 + 1, read modulo 2^32) leads into
    the middle of itself; a file no sequence of whole sections describes still returns a value. *)
Definition ex_wrapping : list byte :=
  ascii_wtns ++ u32 2 ++ u32 2 ++ (u32 1 ++ u64 4 ++ u32 1) ++ (u32 2 ++ u64 (2 ^ 32 + 1) ++ [x07; x08]).
Example C21_walk_of_a_malformed_file :
  match js_parse_witness (2 ^ 32) ex_wrapping (length ex_wrapping + 3) with
  | Ok [v] => feqb v (fr 7) | _ => false end = true.
Proof. vm_compute. reflexivity. Qed.

(** Refuted: every strict prefix (of four bytes or more) of a file made of a header and its
    data makes the reader panic instead of returning an error. *)
Theorem C21_truncated_files_panic :
  forall W prime n vals g t fuel,
    let file := wtns_bytes [WHeader prime n; WData (concat vals)] in
    prime <> [] -> blen prime <= 32 -> n < 2 ^ 32 -> Forall (fun v => blen v = blen prime) vals ->
    2 * blen file < W -> W <= 2 ^ 64 -> file = g ++ t -> t <> [] -> 4 <= blen g -> (length file < fuel)%nat ->
    js_parse_witness W g fuel = Panic.
Proof. exact js_wtns_truncated. Qed.
Print Assumptions C21_truncated_files_panic.

Example C21_truncated_instance :
  match js_parse_witness (2 ^ 32) (removelast (wtns_bytes [WHeader [x11] 2; WData (concat [[x01]; [x02]])])) 100
  with Panic => True | _ => False end.
Proof. vm_compute. exact I. Qed.

(** ** C22 *)
Theorem C22_canonical_files_agree :
  forall W prime vals secs fuel,
    standard_file prime vals secs -> vals <> [] -> Forall canonical vals ->
    2 * blen (wtns_bytes secs) < W -> W <= 2 ^ 64 -> (length (wtns_bytes secs) < fuel)%nat ->
    cli_read_witness (wtns_bytes secs) = Ok (map element_value vals) /\
    js_parse_witness W (wtns_bytes secs) fuel = Ok (map element_value vals).
Proof.
  intros W prime vals secs fuel Hst Hne Hc Hf HW Hfu. split.
  - unfold cli_read_witness. rewrite (standard_cli prime vals secs Hst Hne ltac:(clear - Hf HW; lia)).
    cbn [rbind]. unfold to_field_elements. cbn [wf_values]. rewrite all_some_canonical by exact Hc. reflexivity.
  - eapply C21_reads_back_every_file; eassumption.
Qed.
Print Assumptions C22_canonical_files_agree.

(** Refuted: as soon as one element is shorter than 32 bytes or not below r the CLI refuses
    the file and the WASM reader accepts it; empty witnesses too. *)
Theorem C22_other_files_disagree_refuted :
  forall W prime vals secs fuel,
    standard_file prime vals secs -> ~ (vals <> [] /\ Forall canonical vals) ->
    2 * blen (wtns_bytes secs) < W -> W <= 2 ^ 64 -> (length (wtns_bytes secs) < fuel)%nat ->
    is_err (cli_read_witness (wtns_bytes secs)) /\
    js_parse_witness W (wtns_bytes secs) fuel = Ok (map element_value vals).
Proof.
  intros W prime vals secs fuel Hst Hc Hf HW Hfu. split; [|eapply C21_reads_back_every_file; eassumption].
  assert (Hf' : blen (wtns_bytes secs) < 2 ^ 63) by (clear - Hf HW; lia).
  unfold cli_read_witness. destruct vals as [|v vals].
  - destruct Hst as (Hst&Hok&Hn&Hp&Hv). destruct (standard_last _ _ _ Hst) as [Hh Hd].
    destruct (wtns_exact secs _ _ _ Hok Hn Hf' Hh Hd) as (_&H&_). rewrite (H Hp eq_refl). exact I.
  - rewrite (standard_cli prime (v :: vals) secs Hst ltac:(discriminate) Hf').
    cbn [rbind]. unfold to_field_elements. cbn [wf_values]. rewrite all_some_none; [exact I|].
    intros Hx. apply Hc. split; [discriminate|exact Hx].
Qed.
Print Assumptions C22_other_files_disagree_refuted.

Definition ex_big : list (list byte) := [repeat xff 32].
Example C22_disagreement_instance :
  standard_file ex_prime ex_big [WHeader ex_prime 1; WData (concat ex_big)] /\ ~ Forall canonical ex_big.
Proof.
  split.
  - split; [|split; [|split; [|split]]].
    + exists [], [], []. split; [constructor|reflexivity].
    + repeat constructor.
    + reflexivity.
    + discriminate.
    + repeat constructor.
  - intros H. apply Forall_inv in H. destruct H as [_ H]. vm_compute in H. discriminate.
Qed.

(** Refuted also for the layout: two data sections, or the data before its header. *)
Theorem C22_layouts_disagree_refuted :
  forall prime v v' fuel,
    blen prime = 32 -> blen v = 32 -> blen v' = 32 -> canonical v -> canonical v' -> (1000 < fuel)%nat ->
    let two := wtns_bytes [WHeader prime 1; WData v; WData v'] in
    let swapped := wtns_bytes [WData v; WHeader prime 1] in
    cli_read_witness two = Ok [element_value v'] /\
    js_parse_witness (2 ^ 32) two fuel = Ok [element_value v; element_value v'] /\
    cli_read_witness swapped = Ok [element_value v] /\
    js_parse_witness (2 ^ 32) swapped fuel = Err JsOutOfFuel.
Proof.
  intros prime v v' fuel Hp Hv Hv' Hc Hc' Hfu two swapped.
  assert (Hok : Forall wsec_ok [WHeader prime 1; WData v; WData v']).
  { repeat constructor. rewrite Hp. reflexivity. }
  assert (Hok' : Forall wsec_ok [WData v; WHeader prime 1]).
  { repeat constructor. rewrite Hp. reflexivity. }
  assert (Hl : blen two = 12 + (52 + (44 + (44 + 0)))).
  { unfold two, wtns_bytes. cbn [flat_map wsec_type wsec_payload]. unfold section_bytes. cbn [fst snd].
    rewrite !blen_app, !blen_u32, !blen_u64, Hp, Hv, Hv'. reflexivity. }
  assert (Hl' : blen swapped = 12 + (44 + (52 + 0))).
  { unfold swapped, wtns_bytes. cbn [flat_map wsec_type wsec_payload]. unfold section_bytes. cbn [fst snd].
    rewrite !blen_app, !blen_u32, !blen_u64, Hp, Hv. reflexivity. }
  assert (Hpn : prime <> []) by (intros ->; discriminate).
  assert (Hvn : v <> []) by (intros ->; discriminate).
  assert (Hvn' : v' <> []) by (intros ->; discriminate).
  assert (Hr : forall x, js_reads 32 [] x -> x = Some []) by (intros x Hx; inversion Hx; reflexivity).
  split; [|split; [|split]].
  - unfold cli_read_witness.
    destruct (wtns_exact _ prime 1 v' Hok eq_refl ltac:(fold two; rewrite Hl; reflexivity) eq_refl eq_refl) as (_&_&_&H).
    unfold two. rewrite (H [v'] Hpn Hvn' ltac:(lia)).
    + cbn [rbind]. unfold to_field_elements. cbn [wf_values]. rewrite all_some_canonical by (repeat constructor; apply Hc'). reflexivity.
    + split; [apply app_nil_r|]. constructor; [congruence|constructor].
  - apply (js_wtns_exact (2 ^ 32) _ (Some [element_value v; element_value v'])).
    + constructor. rewrite Hp.
      apply (JRdata 32 v [WData v'] [v] [] (Some [element_value v'])); auto.
      * discriminate.
      * rewrite app_nil_r. symmetry. apply app_nil_r.
      * reflexivity.
      * apply (JRdata 32 v' [] [v'] [] (Some [])); auto; [discriminate| |reflexivity|constructor].
        rewrite app_nil_r. symmetry. apply app_nil_r.
    + exact Hok.
    + reflexivity.
    + fold two. rewrite Hl. reflexivity.
    + discriminate.
    + fold two. unfold blen in Hl. lia.
  - unfold cli_read_witness.
    destruct (wtns_exact _ prime 1 v Hok' eq_refl ltac:(fold swapped; rewrite Hl'; reflexivity) eq_refl eq_refl) as (_&_&_&H).
    unfold swapped. rewrite (H [v] Hpn Hvn ltac:(lia)).
    + cbn [rbind]. unfold to_field_elements. cbn [wf_values]. rewrite all_some_canonical by (repeat constructor; apply Hc). reflexivity.
    + split; [apply app_nil_r|]. constructor; [congruence|constructor].
  - apply (js_wtns_exact (2 ^ 32) _ None).
    + constructor.
    + exact Hok'.
    + reflexivity.
    + fold swapped. rewrite Hl'. reflexivity.
    + discriminate.
    + fold swapped. unfold blen in Hl'. lia.
Qed.
Print Assumptions C22_layouts_disagree_refuted.

(** ** C23 (witness half) refuted: the declared prime has no influence on the values; two files
    that differ only in it are read alike by both readers. *)
Theorem C23_witness_prime_refuted :
  forall W prime prime' (xs : list Fr) fuel,
    let file p := wtns_bytes [WHeader p (N.of_nat (length xs)); WData (concat (map encode_fr xs))] in
    xs <> [] -> N.of_nat (length xs) < 2 ^ 32 -> blen prime = 32 -> blen prime' = 32 ->
    2 * blen (file prime) < W -> W <= 2 ^ 64 -> (length (file prime) < fuel)%nat ->
    cli_read_witness (file prime) = Ok xs /\ cli_read_witness (file prime') = Ok xs /\
    js_parse_witness W (file prime) fuel = Ok xs /\ js_parse_witness W (file prime') fuel = Ok xs.
Proof.
  intros W prime prime' xs fuel file Hne Hn Hp Hp' Hf HW Hfu.
  assert (Hlen : blen (file prime') = blen (file prime)).
  { unfold file, wtns_bytes. cbn [flat_map wsec_type wsec_payload]. unfold section_bytes. cbn [fst snd].
    rewrite !blen_app, !blen_u32, !blen_u64, Hp, Hp'. reflexivity. }
  assert (Hst : forall p, blen p = 32 ->
    standard_file p (map encode_fr xs) [WHeader p (N.of_nat (length xs)); WData (concat (map encode_fr xs))]).
  { intros p Hpp. split; [|split; [|split; [|split]]].
    - exists [], [], []. rewrite map_length. split; [constructor|reflexivity].
    - repeat constructor; [rewrite Hpp; reflexivity|exact Hn].
    - reflexivity.
    - intros ->. discriminate.
    - apply Forall_map, Forall_forall. intros x _. rewrite Hpp. apply encode_fr_value. }
  split; [|split; [|split]].
  - apply (C20_field_elements_round_trip prime xs _ Hp Hne (Hst prime Hp)). fold (file prime). clear - Hf HW. lia.
  - apply (C20_field_elements_round_trip prime' xs _ Hp' Hne (Hst prime' Hp')). fold (file prime').
    rewrite Hlen. clear - Hf HW. lia.
  - apply (C21_field_elements_round_trip W prime xs _ fuel Hp (Hst prime Hp)); assumption.
  - apply (C21_field_elements_round_trip W prime' xs _ fuel Hp' (Hst prime' Hp')); [fold (file prime'); lia|exact HW|].
    fold (file prime'). unfold blen in Hlen. lia.
Qed.
Print Assumptions C23_witness_prime_refuted.
