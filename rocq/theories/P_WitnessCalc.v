(** Property theorems C48: the witness calculator of the JavaScript package.  Vocabulary:
    SpecWitnessCalc.v. *)
From Coq Require Import List Bool Arith NArith ZArith Lia Permutation.
From Coq Require Import Strings.String Strings.Byte.
From Verif Require Import Res Bytes Text Fld Zp Bn254 SpecR1cs SpecWtns Wtns WtnsJs P_Wtns Inputs JsZkenc P_JsZkenc SpecJs
  WitnessCalc SpecWitnessCalc WitnessCalcFacts.
Import ListNotations.
Local Open Scope N_scope.

(** ** When there is a witness, and which *)
(** calculateWitnessArray returns [zs] exactly when the input gives each slot of the circuit one
    value and the circuit computes these numbers from the values modulo the prime. *)
Theorem C48_witness_iff :
  forall m input zs, module_ok m ->
    (calculate_witness m input = Ok zs <->
     exists gs w, complete_input m input gs /\ md_compute m gs = Some w /\ zs = map Z.of_N w).
Proof.
  intros m input zs Hm. assert (H := calculate_witness_cases m Hm input). split.
  - intros E. rewrite E in H. exact H.
  - intros (gs&w&H1&H2&->). destruct (calculate_witness m input) as [zs|e|].
    + destruct H as (gs'&w'&H1'&H2'&->). apply complete_iff in H1 as (per&P1&->&_); [|exact Hm].
      apply complete_iff in H1' as (per'&P1'&->&_); [|exact Hm]. rewrite (entries_fun m _ _ _ P1 P1') in H2. congruence.
    + exfalso. destruct H as [_ H]. exact (H gs w H1 H2).
    + contradiction.
Qed.
Print Assumptions C48_witness_iff.

(** Otherwise the error says why; the calculation never gets stuck. *)
Theorem C48_errors :
  forall m input, module_ok m ->
    match calculate_witness m input with
    | Ok _ => True
    | Err e => calc_error m input e
    | Panic => False
    end.
Proof.
  intros m input Hm. assert (H := calculate_witness_cases m Hm input). destruct (calculate_witness m input); [exact I|apply H|exact H].
Qed.
Print Assumptions C48_errors.

(** The three ways of asking agree: the numbers, the same numbers as bytes, and a witness file with
    the prime and the number of elements in its header; all three fail alike. *)
Theorem C48_same_witness_in_every_form :
  forall m input, module_ok m -> 
    match calculate_witness m input with
    | Ok zs => N.of_nat (List.length zs) = md_wsize m /\ Forall (fun z => (0 <= z < Z.of_N (md_prime m))%Z) zs /\
        let data := flat_map (fun z => le_bytes (4 * md_n32 m) (Z.to_N z)) zs in
        calculate_bin_witness m input = Ok data /\
        calculate_wtns m input = Ok (wtns_bytes [WHeader (le_bytes (4 * md_n32 m) (md_prime m)) (md_wsize m); WData data])
    | Err e => calculate_bin_witness m input = Err e /\ calculate_wtns m input = Err e
    | Panic => False
    end.
Proof.
  intros m input Hm. assert (H := do_calculate_cases m Hm input (x_raw_prime m (state0 m)) (shape0 m)).
  assert (H1 := calculate_witness_cases m Hm input). assert (H2 := calculate_bin_cases m Hm input).
  unfold calculate_witness, calculate_witness_m, Reader.mbind, calculate_bin_witness, calculate_wtns in *.
  rewrite (wc_prime_ok m Hm) in *.
  destruct (do_calculate m (Z.of_N (md_prime m)) input (x_raw_prime m (state0 m))) as [[[]|e|] s']; [|split; reflexivity|contradiction].
  destruct H as (_&gs&w&G1&G2&G3).
  destruct (read_witness_ok m w (witness_fits m Hm w gs G2) (seq 0 (N.to_nat (md_wsize m))) s' G3) as (s2&E). rewrite E in *. cbn [fst] in *.
  rewrite (witness_count m Hm w gs G2), <- map_map with (f := fun i => nth i w 0), map_nth_seq in *.
  destruct (mo_witness m Hm gs w G2) as [Hl Hf].
  assert (Hd : flat_map (fun z => le_bytes (4 * md_n32 m) (Z.to_N z)) (map Z.of_N w) = flat_map (value_bytes m) w).
  { rewrite !flat_map_concat_map, map_map. f_equal. apply map_ext. intros v. rewrite N2Z.id. reflexivity. }
  rewrite map_length. split; [exact Hl|]. split; [apply Forall_map; eapply Forall_impl; [|exact Hf]; cbn beta; intros; lia|].
  cbv zeta. rewrite Hd. split.
  - destruct H2 as (gs'&w'&K1&K2&K3).
    assert (w' = w) as ->.
    { apply complete_iff in G1 as (per&P1&->&_); [|exact Hm]. apply complete_iff in K1 as (per'&P1'&->&_); [|exact Hm].
      rewrite (entries_fun m _ _ _ P1 P1') in G2. congruence. }
    rewrite K3. reflexivity.
  - rewrite (wtns_layout_ok m Hm s' w gs G2 G3). f_equal.
    unfold wtns_bytes. cbn [flat_map wsec_type wsec_payload List.length app]. unfold section_bytes. cbn [fst snd].
    assert (Hv : blen (flat_map (value_bytes m) w) = N.of_nat (md_n32 m) * 4 * md_wsize m).
    { rewrite <- Hl. unfold blen. clear. induction w as [|v w IH]; [cbn; lia|]. cbn [flat_map List.length]. rewrite app_length.
      unfold value_bytes at 1. rewrite le_bytes_length. nia. }
    rewrite Hv. unfold u32, u64, value_bytes. rewrite !blen_app, !blen_le_bytes, !app_nil_r.
    change (N.of_nat 2) with 2. change (N.of_nat 4) with 4.
    replace (4 + (N.of_nat (4 * md_n32 m) + 4)) with (8 + N.of_nat (md_n32 m) * 4) by lia.
    replace (N.of_nat (4 * md_n32 m)) with (N.of_nat (md_n32 m) * 4) by lia.
    rewrite <- !app_assoc. reflexivity.
Qed.
Print Assumptions C48_same_witness_in_every_form.

(** What getCircuitInfo reports is what the circuit says. *)
Theorem C48_circuit_info :
  forall m, module_ok m -> circuit_info m = (md_version m, md_n32 m, Z.of_N (md_prime m), md_wsize m).
Proof. intros m Hm. unfold circuit_info. rewrite (wc_prime_ok m Hm). reflexivity. Qed.
Print Assumptions C48_circuit_info.

(** ** BN254 circuits: both tools read the file back *)
Theorem C48_bn254_file :
  forall m input zs file, module_ok m -> md_prime m = Z.to_N bn_r -> md_n32 m = 8%nat -> md_wsize m < 2 ^ 32 ->
    calculate_witness m input = Ok zs -> calculate_wtns m input = Ok file ->
    witness_file file (map fr zs) /\ blen file = 76 + 32 * N.of_nat (List.length zs).
Proof.
  intros m input zs file Hm Hp Hn Hw E1 E2. assert (H := C48_same_witness_in_every_form m input Hm).
  rewrite E1, E2, Hp, Hn in H. destruct H as (Hl&Hr&_&Hf). cbv zeta in Hf. assert (OI : forall x y : list byte, @Ok wc_error _ x = Ok y -> x = y) by (intros; congruence). apply OI in Hf. subst file.
  change (4 * 8)%nat with 32%nat. change (Z.of_N (Z.to_N bn_r)) with bn_r in Hr.
  assert (Hd : flat_map (fun z => le_bytes 32 (Z.to_N z)) zs = List.concat (map encode_fr (map fr zs))).
  { rewrite flat_map_concat_map, map_map. f_equal. apply map_ext_in. intros z Hz. rewrite Forall_forall in Hr. specialize (Hr z Hz).
    unfold encode_fr. f_equal. f_equal. symmetry. exact (Z.mod_small z bn_r Hr). }
  rewrite Hd. split.
  - exists (le_bytes 32 (Z.to_N bn_r)), [WHeader (le_bytes 32 (Z.to_N bn_r)) (md_wsize m); WData (List.concat (map encode_fr (map fr zs)))].
    split; [reflexivity|]. split; [reflexivity|]. split; [|split; [|split; [|split]]].
    + exists [], [], []. split; [constructor|]. rewrite !map_length, Hl. reflexivity.
    + constructor; [|constructor; [exact I|constructor]]. split; [reflexivity|exact Hw].
    + reflexivity.
    + discriminate.
    + apply Forall_map, Forall_forall. intros x _. apply encode_fr_value.
  - rewrite wtns_two_len, blen_le_bytes. change (N.of_nat 32) with 32.
    assert (L : blen (List.concat (map encode_fr (map fr zs))) = 32 * N.of_nat (List.length zs)); [|lia].
    clear. unfold blen. induction zs as [|z zs IH]; [reflexivity|]. cbn [map List.concat List.length]. rewrite app_length.
    unfold encode_fr at 1. rewrite le_bytes_length. lia.
Qed.
Print Assumptions C48_bn254_file.

Theorem C48_both_tools_read_the_witness :
  forall m input zs file W fuel, module_ok m -> md_prime m = Z.to_N bn_r -> md_n32 m = 8%nat -> 0 < md_wsize m < 2 ^ 32 ->
    calculate_witness m input = Ok zs -> calculate_wtns m input = Ok file ->
    2 * blen file < W -> W <= 2 ^ 64 -> (List.length file < fuel)%nat ->
    js_parse_witness W file fuel = Ok (map fr zs) /\ cli_read_witness file = Ok (map fr zs).
Proof.
  intros m input zs file W fuel Hm Hp Hn [Hw0 Hw] E1 E2 H1 H2 H3.
  assert (Hz : map fr zs <> []).
  { assert (H := C48_same_witness_in_every_form m input Hm). rewrite E1 in H. destruct H as [Hl _].
    destruct zs; [cbn in Hl; lia|discriminate]. }
  destruct (C48_bn254_file m input zs file Hm Hp Hn Hw E1 E2) as [(prime&secs&->&Hpl&Hst) _]. split.
  - eapply C21_field_elements_round_trip; eassumption.
  - eapply C20_field_elements_round_trip; try eassumption. 
    clear - H1 H2. change (2 ^ 64) with (2 * 2 ^ 63) in H2. lia.
Qed.
Print Assumptions C48_both_tools_read_the_witness.

(** ** Numbers *)
(** The words written for a number and the number read from words. *)
Theorem C48_words :
  forall n (v : N), v < 2 ^ (32 * N.of_nat n) ->
    exists ws, to_array32 (Z.of_N v) n = map Z.of_N ws /\ List.length ws = n /\ Forall (fun w => w < 2 ^ 32) ws /\
      fold_left (fun a w => a * 2 ^ 32 + w) ws 0 = v /\ from_array32 ws = Z.of_N v.
Proof.
  intros n v H. exists (rev (words_of n v)). split; [apply to_array32_spec; exact H|].
  split; [rewrite rev_length; apply words_of_length|]. split; [apply Forall_rev, words_of_small|].
  assert (E : from_array32 (rev (words_of n v)) = Z.of_N v) by (rewrite from_array32_rev, words_val_of by exact H; reflexivity).
  split; [|exact E]. apply N2Z.inj. rewrite <- E. unfold from_array32. change 0%Z with (Z.of_N 0).
  generalize (rev (words_of n v)) 0. clear. intros l. induction l as [|w l IH]; intros a; [reflexivity|].
  cbn [fold_left]. rewrite IH, N2Z.inj_add, N2Z.inj_mul. reflexivity.
Qed.
Print Assumptions C48_words.

Theorem C48_normalize :
  forall z p, (0 < p)%Z -> (0 <= normalize z p < p)%Z /\ (p | z - normalize z p)%Z.
Proof.
  intros z p Hp. rewrite normalize_mod by exact Hp. split; [apply Z.mod_pos_bound; exact Hp|].
  exists (z / p)%Z. rewrite (Z.div_mod z p) at 1 by lia. ring.
Qed.
Print Assumptions C48_normalize.

(** ** Names *)
(** The 16 hexadecimal digits spell the 64-bit hash, and the two halves passed to the circuit are its
    high and low 32 bits. *)
Theorem C48_hash_text :
  forall k, List.length (fnv_hash k) = 16%nat /\ radix_value 16 (fnv_hash k) 0 = Some (name_hash k) /\
    name_hash k < 2 ^ 64 /\
    parse_hex (firstn 8 (fnv_hash k)) * 2 ^ 32 + parse_hex (firstn 8 (skipn 8 (fnv_hash k))) = name_hash k.
Proof.
  intros k. rewrite hash_msb, hash_lsb. assert (Hlt : name_hash k < 2 ^ 64) by apply fnv_units_lt. rewrite fnv_hash_digits.
  split; [rewrite map_length, nibs_length; reflexivity|]. split.
  - rewrite radix_nibs. change (16 ^ N.of_nat 16) with (2 ^ 64). rewrite N.mod_small by exact Hlt. reflexivity.
  - split; [exact Hlt|]. rewrite (N.div_mod (name_hash k) (2 ^ 32)) at 3 by discriminate. ring.
Qed.
Print Assumptions C48_hash_text.

(** Published FNV-1a test vectors. *)
Example C48_hash_vectors :
  fnv_hash [] = lit "cbf29ce484222325" /\ fnv_hash (lit "a") = lit "af63dc4c8601ec8c" /\ fnv_hash (lit "foobar") = lit "85944171f73967e8".
Proof. repeat split; vm_compute; reflexivity. Qed.

(** Two names that differ in exactly one code unit never share a hash. *)
Theorem C48_no_collision_in_one_unit :
  forall k k' pre c c' post, utf16 k = pre ++ c :: post -> utf16 k' = pre ++ c' :: post -> c <> c' ->
    Forall (fun x => x < 1114112) k -> Forall (fun x => x < 1114112) k' ->
    name_hash k <> name_hash k'.
Proof.
  intros k k' pre c c' post E E' Hc Hk Hk'.
  assert (U : forall t, Forall (fun x => x < 1114112) t -> Forall (fun x => x < 2 ^ 16) (utf16 t)).
  { intros t Ht. induction Ht as [|x t Hx _ IH]; [constructor|]. unfold utf16. cbn [flat_map]. apply Forall_app. split; [|exact IH].
    unfold utf16_char. destruct (N.ltb_spec x 65536) as [Hs|Hs]; [constructor; [exact Hs|constructor]|].
    change (2 ^ 16) with 65536.
    assert ((x - 65536) / 1024 < 1024) by (apply N.div_lt_upper_bound; [discriminate|lia]).
    assert ((x - 65536) mod 1024 < 1024) by (apply N.mod_lt; discriminate).
    repeat constructor; clear Hx Hs IH; generalize dependent ((x - 65536) / 1024); generalize dependent ((x - 65536) mod 1024); intros; lia. }
  rewrite !name_hash_units, E, E'. apply fnv_one_unit; [rewrite <- E; apply U; exact Hk| |exact Hc].
  assert (F := U k' Hk'). rewrite E' in F. apply Forall_app in F as [_ F]. inversion F. assumption.
Qed.
Print Assumptions C48_no_collision_in_one_unit.

(** A concrete circuit, y * y = x with both inputs: the values reach it whatever the order and the
    notation, and each kind of fault is reported. *)
Definition ex_lookup (h : N) (gs : list setting) : N :=
  match find (fun g => fst (fst g) =? h) gs with Some (_, _, v) => v | None => 0 end.
Definition ex_square (gs : list setting) : option (list N) :=
  let p := Z.to_N bn_r in
  let x := ex_lookup (name_hash (lit "x")) gs mod p in
  let y := ex_lookup (name_hash (lit "y")) gs mod p in
  if (y * y) mod p =? x then Some [1; x; y] else None.
Definition ex_wmodule : wmodule :=
  WModule 2 8 (Z.to_N bn_r) [(name_hash (lit "x"), 1); (name_hash (lit "y"), 1)] 3 ex_square.
Lemma ex_wmodule_ok : module_ok ex_wmodule.
Proof.
  constructor.
  - split; vm_compute; reflexivity.
  - cbn [ex_wmodule md_signals map fst]. assert (Hne : name_hash (lit "x") <> name_hash (lit "y")) by (intros E; apply N.eqb_eq in E; vm_compute in E; discriminate).
    constructor; [|constructor; [intros []|constructor]]. intros [E|[]]. apply Hne. symmetry. exact E.
  - repeat constructor; vm_compute; reflexivity.
  - intros gs w. cbn [ex_wmodule md_compute md_wsize md_prime]. unfold ex_square. cbv zeta.
    assert (Hx := N.mod_lt (ex_lookup (name_hash (lit "x")) gs) (Z.to_N bn_r) ltac:(discriminate)).
    assert (Hy := N.mod_lt (ex_lookup (name_hash (lit "y")) gs) (Z.to_N bn_r) ltac:(discriminate)).
    revert Hx Hy. generalize (ex_lookup (name_hash (lit "x")) gs mod Z.to_N bn_r) (ex_lookup (name_hash (lit "y")) gs mod Z.to_N bn_r).
    intros x y Hx Hy H. destruct (_ =? x); [|discriminate]. injection H as <-. split; [reflexivity|].
    constructor; [vm_compute; reflexivity|]. constructor; [exact Hx|]. constructor; [exact Hy|constructor].
Qed.
Example C48_nonvacuous :
  module_ok ex_wmodule /\
  calculate_witness ex_wmodule [(lit "y", JArr [JArr []; JInt (-3)]); (lit "x", JStr (lit "0x9"))] = Ok [1; 9; bn_r - 3]%Z /\
  calculate_witness ex_wmodule [(lit "y", JInt 4); (lit "x", JInt 9)] = Err (WcSet (lit "x") 0) /\
  calculate_witness ex_wmodule [(lit "y", JInt 3)] = Err WcNotAllInputs /\
  calculate_witness ex_wmodule [(lit "y", JInt 3); (lit "z", JInt 9)] = Err (WcSignalNotFound (lit "z")) /\
  calculate_witness ex_wmodule [(lit "y", JArr [JInt 3; JInt 9])] = Err (WcTooMany (lit "y")) /\
  calculate_witness ex_wmodule [(lit "y", JArr [])] = Err (WcNotEnough (lit "y")) /\
  calculate_witness ex_wmodule [(lit "y", JNull)] = Err (WcValue JsTypeError) /\
  calculate_witness ex_wmodule [(lit "y", JInt 3); (lit "y", JInt 3)] = Err (WcSet (lit "y") 0).
Proof. split; [exact ex_wmodule_ok|]. repeat split; vm_compute; reflexivity. Qed.
