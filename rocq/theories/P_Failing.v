(** C87, continued: what is printed when a file cannot be opened. *)
From Coq Require Import List Bool Arith NArith ZArith Lia.
From Coq Require Import Strings.String Strings.Byte.
From Verif Require Import Res Bytes Text Utf8 Fld Zp Groups Bn254 CS CSFacts Qap SpecCore Core CoreFacts CoreMore P_Core
  R1cs SpecR1cs R1csFacts P_R1cs Wtns SpecWtns WtnsFacts P_Wtns Circuit SpecCircuit CircuitFacts P_Circuit
  ArkSer ArkSerFacts P_Ser Combined SpecCombined CombinedFacts P_Combined Gcm FileSys Commands SpecCommands CommandsFacts
  P_Commands Printing PrintingFacts SpecPrinting Listings SpecFailing.
Import ListNotations.
Local Open Scope string_scope.
Local Open Scope list_scope.
Local Open Scope N_scope.
Local Opaque u8 dec_text.

Section Core.
  Context {E : pairingT Fr} (kdf : GT E -> key).
  Lemma mismatch_at (full : list Fr) pub : forall k i,
    (exists a b, nth_error full (k + i + 1) = Some a /\ nth_error pub i = Some b /\ a <> b) ->
    (forall j, (j < i)%nat -> exists a, nth_error full (k + j + 1) = Some a /\ nth_error pub j = Some a) ->
    mismatch full k pub = Some (Some (k + i)%nat).
  Proof.
    induction pub as [|e es IH]; intros k i (a&b&Ha&Hb&Hne) Hj; [destruct i; discriminate|].
    cbn [mismatch]. destruct i as [|i].
    - cbn [nth_error] in Hb. rewrite Nat.add_0_r in Ha |- *. rewrite Ha. injection Hb as ->. destruct (feqb_spec a b); [contradiction|reflexivity].
    - destruct (Hj O ltac:(lia)) as (a0&H0&H1). rewrite Nat.add_0_r in H0. rewrite H0. cbn [nth_error] in H1. injection H1 as ->.
      destruct (feqb_spec a0 a0) as [_|X]; [|destruct (X eq_refl)]. rewrite (IH (S k) i).
      + do 2 f_equal. lia.
      + exists a, b. split; [|split; [exact Hb|exact Hne]]. rewrite <- Ha. f_equal. lia.
      + intros j Hlt. destruct (Hj (S j) ltac:(lia)) as (a1&H2&H3). exists a1. split; [|exact H3]. rewrite <- H2. f_equal. lia.
  Qed.
  Lemma decap_out_unsatisfied (c : prog Fr) (ct : ciphertext Fr E) : completes c -> is_satisfied (fst (synth c cs_new)) = Some false ->
    decap_out kdf c ct = (unsatisfied_lines, Err InvalidWitness).
  Proof.
    unfold completes, decap_out, stops_with. rewrite synth_new. cbn [fst]. intros -> ->. reflexivity.
  Qed.
  Lemma decap_out_mismatch (c : prog Fr) (ct : ciphertext Fr E) i : completes c -> is_satisfied (fst (synth c cs_new)) = Some true ->
    (List.length (public_inputs ct) <= List.length (public_values c) + List.length (private_values c))%nat ->
    mismatch ((f1 : Fr) :: public_values c ++ private_values c) 0 (public_inputs ct) = Some (Some i) ->
    decap_out kdf c ct =
    ([ line "🔓 Starting Decap..."; line "  ✓ Circuit synthesized and satisfied";
       out (u8 "  ✓ Extracted full assignment: " ++ num (S (List.length (public_values c) + List.length (private_values c))) ++ u8 " values");
       err (u8 "  ✗ Public input mismatch at index " ++ num i) ], Err InvalidPublicInputs).
  Proof.
    unfold completes, decap_out, stops_with. rewrite synth_new. cbn [fst]. intros -> -> Hl Hm. cbn [inst wit app].
    rewrite <- app_length. fold (public_values c) (private_values c).
    cbn [List.length]. rewrite (proj2 (Nat.ltb_ge _ _)) by (rewrite app_length; lia). rewrite Hm. reflexivity.
  Qed.
End Core.

Section Circom.
  Context {E : pairingT Fr} (kdf : GT E -> key) (max_off : N).
  Context (r : r1cs_file) (vals : list Fr) (cb : list byte).
  Hypothesis Hr : r1cs_from_bytes max_off cb = Ok r.
  Hypothesis Hp : r_n_pub_out r + r_n_pub_in r < r_n_wires r.
  Hypothesis Hv : r_n_wires r <= N.of_nat (List.length vals).
  Hypothesis Hf : factors_below (r_n_wires r) (r_constraints r).
  Let c := circom_of_cli r (witness_of vals).
  Let a := wires (fun w => nth_error vals (N.to_nat w)).
  Lemma circom_facts :
    completes (circom_prog c) /\
    S (List.length (public_values (circom_prog c)) + List.length (private_values (circom_prog c))) = N.to_nat (r_n_wires r) /\
    (forall j x, nth_error vals (S j) = Some x -> (S j < N.to_nat (r_n_wires r))%nat ->
       nth_error (public_values (circom_prog c) ++ private_values (circom_prog c)) j = Some x) /\
    exists b, is_satisfied (fst (synth (circom_prog c) cs_new)) = Some b /\ (b = true <-> satisfies a (r_constraints r)).
  Proof using Hr Hp Hv Hf.
    destruct (r1cs_sound _ _ _ Hr) as [Hok _]. pose proof (ok_nw _ Hok) as Hnw.
    assert (Hnp : cc_n_public c = r_n_pub_out r + r_n_pub_in r).
    { cbn [c cc_n_public circom_of_cli]. apply N.mod_small. clear - Hp Hnw. lia. }
    destruct (C24_synthesis_means_satisfaction c) as (_&H2&H3&H4&H5).
    { rewrite Hnp. exact Hp. } { cbn [c cc_n_wires circom_of_cli]. clear - Hnw. lia. } { exact Hf. }
    { intros i Hi. cbn [c cc_n_wires circom_of_cli cc_witness] in *. unfold witness_of. apply nth_error_Some. clear - Hi Hv. lia. }
    split; [exact H2|]. rewrite Hnp in H3, H4. change (cc_n_wires c) with (r_n_wires r) in H4.
    assert (Hpp : public_values (circom_prog c) ++ private_values (circom_prog c) = map (wires (cc_witness c)) (range 1 (r_n_wires r))).
    { rewrite H3, H4, <- map_app, <- range_split; [reflexivity| |]; clear - Hp; lia. }
    split; [|split; [|exact H5]].
    - rewrite <- app_length, Hpp, map_length, range_length. clear - Hp. lia.
    - intros j x Hx Hj. rewrite Hpp. rewrite nth_error_map, range_nth by (clear - Hj; lia). cbn [option_map]. f_equal.
      unfold wires. replace (1 + N.of_nat j =? 0) with false by (symmetry; apply N.eqb_neq; lia).
      cbn [c cc_witness circom_of_cli]. unfold witness_of. replace (N.to_nat (1 + N.of_nat j)) with (S j) by lia. rewrite Hx. reflexivity.
  Qed.
  Lemma circom_unsatisfied (ct : ciphertext Fr E) : ~ satisfies a (r_constraints r) ->
    decap_out kdf (circom_prog c) ct = (unsatisfied_lines, Err InvalidWitness).
  Proof using Hr Hp Hv Hf.
    intros Hn. destruct circom_facts as (H1&_&_&b&Hb&Hiff). apply decap_out_unsatisfied; [exact H1|]. rewrite Hb.
    destruct b; [|reflexivity]. destruct (Hn (proj1 Hiff eq_refl)).
  Qed.
  Lemma circom_mismatch (ct : ciphertext Fr E) i : satisfies a (r_constraints r) ->
    N.of_nat (List.length (public_inputs ct)) < r_n_wires r -> first_difference vals (public_inputs ct) i ->
    decap_out kdf (circom_prog c) ct = (mismatch_lines r (N.of_nat i), Err InvalidPublicInputs).
  Proof using Hr Hp Hv Hf.
    intros Hs Hl ((x&y&Hx&Hy&Hne)&Hj). destruct circom_facts as (H1&H2&H3&b&Hb&Hiff).
    assert (Hi : (i < List.length (public_inputs ct))%nat) by (apply nth_error_Some; congruence).
    rewrite (decap_out_mismatch kdf (circom_prog c) ct i H1).
    - rewrite H2. unfold mismatch_lines, with_number, num. rewrite N2Nat.id. reflexivity.
    - rewrite Hb, (proj2 Hiff Hs). reflexivity.
    - clear - H2 Hl. lia.
    - rewrite (mismatch_at _ _ O i); [reflexivity| |].
      + exists x, y. split; [|split; assumption]. cbn [Nat.add]. rewrite Nat.add_1_r. cbn [nth_error]. apply H3; [exact Hx|]. clear - Hi Hl. lia.
      + intros j Hlt. destruct (Hj j Hlt) as (z&Hz1&Hz2). exists z. split; [|exact Hz2]. cbn [Nat.add]. rewrite Nat.add_1_r. cbn [nth_error].
        apply H3; [exact Hz1|]. clear - Hi Hl Hlt. lia.
  Qed.
End Circom.

Lemma split_lines_of f p : cli_split f = Ok p -> split_lines f =
  [ with_number "   - Flag: " (Byte.to_N (hd x00 f)) ""; with_number "   - Witness ciphertext: " (blen (p_witness p)) " bytes" ] ++
  match p_public p with Some b => [out (u8 "   - Public input: " ++ from_utf8_lossy b)] | None => [] end ++
  [ with_number "   - Encrypted message: " (blen (p_message p)) " bytes" ].
Proof.
  intros Hsp. unfold split_lines. cbv zeta. rewrite Hsp.
  assert (Hl : be_val (firstn 4 (tl f)) = blen (p_witness p)).
  { destruct (split_fits f p Hsp) as ((Hw&_)&flag&_&->). unfold layout, block. cbn [tl].
    rewrite <- app_assoc, firstn_app, be_bytes_length. change (4 - 4)%nat with O. change (firstn 0 (p_witness p ++ match p_public p with Some q => be_bytes 4 (blen q) ++ q | None => [] end ++ p_message p)) with (@nil byte). rewrite app_nil_r.
    rewrite firstn_all2 by (rewrite be_bytes_length; apply le_n). apply be4_val. exact Hw. }
  rewrite Hl. unfold with_number. rewrite u8_nil, app_nil_r. reflexivity.
Qed.

(** With a witness that breaks a constraint, or one for other public values, decap and decrypt print
    exactly this, and fail: of the witness they show that it broke a constraint, or the place of the first
    public value that is not the ciphertext's; they touch no file. *)
Theorem C87_wrong_witness_prints :
  forall (E : pairingT Fr) (C : codecT E) (kdf : GT E -> key) (aes : cipherT) max_off cp wp ctp op s cb wb f r wf vals ct rest shown failure,
    s cp = Some cb -> s wp = Some wb -> s ctp = Some f ->
    r1cs_from_bytes max_off cb = Ok r -> r_n_pub_out r + r_n_pub_in r < r_n_wires r -> factors_below (r_n_wires r) (r_constraints r) ->
    wtns_from_bytes wb = Ok wf -> to_field_elements wf = Ok vals -> r_n_wires r <= N.of_nat (List.length vals) ->
    let holds := satisfies (wires (fun w => nth_error vals (N.to_nat w))) (r_constraints r) in
    (~ holds /\ shown = unsatisfied_lines /\ failure = u8 "Decap failed: InvalidWitness") \/
    (holds /\ N.of_nat (List.length (public_inputs ct)) < r_n_wires r /\
     exists i, first_difference vals (public_inputs ct) i /\ shown = mismatch_lines r (N.of_nat i) /\ failure = u8 "Decap failed: InvalidPublicInputs") ->
    (ct_deserialize C f = Some (ct, rest) ->
     hear (decap_talk C kdf max_off cp wp ctp op) s = (s, before_decap r (wf_n wf) (blen f) ++ shown, Err (EDecap, failure))) /\
    (forall p, cli_split f = Ok p -> ct_deserialize C (p_witness p) = Some (ct, rest) ->
     hear (decrypt_talk C kdf aes max_off cp wp ctp op) s =
       (s, before_decrypt r (wf_n wf) (Byte.to_N (hd x00 f)) p ++ shown, Err (EDecap, failure))).
Proof.
  intros E C kdf aes max_off cp wp ctp op s cb wb f r wf vals ct rest shown failure H1 H2 H3 Hr Hp Hf Hwf Hv Hl holds Hcase.
  assert (Hout : exists e, decap_out kdf (circom_prog (circom_of_cli r (witness_of vals))) ct = (shown, Err e) /\
            failure = u8 "Decap failed: " ++ core_error_text e).
  { destruct Hcase as [(Hn&->&->)|(Hh&Hpl&i&Hd&->&->)].
    - exists InvalidWitness. split; [|reflexivity]. exact (circom_unsatisfied kdf max_off r vals cb Hr Hp Hl Hf ct Hn).
    - exists InvalidPublicInputs. split; [|reflexivity]. exact (circom_mismatch kdf max_off r vals cb Hr Hp Hl Hf ct i Hh Hpl Hd). }
  destruct Hout as (e&Hout&->).
  assert (Hrun : forall k, hear (t_run_decap kdf (circom_of_cli r (witness_of vals)) ct k) s = (s, shown, Err (EDecap, u8 "Decap failed: " ++ core_error_text e))).
  { intros k. unfold t_run_decap. rewrite Hout. cbn [ttry]. rewrite hear_says. cbn [hear]. rewrite app_nil_r. reflexivity. }
  clear Hout. set (why := u8 "Decap failed: " ++ core_error_text e) in *. clearbody why. clear Hcase. clearbody holds.
  split.
  - intros Hct. unfold decap_talk. rewrite hear_say, (hear_load_r1cs max_off _ _ _ _ _ _ H1 Hr), hear_says,
      (hear_load_witness wp _ s wb wf vals H2 Hwf Hv), hear_say, hear_read, H3. cbn [ttry_opt]. rewrite Hct.
    cbn [ttry_opt]. rewrite hear_says, (hear_load_r1cs max_off _ _ _ _ _ _ H1 Hr). rewrite Hrun.
    unfold before_decap. rewrite <- header_eq. rewrite <- !app_assoc. reflexivity.
  - intros p Hsp Hct. unfold decrypt_talk. rewrite hear_say, hear_read, H3. cbn [ttry_opt]. rewrite hear_says, Hsp. cbn [ttry].
    rewrite hear_says, (hear_load_r1cs max_off _ _ _ _ _ _ H1 Hr), hear_says,
      (hear_load_witness wp _ s wb wf vals H2 Hwf Hv), Hct. cbn [ttry_opt]. rewrite (hear_load_r1cs max_off _ _ _ _ _ _ H1 Hr). rewrite Hrun.
    rewrite (split_lines_of f p Hsp). unfold before_decrypt. rewrite <- header_eq. rewrite <- !app_assoc. reflexivity.
Qed.
Print Assumptions C87_wrong_witness_prints.

(** A combined file that is cut off: decrypt prints nothing of it but its first byte and the number in the
    next four, if as much was there; it names what was missing and reads no other file. *)
Theorem C87_cut_off_prints :
  forall (E : pairingT Fr) (C : codecT E) (kdf : GT E -> key) (aes : cipherT) max_off cp wp ctp op s f e,
    s ctp = Some f -> cli_split f = Err e ->
    exists text,
      hear (decrypt_talk C kdf aes max_off cp wp ctp op) s = (s, cut_off_lines f e, Err (EInvalidCiphertext e, text)) /\
      reported (EInvalidCiphertext e) text.
Proof.
  intros E C kdf aes max_off cp wp ctp op s f e Hf He. exists (comb_error_text e).
  unfold decrypt_talk. rewrite hear_say, hear_read, Hf. cbn [ttry_opt]. rewrite hear_says. rewrite He. cbn [ttry hear]. rewrite app_nil_r.
  unfold split_lines. rewrite He. cbv zeta. unfold cut_off_lines, with_number. rewrite u8_nil, app_nil_r.
  split; [destruct e; reflexivity|]. destruct e; reflexivity.
Qed.
Print Assumptions C87_cut_off_prints.

(** For y * y = x: y = 4 breaks the constraint when x = 9; with x = 16 it does not, and the first public
    value is another. *)
Example C87_failing_nonvacuous :
  let holds (vals : list Fr) := satisfies (wires (fun w => nth_error vals (N.to_nat w))) (r_constraints ex_circuit) in
  factors_below (r_n_wires ex_circuit) (r_constraints ex_circuit) /\
  ~ holds [fr 1; fr 9; fr 4] /\ holds [fr 1; fr 16; fr 4] /\ first_difference [fr 1; fr 16; fr 4] [fr 9] 0 /\
  first_difference [fr 1; fr 9; fr 5; fr 4] [fr 9; fr 5; fr 7] 2 /\
  cli_split [x01; x00; x00; x00; x00] = Err CMissingPublic.
Proof.
  cbv zeta. split; [repeat constructor|]. split.
  { intros H. inversion H as [|x l Hx Hl]; subst. apply (proj2 (feqb_true Fr _ _)) in Hx. vm_compute in Hx. discriminate. }
  split; [constructor; [apply (proj1 (feqb_true Fr _ _)); vm_compute; reflexivity|constructor]|].
  split; [|split; [|vm_compute; reflexivity]].
  - split; [|intros j Hj; inversion Hj]. exists (fr 16), (fr 9). split; [reflexivity|]. split; [reflexivity|].
    intros H. apply (proj2 (feqb_true Fr _ _)) in H. vm_compute in H. discriminate.
  - split.
    + exists (fr 4), (fr 7). split; [reflexivity|]. split; [reflexivity|].
      intros H. apply (proj2 (feqb_true Fr _ _)) in H. vm_compute in H. discriminate.
    + intros [|[|j]] Hj; [exists (fr 9)|exists (fr 5)|exfalso; lia]; split; reflexivity.
Qed.
