(** Property theorem C55 for every circuit whose wires are all public inputs: when the key files of
    zkenc encap and zkenc decap agree. *)
From Coq Require Import List Bool Arith NArith ZArith Lia Permutation.
From Coq Require Import Strings.String Strings.Byte.
From Verif Require Import Res Bytes Text Utf8 Fld Zp Groups Bn254 CS CSFacts Qap SpecCore Core CoreFacts SpecSecrets Secrets CoreMore P_Core P_Luck
  R1cs SpecR1cs R1csFacts P_R1cs Wtns SpecWtns WtnsFacts P_Wtns Circuit SpecCircuit CircuitFacts P_Circuit
  ArkSer ArkSerFacts P_Ser Sym SpecSym SymFacts P_Sym Inputs SpecInputs InputsFacts P_Inputs
  Combined Gcm FileSys Commands SpecCommands CommandsFacts PartialEncap P_Commands
  R1csJs R1csJsFacts JsZkenc JsZkencFacts P_JsZkenc SpecJs C44Facts P_JsApi JsIff SpecBound P_Bound SpecNumerals P_Numerals SpecJsReports P_JsReports P_AllPublic.
Import ListNotations.
Local Open Scope N_scope.

(** decap depends on the circuit only through what it synthesises. *)
Lemma decap_synth {F : fieldT} (E : pairingT F) (kdf : GT E -> key) (p q : prog F) ct :
  synth p cs_new = synth q cs_new -> decap kdf p ct = decap kdf q ct.
Proof. intros H. unfold decap. rewrite H. reflexivity. Qed.

(** A circuit of public wires only, its values all known. *)
Section Public.
  Variables c d : circom.
  Hypothesis Hp : cc_n_public c + 1 < 2 ^ 32.
  Hypothesis Hw : cc_n_wires c = cc_n_public c + 1.
  Hypothesis Hnp : cc_n_public d = cc_n_public c.
  Hypothesis Hnw : cc_n_wires d = cc_n_wires c.
  Hypothesis Hcs : cc_constraints d = cc_constraints c.
  Hypothesis Hv : forall i, 1 <= i <= cc_n_public c -> cc_witness d i = cc_witness c i.
  Hypothesis Hk : forall i, 1 <= i <= cc_n_public c -> cc_witness c i <> None.

  Lemma alloc_eq : n_alloc c = cc_n_public c + 1.
  Proof using Hw. unfold n_alloc. rewrite Hw. apply N.max_id. Qed.
  Lemma known_c i : 1 <= i < n_alloc c -> cc_witness c i <> None.
  Proof using Hw Hk. rewrite alloc_eq. intros H. apply Hk. clear - H. lia. Qed.
  Lemma known_d i : 1 <= i < n_alloc d -> cc_witness d i <> None.
  Proof using Hw Hnp Hnw Hv Hk. unfold n_alloc. rewrite Hnw, Hnp, Hw, N.max_id. intros H. assert (Hi : 1 <= i <= cc_n_public c) by (clear - H; lia). rewrite (Hv i Hi). apply Hk. exact Hi. Qed.

  Lemma same_synth : synth (circom_prog d) cs_new = synth (circom_prog c) cs_new.
  Proof using Hp Hw Hnp Hnw Hcs Hv Hk.
    destruct (prog_facts c Hp known_c) as (A1&A2&A3&A4).
    destruct (prog_facts d ltac:(rewrite Hnp; exact Hp) known_d) as (B1&B2&B3&B4).
    unfold public_values, private_values, completes, stops_with, constraints_stated in *.
    rewrite !synth_new. rewrite (extra_no_error Fr 1 0 _ A3), (extra_no_error Fr 1 0 _ B3), A3, B3.
    rewrite A2, B2, A4, B4, Hcs, Hnp, Hnw.
    assert (HH : inputs_of 1 0 (circom_prog d) = inputs_of 1 0 (circom_prog c)).
    { rewrite A1, B1, Hnp. apply map_ext_in. intros i Hi. apply range_in in Hi. unfold value. rewrite Hv by (clear - Hi; lia). reflexivity. }
    rewrite HH. replace (range (cc_n_public c + 1) (cc_n_wires c)) with (@nil N); [reflexivity|].
    symmetry. apply length_zero_iff_nil. rewrite range_length. rewrite Hw. clear. lia.
  Qed.

  Lemma no_private : private_values (circom_prog c) = [].
  Proof using Hp Hw Hk.
    destruct (prog_facts c Hp known_c) as (_&A2&_). rewrite A2.
    replace (range (cc_n_public c + 1) (cc_n_wires c)) with (@nil N); [reflexivity|].
    symmetry. apply length_zero_iff_nil. rewrite range_length. rewrite Hw. clear. lia.
  Qed.
  Hypothesis Hfb : factors_below (cc_n_wires c) (cc_constraints c).
  Definition side (sel : row Fr -> lc Fr) (sel' : constraint_t -> lc_t) : Prop :=
    (sel = rA /\ sel' = c_a) \/ (sel = rB /\ sel' = c_b) \/ (sel = rC /\ sel' = c_c).
  Lemma public_row sel sel' : side sel sel' ->
    map (fun r => public_part Fr (circom_prog c) (sel r)) (constraints_stated (circom_prog c)) =
    map (fun x => combination (wires (cc_witness c)) (sel' x)) (cc_constraints c).
  Proof using Hp Hw Hk Hfb.
    intros Hs. pose proof no_private as Hn.
    destruct (prog_facts c Hp known_c) as (A1&A2&_&A4). rewrite A4, map_map.
    apply map_ext_in. intros x Hx.
    assert (Hid : drop_unknown (n_alloc c) x = x).
    { rewrite alloc_eq, <- Hw. pose proof (drop_unknown_id _ _ Hfb) as HH. 
      rewrite <- (map_id (cc_constraints c)) in HH at 2. exact (proj1 map_ext_in_iff HH x Hx). }
    unfold public_part. rewrite A1. rewrite Hn in A2. rewrite A2.
    destruct Hs as [[-> ->]|[[-> ->]|[-> ->]]]; cbn [rA rB rC]; rewrite (lc_meaning c Hp); f_equal.
    all: unfold drop_unknown in Hid; destruct x as [xa xb xc]; cbn [c_a c_b c_c] in *; congruence.
  Qed.
End Public.

(** The draws with alpha, beta and x replaced. *)
Definition with_draws (co : coins) (alpha beta x : Fr) : coins := Coins alpha beta (c_delta co) (c_r co) x (c_nonce co).

Section Agree.
  Context (E : pairingT Fr) (D : domainT Fr).
  Context (Hnd : nondegenerate E) (HD : domain_ok D).
  Variables (c : circom) (co : coins).
  Hypothesis Hdel : c_delta co <> f0.
  Hypothesis Hr : c_r co <> f0.
  Hypothesis Hp : cc_n_public c + 1 < 2 ^ 32.
  Hypothesis Hw : cc_n_wires c = cc_n_public c + 1.
  Hypothesis Hk : forall i, 1 <= i <= cc_n_public c -> cc_witness c i <> None.
  Hypothesis Hfb : factors_below (cc_n_wires c) (cc_constraints c).
  Hypothesis Hsat : satisfies (wires (cc_witness c)) (cc_constraints c).
  Definition equal_if (alpha beta x : Fr) (P : Prop) : Prop :=
    equal_exactly_if E D (circom_prog c) (circom_prog c) alpha beta (c_delta co) (c_r co) x P.
  Definition a_side (d : constraint_t) : Fr := combination (wires (cc_witness c)) (c_a d).
  Definition b_side (d : constraint_t) : Fr := combination (wires (cc_witness c)) (c_b d).

  Lemma circuit_satisfied : satisfied (circom_prog c) /\ private_values (circom_prog c) = [] /\
    List.length (public_values (circom_prog c)) = N.to_nat (cc_n_public c) /\
    List.length (constraints_stated (circom_prog c)) = List.length (cc_constraints c).
  Proof.
    destruct (circom_synthesis c Hp (known_c c Hw Hk)) as (W1&W2&W3&_&W5).
    split; [split; [exact W1|]; split; [exact W2|]|split; [apply no_private; assumption|split]].
    - apply W5. rewrite drop_unknown_id; [exact Hsat|]. rewrite (alloc_eq c Hw), <- Hw. exact Hfb.
    - rewrite W3, map_length, range_length. clear. lia.
    - destruct (prog_facts c Hp (known_c c Hw Hk)) as (_&_&_&->). apply map_length.
  Qed.
  Lemma sides (P : Fr -> Prop) sel sel' : side sel sel' ->
    (Exists (fun r => P (public_part Fr (circom_prog c) (sel r))) (constraints_stated (circom_prog c)) <->
     Exists (fun d => P (combination (wires (cc_witness c)) (sel' d))) (cc_constraints c)) /\
    (Forall (fun r => P (public_part Fr (circom_prog c) (sel r))) (constraints_stated (circom_prog c)) <->
     Forall (fun d => P (combination (wires (cc_witness c)) (sel' d))) (cc_constraints c)).
  Proof.
    intros Hs. pose proof (public_row c Hp Hw Hk Hfb sel sel' Hs) as H.
    rewrite <- (Exists_map (fun r => public_part Fr (circom_prog c) (sel r)) P), <- (Exists_map (fun d => combination (wires (cc_witness c)) (sel' d)) P).
    rewrite <- (Forall_map (fun r => public_part Fr (circom_prog c) (sel r)) P), <- (Forall_map (fun d => combination (wires (cc_witness c)) (sel' d)) P).
    rewrite H. split; reflexivity.
  Qed.

  Lemma agree_cases :
    (forall ds, dom_new D (List.length (cc_constraints c) + (1 + N.to_nat (cc_n_public c))) = Some ds ->
     ((exists d, In d (cc_constraints c) /\ a_side d <> f0) ->
      forall alpha xs, NoDup xs -> (forall x, In x xs -> ~ exists beta0, forall beta, equal_if alpha beta x (beta = beta0)) -> (List.length xs < List.length ds)%nat) /\
     ((forall d, In d (cc_constraints c) -> a_side d = f0) -> (exists d, In d (cc_constraints c) /\ b_side d <> f0) ->
      forall xs, NoDup xs -> (forall x, In x xs -> ~ forall alpha beta, equal_if alpha beta x (alpha = f0)) -> (List.length xs < List.length ds)%nat)) /\
    ((forall d, In d (cc_constraints c) -> a_side d = f0 /\ b_side d = f0) -> forall alpha beta x, equal_if alpha beta x True).
  Proof.
    destruct circuit_satisfied as (Hs&Hpriv&Hlp&Hlc).
    assert (HA := fun P => sides P rA c_a (or_introl (conj eq_refl eq_refl))).
    assert (HB := fun P => sides P rB c_b (or_intror (or_introl (conj eq_refl eq_refl)))).
    split.
    - intros ds Hds. rewrite <- Hlp, <- Hlc in Hds. split.
      + intros Hex alpha xs Hxs Hx.
        apply (C02_one_beta_only Fr E D (circom_prog c) alpha (c_delta co) (c_r co) ds Hnd Hs Hdel Hr HD Hds); [|exact Hxs|exact Hx].
        apply Exists_exists. apply (HA (fun a => a <> f0)). apply Exists_exists. exact Hex.
      + intros Hall Hex xs Hxs Hx.
        destruct (C02_no_private_variables Fr E D (circom_prog c) (c_delta co) (c_r co) Hnd Hs Hdel Hr HD Hpriv) as [G _].
        { apply (HA (fun a => a = f0)). apply Forall_forall. exact Hall. }
        apply (G ds xs Hds); [|exact Hxs|exact Hx].
        apply Exists_exists. apply (HB (fun a => a <> f0)). apply Exists_exists. exact Hex.
    - intros Hall.
      destruct (C02_no_private_variables Fr E D (circom_prog c) (c_delta co) (c_r co) Hnd Hs Hdel Hr HD Hpriv) as [_ G].
      { apply (HA (fun a => a = f0)). apply Forall_forall. intros d Hd. apply Hall. exact Hd. }
      apply G. apply (HB (fun a => a = f0)). apply Forall_forall. intros d Hd. apply Hall. exact Hd.
  Qed.

  (** Both succeed, whatever the draws. *)
  Lemma has_secrets alpha beta x : exists S S', secrets (E := E) D (circom_prog c) (circom_prog c) alpha beta (c_delta co) (c_r co) x S S'.
  Proof using Hdel Hp Hw Hk Hfb Hsat.
    destruct circuit_satisfied as ((Hs1&Hs2&Hs3)&_). do 2 eexists. apply secrets_are; try assumption. eexists. reflexivity.
  Qed.
  Lemma ct_lengths kdf alpha beta x ct k : cc_n_public c <= 2 ^ 24 ->
    run_encap E D kdf (with_draws co alpha beta x) c = Ok (ct, k) -> lengths_ok ct.
  Proof using Hdel Hp Hw Hk Hfb Hsat.
    intros Hmax He. destruct circuit_satisfied as ((Hs1&Hs2&Hs3)&Hpriv&Hlp&_). unfold run_encap in He.
    pose proof (C05_public_inputs_recorded Fr E D kdf _ _ _ _ _ _ _ _ He) as Hpub.
    pose proof (C12_published_queries Fr E D kdf _ _ _ _ _ _ _ _ He) as Hq.
    destruct (evaluate_qap D (fst (synth (circom_prog c) cs_new)) (c_x (with_draws co alpha beta x))) as [[u vv] ww]. cbv zeta in Hq.
    destruct Hq as (_&_&_&_&_&_&L1&L2&L3&L4&_).
    pose proof (num_variables_count Fr (circom_prog c)) as Hnv. unfold completes in Hs2. rewrite Hs2, Hpriv, Hlp in Hnv. cbn [List.length] in Hnv.
    unfold lengths_ok. rewrite L1, L2, L3, L4, Hpub, Hnv, Hlp. cbn [List.length]. clear - Hmax.
    change (2 ^ 24) with 16777216 in *. change (2 ^ 64) with 18446744073709551616. repeat split; lia.
  Qed.
End Agree.

(** The same constraints under assignments that agree on the existing wires. *)
Lemma same_rows (n : N) cs a b : factors_below n cs -> (forall i, i < n -> wires a i = wires b i) ->
  forall d, In d cs -> combination (wires a) (c_a d) = combination (wires b) (c_a d) /\
    combination (wires a) (c_b d) = combination (wires b) (c_b d) /\ combination (wires a) (c_c d) = combination (wires b) (c_c d).
Proof.
  intros Hfb Hval d Hd.
  assert (Hcomb : forall l, Forall (fun f => fst f < n) l -> combination (wires a) l = combination (wires b) l).
  { induction 1 as [|[i x] l Hi Hl IH]; [reflexivity|]. cbn [combination]. cbn [fst] in Hi. rewrite IH, (Hval i Hi). reflexivity. }
  unfold factors_below in Hfb. rewrite Forall_forall in Hfb. specialize (Hfb d Hd).
  apply Forall_app in Hfb as [F1 F2]. apply Forall_app in F2 as [F2 F3]. repeat split; apply Hcomb; assumption.
Qed.

(** Every circuit whose wires are all public inputs, every satisfying witness with the values the input
    file gives: both commands succeed, whatever the draws (delta not zero) and the hash.  [keys alpha
    beta x S S']: the two key files are the hashes of S and S'.  If the A side of some constraint is not
    zero, S and S' are equal for exactly one beta of the field; if all A sides are zero but not all B
    sides, exactly for the draws with alpha = 0 - in both cases for all x but fewer than the evaluation
    domain has elements; if all A and B sides are zero they are always equal. *)
Theorem C55_all_public_circuits :
  forall (E : pairingT Fr) (C : codecT E) (D : domainT Fr) json_parse max_off v co
         cp sp ip wp ctp kp kp' s cb sb ib wb st syms it kvs r vals,
    nondegenerate E -> domain_ok D -> c_delta co <> f0 -> c_r co <> f0 ->
    s cp = Some cb -> s sp = Some sb -> s ip = Some ib -> s wp = Some wb -> ~ In ctp [cp; wp; kp] -> ~ In kp [cp; wp] ->
    r1cs_from_bytes max_off cb = Ok r -> r_n_pub_out r = 0 -> r_n_wires r = r_n_pub_in r + 1 -> r_n_pub_in r <= 2 ^ 24 ->
    cli_read_witness wb = Ok vals -> opens_circuit r vals ->
    utf8_decode sb = Some st -> parse_sym_file st = Ok syms -> utf8_decode ib = Some it -> json_parse it = Some (JObj kvs) ->
    (forall name x, doc_leaf kvs name x -> exists a, numeric x a) ->
    unambiguous kvs -> separate kvs (fun n => hm_get (lit "main." ++ n) syms) ->
    (forall w, 1 <= w <= r_n_pub_in r -> exists a, nth_error vals (N.to_nat w) = Some a /\ cli_gives syms kvs w a) ->
    let keys alpha beta x S S' := forall kdf : GT E -> key,
      exists s1 s2, run (encap_command C D kdf json_parse max_off v (with_draws co alpha beta x) cp sp ip ctp kp) s = (s1, Ok tt) /\
        run (decap_command C kdf max_off cp wp ctp kp') s1 = (s2, Ok tt) /\ s1 kp = Some (kdf S) /\ s2 kp' = Some (kdf S') in
    let equal_exactly_if alpha beta x P := exists S S', keys alpha beta x S S' /\ (S = S' <-> P) in
    let value_of l := combination (wires (fun w => nth_error vals (N.to_nat w))) l in
    (forall alpha beta x, exists S S', keys alpha beta x S S') /\
    (forall ds, dom_new D (List.length (r_constraints r) + (1 + N.to_nat (r_n_pub_in r))) = Some ds ->
     ((exists d, In d (r_constraints r) /\ value_of (c_a d) <> f0) ->
      forall alpha xs, NoDup xs -> (forall x, In x xs -> ~ exists beta0, forall beta, equal_exactly_if alpha beta x (beta = beta0)) -> (List.length xs < List.length ds)%nat) /\
     ((forall d, In d (r_constraints r) -> value_of (c_a d) = f0) -> (exists d, In d (r_constraints r) /\ value_of (c_b d) <> f0) ->
      forall xs, NoDup xs -> (forall x, In x xs -> ~ forall alpha beta, equal_exactly_if alpha beta x (alpha = f0)) -> (List.length xs < List.length ds)%nat)) /\
    ((forall d, In d (r_constraints r) -> value_of (c_a d) = f0 /\ value_of (c_b d) = f0) -> forall alpha beta x, equal_exactly_if alpha beta x True).
Proof.
  intros E C D json_parse max_off v co cp sp ip wp ctp kp kp' s cb sb ib wb st syms it kvs r vals
    Hnd HD Hdel Hr S1 S2 S3 S4 Hct Hkp Hcb Hout Hwires Hmax Hwb (Ho1&Ho2&Ho3) Hst Hsy Hit Hj Hnum Hun Hse Hgiven.
  cbv zeta.
  destruct (proj2 (C29_accepted_iff_every_leaf_is_numeric kvs) Hnum) as [inputs Hpi].
  set (sig := get_input_signals (visit_syms v syms) (Some (r_n_pub_in r))).
  set (a := fun w => nm_get w (cli_witness sig (visit_inputs v inputs))).
  set (c := circom_of_cli r a). set (vw := fun w => nth_error vals (N.to_nat w)) in *. set (c2 := circom_of_cli r vw).
  assert (Hprep : prepared json_parse max_off v cb sb ib it c).
  { exists r, st, syms, inputs. repeat split; try assumption. unfold parse_inputs_text. rewrite Hj. exact Hpi. }
  assert (Hwf := parse_sym_file_wf _ _ Hsy).
  assert (Hsig := C28_input_signals syms (visit_syms v syms) (Some (r_n_pub_in r)) Hwf (visit_syms_ok v syms)). fold sig in Hsig.
  assert (Ha : forall w, 1 <= w <= r_n_pub_in r -> a w = vw w /\ a w <> None).
  { intros w Hw. destruct (Hgiven w Hw) as (x&Hx&n&y&Hl&Hn&Hy). assert (Haw : a w = Some x).
    { unfold a. apply (C29_wire_assignment kvs inputs (visit_inputs v inputs) sig Hun).
      - intros n0 n' y0 y' w' H H' Hn1 Hn2. apply Hsig in Hn1, Hn2. destruct Hn1 as [Hn1 _], Hn2 as [Hn2 _]. eapply Hse; eauto.
      - exact Hpi.
      - apply visit_inputs_ok.
      - left. exists n, y. split; [exact Hl|]. split; [|exact Hy]. apply Hsig. split; [exact Hn|]. intros b [= <-]. apply Hw. }
    rewrite Haw. split; [symmetry; exact Hx|discriminate]. }
  assert (Hnp : cc_n_public c = r_n_pub_in r).
  { cbn [c cc_n_public circom_of_cli]. rewrite Hout, N.add_0_l. apply N.mod_small. clear - Hmax. lia. }
  assert (Hnp2 : cc_n_public c2 = cc_n_public c) by reflexivity.
  assert (Hp : cc_n_public c + 1 < 2 ^ 32) by (rewrite Hnp; clear - Hmax; lia).
  assert (Hwc : cc_n_wires c = cc_n_public c + 1) by (rewrite Hnp; exact Hwires).
  assert (Hk : forall i, 1 <= i <= cc_n_public c -> cc_witness c i <> None) by (rewrite Hnp; intros i Hi; apply Ha; exact Hi).
  assert (Hv : forall i, 1 <= i <= cc_n_public c -> cc_witness c2 i = cc_witness c i) by (rewrite Hnp; intros i Hi; symmetry; apply Ha; exact Hi).
  pose proof (same_synth c c2 Hp Hwc Hnp2 eq_refl eq_refl Hv Hk) as Hsyn.
  assert (Hval : forall i, i < r_n_wires r -> wires a i = wires vw i).
  { intros i Hi. unfold wires. destruct (N.eqb_spec i 0); [reflexivity|]. rewrite (proj1 (Ha i ltac:(clear - Hi Hwires n; lia))). reflexivity. }
  pose proof (same_rows (r_n_wires r) (r_constraints r) a vw Ho2 Hval) as Hrows.
  assert (Hsat : satisfies (wires (cc_witness c)) (cc_constraints c)).
  { apply Forall_forall. intros d Hd. destruct (Hrows d Hd) as (R1&R2&R3). unfold row_true. cbn [cc_witness c circom_of_cli].
    rewrite R1, R2, R3. unfold satisfies in Ho3. rewrite Forall_forall in Ho3. apply Ho3. exact Hd. }
  assert (Hne1 : cp <> ctp) by (intros ->; apply Hct; left; reflexivity).
  assert (Hne2 : wp <> ctp) by (intros ->; apply Hct; right; left; reflexivity).
  assert (Hne3 : kp <> ctp) by (intros ->; apply Hct; right; right; left; reflexivity).
  assert (Hne4 : cp <> kp) by (intros ->; apply Hkp; left; reflexivity).
  assert (Hne5 : wp <> kp) by (intros ->; apply Hkp; right; left; reflexivity).
  assert (Hkeys : forall alpha beta x S S', secrets (E := E) D (circom_prog c) (circom_prog c) alpha beta (c_delta co) (c_r co) x S S' -> forall kdf,
    exists s1 s2, run (encap_command C D kdf json_parse max_off v (with_draws co alpha beta x) cp sp ip ctp kp) s = (s1, Ok tt) /\
        run (decap_command C kdf max_off cp wp ctp kp') s1 = (s2, Ok tt) /\ s1 kp = Some (kdf S) /\ s2 kp' = Some (kdf S')).
  { intros alpha beta x S S' Hsec kdf. destruct (Hsec kdf) as (ct&He&Hk').
    change (run_encap E D kdf (with_draws co alpha beta x) c = Ok (ct, kdf S)) in He.
    pose proof (ct_lengths E D c co Hdel Hp Hwc Hk Ho2 Hsat kdf alpha beta x ct _ ltac:(rewrite Hnp; exact Hmax) He) as Hlen.
    pose proof (C14_round_trip E C ct [] Hlen) as Hser. rewrite app_nil_r in Hser.
    do 2 eexists. split; [|split; [|split]].
    - exact (run_encap_command E C D kdf json_parse max_off v (with_draws co alpha beta x) cp sp ip ctp kp s cb sb ib it c ct (kdf S) S1 S2 S3 Hprep He).
    - apply run_decap_command with (cb := cb) (wb := wb) (bs := ct_bytes C ct) (k := kdf S').
      + rewrite !fs_write_other by congruence. exact S1.
      + rewrite !fs_write_other by congruence. exact S4.
      + rewrite fs_write_other by congruence. apply fs_write_same.
      + exists r, vals, ct, []. split; [exact Hcb|]. split; [exact Hwb|]. split; [exact Hser|].
        change (decap kdf (circom_prog c2) ct = Ok (kdf S')). rewrite (decap_synth E kdf _ _ ct Hsyn). exact Hk'.
    - apply fs_write_same.
    - apply fs_write_same. }
  assert (Heq : forall alpha beta x P, equal_if E D c co alpha beta x P -> exists S S', (forall kdf, exists s1 s2, run (encap_command C D kdf json_parse max_off v (with_draws co alpha beta x) cp sp ip ctp kp) s = (s1, Ok tt) /\
        run (decap_command C kdf max_off cp wp ctp kp') s1 = (s2, Ok tt) /\ s1 kp = Some (kdf S) /\ s2 kp' = Some (kdf S')) /\ (S = S' <-> P)).
  { intros alpha beta x P (S&S'&H&HP). exists S, S'. split; [apply Hkeys; exact H|exact HP]. }
  destruct (agree_cases E D Hnd HD c co Hdel Hr Hp Hwc Hk Ho2 Hsat) as [G1 G2].
  assert (HaS : forall d, In d (r_constraints r) -> a_side c d = combination (wires vw) (c_a d)) by (intros d Hd; apply (Hrows d Hd)).
  assert (HbS : forall d, In d (r_constraints r) -> b_side c d = combination (wires vw) (c_b d)) by (intros d Hd; apply (Hrows d Hd)).
  split; [|split].
  - intros alpha beta x. destruct (has_secrets E D c co Hdel Hp Hwc Hk Ho2 Hsat alpha beta x) as (S&S'&H). exists S, S'. apply Hkeys. exact H.
  - intros ds Hds. rewrite <- Hnp in Hds. destruct (G1 ds Hds) as [G3 G4]. split.
    + intros (d&Hd&Hda) alpha xs Hxs Hx. rewrite <- (HaS d Hd) in Hda. apply (G3 (ex_intro _ d (conj Hd Hda)) alpha xs Hxs).
      intros x Hin (beta0&Hb). apply (Hx x Hin). exists beta0. intros beta. apply Heq, Hb.
    + intros Hall (d&Hd&Hdb) xs Hxs Hx. rewrite <- (HbS d Hd) in Hdb. apply (fun H => G4 H (ex_intro _ d (conj Hd Hdb)) xs Hxs).
      * intros d0 Hd0. rewrite (HaS d0 Hd0). apply Hall. exact Hd0.
      * intros x Hin Hq. apply (Hx x Hin). intros alpha beta. apply Heq, Hq.
  - intros Hall alpha beta x. apply Heq, G2. intros d Hd. rewrite (HaS d Hd), (HbS d Hd). apply Hall. exact Hd.
Qed.
Print Assumptions C55_all_public_circuits.

Lemma nth_ext_error : forall l l' : list Z, (forall i, nth_error l i = nth_error l' i) -> l = l'.
Proof.
  induction l as [|z l IH]; intros [|z' l'] H.
  - reflexivity.
  - specialize (H 0%nat). discriminate H.
  - specialize (H 0%nat). discriminate H.
  - f_equal; [specialize (H 0%nat); cbn in H; congruence|]. apply IH. intros i. exact (H (S i)).
Qed.

Lemma prefix_unique m zs zs' : prefix_values m zs -> prefix_values m zs' -> zs = zs'.
Proof.
  intros [H1 H2] [H1' H2'].
  assert (Hlen : forall a b : list Z, (forall i z, nth_error a i = Some z -> exists t, nm_get (1 + N.of_nat i) m = Some t /\ js_bigint t = Some z) ->
    nm_get (1 + N.of_nat (List.length b)) m = None -> (List.length a <= List.length b)%nat).
  { intros a b Ha Hb. destruct (le_lt_dec (List.length a) (List.length b)) as [|Hlt]; [assumption|]. exfalso.
    destruct (nth_error a (List.length b)) as [z|] eqn:Ez; [|apply nth_error_None in Ez; lia]. destruct (Ha _ _ Ez) as (t&Ht&_). congruence. }
  pose proof (Hlen zs zs' H1 H2'). pose proof (Hlen zs' zs H1' H2).
  apply (nth_ext_error zs zs'). intros i. destruct (nth_error zs i) as [z|] eqn:E1, (nth_error zs' i) as [z'|] eqn:E2; [|apply nth_error_None in E2|apply nth_error_None in E1|reflexivity].
  - destruct (H1 _ _ E1) as (t&Ht&Hz). destruct (H1' _ _ E2) as (t'&Ht'&Hz'). congruence.
  - exfalso. assert (i < List.length zs)%nat by (apply nth_error_Some; congruence). lia.
  - exfalso. assert (i < List.length zs')%nat by (apply nth_error_Some; congruence). lia.
Qed.

(** The same for the JavaScript API (public outputs count as public there): encap with the public
    inputs, decap with the witness file. *)
Theorem C55_js_all_public_circuits :
  forall (E : pairingT Fr) (C : codecT E) (D : domainT Fr) W fuel co cb sym kvs r wb vals,
    nondegenerate E -> domain_ok D -> c_delta co <> f0 -> c_r co <> f0 ->
    circuit_file cb r -> r_n_wires r = r_n_pub_out r + r_n_pub_in r + 1 -> r_n_pub_out r + r_n_pub_in r <= 2 ^ 24 ->
    fits_encrypt W fuel cb sym -> witness_file wb vals -> fits_decrypt W fuel cb wb ->
    N.of_nat (List.length vals) = r_n_wires r -> opens_circuit r vals ->
    ~ null_given sym kvs -> ~ bad_number sym kvs ->
    (forall w, 1 <= w <= r_n_pub_out r + r_n_pub_in r -> exists t z,
       leaves sym kvs w t /\ bigint_text t z /\ nth_error vals (N.to_nat w) = Some (fr (z mod 2 ^ 256))) ->
    let keys alpha beta x S S' := forall kdf : GT E -> key,
      exists ctb, js_encap E C D kdf W fuel (with_draws co alpha beta x) cb sym kvs = Ok (ctb, kdf S) /\
        js_decap E C kdf W fuel cb wb ctb = Ok (kdf S') in
    let equal_exactly_if alpha beta x P := exists S S', keys alpha beta x S S' /\ (S = S' <-> P) in
    let value_of l := combination (wires (fun w => nth_error vals (N.to_nat w))) l in
    (forall alpha beta x, exists S S', keys alpha beta x S S') /\
    (forall ds, dom_new D (List.length (r_constraints r) + (1 + N.to_nat (r_n_pub_out r + r_n_pub_in r))) = Some ds ->
     ((exists d, In d (r_constraints r) /\ value_of (c_a d) <> f0) ->
      forall alpha xs, NoDup xs -> (forall x, In x xs -> ~ exists beta0, forall beta, equal_exactly_if alpha beta x (beta = beta0)) -> (List.length xs < List.length ds)%nat) /\
     ((forall d, In d (r_constraints r) -> value_of (c_a d) = f0) -> (exists d, In d (r_constraints r) /\ value_of (c_b d) <> f0) ->
      forall xs, NoDup xs -> (forall x, In x xs -> ~ forall alpha beta, equal_exactly_if alpha beta x (alpha = f0)) -> (List.length xs < List.length ds)%nat)) /\
    ((forall d, In d (r_constraints r) -> value_of (c_a d) = f0 /\ value_of (c_b d) = f0) -> forall alpha beta x, equal_exactly_if alpha beta x True).
Proof.
  intros E C D W fuel co cb sym kvs r wb vals Hnd HD Hdel Hr Hcf Hwires Hmax Hfe Hwf Hfd Hlv (Ho1&Ho2&Ho3) Hnull Hbad Hgiven.
  cbv zeta. set (np := r_n_pub_out r + r_n_pub_in r) in *.
  assert (Hmod : np mod 2 ^ 32 = np) by (apply N.mod_small; clear - Hmax; lia).
  destruct Hfe as (W1&W2&W3&W4&W5).
  assert (Hroom : room W fuel sym) by (split; [exact W2|]; split; [exact W3|]; split; [exact W4|exact W5]).
  set (vw := fun w => nth_error vals (N.to_nat w)) in *.
  (* encap succeeds for all draws *)
  assert (Hsucc : forall kdf alpha beta x, exists ctb k, js_encap E C D kdf W fuel (with_draws co alpha beta x) cb sym kvs = Ok (ctb, k)).
  { intros kdf alpha beta x.
    assert (H : rmap (fun _ => tt) (js_encap E C D kdf W fuel (with_draws co alpha beta x) cb sym kvs) = Ok tt).
    { apply C73_js_encap_ends; [exact Hroom|]. destruct Hcf as (secs&->&Hok&Hca&Hl&Ht).
      pose proof (js_r1cs_roundtrip W secs r Hok Hca Hl Ht W1 W2) as Hrd. unfold js_encap_reports, circuit_reports. cbn [app].
      apply fo_next; [intros r' [H _]; contradiction|]. apply fo_next; [intros r' [H _]; contradiction|].
      apply fo_next; [intros r' [H _]; rewrite Hrd in H; discriminate|]. apply fo_next; [intros r' (e&H&_); rewrite Hrd in H; discriminate|].
      apply fo_next; [intros r' [H _]; contradiction|]. apply fo_here. split; [exact I|reflexivity]. }
    destruct (js_encap E C D kdf W fuel (with_draws co alpha beta x) cb sym kvs) as [[ctb k]|e|]; [|discriminate..]. eauto. }
  (* it runs the circuit with the given values on the public wires *)
  assert (Henc : exists a, (forall w, 1 <= w <= np -> a w = vw w /\ a w <> None) /\
    forall kdf alpha beta x ctb k, js_encap E C D kdf W fuel (with_draws co alpha beta x) cb sym kvs = Ok (ctb, k) ->
      exists ct, run_encap E D kdf (with_draws co alpha beta x) (circom_of_cli r a) = Ok (ct, k) /\ ctb = ct_bytes C ct).
  { destruct (Hsucc (fun _ => []) f0 f0 f0) as (ctb0&k0&He0).
    destruct (js_encap_inv E C D (fun _ => []) W fuel (with_draws co f0 f0 f0) sym kvs cb ctb0 k0 r Hcf W1 W2 W3 W4 W5 He0) as (m&zs&ct0&Hm&Hz&_&Hrun0).
    cbv zeta in Hrun0. match type of Hrun0 with context [circom_of_cli r ?f] => set (a := f) in Hrun0 end. exists a. split.
    - pose proof (leaves_texts sym kvs m Hm) as HG. destruct Hz as [Hz1 Hz2].
      assert (Hlen : np <= N.of_nat (List.length zs)).
      { destruct (N.le_gt_cases np (N.of_nat (List.length zs))) as [Hle|Hgt]; [exact Hle|]. exfalso.
        destruct (Hgiven (1 + N.of_nat (List.length zs)) ltac:(clear - Hgt; lia)) as (t&z&Hl&_). apply HG in Hl. congruence. }
      intros w Hw. unfold a. fold np. rewrite Hmod. cbn [List.length]. rewrite map_length.
      rewrite (proj2 (N.leb_le w np)) by apply Hw. rewrite (proj2 (N.ltb_lt w (N.of_nat (S (List.length zs))))) by (clear - Hw Hlen; lia). cbn [andb].
      destruct (Hgiven w Hw) as (t&z&Hl&Hzt&Hv). apply HG in Hl. apply C57_bigint_texts in Hzt.
      destruct (nth_error zs (N.to_nat (w - 1))) as [z'|] eqn:Ez; [|apply nth_error_None in Ez; clear - Ez Hw Hlen; lia].
      destruct (Hz1 _ _ Ez) as (t'&Ht'&Hz'). replace (1 + N.of_nat (N.to_nat (w - 1))) with w in Ht' by (clear - Hw; lia).
      assert (t' = t) by congruence. subst t'. assert (z' = z) by congruence. subst z'.
      assert (Hn : nth_error (fr 1 :: map (fun z => fr (z mod 2 ^ 256)) zs) (N.to_nat w) = Some (fr (z mod 2 ^ 256))).
      { replace (N.to_nat w) with (S (N.to_nat (w - 1))) by (clear - Hw; lia). cbn [nth_error]. exact (map_nth_error (fun z => fr (z mod 2 ^ 256)) _ zs Ez). }
      rewrite Hn. split; [symmetry; exact Hv|discriminate].
    - intros kdf alpha beta x ctb k He.
      destruct (js_encap_inv E C D kdf W fuel (with_draws co alpha beta x) sym kvs cb ctb k r Hcf W1 W2 W3 W4 W5 He) as (m'&zs'&ct&Hm'&Hz'&Hctb&Hrun).
      assert (m' = m) by congruence. subst m'. assert (zs' = zs) by (eapply prefix_unique; eassumption). subst zs'.
      exists ct. split; [exact Hrun|exact Hctb]. }
  destruct Henc as (a&Ha&Henc). set (c := circom_of_cli r a) in *. set (c2 := circom_of_cli r vw).
  assert (Hnp : cc_n_public c = np) by exact Hmod.
  assert (Hnp2 : cc_n_public c2 = cc_n_public c) by reflexivity.
  assert (Hp : cc_n_public c + 1 < 2 ^ 32) by (rewrite Hnp; clear - Hmax; lia).
  assert (Hwc : cc_n_wires c = cc_n_public c + 1) by (rewrite Hnp; exact Hwires).
  assert (Hk : forall i, 1 <= i <= cc_n_public c -> cc_witness c i <> None) by (rewrite Hnp; intros i Hi; apply Ha; exact Hi).
  assert (Hv : forall i, 1 <= i <= cc_n_public c -> cc_witness c2 i = cc_witness c i) by (rewrite Hnp; intros i Hi; symmetry; apply Ha; exact Hi).
  pose proof (same_synth c c2 Hp Hwc Hnp2 eq_refl eq_refl Hv Hk) as Hsyn.
  assert (Hval : forall i, i < r_n_wires r -> wires a i = wires vw i).
  { intros i Hi. unfold wires. destruct (N.eqb_spec i 0); [reflexivity|]. rewrite (proj1 (Ha i ltac:(clear - Hi Hwires n; lia))). reflexivity. }
  pose proof (same_rows (r_n_wires r) (r_constraints r) a vw Ho2 Hval) as Hrows.
  assert (Hsat : satisfies (wires (cc_witness c)) (cc_constraints c)).
  { apply Forall_forall. intros d Hd. destruct (Hrows d Hd) as (R1&R2&R3). unfold row_true. cbn [cc_witness c circom_of_cli].
    rewrite R1, R2, R3. unfold satisfies in Ho3. rewrite Forall_forall in Ho3. apply Ho3. exact Hd. }
  assert (Hkeys : forall alpha beta x S S', secrets (E := E) D (circom_prog c) (circom_prog c) alpha beta (c_delta co) (c_r co) x S S' -> forall kdf,
    exists ctb, js_encap E C D kdf W fuel (with_draws co alpha beta x) cb sym kvs = Ok (ctb, kdf S) /\
        js_decap E C kdf W fuel cb wb ctb = Ok (kdf S')).
  { intros alpha beta x S S' Hsec kdf. destruct (Hsec kdf) as (ct&He&Hk').
    change (run_encap E D kdf (with_draws co alpha beta x) c = Ok (ct, kdf S)) in He.
    pose proof (ct_lengths E D c co Hdel Hp Hwc Hk Ho2 Hsat kdf alpha beta x ct _ ltac:(rewrite Hnp; exact Hmax) He) as Hlen.
    pose proof (C14_round_trip E C ct [] Hlen) as Hser. rewrite app_nil_r in Hser.
    destruct (Hsucc kdf alpha beta x) as (ctb&k2&Hj). destruct (Henc _ _ _ _ _ _ Hj) as (ct2&He2&Hctb).
    rewrite He in He2. injection He2 as <- <-. exists ctb. split; [exact Hj|]. rewrite Hctb.
    unfold js_decap. apply (wasm_decap_iff E C kdf W fuel cb wb (ct_bytes C ct) r vals ct [] (kdf S') Hcf Hwf Hfd Hser). split; [exact Hlv|].
    change (decap kdf (circom_prog c2) ct = Ok (kdf S')). rewrite (decap_synth E kdf _ _ ct Hsyn). exact Hk'. }
  assert (Heq : forall alpha beta x P, equal_if E D c co alpha beta x P -> exists S S', (forall kdf, exists ctb, js_encap E C D kdf W fuel (with_draws co alpha beta x) cb sym kvs = Ok (ctb, kdf S) /\
        js_decap E C kdf W fuel cb wb ctb = Ok (kdf S')) /\ (S = S' <-> P)).
  { intros alpha beta x P (S&S'&H&HP). exists S, S'. split; [apply Hkeys; exact H|exact HP]. }
  destruct (agree_cases E D Hnd HD c co Hdel Hr Hp Hwc Hk Ho2 Hsat) as [G1 G2].
  assert (HaS : forall d, In d (r_constraints r) -> a_side c d = combination (wires vw) (c_a d)) by (intros d Hd; apply (Hrows d Hd)).
  assert (HbS : forall d, In d (r_constraints r) -> b_side c d = combination (wires vw) (c_b d)) by (intros d Hd; apply (Hrows d Hd)).
  split; [|split].
  - intros alpha beta x. destruct (has_secrets E D c co Hdel Hp Hwc Hk Ho2 Hsat alpha beta x) as (S&S'&H). exists S, S'. apply Hkeys. exact H.
  - intros ds Hds. rewrite <- Hnp in Hds. destruct (G1 ds Hds) as [G3 G4]. split.
    + intros (d&Hd&Hda) alpha xs Hxs Hx. rewrite <- (HaS d Hd) in Hda. apply (G3 (ex_intro _ d (conj Hd Hda)) alpha xs Hxs).
      intros x Hin (beta0&Hb). apply (Hx x Hin). exists beta0. intros beta. apply Heq, Hb.
    + intros Hall (d&Hd&Hdb) xs Hxs Hx. rewrite <- (HbS d Hd) in Hdb. apply (fun H => G4 H (ex_intro _ d (conj Hd Hdb)) xs Hxs).
      * intros d0 Hd0. rewrite (HaS d0 Hd0). apply Hall. exact Hd0.
      * intros x Hin Hq. apply (Hx x Hin). intros alpha beta. apply Heq, Hq.
  - intros Hall alpha beta x. apply Heq, G2. intros d Hd. rewrite (HaS d Hd), (HbS d Hd). apply Hall. exact Hd.
Qed.
Print Assumptions C55_js_all_public_circuits.

(** The instance x * x = 9, x = 3, with the field paired with itself: for all but at most three x exactly
    one beta makes the key files of the commands, and the keys of the JavaScript calls, agree. *)
Lemma pub_leaf name x : doc_leaf [(lit "x", JInt 3)] name x -> name = lit "x" /\ x = JInt 3.
Proof.
  intros (k&v&[H|[]]&Hl). injection H as <- <-. inversion Hl; subst. auto.
Qed.
Lemma pub_domain : exists ds, dom_new bn_domain (List.length (r_constraints pub_circuit) + (1 + N.to_nat (r_n_pub_in pub_circuit))) = Some ds /\ List.length ds = 4%nat.
Proof. eexists. split; [reflexivity|]. vm_compute. reflexivity. Qed.
Lemma pub_opens : opens_circuit pub_circuit pub_witness.
Proof.
  split; [vm_compute; discriminate|]. split; [repeat constructor|].
  constructor; [|constructor]. apply (proj1 (feqb_true Fr _ _)). vm_compute. reflexivity.
Qed.
Lemma pub_given w : 1 <= w <= r_n_pub_in pub_circuit -> w = 1.
Proof. change (r_n_pub_in pub_circuit) with 1. intros H. lia. Qed.
Lemma pub_a_side : exists d, In d (r_constraints pub_circuit) /\ combination (wires (fun w => nth_error pub_witness (N.to_nat w))) (c_a d) <> f0.
Proof. eexists. split; [left; reflexivity|]. intros H. apply (proj2 (feqb_true Fr _ _)) in H. vm_compute in H. discriminate. Qed.
Lemma ex_delta : c_delta ex_coins <> f0.
Proof. intros H; apply (proj2 (feqb_true Fr _ _)) in H; vm_compute in H; discriminate. Qed.
Lemma ex_r : c_r ex_coins <> f0.
Proof. intros H; apply (proj2 (feqb_true Fr _ _)) in H; vm_compute in H; discriminate. Qed.

Example C55_all_public_circuits_instance :
  forall alpha xs, NoDup xs ->
    (forall x, In x xs -> ~ exists beta0, forall beta, exists S S', (forall kdf, exists s1 s2,
       run (encap_command ex_codec bn_domain kdf pub_json (2 ^ 63 - 1) ex_visits (with_draws ex_coins alpha beta x)
              (lit "c") (lit "s") (lit "i") (lit "o") (lit "k")) pub_fs = (s1, Ok tt) /\
       run (decap_command ex_codec kdf (2 ^ 63 - 1) (lit "c") (lit "w") (lit "o") (lit "k2")) s1 = (s2, Ok tt) /\
       s1 (lit "k") = Some (kdf S) /\ s2 (lit "k2") = Some (kdf S')) /\ (S = S' <-> beta = beta0)) ->
    (List.length xs < 4)%nat.
Proof.
  intros alpha xs Hxs Hx. destruct pub_domain as (ds&Hds&Hl). rewrite <- Hl.
  destruct (C55_all_public_circuits fr_pairing ex_codec bn_domain pub_json (2 ^ 63 - 1) ex_visits ex_coins
    (lit "c") (lit "s") (lit "i") (lit "w") (lit "o") (lit "k") (lit "k2") pub_fs pub_circuit_file pub_sym_file pub_input_file pub_witness_file
    (lit "1,1,1,main.x") [(lit "main.x", 1)] pub_input_text [(lit "x", JInt 3)] pub_circuit pub_witness) as (_&H&_).
  - apply selfPairing_nondegenerate.
  - exact bn_domain_ok.
  - exact ex_delta.
  - exact ex_r.
  - reflexivity.
  - reflexivity.
  - reflexivity.
  - reflexivity.
  - cbn [In]. intros [H|[H|[H|[]]]]; discriminate.
  - cbn [In]. intros [H|[H|[]]]; discriminate.
  - apply pub_circuit_reads; [reflexivity|vm_compute; discriminate].
  - reflexivity.
  - reflexivity.
  - vm_compute. discriminate.
  - exact pub_witness_reads.
  - exact pub_opens.
  - vm_compute. reflexivity.
  - vm_compute. reflexivity.
  - vm_compute. reflexivity.
  - reflexivity.
  - intros name x Hd. apply pub_leaf in Hd as [_ ->]. eexists. apply num_nat. lia.
  - intros name x x' H1 H2. apply pub_leaf in H1, H2. destruct H1 as [_ ->], H2 as [_ ->]. reflexivity.
  - intros n n' x x' w H1 H2 _ _. apply pub_leaf in H1, H2. destruct H1 as [-> _], H2 as [-> _]. reflexivity.
  - intros w Hw. apply pub_given in Hw. subst w. exists (fr 3). split; [reflexivity|]. exists (lit "x"), (JInt 3).
    split; [|split; [vm_compute; reflexivity|apply num_nat; lia]]. exists (lit "x"), (JInt 3). split; [left; reflexivity|].
    constructor; intros; discriminate.
  - destruct (H ds Hds) as [H' _]. apply (H' pub_a_side alpha xs Hxs). exact Hx.
Qed.

Example C55_js_all_public_circuits_instance :
  forall alpha xs, NoDup xs ->
    (forall x, In x xs -> ~ exists beta0, forall beta, exists S S', (forall kdf, exists ctb,
       js_encap fr_pairing ex_codec bn_domain kdf (2 ^ 32) 1000 (with_draws ex_coins alpha beta x) pub_circuit_file
         (lit "1,1,1,main.x") [(lit "x", JInt 3)] = Ok (ctb, kdf S) /\
       js_decap fr_pairing ex_codec kdf (2 ^ 32) 1000 pub_circuit_file pub_witness_file ctb = Ok (kdf S')) /\ (S = S' <-> beta = beta0)) ->
    (List.length xs < 4)%nat.
Proof.
  intros alpha xs Hxs Hx. destruct pub_domain as (ds&Hds&Hl). rewrite <- Hl.
  destruct (C55_js_all_public_circuits fr_pairing ex_codec bn_domain (2 ^ 32) 1000 ex_coins pub_circuit_file (lit "1,1,1,main.x")
    [(lit "x", JInt 3)] pub_circuit pub_witness_file pub_witness) as (_&H&_).
  - apply selfPairing_nondegenerate.
  - exact bn_domain_ok.
  - exact ex_delta.
  - exact ex_r.
  - eexists. split; [reflexivity|]. split; [|split; [|split; [reflexivity|repeat constructor]]].
    + assert (Hr : r1cs_from_bytes (2 ^ 63 - 1) pub_circuit_file = Ok pub_circuit) by (apply pub_circuit_reads; [reflexivity|vm_compute; discriminate]).
      apply r1cs_sound in Hr. tauto.
    + split; [|split].
      * eexists. split; [reflexivity|]. exists []. symmetry. apply app_nil_r.
      * eexists. split; [reflexivity|]. exists []. symmetry. apply app_nil_r.
      * reflexivity.
  - reflexivity.
  - vm_compute. discriminate.
  - repeat split; vm_compute; auto; discriminate.
  - exists ex_prime32. eexists. split; [reflexivity|]. split; [reflexivity|]. split; [|split; [|split; [|split]]].
    + exists [], [], []. split; [constructor|]. reflexivity.
    + repeat constructor.
    + reflexivity.
    + discriminate.
    + repeat constructor; apply encode_fr_value.
  - repeat split; try (vm_compute; auto; discriminate). apply Nat.ltb_lt. vm_compute. reflexivity.
  - reflexivity.
  - exact pub_opens.
  - intros (name&w&[H|[]]&_). discriminate.
  - intros (w&t&Hw&(pre&name&x&post&Hd&Hon&Ht&_)&Hb&_).
    destruct pre as [|p [|? pre]]; [|destruct p; discriminate|discriminate]. cbn in Hd. injection Hd as <- <- _. 
    apply (Hb 3%Z). assert (t = lit "3") by (cbn [js_to_string] in Ht; injection Ht as <-; vm_compute; reflexivity). subst t.
    apply C57_bigint_texts. vm_compute. reflexivity.
  - intros w Hw. apply pub_given in Hw. subst w. exists (lit "3"), 3%Z. split; [|split; [apply C57_bigint_texts; vm_compute; reflexivity|change (Some (fr 3) = Some (fr (3 mod 2 ^ 256))); apply (f_equal Some); apply (proj1 (feqb_true Fr _ _)); vm_compute; reflexivity]].
    exists [], (lit "x"), (JInt 3), []. split; [reflexivity|]. split; [vm_compute; reflexivity|]. split; [reflexivity|]. intros n x [].
  - destruct (H ds Hds) as [H' _]. apply (H' pub_a_side alpha xs Hxs). exact Hx.
Qed.
