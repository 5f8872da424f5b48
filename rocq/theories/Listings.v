(** Lemmas for P_Printing.v: what each part of a command prints when it works. *)
From Coq Require Import List Bool Arith NArith ZArith Lia Permutation.
From Coq Require Import Strings.String Strings.Byte.
From Verif Require Import Res Bytes Text Utf8 Fld Zp Groups Bn254 CS CSFacts Qap SpecCore Core CoreFacts CoreMore P_Core
  R1cs SpecR1cs R1csFacts P_R1cs Wtns SpecWtns WtnsFacts P_Wtns Circuit SpecCircuit CircuitFacts P_Circuit
  ArkSer ArkSerFacts P_Ser Sym SpecSym SymFacts P_Sym Inputs SpecInputs InputsFacts P_Inputs
  Combined SpecCombined CombinedFacts P_Combined Gcm SpecGcm GcmFacts P_Gcm FileSys Commands SpecCommands CommandsFacts
  PartialEncap P_Commands SpecJs SpecBound P_Bound P_BoundCli Printing PrintingFacts SpecPrinting.
Import ListNotations.
Local Open Scope string_scope.
Local Open Scope list_scope.
Local Open Scope N_scope.

Lemma hear_says l k s : hear (says l k) s = let '(s', l', r) := hear k s in (s', (l ++ l')%list, r).
Proof.
  induction l as [|m l IH]; cbn [says hear app]; [destruct (hear k s) as [[s' l'] r]; reflexivity|].
  rewrite IH. destruct (hear k s) as [[s' l'] r]. reflexivity.
Qed.
Lemma hear_say m k s : hear (TSay m k) s = let '(s', l', r) := hear k s in (s', m :: l', r).
Proof. reflexivity. Qed.
Lemma hear_read p k s : hear (TRead p k) s = hear (k (s p)) s.
Proof. reflexivity. Qed.
Lemma hear_twrite p b e k s : hear (twrite p b e k) s = hear k (fs_write p b s).
Proof. reflexivity. Qed.

Lemma num_of n k : N.of_nat n = k -> num n = dec_text k.
Proof. intros <-. reflexivity. Qed.

(** ** zkenc-core *)
Section CoreLines.
  Context {F : fieldT} {E : pairingT F} (D : domainT F) (kdf : GT E -> key).

  Definition core_encap_lines (c : prog F) : list said :=
    [out (u8 "🔐 Starting Encap...")] ++
    (match stops_with c with
     | Some e => [out (u8 "  ⚠ Circuit synthesis error (expected for encap without witness): " ++ serr_text e)]
     | None => [] end) ++
    [out (u8 "  ✓ Circuit setup: " ++ num (List.length (constraints_stated c)) ++ u8 " constraints, " ++
          num (num_variables (fst (synth c cs_new))) ++ u8 " variables");
     out (u8 "  ✓ Extracted " ++ num (List.length (public_values c)) ++ u8 " public inputs");
     out (u8 "  ✓ Sampled random parameters (α, β, δ, r, x)");
     out (u8 "  ⏳ Evaluating QAP polynomials at x...");
     out (u8 "  ✓ Generated CRS with " ++ num (num_variables (fst (synth c cs_new))) ++ u8 " query elements");
     out (u8 "  ⏳ Computing pairing for key derivation...");
     out (u8 "  ✓ Derived key from pairing")].
  Lemma encap_out_lines c alpha beta delta r x res :
    encap_with D kdf c alpha beta delta r x = Ok res ->
    encap_out D kdf c alpha beta delta r x = (core_encap_lines c, Ok res).
  Proof.
    intros H. rewrite <- encap_out_result in H.
    enough (G : fst (encap_out D kdf c alpha beta delta r x) = core_encap_lines c).
    { rewrite (surjective_pairing (encap_out D kdf c alpha beta delta r x)), G, H. reflexivity. }
    revert H. unfold encap_out, core_encap_lines. rewrite synth_new. cbn [fst]. 
    cbv zeta. cbn [inst rows]. fold (stops_with c) (public_values c) (constraints_stated c).
    set (cs := CSys _ _ _ _ _).
    destruct (evaluate_qap D cs x) as [[u v] w].
    destruct (crs_loop E (seq 0 (num_variables cs)) alpha beta delta r u v w) as [[[qu qv] qp]|e'|]; [|discriminate..].
    destruct (collect qp 1 (public_values c)) as [bs ss].
    destruct qp as [|p0 qp]; cbn [fst snd].
    - destruct (match bs with [] => _ | _ => msm bs ss end); [|discriminate]. intros _. cbn [fst]. rewrite <- !app_assoc. reflexivity.
    - destruct (msm (p0 :: bs) (f1 :: ss)); [|discriminate]. intros _. cbn [fst]. rewrite <- !app_assoc. reflexivity.
  Qed.

  Definition core_decap_lines (c : prog F) : list said :=
    [out (u8 "🔓 Starting Decap..."); out (u8 "  ✓ Circuit synthesized and satisfied");
     out (u8 "  ✓ Extracted full assignment: " ++ num (S (List.length (public_values c) + List.length (private_values c))) ++ u8 " values");
     out (u8 "  ⏳ Computing A from witness and CRS...");
     out (u8 "  ⏳ Computing B from witness and CRS...");
     out (u8 "  ⏳ Computing C from witness and CRS...");
     out (u8 "  ⏳ Computing pairing for key recovery...");
     out (u8 "  ✓ Successfully recovered key")].
  Lemma decap_out_lines c ct k : decap kdf c ct = Ok k -> decap_out kdf c ct = (core_decap_lines c, Ok k).
  Proof.
    intros H. rewrite <- decap_out_result in H.
    enough (G : fst (decap_out kdf c ct) = core_decap_lines c).
    { rewrite (surjective_pairing (decap_out kdf c ct)), G, H. reflexivity. }
    revert H. unfold decap_out, core_decap_lines. rewrite synth_new. cbv zeta.
    set (cs := CSys _ _ _ _ _).
    assert (Hl : List.length (inst cs ++ wit cs) = S (List.length (public_values c) + List.length (private_values c))).
    { unfold cs. cbn [inst wit app List.length]. rewrite app_length. reflexivity. }
    rewrite <- Hl. clear Hl.
    destruct (error_of 1 0 c); [discriminate|]. destruct (is_satisfied cs) as [[|]|]; [|discriminate..].
    destruct (Nat.ltb (List.length (inst cs ++ wit cs)) (1 + List.length (public_inputs ct))); [discriminate|].
    destruct (mismatch (inst cs ++ wit cs) 0 (public_inputs ct)) as [[i|]|]; [discriminate| |discriminate].
    destruct (collect (r_u_query_g1 (ct_key ct)) 0 (inst cs ++ wit cs)) as [ab as_]. destruct ab as [|a0 ab]; [discriminate|].
    destruct (msm (a0 :: ab) as_) as [a_sum|]; [|discriminate].
    destruct (collect (r_v_query_g2 (ct_key ct)) 0 (inst cs ++ wit cs)) as [bb bs]. destruct bb as [|b0 bb]; [discriminate|].
    destruct (msm (b0 :: bb) bs) as [b_sum|]; [|discriminate].
    destruct (collect (phi_delta_query_g1 (ct_key ct)) 0 (inst cs ++ wit cs)) as [cb cs_]. destruct cb as [|c0 cb]; [discriminate|].
    destruct (msm (c0 :: cb) cs_) as [c_point|]; [|discriminate]. intros _. reflexivity.
  Qed.
End CoreLines.

Lemma decap_key (E : pairingT Fr) (kdf : GT E -> key) c (ct : ciphertext Fr E) k : decap kdf c ct = Ok k -> exists g, k = kdf g.
Proof.
  unfold decap. repeat match goal with |- context [match ?x with _ => _ end] => destruct x end; try discriminate; intros X; injection X as <-; eauto.
Qed.

(** ** Closed texts *)
Lemma text_constraints : u8 "  ✓ Circuit setup: " ++ num 0 ++ u8 " constraints, " = u8 "  ✓ Circuit setup: 0 constraints, ".
Proof. vm_compute. reflexivity. Qed.
Lemma text_missing : u8 "  ⚠ Circuit synthesis error (expected for encap without witness): " ++ u8 "AssignmentMissing" =
  u8 "  ⚠ Circuit synthesis error (expected for encap without witness): AssignmentMissing".
Proof. vm_compute. reflexivity. Qed.
Lemma text_key_saved : u8 "   ✅ Key saved (" ++ num 32 ++ u8 " bytes)" = u8 "   ✅ Key saved (32 bytes)".
Proof. vm_compute. reflexivity. Qed.
Lemma u8_nil : u8 "" = [].
Proof. reflexivity. Qed.
Local Opaque u8 dec_text.
Lemma header_eq r : [line "📂 Loading R1CS circuit..."] ++ header_lines r = circuit_lines r.
Proof. unfold header_lines, circuit_lines, with_number, line. rewrite u8_nil, !app_nil_r. reflexivity. Qed.

(** ** The circuit *)
Section CircuitLines.
  Context (c : circom).
  Let w := cc_witness c.
  Let np := cc_n_public c.
  Lemma stopping_lines m : np < cc_n_wires c -> cc_n_wires c < 2 ^ 32 -> 1 <= m -> m < cc_n_wires c -> m <= np + 1 -> w m = None ->
    (forall i, 1 <= i < m -> w i <> None) ->
    core_encap_lines (circom_prog c) = encap_lines m /\
    N.of_nat (num_variables (fst (synth (circom_prog c) cs_new))) = m + 1 /\
    N.of_nat (List.length (public_values (circom_prog c))) = m - 1.
  Proof.
    intros Hu2 Hnw Hm1 Hmw Hmp Hm2 Hm3.
    destruct (circom_stops c m) as (_&S1&S2&S3&S4&S5).
    { fold np. clear - Hu2 Hnw. lia. } { unfold n_alloc. fold np. clear - Hmw Hm1. lia. } { exact Hm2. } { exact Hm3. }
    fold w np in S3, S4. fold np in S5.
    assert (Hpub : N.of_nat (List.length (public_values (circom_prog c))) = m - 1).
    { rewrite S3, map_length, range_length. rewrite N.min_l by exact Hmp. clear - Hm1. lia. }
    assert (Hpriv : List.length (private_values (circom_prog c)) = O).
    { rewrite S4, map_length, range_length. clear - Hmp. lia. }
    pose proof (num_variables_count Fr (circom_prog c)) as Hnv. rewrite S1, Hpriv, S5 in Hnv.
    assert (Hv : N.of_nat (num_variables (fst (synth (circom_prog c) cs_new))) = m + 1).
    { rewrite Hnv. clear - Hpub Hm1. destruct (m <=? np); cbn [fst snd]; lia. }
    split; [|auto].
    unfold core_encap_lines, encap_lines, with_number, line. rewrite S1, S2. cbn [serr_text List.length].
    rewrite (num_of _ _ Hv), (num_of _ _ Hpub), text_missing. rewrite !app_assoc. rewrite <- (app_assoc (u8 "  ✓ Circuit setup: ")), text_constraints.
    reflexivity.
  Qed.
  Lemma completing_values : np < cc_n_wires c -> cc_n_wires c < 2 ^ 32 -> (forall i, 1 <= i < cc_n_wires c -> w i <> None) ->
    S (List.length (public_values (circom_prog c)) + List.length (private_values (circom_prog c))) = N.to_nat (cc_n_wires c).
  Proof.
    intros Hp Hnw Hall. destruct (circom_synthesis c) as (_&_&Hpub&Hpriv&_).
    { fold np. clear - Hp Hnw. lia. }
    { intros i Hi. apply Hall. unfold n_alloc in Hi. fold np in Hi. clear - Hi Hp. lia. }
    rewrite Hpub, Hpriv, !map_length, !range_length. fold np. clear - Hp. lia.
  Qed.
End CircuitLines.

(** ** The names of a document *)
Lemma parsed_count kvs m n : parse_inputs_with_keys (JObj kvs) = Ok m -> names kvs n -> N.of_nat (List.length m) = n.
Proof.
  intros H (l&Hnd&Hl&<-). destruct (parsed_values kvs m H) as (Hwf&H1&H2). f_equal.
  rewrite <- (map_length fst m). apply Permutation_length. apply NoDup_Permutation; [exact Hwf|exact Hnd|].
  intros name. rewrite Hl, in_map_iff. split.
  - intros ([n0 a]&Hn&Hi). cbn [fst] in Hn. subst n0. apply (hm_get_in name a m Hwf) in Hi. destruct (H1 name a Hi) as (x&Hx&_). eauto.
  - intros (x&Hx). destruct (H2 name x Hx) as (a&Ha). exists (name, a). split; [reflexivity|]. apply (hm_get_in name a m Hwf). exact Ha.
Qed.
Lemma parsed_has_names kvs m : parse_inputs_with_keys (JObj kvs) = Ok m -> exists n, names kvs n.
Proof.
  intros H. destruct (parsed_values kvs m H) as (Hwf&H1&H2). exists (N.of_nat (List.length m)), (map fst m). split; [exact Hwf|].
  split; [|rewrite map_length; reflexivity]. intros name. rewrite in_map_iff. split.
  - intros ([n0 a]&Hn&Hi). cbn [fst] in Hn. subst n0. apply (hm_get_in name a m Hwf) in Hi. destruct (H1 name a Hi) as (x&Hx&_). eauto.
  - intros (x&Hx). destruct (H2 name x Hx) as (a&Ha). exists (name, a). split; [reflexivity|]. apply (hm_get_in name a m Hwf). exact Ha.
Qed.

Section Given.
  Context (json_parse : text -> option json) (v : visits) (syms : hmap N) (n_in : N) (t : text) (kvs : list (text * json)).
  Hypothesis Hwf : hm_wf syms.
  Hypothesis Hj : json_parse t = Some (JObj kvs).
  Lemma given_iff inputs w : parse_inputs_text json_parse t = Ok inputs -> 1 <= w ->
    (nm_get w (cli_witness (get_input_signals (visit_syms v syms) (Some n_in)) (visit_inputs v inputs)) <> None <-> given syms kvs n_in w).
  Proof.
    intros Hin Hw. unfold parse_inputs_text in Hin. rewrite Hj in Hin. destruct (parsed_values kvs inputs Hin) as (Hwi&H1&H2).
    set (sig := get_input_signals (visit_syms v syms) (Some n_in)).
    assert (Hsig := sig_iff v syms n_in Hwf). fold sig in Hsig.
    rewrite cli_witness_put.
    destruct (put_spec (fun n => hm_get n sig) (visit_inputs v inputs) [(0, fr 1)] w) as (P1&P2&_).
    split.
    - intros Hne. destruct (nm_get w _) as [a|] eqn:Ea; [|congruence]. destruct (P1 a eq_refl) as [(n&Hi&Hn)|[H0 _]].
      + apply Hsig in Hn as [Hn Hb]. split; [auto|].
        assert (Hi' : In (n, a) inputs) by (eapply Permutation_in; [apply Permutation_sym, visit_inputs_ok|exact Hi]).
        apply (hm_get_in n a inputs Hwi) in Hi'. destruct (H1 n a Hi') as (x&Hx&_). exists n, x. auto.
      + exfalso. cbn [nm_get] in H0. destruct (N.eqb_spec w 0) as [->|]; [clear - Hw; lia|discriminate].
    - intros (Hb&n&x&Hx&Hn). destruct (H2 n x Hx) as (a&Ha). apply (hm_get_in n a inputs Hwi) in Ha.
      destruct P2 as (b&Hb'); [|congruence]. exists n, a. split.
      + eapply Permutation_in; [apply visit_inputs_ok|exact Ha].
      + apply Hsig. split; [exact Hn|apply Hb].
  Qed.
End Given.

Section CommandLines.
  Context (E : pairingT Fr) (C : codecT E) (D : domainT Fr) (kdf : GT E -> key) (aes : cipherT)
          (json_parse : text -> option json) (max_off : N).

  Lemma hear_load_r1cs p e k s b r : s p = Some b -> r1cs_from_bytes max_off b = Ok r ->
    hear (t_load_r1cs max_off p e k) s = hear (k r) s.
  Proof. intros Hb Hr. unfold t_load_r1cs. cbn [hear]. rewrite Hb. cbn [ttry_opt]. rewrite Hr. reflexivity. Qed.
  Lemma hear_read_string p e k s b t : s p = Some b -> utf8_decode b = Some t ->
    hear (t_read_string p e k) s = hear (k t) s.
  Proof. intros Hb Hr. unfold t_read_string. cbn [hear]. rewrite Hb. cbn [ttry_opt]. rewrite Hr. reflexivity. Qed.

  Lemma hear_prepare v cp sp ip before k s cb sb ib r st syms t inputs :
    s cp = Some cb -> s sp = Some sb -> s ip = Some ib -> r1cs_from_bytes max_off cb = Ok r ->
    utf8_decode sb = Some st -> parse_sym_file st = Ok syms -> utf8_decode ib = Some t -> parse_inputs_text json_parse t = Ok inputs ->
    hear (t_prepare json_parse max_off v cp sp ip before k) s =
    let '(s', l, o) := hear (k t (circom_of_cli r (fun w => nm_get w (cli_witness (get_input_signals (visit_syms v syms) (Some (r_n_pub_in r)))
                                                          (visit_inputs v inputs))))) s in
    (s', circuit_lines r ++ input_lines (N.of_nat (List.length inputs)) ++ before ++ l, o).
  Proof.
    intros Hc Hs Hi Hr Hst Hsy Ht Hin. unfold t_prepare. rewrite hear_say, (hear_load_r1cs _ _ _ _ _ _ Hc Hr), hear_says,
      (hear_read_string _ _ _ _ _ _ Hs Hst). rewrite Hsy. cbn [ttry]. cbv zeta. rewrite hear_say, (hear_read_string _ _ _ _ _ _ Hi Ht).
    rewrite Hin. cbn [ttry]. rewrite hear_say, hear_says, (hear_load_r1cs _ _ _ _ _ _ Hc Hr).
    destruct (hear (k t _) s) as [[s' l] o]. rewrite <- header_eq. rewrite <- !app_assoc. reflexivity.
  Qed.

  Lemma hear_run_encap co c k s res : run_encap E D kdf co c = Ok res ->
    hear (t_run_encap D kdf co c k) s = let '(s', l, o) := hear (k res) s in (s', core_encap_lines (circom_prog c) ++ l, o).
  Proof.
    intros H. unfold run_encap in H. unfold t_run_encap. rewrite (encap_out_lines D kdf _ _ _ _ _ _ _ H). cbn [ttry]. apply hear_says.
  Qed.
  Lemma hear_run_decap c ct k s key : decap kdf (circom_prog c) ct = Ok key ->
    hear (t_run_decap kdf c ct k) s = let '(s', l, o) := hear (k key) s in (s', core_decap_lines (circom_prog c) ++ l, o).
  Proof. intros H. unfold t_run_decap. rewrite (decap_out_lines kdf _ _ _ H). cbn [ttry]. apply hear_says. Qed.
  Lemma hear_load_witness p k s wb f vals : s p = Some wb -> wtns_from_bytes wb = Ok f -> to_field_elements f = Ok vals ->
    hear (t_load_witness p k) s =
    let '(s', l, o) := hear (k vals) s in
    (s', [next "📋 Loading witness from snarkjs..."; with_number "   - Witness elements: " (wf_n f) ""] ++ l, o).
  Proof.
    intros Hw Hf Hv. unfold t_load_witness. rewrite hear_say, hear_read, Hw. cbn [ttry_opt]. rewrite Hf. cbn [ttry]. rewrite hear_say, Hv. cbn [ttry].
    destruct (hear (k vals) s) as [[s' l] o]. unfold with_number, next. rewrite u8_nil, app_nil_r. reflexivity.
  Qed.
End CommandLines.

(** ** from_utf8_lossy keeps what is UTF-8 *)
Lemma lossy_char fuel c r : scalar c -> lossy_fuel (S fuel) (Utf8.utf8_char c ++ r) = c :: lossy_fuel fuel r.
Proof.
  intros Hs. pose proof (utf8_decode_char 0 c [] Hs) as G. cbn [utf8_decode_fuel option_map app] in G. rewrite app_nil_r in G.
  pose proof (utf8_char_length c) as Hl. destruct (Utf8.utf8_char c) as [|b0 q] eqn:Ec; [cbn in Hl; lia|]. clear Hl.
  cbn [utf8_decode_fuel] in G. cbn [app lossy_fuel].
  destruct (Utf8.in_range 0 127 b0). { destruct q; [|discriminate]. injection G as ->. reflexivity. }
  destruct (Utf8.in_range 194 223 b0).
  { destruct q as [|b1 q]; [discriminate|]. cbn [app]. destruct (Utf8.cont b1); [|discriminate]. destruct q; [|discriminate].
    cbn [option_map] in G. assert (X : (Byte.to_N b0 - 192) * 64 + low6 b1 = c) by congruence. rewrite X. reflexivity. }
  destruct (Utf8.in_range 224 239 b0).
  { destruct q as [|b1 [|b2 q]]; [discriminate..|]. cbn [app].
    destruct (Utf8.in_range (if Byte.to_N b0 =? 224 then 160 else 128) (if Byte.to_N b0 =? 237 then 159 else 191) b1); [|discriminate].
    cbn [andb] in G. destruct (Utf8.cont b2); [|discriminate]. destruct q; [|discriminate].
    cbn [option_map] in G. assert (X : ((Byte.to_N b0 - 224) * 64 + low6 b1) * 64 + low6 b2 = c) by congruence. rewrite X. reflexivity. }
  destruct (Utf8.in_range 240 244 b0); [|discriminate].
  destruct q as [|b1 [|b2 [|b3 q]]]; [discriminate..|]. cbn [app].
  destruct (Utf8.in_range (if Byte.to_N b0 =? 240 then 144 else 128) (if Byte.to_N b0 =? 244 then 143 else 191) b1); [|discriminate].
  cbn [andb] in G. destruct (Utf8.cont b2); [|discriminate]. cbn [andb] in G. destruct (Utf8.cont b3); [|discriminate]. destruct q; [|discriminate].
  cbn [option_map] in G. assert (X : (((Byte.to_N b0 - 240) * 64 + low6 b1) * 64 + low6 b2) * 64 + low6 b3 = c) by congruence. rewrite X. reflexivity.
Qed.
Lemma lossy_encode t : Forall scalar t -> from_utf8_lossy (utf8_encode t) = t.
Proof.
  unfold from_utf8_lossy. intros Hs. assert (G : forall fuel, (List.length (utf8_encode t) <= fuel)%nat -> lossy_fuel fuel (utf8_encode t) = t).
  { induction Hs as [|c t Hc Ht IH]; intros fuel Hf; [destruct fuel; reflexivity|].
    cbn [utf8_encode flat_map] in *. rewrite app_length in Hf. pose proof (utf8_char_length c). destruct fuel as [|fuel]; [lia|].
    rewrite lossy_char by exact Hc. f_equal. apply IH. unfold utf8_encode. lia. }
  apply G. reflexivity.
Qed.
