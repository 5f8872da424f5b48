(** Property theorem C55: encap and decap on a circuit all of whose wires are public.
    The program encap synthesises then runs to its end, so that its constraints are part of the
    published key material, and C02's refutation applies to the files the commands write. *)
From Coq Require Import List Bool Arith NArith ZArith Lia Permutation Field.
From Coq Require Import Strings.String Strings.Byte.
From Verif Require Import Res Bytes Text Utf8 Fld Zp Groups Bn254 CS CSFacts Qap SpecCore Core CoreFacts SpecSecrets Secrets CoreMore P_Core
  R1cs SpecR1cs R1csFacts P_R1cs Wtns SpecWtns WtnsFacts P_Wtns Circuit SpecCircuit CircuitFacts P_Circuit
  ArkSer ArkSerFacts P_Ser Sym SpecSym SymFacts P_Sym Inputs SpecInputs InputsFacts P_Inputs
  Combined Gcm FileSys Commands SpecCommands CommandsFacts PartialEncap P_Commands.
Import ListNotations.
Local Open Scope N_scope.

(** x * x = 9 with x public: two wires, both public. *)
Definition nine32 : list byte := x09 :: repeat x00 31.
Definition pub_circuit : r1cs_file :=
  R1csFile 32 ex_prime32 2 0 1 0 2 1 [Constraint [(1, one32)] [(1, one32)] [(0, nine32)]] [0; 1].
Definition pub_circuit_file : list byte :=
  r1cs_bytes [(1, header_payload pub_circuit); (2, constraints_payload pub_circuit)].
Definition pub_witness : list Fr := [fr 1; fr 3].
Definition pub_witness_file : list byte :=
  wtns_bytes [WHeader ex_prime32 2; WData (List.concat (map encode_fr pub_witness))].
Definition pub_sym_file : list byte := utf8_encode (lit "1,1,1,main.x").
Definition pub_input_text : text := [123; 34; 120; 34; 58; 51; 125].   (* {"x":3} *)
Definition pub_input_file : list byte := utf8_encode pub_input_text.

Lemma pub_circuit_reads max_off : max_off < 2 ^ 63 -> 2 ^ 10 <= max_off -> r1cs_from_bytes max_off pub_circuit_file = Ok pub_circuit.
Proof.
  intros Hm63 Hm. assert (Hok : r1cs_ok pub_circuit).
  { assert (H : r1cs_from_bytes (2 ^ 63 - 1) pub_circuit_file = Ok pub_circuit) by (vm_compute; reflexivity).
    apply r1cs_sound in H. tauto. }
  assert (Hlen : blen pub_circuit_file <= 2 ^ 10) by (vm_compute; discriminate).
  apply C16_reads_back_every_file; [exact Hok| |reflexivity|repeat constructor|exact Hm63|exact (N.le_trans _ _ _ Hlen Hm)].
  split; [|split].
  - eexists. split; [reflexivity|]. exists []. symmetry. apply app_nil_r.
  - eexists. split; [reflexivity|]. exists []. symmetry. apply app_nil_r.
  - reflexivity.
Qed.
Lemma pub_witness_reads : cli_read_witness pub_witness_file = Ok pub_witness.
Proof.
  apply C20_field_elements_round_trip with (prime := ex_prime32).
  - vm_compute. reflexivity.
  - discriminate.
  - split; [|split; [|split; [|split]]].
    + exists [], [], []. split; [constructor|]. reflexivity.
    + repeat constructor.
    + reflexivity.
    + discriminate.
    + repeat constructor; apply encode_fr_value.
  - vm_compute. reflexivity.
Qed.

(** The program both commands run. *)
Definition pub_prog : prog Fr :=
  AllocInput (inl (fr 3)) (fun v =>
  Enforce [(bytes_to_fr one32, v)] [(bytes_to_fr one32, v)] [(bytes_to_fr nine32, VOne)] Done).
Lemma pub_prog_of w : w 1 = Some (fr 3) -> circom_prog (circom_of_cli pub_circuit w) = pub_prog.
Proof.
  intros H. unfold circom_prog.
  change (cc_n_public (circom_of_cli pub_circuit w)) with 1. change (range 1 (1 + 1)) with [1].
  change (cc_n_wires (circom_of_cli pub_circuit w)) with 2. change (range ((1 + 1) mod 2 ^ 32) 2) with (@nil N).
  cbn [alloc_inputs alloc_witnesses cc_witness circom_of_cli]. unfold wire_source. rewrite H. reflexivity.
Qed.

Section OneRow.
  Context (F : fieldT).
  Local Open Scope fld_scope.
  Add Field OneRowF : (f_th F).
  Lemma one_row_dot (D : domainT F) ds x (a c : F) B C :
    domain_ok D -> dom_new D 3 = Some ds -> ~ In x ds -> a <> 0 -> c <> 0 ->
    let p := AllocInput (inl a) (fun v => Enforce [(c, v)] (B v) (C v) Done) in
    dot (1 :: public_values p) (fst (fst (evaluate_qap D (fst (synth p cs_new)) x))) <> 0.
  Proof.
    intros Hok Hd Hx Ha Hc. cbv zeta. destruct (Hok _ _ Hd) as [Hl Hnd].
    unfold evaluate_qap, num_constraints, num_public_inputs, num_variables.
    cbn [synth fst cs_enforce cs_push_input cs_new rows n_inst n_wit app List.length Nat.add num_public_inputs]. rewrite Hd.
    destruct ds as [|d0 [|d1 [|d2 ds]]]; cbn [List.length] in Hl; [lia..|].
    unfold lagrange_all. cbn [List.length seq map firstn fst snd]. unfold acc_matrix, acc_row, make_row.
    cbn [map rA filter fst snd]. rewrite (proj2 (feqb_false F c 0) Hc). cbn [negb map combine fold_left var_index fst snd Nat.ltb Nat.leb].
    cbn [repeat add_at Nat.add]. unfold public_values. cbn [inputs_of dot]. 
    assert (Hlag : lagrange_at (d0 :: d1 :: d2 :: ds) 0 x <> 0).
    { unfold lagrange_at, others. cbn [firstn skipn app nth]. revert Hx Hnd. generalize (d1 :: d2 :: ds). intros l Hx Hnd.
      apply NoDup_cons_iff in Hnd as [Hnd _]. 
      assert (G : forall e, In e l -> x <> e /\ d0 <> e).
      { intros e He. split; intros ->; [apply Hx; right|apply Hnd]; exact He. }
      clear Hx Hnd Hd Hl. induction l as [|e l IH]; cbn [map fold_right]; [apply f_1_neq_0|].
      apply fmul_neq_0; [|apply IH; intros; apply G; right; assumption]. destruct (G e (or_introl eq_refl)) as [G1 G2].
      intros H0. apply G1. assert (Hd : d0 - e <> 0) by (intros Hz; apply G2; transitivity (d0 - e + e); [ring|rewrite Hz; ring]).
      transitivity ((x - e) / (d0 - e) * (d0 - e) + e); [field; exact Hd|rewrite H0; ring]. }
    intros H0. apply (fmul_neq_0 F a (lagrange_at (d0 :: d1 :: d2 :: ds) 0 x * c) Ha (fmul_neq_0 F _ _ Hlag Hc)).
    rewrite <- H0. ring.
  Qed.
End OneRow.

Definition with_beta (co : coins) (b : Fr) : coins := Coins (c_alpha co) b (c_delta co) (c_r co) (c_x co) (c_nonce co).

(** The program encap runs, whatever order the two maps are visited in. *)
Lemma pub_prepared json_parse max_off v : max_off < 2 ^ 63 -> 2 ^ 10 <= max_off ->
  json_parse pub_input_text = Some (JObj [(lit "x", JInt 3)]) ->
  exists c, prepared json_parse max_off v pub_circuit_file pub_sym_file pub_input_file pub_input_text c /\
    circom_prog c = pub_prog.
Proof.
  intros H63 Hm Hj. eexists. split.
  - exists pub_circuit, (lit "1,1,1,main.x"), [(lit "main.x", 1)], [(lit "x", fr 3)].
    split; [apply pub_circuit_reads; assumption|]. split; [vm_compute; reflexivity|]. split; [vm_compute; reflexivity|].
    split; [vm_compute; reflexivity|]. split; [|reflexivity]. unfold parse_inputs_text. rewrite Hj. reflexivity.
  - apply pub_prog_of.
    pose proof (visit_syms_ok v [(lit "main.x", 1)]) as H1. apply Permutation_length_1_inv in H1. rewrite H1.
    pose proof (visit_inputs_ok v [(lit "x", fr 3)]) as H2. apply Permutation_length_1_inv in H2. rewrite H2.
    reflexivity.
Qed.

(** Refuted: x * x = 9 with x = 3.  The witness satisfies the circuit and has the value the input
    file gives; encap and decap both succeed; but for all other draws fixed (non-zero delta and r, x
    outside the evaluation domain) the two key files are the hashes of secrets that are equal for exactly
    one beta of the field. *)
Theorem C55_all_public_agreement_refuted :
  forall (E : pairingT Fr) (C : codecT E) (D : domainT Fr) json_parse max_off v co ds
         cp sp ip wp ctp kp kp' s,
    nondegenerate E -> domain_ok D -> dom_new D 3 = Some ds ->
    max_off < 2 ^ 63 -> 2 ^ 10 <= max_off -> json_parse pub_input_text = Some (JObj [(lit "x", JInt 3)]) ->
    c_delta co <> f0 -> c_r co <> f0 -> ~ In (c_x co) ds ->
    s cp = Some pub_circuit_file -> s sp = Some pub_sym_file -> s ip = Some pub_input_file -> s wp = Some pub_witness_file ->
    ~ In ctp [cp; wp; kp] -> ~ In kp [cp; wp] ->
    opens_circuit pub_circuit pub_witness /\ cli_read_witness pub_witness_file = Ok pub_witness /\
    exists beta0, forall beta, exists S S', (S = S' <-> beta = beta0) /\ forall kdf : GT E -> key, exists s1 s2,
      run (encap_command C D kdf json_parse max_off v (with_beta co beta) cp sp ip ctp kp) s = (s1, Ok tt) /\
      run (decap_command C kdf max_off cp wp ctp kp') s1 = (s2, Ok tt) /\
      s1 kp = Some (kdf S) /\ s2 kp' = Some (kdf S').
Proof.
  intros E C D json_parse max_off v co ds cp sp ip wp ctp kp kp' s Hnd Hdom Hds H63 Hm Hj Hdel Hr Hx S1 S2 S3 S4 Hct Hkp.
  split; [|split; [exact pub_witness_reads|]].
  { split; [vm_compute; discriminate|]. split; [repeat constructor|].
    constructor; [|constructor]. apply (proj1 (feqb_true Fr _ _)). vm_compute. reflexivity. }
  destruct (pub_prepared json_parse max_off v H63 Hm Hj) as (c&Hp&Hc).
  assert (Hone : bytes_to_fr one32 <> f0).
  { intros H. apply (proj2 (feqb_true Fr _ _)) in H. vm_compute in H. discriminate. }
  assert (H3 : fr 3 <> f0).
  { intros H. apply (proj2 (feqb_true Fr _ _)) in H. vm_compute in H. discriminate. }
  assert (Hwf : well_formed pub_prog).
  { unfold well_formed, wf_prog, pub_prog. cbn [prog_ok]. unfold lc_ok. repeat constructor. }
  assert (Hco : completes pub_prog) by reflexivity.
  assert (Hho : constraints_hold pub_prog).
  { unfold constraints_hold. cbn [constraints_stated pub_prog rows_of]. constructor; [|constructor].
    apply (proj1 (feqb_true Fr _ _)). vm_compute. reflexivity. }
  pose proof (one_row_dot Fr D ds (c_x co) (fr 3) (bytes_to_fr one32) (fun v => [(bytes_to_fr one32, v)]) (fun _ => [(bytes_to_fr nine32, VOne)])
    Hdom Hds Hx H3 Hone) as Hdot. cbv zeta in Hdot. fold pub_prog in Hdot.
  destruct (C02_full_synthesis_agreement_refuted Fr E D pub_prog (c_alpha co) (c_delta co) (c_r co) (c_x co) Hnd Hwf Hco Hho Hdel Hr Hdot)
    as [beta0 Hb].
  exists beta0. intros beta. destruct (Hb beta) as (S&S'&Hsec&HS). exists S, S'. split; [exact HS|]. intros kdf.
  destruct (Hsec kdf) as (ct&He'&Hk').
  assert (He : run_encap E D kdf (with_beta co beta) c = Ok (ct, kdf S)) by (unfold run_encap; rewrite Hc; exact He').
  pose proof (C05_public_inputs_recorded Fr E D kdf _ _ _ _ _ _ _ _ He') as Hpi.
  pose proof (C12_published_queries Fr E D kdf _ _ _ _ _ _ _ _ He') as Hq.
  destruct (evaluate_qap D (fst (synth pub_prog cs_new)) (c_x co)) as [[u vv] ww]. cbv zeta in Hq.
  destruct Hq as (_&_&_&_&_&_&L1&L2&L3&L4&_).
  change (num_variables (fst (synth pub_prog cs_new))) with 2%nat in L1, L2, L3.
  assert (Hlen : lengths_ok ct).
  { unfold lengths_ok. rewrite L1, L2, L3, L4, Hpi. repeat split; reflexivity. }
  pose proof (C14_round_trip E C ct [] Hlen) as Hser. rewrite app_nil_r in Hser.
  assert (Hne1 : cp <> ctp) by (intros ->; apply Hct; left; reflexivity).
  assert (Hne2 : wp <> ctp) by (intros ->; apply Hct; right; left; reflexivity).
  assert (Hne3 : kp <> ctp) by (intros ->; apply Hct; right; right; left; reflexivity).
  assert (Hne4 : cp <> kp) by (intros ->; apply Hkp; left; reflexivity).
  assert (Hne5 : wp <> kp) by (intros ->; apply Hkp; right; left; reflexivity).
  do 2 eexists. split; [|split; [|split]].
  - apply run_encap_command with (cb := pub_circuit_file) (sb := pub_sym_file) (ib := pub_input_file) (t := pub_input_text) (c := c) (ct := ct) (k := kdf S);
      assumption.
  - apply run_decap_command with (cb := pub_circuit_file) (wb := pub_witness_file) (bs := ct_bytes C ct) (k := kdf S').
    + rewrite !fs_write_other by congruence. exact S1.
    + rewrite !fs_write_other by congruence. exact S4.
    + rewrite fs_write_other by congruence. apply fs_write_same.
    + exists pub_circuit, pub_witness, ct, []. split; [apply pub_circuit_reads; assumption|]. split; [exact pub_witness_reads|].
      split; [exact Hser|]. rewrite pub_prog_of by reflexivity. exact Hk'.
  - apply fs_write_same.
  - apply fs_write_same.
Qed.
Print Assumptions C55_all_public_agreement_refuted.

(** The hypotheses hold: the field paired with itself, the BN254 domain, and the draws of the examples. *)
Definition pub_fs : fsys :=
  fs_write (lit "c") pub_circuit_file (fs_write (lit "s") pub_sym_file (fs_write (lit "i") pub_input_file
  (fs_write (lit "w") pub_witness_file (fun _ => None)))).
Definition pub_json (t : text) : option json := if text_eqb t pub_input_text then Some (JObj [(lit "x", JInt 3)]) else None.
Example C55_nonvacuous :
  nondegenerate fr_pairing /\ domain_ok bn_domain /\
  exists ds, dom_new bn_domain 3 = Some ds /\ ~ In (c_x ex_coins) ds /\ c_delta ex_coins <> f0 /\ c_r ex_coins <> f0 /\
    exists beta0, forall beta, exists S S', (S = S' <-> beta = beta0) /\ forall kdf, exists s1 s2,
      run (encap_command ex_codec bn_domain kdf pub_json (2 ^ 63 - 1) ex_visits (with_beta ex_coins beta)
             (lit "c") (lit "s") (lit "i") (lit "o") (lit "k")) pub_fs = (s1, Ok tt) /\
      run (decap_command ex_codec kdf (2 ^ 63 - 1) (lit "c") (lit "w") (lit "o") (lit "k2")) s1 = (s2, Ok tt) /\
      s1 (lit "k") = Some (kdf S) /\ s2 (lit "k2") = Some (kdf S').
Proof.
  assert (H1 : nondegenerate fr_pairing) by apply selfPairing_nondegenerate.
  split; [exact H1|]. split; [exact bn_domain_ok|].
  assert (Hd : c_delta ex_coins <> f0) by (intros H; apply (proj2 (feqb_true Fr _ _)) in H; vm_compute in H; discriminate).
  assert (Hr : c_r ex_coins <> f0) by (intros H; apply (proj2 (feqb_true Fr _ _)) in H; vm_compute in H; discriminate).
  assert (Hx : exists ds, dom_new bn_domain 3 = Some ds /\ ~ In (c_x ex_coins) ds).
  { eexists. split; [reflexivity|]. 
    assert (Hb : forall l, existsb (feqb (c_x ex_coins)) l = false -> ~ In (c_x ex_coins) l).
    { intros l Hl Hin. assert (Ht : existsb (feqb (c_x ex_coins)) l = true) by (apply existsb_exists; eexists; split; [exact Hin|apply feqb_refl]).
      congruence. }
    apply Hb. vm_compute. reflexivity. }
  destruct Hx as (ds&Hds&Hx). exists ds. split; [exact Hds|]. split; [exact Hx|]. split; [exact Hd|]. split; [exact Hr|].
  destruct (C55_all_public_agreement_refuted fr_pairing ex_codec bn_domain pub_json (2 ^ 63 - 1) ex_visits ex_coins ds
    (lit "c") (lit "s") (lit "i") (lit "w") (lit "o") (lit "k") (lit "k2") pub_fs H1 bn_domain_ok Hds) as (_&_&Hend);
    [reflexivity|vm_compute; discriminate|reflexivity|exact Hd|exact Hr|exact Hx|reflexivity..| | |exact Hend].
  - cbn [In]. intros [H|[H|[H|[]]]]; discriminate.
  - cbn [In]. intros [H|[H|[]]]; discriminate.
Qed.
