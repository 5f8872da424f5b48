(** Exactly which witnesses open an encapsulation made for the same circuit file: lemmas for C56 and
    C58. *)
From Coq Require Import List Bool Arith NArith ZArith Lia Permutation.
From Coq Require Import Strings.String Strings.Byte.
From Verif Require Import Res Bytes Text Utf8 Fld Zp Groups Bn254 CS CSFacts Qap SpecCore Core CoreFacts CoreMore P_Core
  R1cs SpecR1cs R1csFacts R1csJs R1csJsFacts P_R1cs Wtns SpecWtns WtnsFacts P_Wtns Circuit SpecCircuit CircuitFacts P_Circuit
  ArkSer ArkSerFacts P_Ser Sym SpecSym SymFacts P_Sym Inputs SpecInputs InputsFacts P_Inputs
  Combined SpecCombined CombinedFacts P_Combined Gcm SpecGcm GcmFacts P_Gcm FileSys Commands SpecCommands CommandsFacts
  PartialEncap P_Commands JsZkenc JsZkencFacts P_JsZkenc SpecJs C44Facts P_JsApi.
Import ListNotations.
Local Open Scope N_scope.

Section Core.
  Context (E : pairingT Fr) (C : codecT E) (D : domainT Fr) (kdf : GT E -> key).

  (** A circuit that decapsulates has a value for every wire, satisfies its rows, and its first wires
      are the recorded public inputs. *)
  Lemma decap_satisfied c ct k : cc_n_public c < cc_n_wires c -> cc_n_wires c < 2 ^ 32 ->
    factors_below (cc_n_wires c) (cc_constraints c) -> decap kdf (circom_prog c) ct = Ok k ->
    (forall i, 1 <= i < cc_n_wires c -> cc_witness c i <> None) /\
    satisfies (wires (cc_witness c)) (cc_constraints c) /\
    exists others, map (wires (cc_witness c)) (range 1 (cc_n_wires c)) = public_inputs ct ++ others.
  Proof.
    intros Hp Hnw Hfb Hk.
    assert (Hna : n_alloc c = cc_n_wires c) by (unfold n_alloc; clear - Hp; lia).
    assert (Hall : forall i, 1 <= i < cc_n_wires c -> cc_witness c i <> None).
    { intros i Hi Hnone.
      destruct (first_missing (cc_witness c) (i - 1)) as (m&Hm1&Hm2&Hm3).
      { replace (i - 1 + 1) with i by (clear - Hi; lia). exact Hnone. }
      destruct (circom_stops c m) as (Hwf&S1&_).
      { clear - Hp Hnw. lia. }
      { rewrite Hna. clear - Hm1 Hi. lia. }
      { exact Hm2. } { exact Hm3. }
      destruct (C04_decap_error_table Fr E kdf (circom_prog c) ct Hwf) as (Herr&_). rewrite (Herr _ S1) in Hk. congruence. }
    split; [exact Hall|].
    destruct (circom_synthesis c) as (Hwf&Hcomp&Hpub&Hpriv&Hhold).
    { clear - Hp Hnw. lia. }
    { rewrite Hna. exact Hall. }
    destruct (proj1 (C04_decap_succeeds_iff Fr E kdf (circom_prog c) ct Hwf) (ex_intro _ k Hk)) as (_&Hch&[others Hpre]&_).
    split.
    - rewrite Hna, (drop_unknown_id _ _ Hfb) in Hhold. apply Hhold. exact Hch.
    - exists others. rewrite <- Hpre, Hpub, Hpriv.
      rewrite <- map_app, <- range_split by (clear - Hp; lia). reflexivity.
  Qed.

  Lemma partial_iff c m alpha beta delta r x ct k :
    cc_n_public c < cc_n_wires c -> cc_n_wires c < 2 ^ 32 ->
    1 <= m <= cc_n_public c + 1 -> m < cc_n_wires c -> m <= 2 ^ 24 + 1 ->
    cc_witness c m = None -> (forall i, 1 <= i < m -> cc_witness c i <> None) ->
    encap_with D kdf (circom_prog c) alpha beta delta r x = Ok (ct, k) ->
    forall c2 k2, cc_n_public c2 = cc_n_public c -> cc_n_wires c2 = cc_n_wires c ->
      factors_below (cc_n_wires c2) (cc_constraints c2) ->
      (decap kdf (circom_prog c2) ct = Ok k2 <->
       k2 = k /\ (forall i, 1 <= i < cc_n_wires c2 -> cc_witness c2 i <> None) /\
       satisfies (wires (cc_witness c2)) (cc_constraints c2) /\
       (forall i, 1 <= i < m -> cc_witness c2 i = cc_witness c i)).
  Proof.
    intros H1 H2 H3 H4 H5 H6 H7 He c2 k2 E1 E2 Hf.
    destruct (partial_encap E C D kdf c m alpha beta delta r x ct k H1 H2 H3 H4 H5 H6 H7 He) as (_&_&(_&_&Hpi)&Hrec). split.
    - intros Hk. destruct (decap_satisfied c2 ct k2) as (Hall&Hsat&others&Hpre); try assumption; try (rewrite ?E1, ?E2; assumption).
      assert (Hag : forall i, 1 <= i < m -> cc_witness c2 i = cc_witness c i).
      { intros i Hi. rewrite Hpi in Hpre.
        assert (Hn := f_equal (fun l => nth_error l (N.to_nat (i - 1))) Hpre). cbn beta in Hn.
        rewrite nth_error_app1 in Hn by (rewrite map_length, range_length; clear - Hi; lia).
        rewrite !nth_error_map, !range_nth in Hn by (rewrite ?E2; clear - Hi H4; lia). cbn [option_map] in Hn.
        replace (1 + N.of_nat (N.to_nat (i - 1))) with i in Hn by (clear - Hi; lia).
        assert (Hw : forall a b : Fr, Some a = Some b -> a = b) by (intros; congruence). apply Hw in Hn. unfold wires in Hn.
        rewrite (proj2 (N.eqb_neq i 0)) in Hn by (clear - Hi; lia).
        specialize (Hall i ltac:(rewrite E2; clear - Hi H4; lia)). specialize (H7 i Hi).
        destruct (cc_witness c2 i); [|congruence]. destruct (cc_witness c i); [|congruence]. congruence. }
      split; [|auto]. assert (Hk' := Hrec c2 E1 E2 Hf Hall Hsat Hag). congruence.
    - intros (->&Hall&Hsat&Hag). apply Hrec; assumption.
  Qed.
End Core.

Section Js.
  Context (E : pairingT Fr) (C : codecT E) (D : domainT Fr) (kdf : GT E -> key) (W : N) (fuel : nat).
  Context (co : coins) (sym : text) (inputs : list (text * json)).
  Notation signals := (get_input_signals (js_parse_sym_file sym) None).
  Notation nsyms := (N.of_nat (List.length (js_parse_sym_file sym))).

  Lemma js_encap_iff cb ctb k r :
    circuit_file cb r -> js_usable r -> blen cb < W -> W <= 2 ^ 64 ->
    nsyms < 2 ^ 32 - 1 -> 2 * (108 + 32 * nsyms) < W -> 108 + 32 * nsyms < N.of_nat fuel ->
    factors_below (r_n_wires r) (r_constraints r) ->
    js_encap E C D kdf W fuel co cb sym inputs = Ok (ctb, k) ->
    exists ct m zs, ctb = ct_bytes C ct /\ lengths_ok ct /\ blen ctb < 2 ^ 32 /\
      js_map_inputs inputs signals = Ok m /\ prefix_values m zs /\
      forall vals k2,
        decap kdf (circom_prog (circom_of_cli r (fun w => nth_error vals (N.to_nat w)))) ct = Ok k2 <->
        k2 = k /\ opens_circuit r vals /\
        forall i z, nth_error zs i = Some z -> N.of_nat i < r_n_pub_out r + r_n_pub_in r ->
          nth_error vals (S i) = Some (fr (z mod 2 ^ 256)).
  Proof.
    intros Hcf (Hu1&Hu2) HW1 HW2 Hn HW3 Hfu Hfb H.
    assert (Hok : r1cs_ok r) by (destruct Hcf as (?&_&Hok&_); exact Hok). pose proof (ok_nw _ Hok) as Hnw.
    destruct (js_encap_inv E C D kdf W fuel co sym inputs cb ctb k r Hcf HW1 HW2 Hn HW3 Hfu H) as (m&zs&ct&Hm&Hz&Hctb&He). cbv zeta in He.
    set (values := fr 1 :: map _ zs) in *. match type of He with context [circom_of_cli r ?f] => set (a := f) in He end.
    set (c := circom_of_cli r a) in *. exists ct, m, zs. split; [exact Hctb|]. rewrite Hctb. clear H Hctb ctb.
    set (np := r_n_pub_out r + r_n_pub_in r) in *.
    assert (Hmod : np mod 2 ^ 32 = np) by (apply N.mod_small; clear - Hu1 Hnw; lia).
    assert (Hnp : cc_n_public c = np) by exact Hmod.
    set (L := N.of_nat (List.length values)). set (mm := N.min L (np + 1)).
    assert (HL : L = N.of_nat (List.length zs) + 1) by (unfold L, values; cbn [List.length]; rewrite map_length; clear; lia).
    assert (Hav : forall i, 1 <= i < mm -> exists z, nth_error zs (N.to_nat (i - 1)) = Some z /\ a i = Some (fr (z mod 2 ^ 256))).
    { intros i Hi. unfold a. rewrite Hmod. rewrite (proj2 (N.leb_le i np)) by (clear - Hi; lia).
      fold L. rewrite (proj2 (N.ltb_lt i L)) by (clear - Hi; lia). cbn [andb].
      destruct (nth_error zs (N.to_nat (i - 1))) as [z|] eqn:Ez.
      - exists z. split; [reflexivity|].
        unfold values. replace (N.to_nat i) with (S (N.to_nat (i - 1))) by (clear - Hi; lia). cbn [nth_error].
        apply (map_nth_error (fun z => fr (z mod 2 ^ 256)) _ zs Ez).
      - exfalso. apply nth_error_None in Ez. unfold mm in Hi. clear - Hi Ez HL. lia. }
    assert (Hmiss : a mm = None).
    { unfold a. rewrite Hmod. fold L. destruct (N.leb_spec mm np); [|reflexivity]. destruct (N.ltb_spec mm L); [|reflexivity].
      exfalso. unfold mm in *. clearbody L. lia. }
    assert (P1 : cc_n_public c < cc_n_wires c) by (rewrite Hnp; cbn [cc_n_wires c circom_of_cli]; clear - Hu1; lia).
    assert (P3 : 1 <= mm <= cc_n_public c + 1) by (rewrite Hnp; unfold mm; clearbody L; clear - HL; lia).
    assert (P4 : mm < cc_n_wires c) by (cbn [cc_n_wires c circom_of_cli]; unfold mm; clear - Hu1; lia).
    assert (P5 : mm <= 2 ^ 24 + 1) by (unfold mm; clear - Hu2; lia).
    assert (P7 : forall i, 1 <= i < mm -> cc_witness c i <> None).
    { intros i Hi. destruct (Hav i Hi) as (z&_&Hai). cbn [cc_witness c circom_of_cli]. rewrite Hai. discriminate. }
    destruct (partial_encap E C D kdf c mm (c_alpha co) (c_beta co) (c_delta co) (c_r co) (c_x co) ct k P1 Hnw P3 P4 P5 Hmiss P7 He)
      as (Hlen&Hsz&_). split; [exact Hlen|]. split; [exact Hsz|]. split; [exact Hm|]. split; [exact Hz|].
    intros vals k2.
    rewrite (partial_iff E C D kdf c mm (c_alpha co) (c_beta co) (c_delta co) (c_r co) (c_x co) ct k P1 Hnw P3 P4 P5 Hmiss P7 He
      (circom_of_cli r (fun w => nth_error vals (N.to_nat w))) k2 eq_refl eq_refl Hfb).
    cbn [cc_n_wires cc_witness cc_constraints circom_of_cli c].
    assert (Hag : (forall i, 1 <= i < mm -> nth_error vals (N.to_nat i) = a i) <->
      (forall i z, nth_error zs i = Some z -> N.of_nat i < np -> nth_error vals (S i) = Some (fr (z mod 2 ^ 256)))).
    { split.
      - intros G i z Hi Hlt. assert (Hii : (i < List.length zs)%nat) by (apply nth_error_Some; congruence).
        assert (Hr : 1 <= N.of_nat i + 1 < mm) by (unfold mm; clear - Hlt Hii HL; lia).
        specialize (G _ Hr). replace (N.to_nat (N.of_nat i + 1)) with (S i) in G by (clear; lia). rewrite G.
        destruct (Hav _ Hr) as (z'&Hz'&Ha'). replace (N.to_nat (N.of_nat i + 1 - 1)) with i in Hz' by (clear; lia).
        rewrite Ha'. assert (z' = z) by congruence. subst z'. reflexivity.
      - intros G i Hi. destruct (Hav i Hi) as (z&Hzi&Ha'). rewrite Ha'.
        replace (N.to_nat i) with (S (N.to_nat (i - 1))) by (clear - Hi; lia). apply G; [exact Hzi|].
        unfold mm in Hi. clear - Hi. lia. }
    rewrite Hag. unfold opens_circuit. split.
    - intros (K&A&S&G). split; [exact K|]. split; [|exact G]. split; [|split; [exact Hfb|exact S]].
      destruct (N.eq_dec (r_n_wires r) 1) as [H1|H1]; [exfalso; clear - H1 Hu1; lia|].
      assert (Hx := A (r_n_wires r - 1) ltac:(clear - H1 Hu1; lia)). apply nth_error_Some in Hx. clear - Hx Hu1. lia.
    - intros (K&(A&_&S)&G). split; [exact K|]. split; [|split; [exact S|exact G]].
      intros i Hi. apply nth_error_Some. clear - Hi A. lia.
  Qed.
End Js.
