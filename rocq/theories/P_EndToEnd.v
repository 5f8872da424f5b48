(** Property theorems C56: from the user's inputs to the message, the witness calculation included.
    Vocabulary: SpecEndToEnd.v. *)
From Coq Require Import List Bool Arith NArith ZArith Lia Permutation.
From Coq Require Import Strings.String Strings.Byte.
From Verif Require Import Res Bytes Text Utf8 Fld Zp Groups Bn254 CS CSFacts Qap SpecCore Core CoreFacts CoreMore P_Core
  R1cs SpecR1cs R1csFacts R1csJs R1csJsFacts P_R1cs Wtns SpecWtns WtnsFacts P_Wtns Circuit SpecCircuit CircuitFacts P_Circuit
  ArkSer ArkSerFacts P_Ser Sym SpecSym SymFacts P_Sym Inputs SpecInputs InputsFacts P_Inputs
  Combined SpecCombined CombinedFacts P_Combined Gcm SpecGcm GcmFacts P_Gcm FileSys Commands SpecCommands CommandsFacts
  PartialEncap P_Commands JsZkenc JsZkencFacts P_JsZkenc SpecJs C44Facts P_JsApi JsIff SpecBound P_Bound
  SpecNumerals P_Numerals WitnessCalc SpecWitnessCalc WitnessCalcFacts P_WitnessCalc JsFull SpecEndToEnd EndToEndFacts.
Import ListNotations.
Local Open Scope N_scope.

Lemma fits_calc W fuel cb r wb : fits_calculated W fuel cb r -> blen wb = 76 + 32 * r_n_wires r -> fits_decrypt W fuel cb wb.
Proof. intros (H1&H2&H3&H4) L. unfold fits_decrypt. rewrite L. unfold blen in L. repeat split; try assumption. clear - H4 L. lia. Qed.
Lemma circuit_wires cb r : circuit_file cb r -> r_n_wires r < 2 ^ 32.
Proof. intros (secs&_&Hok&_). apply Hok. Qed.

(** decrypt with the witness inside is decrypt with the calculator's file. *)
Lemma decrypt_inputs_ok (E : pairingT Fr) (C : codecT E) (kdf : GT E -> key) aes W fuel m cb a full wb message :
  calculate_wtns m full = Ok wb ->
  (decrypt_inputs E C kdf aes W fuel m cb a full = Ok message <-> js_decrypt E C kdf aes W fuel cb wb a = Ok message).
Proof.
  intros Hwb. unfold decrypt_inputs, js_decrypt, decap_inputs. rewrite Hwb. cbn [rmap_err rbind].
  destruct (js_split a) as [wm|e|]; cbn [rmap_err rbind]; [|split; discriminate..].
  destruct (js_decap E C kdf W fuel cb wb (fst wm)) as [k|e|]; cbn [rmap_err rbind]; [|split; discriminate..].
  destruct (aesGcmDecrypt aes k (snd wm)) as [x|e|]; cbn [rmap_err]; [|split; discriminate..]. split; congruence.
Qed.

Section Calculated.
  Context (m : wmodule) (r : r1cs_file) (ins : list (text * list N)) (wires : text -> option N) (Hc : compiled m r ins wires).
  Context (cb : list byte) (Hcf : circuit_file cb r) (full : list (text * json)) (Hsh : shaped_doc ins full) (Hso : solves m full).
  (** The calculator's file, all at once. *)
  Lemma calculated : exists gs w wb, complete_input m full gs /\ md_compute m gs = Some w /\
    let vals := map (fun v => fr (Z.of_N v)) w in
    calculate_wtns m full = Ok wb /\ witness_file wb vals /\ N.of_nat (List.length vals) = r_n_wires r /\
    blen wb = 76 + 32 * r_n_wires r /\ opens_circuit r vals.
  Proof.
    destruct Hso as (gs&w&Hci&Hw). destruct (calculated_file m r ins wires Hc full gs w Hci Hw) as (wb&Hwb&Hwf&Hlen&Hbl).
    { rewrite (cp_size _ _ _ _ Hc). eapply circuit_wires. exact Hcf. }
    destruct (witness_carries m r ins wires Hc full Hsh gs w Hci Hw) as [Ho _].
    exists gs, w, wb. cbv zeta. repeat (split; [assumption|]). exact Ho.
  Qed.
End Calculated.

(** JavaScript encap, then JavaScript decap with the full inputs. *)
Theorem C56_js_encap_then_decap :
  forall (E : pairingT Fr) (C : codecT E) (D : domainT Fr) (kdf : GT E -> key) W fuel co cb sym pub full ctb k m r ins,
    compiled m r ins (js_wires sym) -> circuit_file cb r -> js_usable r ->
    fits_encrypt W fuel cb sym -> fits_calculated W fuel cb r ->
    js_encap E C D kdf W fuel co cb sym pub = Ok (ctb, k) ->
    shaped_doc ins full -> solves m full -> incl pub full -> ordinary pub ->
    decap_inputs E C kdf W fuel m cb ctb full = Ok k.
Proof.
  intros E C D kdf W fuel co cb sym pub full ctb k m r ins Hc Hcf Hu Hf1 Hf2 He Hsh Hso Hin Hor.
  destruct (calculated m r ins (js_wires sym) Hc cb Hcf full Hsh Hso) as (gs&w&wb&Hci&Hw&Hwb&Hwf&Hlen&Hbl&Ho).
  assert (Ha := js_agree m r ins (js_wires sym) Hc full Hsh sym pub gs w eq_refl Hci Hw Hin Hor (r_n_pub_out r + r_n_pub_in r)).
  unfold decap_inputs. rewrite Hwb. cbn [rmap_err rbind].
  rewrite (C44_js_encap_then_decap E C D kdf W fuel co cb sym pub ctb k r wb (map (fun v => fr (Z.of_N v)) w)); auto.
  apply (fits_calc W fuel cb r wb Hf2 Hbl).
Qed.
Print Assumptions C56_js_encap_then_decap.

(** JavaScript encrypt, then JavaScript decrypt with the full inputs. *)
Theorem C56_js_encrypt_then_decrypt :
  forall (E : pairingT Fr) (C : codecT E) (D : domainT Fr) (kdf : GT E -> key) (aes : cipherT) stringify W fuel
         co cb sym pub full message inc f k m r ins a,
    (forall g, List.length (kdf g) = 32%nat) -> List.length (c_nonce co) = 12%nat ->
    (inc = true -> blen (stringify pub) < 2 ^ 32) ->
    compiled m r ins (js_wires sym) -> circuit_file cb r -> js_usable r ->
    fits_encrypt W fuel cb sym -> fits_calculated W fuel cb r ->
    js_encrypt E C D kdf aes stringify W fuel co cb sym pub message inc = Ok (f, k) ->
    shaped_doc ins full -> solves m full -> incl pub full -> ordinary pub ->
    jb_valid a -> jb_window a = f ->
    decrypt_inputs E C kdf aes W fuel m cb a full = Ok message.
Proof.
  intros E C D kdf aes stringify W fuel co cb sym pub full message inc f k m r ins a
    Hkdf Hn Hq Hc Hcf Hu Hf1 Hf2 He Hsh Hso Hin Hor Hva Hwa.
  destruct (calculated m r ins (js_wires sym) Hc cb Hcf full Hsh Hso) as (gs&w&wb&Hci&Hw&Hwb&Hwf&Hlen&Hbl&Ho).
  assert (Ha := js_agree m r ins (js_wires sym) Hc full Hsh sym pub gs w eq_refl Hci Hw Hin Hor (r_n_pub_out r + r_n_pub_in r)).
  assert (Hd := C44_js_to_js E C D kdf aes stringify W fuel co cb sym pub message inc f k r wb _ a Hkdf Hn Hq Hcf Hu Hf1 He Hwf
    (fits_calc W fuel cb r wb Hf2 Hbl) Hlen Ho Ha Hva Hwa).
  apply decrypt_inputs_ok with (wb := wb); assumption.
Qed.
Print Assumptions C56_js_encrypt_then_decrypt.

(** JavaScript encrypt, then the CLI's decrypt with the witness file of the calculator. *)
Theorem C56_js_encrypt_then_cli_decrypt :
  forall (E : pairingT Fr) (C : codecT E) (D : domainT Fr) (kdf : GT E -> key) (aes : cipherT) stringify W fuel
         co cb sym pub full message inc f k m r ins max_off s cp wp ctp op wb,
    (forall g, List.length (kdf g) = 32%nat) -> List.length (c_nonce co) = 12%nat ->
    (inc = true -> blen (stringify pub) < 2 ^ 32) ->
    compiled m r ins (js_wires sym) -> circuit_file cb r -> js_usable r ->
    fits_encrypt W fuel cb sym -> max_off < 2 ^ 63 -> blen cb <= max_off ->
    js_encrypt E C D kdf aes stringify W fuel co cb sym pub message inc = Ok (f, k) ->
    shaped_doc ins full -> solves m full -> incl pub full -> ordinary pub ->
    calculate_wtns m full = Ok wb -> s cp = Some cb -> s wp = Some wb -> s ctp = Some f ->
    run (decrypt_command C kdf aes max_off cp wp ctp op) s = (fs_write op message s, Ok tt).
Proof.
  intros E C D kdf aes stringify W fuel co cb sym pub full message inc f k m r ins max_off s cp wp ctp op wb0
    Hkdf Hn Hq Hc Hcf Hu Hf1 M1 M2 He Hsh Hso Hin Hor Hwb0 H1 H2 H3.
  destruct (calculated m r ins (js_wires sym) Hc cb Hcf full Hsh Hso) as (gs&w&wb&Hci&Hw&Hwb&Hwf&Hlen&Hbl&Ho).
  assert (Ha := js_agree m r ins (js_wires sym) Hc full Hsh sym pub gs w eq_refl Hci Hw Hin Hor (r_n_pub_out r + r_n_pub_in r)).
  assert (wb0 = wb) by congruence. subst wb0.
  apply (C44_js_to_cli E C D kdf aes stringify W fuel co cb sym pub message inc f k r wb _ max_off s cp wp ctp op
    Hkdf Hn Hq Hcf Hu Hf1 He Hwf M1 M2); [|assumption..].
  rewrite Hbl. assert (L := circuit_wires _ _ Hcf). clear - L. change (2 ^ 32) with 4294967296 in L. change (2 ^ 63) with 9223372036854775808. lia.
Qed.
Print Assumptions C56_js_encrypt_then_cli_decrypt.

(** The CLI's encrypt, then JavaScript decrypt with the full inputs.  Negative JSON numbers are left
    out: the CLI reads them as large positive ones (C29). *)
Theorem C56_cli_encrypt_then_js_decrypt :
  forall (E : pairingT Fr) (C : codecT E) (D : domainT Fr) (kdf : GT E -> key) (aes : cipherT) W fuel
         json_parse max_off v co cp sp ip mp op inc s s' cb sb ib mb f st syms it pub full m r ins a,
    (forall g, List.length (kdf g) = 32%nat) -> List.length (c_nonce co) = 12%nat ->
    s cp = Some cb -> s sp = Some sb -> s ip = Some ib -> s mp = Some mb ->
    utf8_decode sb = Some st -> parse_sym_file st = Ok syms ->
    compiled m r ins (fun name => hm_get (lit "main." ++ name) syms) -> circuit_file cb r -> usable r ->
    max_off < 2 ^ 63 -> blen cb <= max_off -> (inc = true -> blen ib < 2 ^ 32) -> fits_calculated W fuel cb r ->
    run (encrypt_command C D kdf aes json_parse max_off v co cp sp ip mp op inc) s = (s', Ok tt) -> s' op = Some f ->
    utf8_decode ib = Some it -> json_parse it = Some (JObj pub) ->
    shaped_doc ins full -> solves m full -> incl pub full -> no_negative_number pub ->
    jb_valid a -> jb_window a = f ->
    decrypt_inputs E C kdf aes W fuel m cb a full = Ok mb.
Proof.
  intros E C D kdf aes W fuel json_parse max_off v co cp sp ip mp op inc s s' cb sb ib mb f st syms it pub full m r ins a
    Hkdf Hn H1 H2 H3 H4 Hst Hsy Hc Hcf Hu M1 M2 Hib Hf2 Hrun Hf Hit Hj Hsh Hso Hin Hnn Hva Hwa.
  destruct (calculated m r ins _ Hc cb Hcf full Hsh Hso) as (gs&w&wb&Hci&Hw&Hwb&Hwf&Hlen&Hbl&Ho).
  assert (Ha := cli_agree m r ins _ Hc full Hsh json_parse sb ib st syms pub gs w Hst Hsy eq_refl ltac:(intros; congruence)
    Hci Hw Hin Hnn (r_n_pub_in r)).
  assert (Hd := C44_cli_to_js E C D kdf aes W fuel json_parse max_off v co cp sp ip mp op inc s s' cb sb ib mb f r wb _ a
    Hkdf Hn H1 H2 H3 H4 Hcf Hu M1 M2 Hib Hrun Hf Hwf (fits_calc W fuel cb r wb Hf2 Hbl) Hlen Ho Ha Hva Hwa).
  apply decrypt_inputs_ok with (wb := wb); assumption.
Qed.
Print Assumptions C56_cli_encrypt_then_js_decrypt.

(** ** The y * y = x circuit *)
Lemma ex_hash_ne : name_hash (lit "x") <> name_hash (lit "y").
Proof. intros H. apply N.eqb_eq in H. vm_compute in H. discriminate. Qed.
Lemma ex_lookup_in gs h i v : NoDup (map (fun g : setting => fst (fst g)) gs) -> In (h, i, v) gs -> ex_lookup h gs = v.
Proof.
  unfold ex_lookup. induction gs as [|[[h' i'] v'] gs IH]; [contradiction|]. cbn [map fst]. intros Hn [Hi|Hi].
  - injection Hi as -> -> ->. cbn [find fst]. rewrite N.eqb_refl. reflexivity.
  - inversion Hn as [|? ? Hni Hn']; subst. cbn [find fst]. destruct (N.eqb_spec h' h) as [->|_]; [|exact (IH Hn' Hi)].
    exfalso. apply Hni. apply in_map_iff. exists (h, i, v). auto.
Qed.
Definition ex_ins : list (text * list N) := [(lit "x", []); (lit "y", [])].
Lemma indexed_app k n name : indexed k n name -> exists s, name = k ++ s /\ (n <> 0%nat -> exists s', s = lit "[" ++ s').
Proof.
  induction 1 as [k|k n i name H (s&->&_)].
  - exists []. rewrite app_nil_r. split; [reflexivity|congruence].
  - exists (lit "[" ++ dec_text i ++ lit "]" ++ s). unfold item. rewrite <- !app_assoc. split; [reflexivity|]. intros _. eauto.
Qed.
Lemma fr_times (a b : Z) : fmul (fr a) (fr b) = fr (a * b).
Proof. apply zval_inj. change (((a mod bn_r) * (b mod bn_r)) mod bn_r = (a * b) mod bn_r)%Z. symmetry. apply Z.mul_mod. discriminate. Qed.
Lemma ex_row (x y : Fr) : fmul y y = x -> opens_circuit ex_circuit [fr 1; x; y].
Proof.
  intros H. split; [vm_compute; discriminate|]. split; [repeat constructor|]. constructor; [|constructor].
  assert (H1 : coefficient one32 = fr 1) by (apply (proj1 (feqb_true Fr _ _)); vm_compute; reflexivity).
  unfold row_true. cbn [c_a c_b c_c combination]. rewrite H1. change (fr 1) with (f1 : Fr) at 1 2 3.
  change (wires (fun w : N => nth_error [fr 1; x; y] (N.to_nat w)) 2) with y.
  change (wires (fun w : N => nth_error [fr 1; x; y] (N.to_nat w)) 1) with x.
  rewrite !fmul_1_l, !fadd_0_r. exact H.
Qed.
Lemma ex_compiled : compiled ex_wmodule ex_circuit ex_ins (js_wires ex_sym_text).
Proof.
  constructor.
  - exact ex_wmodule_ok.
  - reflexivity.
  - reflexivity.
  - reflexivity.
  - reflexivity.
  - intros gs w Hp Hr Hw.
    assert (Hp2 : Permutation (map (fun g : setting => fst (fst g)) gs) [name_hash (lit "x"); name_hash (lit "y")]).
    { apply (Permutation_map fst) in Hp. rewrite map_map in Hp. exact Hp. }
    assert (Hnd : NoDup (map (fun g : setting => fst (fst g)) gs)).
    { eapply Permutation_NoDup; [symmetry; exact Hp2|]. constructor; [|constructor; [intros []|constructor]].
      intros [Hx|[]]. apply ex_hash_ne. congruence. }
    assert (Hget : forall h i v, In (h, i, v) gs -> ex_lookup h gs mod Z.to_N bn_r = v).
    { intros h i v Hi. rewrite (ex_lookup_in gs h i v Hnd Hi). apply N.mod_small. rewrite Forall_forall in Hr. apply (Hr _ Hi). }
    cbn [ex_wmodule md_compute] in Hw. unfold ex_square in Hw. cbv zeta in Hw.
    set (x := ex_lookup (name_hash (lit "x")) gs mod Z.to_N bn_r) in *.
    set (y := ex_lookup (name_hash (lit "y")) gs mod Z.to_N bn_r) in *.
    destruct (N.eqb_spec ((y * y) mod Z.to_N bn_r) x) as [He|]; [|discriminate]. assert (Hw' : w = [1; x; y]) by congruence. subst w.
    split.
    + cbn [map]. apply ex_row. rewrite fr_times. apply zp_eq_iff. rewrite <- He. rewrite <- N2Z.inj_mul.
      change bn_r with (Z.of_N (Z.to_N bn_r)) at 1 3. rewrite N2Z.inj_mod, Z.mod_mod by discriminate. reflexivity.
    + intros k dims i name v wire Hk Hel Hi Hwire.
      assert (dims = []) by (destruct Hk as [Hk|[Hk|[]]]; congruence). subst dims. inversion Hel; subst.
      destruct Hk as [Hk|[Hk|[]]]; assert (Hk' := f_equal fst Hk); cbn [fst] in Hk'; subst name.
      * assert (wire = 1) by (vm_compute in Hwire; congruence). subst wire. exact (f_equal Some (Hget _ _ _ Hi)).
      * assert (wire = 2) by (vm_compute in Hwire; congruence). subst wire. exact (f_equal Some (Hget _ _ _ Hi)).
  - intros k dims n name Hk Hix Hw. assert (Hd : dims = []) by (destruct Hk as [Hk|[Hk|[]]]; congruence). subst dims.
    destruct (indexed_app _ _ _ Hix) as (s&->&Hs). destruct n as [|n]; [reflexivity|]. exfalso. destruct (Hs ltac:(discriminate)) as (s'&->).
    apply Hw. assert (Hk' : k = lit "x" \/ k = lit "y") by (destruct Hk as [Hk|[Hk|[]]]; [left|right]; congruence).
    destruct Hk' as [-> | ->]; reflexivity.
Qed.

(** A public input and a private input, as numbers or as decimal texts. *)
Definition written (z : Z) (v : json) : Prop := v = JInt z \/ v = JStr (dec_text_z z).
Lemma written_number z v : written z v -> whole_number v z.
Proof. intros [-> | ->]; constructor. apply C57_rendering_round_trip. Qed.
Lemma written_string z v : written z v -> js_to_string v = Some (dec_text_z z).
Proof. intros [-> | ->]; reflexivity. Qed.
Lemma ex_solves_numbers x y vx vy : whole_number vx x -> whole_number vy y -> fr (y * y) = fr x -> solves ex_wmodule [(lit "x", vx); (lit "y", vy)].
Proof.
  intros Hx Hy He.
  set (r := Z.of_N (md_prime ex_wmodule)). 
  exists [(name_hash (lit "x"), 0, Z.to_N (x mod r)); (name_hash (lit "y"), 0, Z.to_N (y mod r))], [1; Z.to_N (x mod r); Z.to_N (y mod r)].
  split.
  - exists [[(name_hash (lit "x"), 0, Z.to_N (x mod r))]; [(name_hash (lit "y"), 0, Z.to_N (y mod r))]]. split; [|split; [reflexivity|reflexivity]].
    constructor; [|constructor; [|constructor]].
    + exists [x], 1. split; [constructor; exact Hx|]. split; [left; reflexivity|]. split; reflexivity.
    + exists [y], 1. split; [constructor; exact Hy|]. split; [right; left; reflexivity|]. split; reflexivity.
  - cbn [ex_wmodule md_compute]. unfold ex_square, ex_lookup. cbn [find fst snd]. rewrite !N.eqb_refl.
    replace (name_hash (lit "x") =? name_hash (lit "y")) with false by (symmetry; apply N.eqb_neq; exact ex_hash_ne).
    change (Z.to_N bn_r) with (md_prime ex_wmodule).
    assert (Hr : (0 < r)%Z) by reflexivity. assert (Bx := Z.mod_pos_bound x r Hr). assert (By := Z.mod_pos_bound y r Hr).
    assert (Hxy : ((y mod r) * (y mod r) mod r = x mod r)%Z).
    { rewrite <- Z.mul_mod by (intros H; rewrite H in Hr; discriminate). apply zp_eq_iff in He. exact He. }
    assert (Hn : md_prime ex_wmodule = Z.to_N r) by reflexivity. rewrite Hn. clear He Hn. clearbody r.
    rewrite !(N.mod_small (Z.to_N _)) by (apply Z2N.inj_lt; lia).
    rewrite <- Z2N.inj_mul, <- Z2N.inj_mod by (try apply Z.mul_nonneg_nonneg; lia). rewrite Hxy, N.eqb_refl. reflexivity.
Qed.
Lemma ex_solves x y vx vy : written x vx -> written y vy -> fr (y * y) = fr x -> solves ex_wmodule [(lit "x", vx); (lit "y", vy)].
Proof. intros Hx Hy. apply ex_solves_numbers; apply written_number; assumption. Qed.
Lemma ex_shaped vx vy x y : written x vx -> written y vy -> shaped_doc ex_ins [(lit "x", vx); (lit "y", vy)].
Proof.
  intros Hx Hy k v [H|[H|[]]]; injection H as <- <-; exists []; (split; [cbn; auto|constructor]); intros l.
  - destruct Hx as [-> | ->]; discriminate.
  - destruct Hy as [-> | ->]; discriminate.
Qed.
Lemma ex_gives z v t w : written z v -> js_gives ex_sym_text [(lit "x", v)] w t -> t = dec_text_z z.
Proof.
  intros Hv (name&(k&v'&[Hi|[]]&Hl)&_). assert (v' = v) by congruence. subst v'. assert (Hs := written_string z v Hv).
  destruct Hl as [key v t H1 H2 Ht|key l i x t H1 H2|key o k' x name t H1 H2]; [congruence|destruct Hv; discriminate..].
Qed.
Lemma ex_gives_x z v : written z v -> js_gives ex_sym_text [(lit "x", v)] 1 (dec_text_z z).
Proof.
  intros Hv. exists (lit "x"). split; [|reflexivity]. exists (lit "x"), v. split; [left; reflexivity|].
  apply jl_scalar; [intros l; destruct Hv as [-> | ->]; discriminate..|]. apply written_string. exact Hv.
Qed.

(** The round trip fails for a public input below 0 or from 2^256 on: encrypt accepts it, the
    calculator accepts it with a matching private input, and decrypt never opens the file. *)
Theorem C56_out_of_range_values_refuted :
  forall (E : pairingT Fr) (C : codecT E) (D : domainT Fr) (kdf : GT E -> key) (aes : cipherT) stringify W fuel co message inc
         x y vx vy,
    (forall g, List.length (kdf g) = 32%nat) -> List.length (c_nonce co) = 12%nat -> c_delta co <> f0 ->
    fits_encrypt W fuel ex_circuit_file ex_sym_text -> fits_calculated W fuel ex_circuit_file ex_circuit ->
    blen message <= gcm_limit -> written x vx -> written y vy -> fr (y * y) = fr x ->
    (inc = true -> blen (stringify [(lit "x", vx)]) < 2 ^ 32) ->
    (- (bn_r - 1) * 2 ^ 256 <= x < 0 \/ 2 ^ 256 <= x < bn_r * 2 ^ 256)%Z ->
    solves ex_wmodule [(lit "x", vx); (lit "y", vy)] /\
    exists f k, js_encrypt E C D kdf aes stringify W fuel co ex_circuit_file ex_sym_text [(lit "x", vx)] message inc = Ok (f, k) /\
      forall a message', jb_valid a -> jb_window a = f ->
        decrypt_inputs E C kdf aes W fuel ex_wmodule ex_circuit_file a [(lit "x", vx); (lit "y", vy)] <> Ok message'.
Proof.
  intros E C D kdf aes stringify W fuel co message inc x y vx vy Hkdf Hn Hd Hf1 Hf2 Hm Hx Hy Hxy Hq Hout.
  assert (Hso := ex_solves x y vx vy Hx Hy Hxy). split; [exact Hso|].
  assert (Hsh := ex_shaped vx vy x y Hx Hy).
  assert (Hu : js_usable ex_circuit) by (split; vm_compute; auto; discriminate).
  assert (Hfb : factors_below (r_n_wires ex_circuit) (r_constraints ex_circuit)) by (repeat constructor).
  destruct (js_encrypt_from_map E C D kdf aes stringify W fuel co ex_circuit_file ex_sym_text [(lit "x", vx)] message inc ex_circuit
    Hkdf Hn Hd ex_circuit_is_file Hf1) as (f&k&He); [|exact Hm|].
  { exists [(1, dec_text_z x)]. split; [destruct Hx as [-> | ->]; reflexivity|]. intros w t Ht. cbn [nm_get] in Ht.
    destruct (w =? 1); [|discriminate]. assert (t = dec_text_z x) by congruence. subst t. exists x. apply C57_rendering_round_trip. }
  exists f, k. split; [exact He|]. intros a message' Hva Hwa Hdec.
  destruct (calculated ex_wmodule ex_circuit ex_ins (js_wires ex_sym_text) ex_compiled ex_circuit_file ex_circuit_is_file _ Hsh Hso)
    as (gs&w&wb&Hci&Hw&Hwb&Hwf&Hlen&Hbl&Ho).
  apply (decrypt_inputs_ok E C kdf aes W fuel ex_wmodule ex_circuit_file a _ wb message' Hwb) in Hdec.
  assert (Hone : js_single ex_sym_text [(lit "x", vx)]).
  { intros w' t t' H H'. rewrite (ex_gives x vx t w' Hx H), (ex_gives x vx t' w' Hx H'). reflexivity. }
  apply (C58_js_decrypt_iff E C D kdf aes stringify W fuel co ex_circuit_file ex_sym_text [(lit "x", vx)] message inc f k ex_circuit wb _ a message'
    Hkdf Hn Hq ex_circuit_is_file Hu Hfb Hf1 Hone He Hwf (fits_calc _ _ _ _ _ Hf2 Hbl) Hva Hwa) in Hdec as (_&_&_&Hb).
  specialize (Hb 1 x). assert (Hbound : js_bound ex_sym_text [(lit "x", vx)] 1 1 x).
  { split; [lia|]. split.
    - intros j Hj. assert (j = 1) by lia. subst j. eexists. apply (ex_gives_x x vx Hx).
    - exists (dec_text_z x). split; [apply (ex_gives_x x vx Hx)|apply C57_rendering_round_trip]. }
  specialize (Hb Hbound).
  destruct (witness_carries ex_wmodule ex_circuit ex_ins (js_wires ex_sym_text) ex_compiled _ Hsh gs w Hci Hw) as [_ Hcar].
  destruct (Hcar (lit "x") vx (lit "x") vx 1) as (z&zs&_&_&Hz&Hv).
  { left. reflexivity. } { constructor. intros l. destruct Hx as [-> | ->]; discriminate. } { reflexivity. }
  assert (Hzx : [z] = [x]) by (eapply numbers_fun; constructor; [exact Hz|apply written_number; exact Hx]). assert (z = x) by congruence. subst z.
  apply (C47_negative_and_long_values_refuted x Hout). congruence.
Qed.
Print Assumptions C56_out_of_range_values_refuted.

(** The hypotheses are met: the y * y = x files come from one source, x = 9 and y = -3 solve the
    circuit, and the message comes back; -1 = y * y has a solution in the field, and is lost. *)
Example C56_nonvacuous : forall (aes : cipherT) (inc : bool) (stringify : list (text * json) -> list byte),
  (forall kvs, blen (stringify kvs) < 2 ^ 32) ->
  (exists f k,
    js_encrypt fr_pairing ex_codec bn_domain ex_kdf32 aes stringify (2 ^ 32) 1000 ex_coins ex_circuit_file ex_sym_text
      [(lit "x", JStr (lit "9"))] [x68; x69] inc = Ok (f, k) /\
    decrypt_inputs fr_pairing ex_codec ex_kdf32 aes (2 ^ 32) 1000 ex_wmodule ex_circuit_file (whole f)
      [(lit "y", JInt (-3)); (lit "x", JStr (lit "9"))] = Ok [x68; x69]) /\
  (exists y : Z, fr (y * y) = fr (-1) /\
   exists f k,
    js_encrypt fr_pairing ex_codec bn_domain ex_kdf32 aes stringify (2 ^ 32) 1000 ex_coins ex_circuit_file ex_sym_text
      [(lit "x", JInt (-1))] [x68; x69] inc = Ok (f, k) /\
    forall message, decrypt_inputs fr_pairing ex_codec ex_kdf32 aes (2 ^ 32) 1000 ex_wmodule ex_circuit_file (whole f)
      [(lit "x", JInt (-1)); (lit "y", JStr (dec_text_z y))] <> Ok message).
Proof.
  intros aes inc stringify Hq.
  assert (Hkdf : forall g, List.length (ex_kdf32 g) = 32%nat) by (intros g; apply le_bytes_length).
  assert (Hfe : fits_encrypt (2 ^ 32) 1000 ex_circuit_file ex_sym_text).
  { repeat split; vm_compute; auto; discriminate. }
  assert (Hfc : fits_calculated (2 ^ 32) 1000 ex_circuit_file ex_circuit).
  { repeat split; vm_compute; auto; discriminate. }
  assert (Hde : c_delta ex_coins <> f0).
  { intros Hd. apply (proj2 (feqb_true Fr _ _)) in Hd. vm_compute in Hd. discriminate. }
  assert (Hu : js_usable ex_circuit) by (split; vm_compute; auto; discriminate).
  assert (Hms : blen [x68; x69] <= gcm_limit) by (vm_compute; discriminate).
  split.
  - destruct (C44_js_encrypt_succeeds fr_pairing ex_codec bn_domain ex_kdf32 aes stringify (2 ^ 32) 1000 ex_coins ex_circuit_file
      ex_sym_text [(lit "x", JStr (lit "9"))] [x68; x69] inc ex_circuit Hkdf eq_refl Hde ex_circuit_is_file Hfe) as (f&k&He); [|exact Hms|].
    { constructor; [left; cbn [snd]; constructor; [discriminate|]; repeat constructor; vm_compute; discriminate|constructor]. }
    exists f, k. split; [exact He|].
    apply (C56_js_encrypt_then_decrypt fr_pairing ex_codec bn_domain ex_kdf32 aes stringify (2 ^ 32) 1000 ex_coins ex_circuit_file ex_sym_text
      [(lit "x", JStr (lit "9"))] _ [x68; x69] inc f k ex_wmodule ex_circuit ex_ins (whole f) Hkdf eq_refl (fun _ => Hq _) ex_compiled ex_circuit_is_file
      Hu Hfe Hfc He).
    + intros k' v [H|[H|[]]]; injection H as <- <-; exists []; (split; [cbn; auto|constructor; discriminate]).
    + set (h := Z.to_N (-3 mod bn_r)). exists [(name_hash (lit "y"), 0, h); (name_hash (lit "x"), 0, 9)], [1; 9; h]. split.
      * exists [[(name_hash (lit "y"), 0, h)]; [(name_hash (lit "x"), 0, 9)]]. split; [|split; [reflexivity|apply perm_swap]].
        constructor; [|constructor; [|constructor]].
        -- exists [(-3)%Z], 1. split; [repeat constructor|]. split; [right; left; reflexivity|]. split; reflexivity.
        -- exists [9%Z], 1. split; [apply nb_one, (written_number 9); right; reflexivity|]. split; [left; reflexivity|]. split; reflexivity.
      * vm_compute. reflexivity.
    + intros e [<-|[]]. right. left. reflexivity.
    + split.
      * intros k' v zs z [H|[]] Hn Hz. injection H as <- <-.
        assert (zs = [9%Z]) by (eapply numbers_fun; [exact Hn|apply nb_one, (written_number 9); right; reflexivity]).
        subst zs. destruct Hz as [<-|[]]. split; [lia|reflexivity].
      * intros name t (k'&v&[H|[]]&Hl). injection H as <- <-. inversion Hl.
    + unfold jb_valid, whole. cbn [jb_offset jb_length jb_buffer]. apply N.le_refl.
    + apply window_whole.
  - exists 21888242871839275217838484774961031246007050428528088939761107053157389710902%Z.
    assert (Hsq : fr (21888242871839275217838484774961031246007050428528088939761107053157389710902 * 21888242871839275217838484774961031246007050428528088939761107053157389710902) = fr (-1)).
    { apply (proj1 (feqb_true Fr _ _)). vm_compute. reflexivity. }
    split; [exact Hsq|].
    destruct (C56_out_of_range_values_refuted fr_pairing ex_codec bn_domain ex_kdf32 aes stringify (2 ^ 32) 1000 ex_coins [x68; x69] inc
      (-1) _ (JInt (-1)) (JStr (dec_text_z 21888242871839275217838484774961031246007050428528088939761107053157389710902)) Hkdf eq_refl Hde Hfe Hfc Hms
      (or_introl eq_refl) (or_intror eq_refl) Hsq (fun _ => Hq _)) as [_ (f&k&He&Hno)].
    { left. split; [vm_compute; discriminate|reflexivity]. }
    exists f, k. split; [exact He|]. intros message. apply Hno; [|apply window_whole].
    unfold jb_valid, whole. cbn [jb_offset jb_length jb_buffer]. apply N.le_refl.
Qed.
