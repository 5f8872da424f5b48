(** Property theorems C44 and C47: the JavaScript API. *)
From Coq Require Import List Bool Arith NArith ZArith Znumtheory Lia Permutation.
From Coq Require Import Strings.String Strings.Byte.
From Verif Require Import Res Bytes Text Utf8 Fld Zp Groups Bn254 CS CSFacts Qap SpecCore Core CoreFacts CoreMore P_Core
  R1cs SpecR1cs R1csFacts R1csJs R1csJsFacts P_R1cs Wtns SpecWtns WtnsFacts P_Wtns Circuit SpecCircuit CircuitFacts P_Circuit
  ArkSer ArkSerFacts P_Ser Sym SpecSym SymFacts P_Sym Inputs SpecInputs InputsFacts P_Inputs
  Combined SpecCombined CombinedFacts P_Combined Gcm SpecGcm GcmFacts P_Gcm FileSys Commands SpecCommands CommandsFacts
  PartialEncap P_Commands JsZkenc JsZkencFacts.
Import ListNotations.
Local Open Scope N_scope.

(** ** C47 *)
(** The integers of wires 1, 2, .. up to the first wire without a value. *)
Definition prefix_values (m : nmap text) (zs : list Z) : Prop :=
  (forall i z, nth_error zs i = Some z -> exists t, nm_get (1 + N.of_nat i) m = Some t /\ js_bigint t = Some z) /\
  nm_get (1 + N.of_nat (List.length zs)) m = None.

Lemma nm_get_key {V} k (v : V) m : nm_get k m = Some v -> In k (map fst m).
Proof.
  intros H. destruct (in_dec N.eq_dec k (map fst m)) as [Hi|Hi]; [exact Hi|].
  apply nm_get_none in Hi. congruence.
Qed.
Lemma max_wire_above {V} (m : nmap V) : forall a, a <= fold_left (fun a kv => N.max a (fst kv)) m a /\
  forall k, In k (map fst m) -> k <= fold_left (fun a kv => N.max a (fst kv)) m a.
Proof.
  induction m as [|[k v] m IH]; intros a; cbn [fold_left map fst].
  - split; [apply N.le_refl|contradiction].
  - destruct (IH (N.max a k)) as [H1 H2]. split; [lia|]. intros k' [<-|H]; [lia|apply H2; exact H].
Qed.
Lemma prefix_loop_spec m mx : (forall k, In k (map fst m) -> k <= mx) -> forall fuel i,
  match js_prefix_loop fuel i mx m with
  | Ok zs => (forall j z, nth_error zs j = Some z -> exists t, nm_get (i + N.of_nat j) m = Some t /\ js_bigint t = Some z) /\
             (nm_get (i + N.of_nat (List.length zs)) m = None \/ List.length zs = fuel)
  | Err e => e = JsSyntaxError /\
      exists j t, (forall j', (j' < j)%nat -> exists t' z', nm_get (i + N.of_nat j') m = Some t' /\ js_bigint t' = Some z') /\
                  nm_get (i + N.of_nat j) m = Some t /\ js_bigint t = None
  | Panic => False
  end.
Proof.
  intros Hmx. induction fuel as [|fuel IH]; intros i; cbn [js_prefix_loop].
  - split; [intros [|j] z Hj; discriminate|]. right. reflexivity.
  - destruct (N.leb_spec i mx) as [Hi|Hi].
    2:{ split; [intros [|j] z Hj; discriminate|]. left. cbn [List.length]. rewrite N.add_0_r. apply nm_get_none.
        intros Hx. apply Hmx in Hx. lia. }
    destruct (nm_get i m) as [t|] eqn:Et.
    2:{ split; [intros [|j] z Hj; discriminate|]. left. cbn [List.length]. rewrite N.add_0_r. exact Et. }
    destruct (js_bigint t) as [z|] eqn:Ez.
    2:{ split; [reflexivity|]. exists 0%nat, t. split; [intros j' Hj'; lia|]. rewrite N.add_0_r. auto. }
    specialize (IH (i + 1)). destruct (js_prefix_loop fuel (i + 1) mx m) as [zs|e|].
    + destruct IH as [H1 H2]. split.
      * intros [|j] z' Hj; cbn [nth_error] in Hj.
        -- assert (z' = z) by congruence. subst z'. rewrite N.add_0_r. eauto.
        -- destruct (H1 j z' Hj) as (t'&Ht&Hz). exists t'. split; [|exact Hz]. rewrite <- Ht. f_equal. lia.
      * cbn [List.length]. destruct H2 as [H2|H2]; [left|right; congruence]. rewrite <- H2. f_equal. lia.
    + destruct IH as (He&j&t'&H1&H2&H3). split; [exact He|]. exists (S j), t'. split; [|split; [rewrite <- H2; f_equal; lia|exact H3]].
      intros [|j'] Hj'.
      * exists t, z. rewrite N.add_0_r. auto.
      * destruct (H1 j' ltac:(lia)) as (t2&z2&Ht2&Hz2). exists t2, z2. split; [|exact Hz2]. rewrite <- Ht2. f_equal. lia.
    + exact IH.
Qed.

(** The array encap builds: 1, then the integers of the wires up to the first one without a value,
    whatever the wire map; a value BigInt cannot read is the only error. *)
Theorem C47_witness_prefix :
  forall m : nmap text,
    match js_witness_array m with
    | Ok l => exists zs, l = 1%Z :: zs /\ prefix_values m zs
    | Err e => e = JsSyntaxError /\
        exists i t, (forall j, 1 <= j < i -> exists t' z', nm_get j m = Some t' /\ js_bigint t' = Some z') /\
                    1 <= i /\ nm_get i m = Some t /\ js_bigint t = None
    | Panic => False
    end.
Proof.
  intros m. unfold js_witness_array. destruct (js_max_wire m) as [mx|] eqn:Em.
  2:{ exists []. split; [reflexivity|]. split; [intros [|i] z Hi; discriminate|]. destruct m; [reflexivity|discriminate]. }
  assert (Hmx : forall k, In k (map fst m) -> k <= mx).
  { intros k Hk. unfold js_max_wire in Em. destruct m as [|kv m]; [discriminate|]. injection Em as <-.
    apply (proj2 (max_wire_above (kv :: m) 0)). exact Hk. }
  pose proof (prefix_loop_spec m mx Hmx (S (List.length m)) 1) as H.
  destruct (js_prefix_loop (S (List.length m)) 1 mx m) as [zs|e|]; [|..|exact H].
  - exists zs. split; [reflexivity|]. destruct H as [H1 [H2|H2]]; split; try exact H1; try exact H2. exfalso.
    assert (Hincl : incl (map (fun j => 1 + N.of_nat j) (seq 0 (S (List.length m)))) (map fst m)).
    { intros k Hk. apply in_map_iff in Hk as (j&<-&Hj). apply in_seq in Hj.
      destruct (nth_error zs j) as [z|] eqn:Ez; [|apply nth_error_None in Ez; lia].
      destruct (H1 j z Ez) as (t&Ht&_). eapply nm_get_key. exact Ht. }
    apply NoDup_incl_length in Hincl.
    + rewrite !map_length, seq_length in Hincl. lia.
    + apply FinFun.Injective_map_NoDup; [intros a b Hab; lia|apply seq_NoDup].
  - destruct H as (He&j&t&H1&H2&H3). split; [exact He|]. exists (1 + N.of_nat j), t. split; [|split; [lia|auto]].
    intros j' Hj'. destruct (H1 (N.to_nat (j' - 1)) ltac:(lia)) as (t'&z'&Ht&Hz). exists t', z'. split; [|exact Hz].
    rewrite <- Ht. f_equal. lia.
Qed.
Print Assumptions C47_witness_prefix.

(** The file it is put in, for every array: the standard format with the modulus in the header and,
    as elements, the integers modulo 2^256 in 32 bytes. *)
Theorem C47_serialised_file :
  forall vals : list Z,
    serialize_witness vals =
    Ok (wtns_bytes [WHeader (le_bytes 32 (Z.to_N bn_r)) (N.of_nat (List.length vals));
                    WData (flat_map (fun z => le_bytes 32 (Z.to_N (z mod 2 ^ 256))) vals)]).
Proof.
  intros vals. rewrite serialize_layout. rewrite flat_map_concat_map.
  rewrite (map_ext _ _ bigint32_bytes). reflexivity.
Qed.
Print Assumptions C47_serialised_file.

Lemma wtns_two_len prime n d : blen (wtns_bytes [WHeader prime n; WData d]) = 44 + blen prime + blen d.
Proof.
  unfold wtns_bytes, section_bytes. cbn [flat_map fst snd wsec_payload wsec_type]. unfold u32, u64.
  rewrite !blen_app, !blen_le_bytes, blen_nil. change (blen ascii_wtns) with 4. lia.
Qed.
Lemma serialised_data (vals : list Z) : blen (flat_map (fun z => le_bytes 32 (Z.to_N (z mod 2 ^ 256))) vals) = 32 * N.of_nat (List.length vals).
Proof.
  induction vals as [|z l IH]; [reflexivity|]. cbn [flat_map List.length]. rewrite blen_app, IH, blen_le_bytes. lia.
Qed.
(** Any witness file with 32-byte elements is a standard file. *)
Lemma standard_of prime (vals : list (list byte)) : blen prime = 32 -> Forall (fun v => blen v = 32) vals ->
  N.of_nat (List.length vals) < 2 ^ 32 ->
  standard_file prime vals [WHeader prime (N.of_nat (List.length vals)); WData (List.concat vals)].
Proof.
  intros Hp Hv Hn. split; [|split; [|split; [|split]]].
  - exists [], [], []. split; [constructor|]. reflexivity.
  - constructor; [split; [rewrite Hp; reflexivity|exact Hn]|constructor; [exact I|constructor]].
  - reflexivity.
  - intros ->. discriminate Hp.
  - rewrite Hp. exact Hv.
Qed.

(** What the WASM reader gets back: the residues of the integers modulo 2^256. *)
Theorem C47_read_back :
  forall (W : N) (fuel : nat) (vals : list Z),
    2 * (76 + 32 * N.of_nat (List.length vals)) < W -> W <= 2 ^ 64 -> N.of_nat (List.length vals) < 2 ^ 32 ->
    76 + 32 * N.of_nat (List.length vals) < N.of_nat fuel ->
    exists file, serialize_witness vals = Ok file /\ blen file = 76 + 32 * N.of_nat (List.length vals) /\
      js_parse_witness W file fuel = Ok (map (fun z => fr (z mod 2 ^ 256)) vals).
Proof.
  intros W fuel vals HW HW' Hn Hf. rewrite C47_serialised_file. eexists. split; [reflexivity|].
  assert (Hl : blen (wtns_bytes [WHeader (le_bytes 32 (Z.to_N bn_r)) (N.of_nat (List.length vals));
                    WData (flat_map (fun z => le_bytes 32 (Z.to_N (z mod 2 ^ 256))) vals)]) = 76 + 32 * N.of_nat (List.length vals)).
  { rewrite wtns_two_len, serialised_data, blen_le_bytes. lia. }
  split; [exact Hl|].
  rewrite (C21_reads_back_every_file W (le_bytes 32 (Z.to_N bn_r)) (map (fun z => le_bytes 32 (Z.to_N (z mod 2 ^ 256))) vals)).
  - f_equal. rewrite map_map. apply map_ext. intros z. unfold element_value, residue.
    rewrite firstn_all2 by (rewrite le_bytes_length; apply le_n). rewrite le_val_small.
    + rewrite Z2N.id; [reflexivity|]. apply Z.mod_pos_bound. reflexivity.
    + change (256 ^ N.of_nat 32) with (Z.to_N (2 ^ 256)). apply Z2N.inj_lt; try apply Z.mod_pos_bound; try reflexivity. discriminate.
  - rewrite flat_map_concat_map, <- (map_length (fun z => le_bytes 32 (Z.to_N (z mod 2 ^ 256))) vals). apply standard_of.
    + apply blen_le_bytes.
    + apply Forall_map, Forall_forall. intros z _. apply blen_le_bytes.
    + rewrite map_length. exact Hn.
  - rewrite Hl. exact HW.
  - exact HW'.
  - assert (Hx : forall l : list byte, blen l = 76 + 32 * N.of_nat (List.length vals) -> (List.length l < fuel)%nat).
    { intros l E. unfold blen in E. lia. }
    apply Hx. exact Hl.
Qed.
Print Assumptions C47_read_back.

(** These residues are those of the integers exactly when z / 2^256 is a multiple of the modulus:
    for every integer between 0 and 2^256 - 1, and for no negative one above - r * 2^256. *)
Theorem C47_value_preserved_iff :
  forall z : Z, fr (z mod 2 ^ 256) = fr z <-> (bn_r | z / 2 ^ 256)%Z.
Proof.
  intros z. refine (iff_trans (zp_eq_iff bn_r bn_r_prime (z mod 2 ^ 256) z) _).
  assert (Hr : bn_r <> 0%Z) by discriminate.
  assert (E : (z - z mod 2 ^ 256 = 2 ^ 256 * (z / 2 ^ 256))%Z) by (rewrite (Z.div_mod z (2 ^ 256)) at 1; [ring|discriminate]).
  assert (G : (z mod 2 ^ 256 mod bn_r = z mod bn_r <-> (bn_r | z - z mod 2 ^ 256))%Z).
  { generalize (z mod 2 ^ 256)%Z. intros y. rewrite <- Z.mod_divide by exact Hr. rewrite Zminus_mod. split.
    - intros ->. rewrite Z.sub_diag. reflexivity.
    - intros H. assert (Hy := Z.mod_pos_bound y bn_r ltac:(reflexivity)). assert (Hz := Z.mod_pos_bound z bn_r ltac:(reflexivity)).
      revert H Hy Hz. generalize (y mod bn_r)%Z (z mod bn_r)%Z. intros a b H Ha Hb.
      apply Z.mod_divide in H; [|exact Hr]. destruct H as [q Hq].
      assert (q = 0%Z); [|subst q; lia]. clear - Hq Ha Hb. generalize dependent bn_r. intros. nia. }
  rewrite G, E. split.
  - intros Hd. apply Gauss in Hd; [exact Hd|]. apply Zpow_facts.rel_prime_Zpower_r; [discriminate|].
    apply prime_rel_prime; [exact bn_r_prime|]. intros Hx. apply Z.divide_pos_le in Hx; [|reflexivity].
    apply Hx. reflexivity.
  - apply Z.divide_mul_r.
Qed.
Print Assumptions C47_value_preserved_iff.

(** Refuted for negative integers and for integers of more than 256 bits: the value used is not
    the residue of the integer, which is what the CLI uses for the same numeral. *)
Theorem C47_negative_and_long_values_refuted :
  forall z : Z, (- (bn_r - 1) * 2 ^ 256 <= z < 0 \/ 2 ^ 256 <= z < bn_r * 2 ^ 256)%Z ->
    fr (z mod 2 ^ 256) <> fr z.
Proof.
  intros z Hz E. apply C47_value_preserved_iff in E.
  assert (Hb : (0 < 2 ^ 256)%Z) by reflexivity.
  assert (Hd : (- (bn_r - 1) <= z / 2 ^ 256 <= -1 \/ 1 <= z / 2 ^ 256 <= bn_r - 1)%Z).
  { generalize dependent (2 ^ 256)%Z. intros b Hz E Hb. destruct Hz as [[H1 H2]|[H1 H2]]; [left|right]; split.
    - apply Z.div_le_lower_bound; lia.
    - assert (z / b < 0)%Z by (apply Z.div_lt_upper_bound; lia). lia.
    - apply Z.div_le_lower_bound; lia.
    - assert (z / b < bn_r)%Z by (apply Z.div_lt_upper_bound; lia). lia. }
  destruct Hd as [Hd|Hd].
  - apply Z.divide_opp_r in E. apply Z.divide_pos_le in E; lia.
  - apply Z.divide_pos_le in E; lia.
Qed.
Print Assumptions C47_negative_and_long_values_refuted.
Theorem C47_ordinary_values_preserved :
  forall z : Z, (0 <= z < 2 ^ 256)%Z -> fr (z mod 2 ^ 256) = fr z.
Proof. intros z Hz. rewrite Z.mod_small by exact Hz. reflexivity. Qed.
Print Assumptions C47_ordinary_values_preserved.

(** All of it at once: an array of ordinary values comes out of the reader as their residues. *)
Example C47_nonvacuous :
  let m := [(2, lit "0x10"); (1, lit " 7 "); (4, lit "9")] in
  js_witness_array m = Ok [1; 7; 16]%Z /\ prefix_values m [7; 16]%Z /\ fr (-1 mod 2 ^ 256) <> fr (-1).
Proof.
  cbv zeta. split; [vm_compute; reflexivity|]. split.
  - split; [|reflexivity]. intros [|[|[|i]]] z Hz; try discriminate Hz; assert (Hz' := Hz); cbn [nth_error] in Hz'.
    + exists (lit " 7 "). assert (z = 7%Z) by congruence. subst z. split; vm_compute; reflexivity.
    + exists (lit "0x10"). assert (z = 16%Z) by congruence. subst z. split; vm_compute; reflexivity.
  - apply C47_negative_and_long_values_refuted. left. split; [vm_compute; discriminate|reflexivity].
Qed.
