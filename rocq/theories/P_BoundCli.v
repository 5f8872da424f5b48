(** Property theorems C58, the CLI on any document: names given twice, two names on one wire.
    Vocabulary: SpecBound.v, SpecCommands.v. *)
From Coq Require Import List Bool Arith NArith ZArith Lia Permutation.
From Coq Require Import Strings.String Strings.Byte.
From Verif Require Import Res Bytes Text Utf8 Fld Zp Groups Bn254 CS CSFacts Qap SpecCore Core CoreFacts CoreMore P_Core
  R1cs SpecR1cs R1csFacts P_R1cs Wtns SpecWtns WtnsFacts P_Wtns Circuit SpecCircuit CircuitFacts P_Circuit
  ArkSer ArkSerFacts P_Ser Sym SpecSym SymFacts P_Sym Inputs SpecInputs InputsFacts P_Inputs
  Combined SpecCombined CombinedFacts P_Combined Gcm SpecGcm GcmFacts P_Gcm FileSys Commands SpecCommands CommandsFacts
  PartialEncap P_Commands JsZkenc JsZkencFacts P_JsZkenc SpecJs SpecBound P_Bound.
Import ListNotations.
Local Open Scope N_scope.

Lemma named_values_eq v : forall key, named_values key v = leaves v key.
Proof.
  induction v as [|b|z|t|t|l IH|l IH] using json_ind'; intros key; try reflexivity.
  rewrite leaves_arr_eq. cbn [named_values].
  assert (G : forall i, (fix go (i : nat) (l : list json) : list (text * json) :=
                 match l with
                 | [] => []
                 | x :: l => named_values (key ++ lit "[" ++ dec_text (N.of_nat i) ++ lit "]") x ++ go (S i) l
                 end) i l = leaves_arr key (N.of_nat i) l).
  { induction IH as [|x l Hx _ IHl]; intros i; [reflexivity|]. cbn [leaves_arr]. rewrite Hx, IHl.
    unfold index_key. replace (N.of_nat (S i)) with (N.of_nat i + 1) by lia. reflexivity. }
  apply (G O).
Qed.
Lemma cli_values_eq kvs : cli_values kvs = doc_leaves kvs.
Proof. unfold cli_values, doc_leaves. induction kvs as [|[k v] kvs IH]; [reflexivity|]. cbn [flat_map fst snd]. rewrite named_values_eq, IH. reflexivity. Qed.

Lemma last_leaf_iff n ls x : last_leaf n ls = Some x <-> exists pre post, ls = pre ++ (n, x) :: post /\ ~ In n (map fst post).
Proof.
  assert (Hnone : forall l, last_leaf n l = None <-> ~ In n (map fst l)).
  { intros l. split.
    - intros H Hi. apply in_map_iff in Hi as ([n' y]&Hn&Hi). cbn [fst] in Hn. subst n'. exact (last_leaf_none n l H y Hi).
    - intros H. destruct (last_leaf n l) as [y|] eqn:E; [|reflexivity]. exfalso. apply H. apply last_leaf_in in E.
      apply in_map_iff. exists (n, y). auto. }
  induction ls as [|[k y] ls IH]; cbn [last_leaf].
  - split; [discriminate|]. intros (pre&post&H&_). destruct pre; discriminate.
  - destruct (last_leaf n ls) as [z|] eqn:E.
    + rewrite IH. split.
      * intros (pre&post&->&H). exists ((k, y) :: pre), post. auto.
      * intros (pre&post&H&Hn). destruct pre as [|p pre].
        -- exfalso. cbn [app] in H. injection H as Hk0 Hy0 Hl0. subst k y ls. apply Hnone in Hn. congruence.
        -- cbn [app] in H. injection H as Hp0 Hl0. subst ls. exists pre, post. auto.
    + split.
      * destruct (text_eqb n k) eqn:Ek; [|discriminate]. intros [= <-]. apply text_eqb_eq in Ek. subst k. exists [], ls.
        split; [reflexivity|]. apply Hnone. exact E.
      * intros (pre&post&H&Hn). destruct pre as [|p pre].
        -- cbn [app] in H. injection H as Hk0 Hy0 Hl0. subst k y ls. rewrite text_eqb_refl. reflexivity.
        -- exfalso. cbn [app] in H. injection H as Hp0 Hl0. subst ls. apply Hnone in E. apply E. rewrite map_app. apply in_app_iff. right. left. reflexivity.
Qed.

(** What the input map holds: the last value of each name. *)
Lemma parsed_last kvs m : parse_inputs_with_keys (JObj kvs) = Ok m ->
  hm_wf m /\ forall name a, hm_get name m = Some a <-> exists x, last_value kvs name x /\ numeric x a.
Proof.
  intros H. cbn [parse_inputs_with_keys] in H. rewrite flatten_entries_leaves in H.
  destruct (insert_leaves_ok _ _ _ H) as (H1&_&H3); [constructor|]. split; [exact H1|]. intros n a. specialize (H3 n).
  assert (Hl : forall x, last_value kvs n x <-> last_leaf n (doc_leaves kvs) = Some x).
  { intros x. rewrite last_leaf_iff. unfold last_value. rewrite cli_values_eq. reflexivity. }
  destruct (last_leaf n (doc_leaves kvs)) as [x|].
  - destruct H3 as (b&Hb&Hg). rewrite Hg. split.
    + intros [= <-]. exists x. split; [apply Hl; reflexivity|exact Hb].
    + intros (y&Hy&Hn). apply Hl in Hy. injection Hy as <-. f_equal. eapply numeric_fun; eauto.
  - rewrite H3. cbn [hm_get]. split; [discriminate|]. intros (y&Hy&_). apply Hl in Hy. discriminate.
Qed.

Section Visit.
  Context (json_parse : text -> option json) (v : visits) (syms : hmap N) (n_in : N) (t : text) (kvs : list (text * json)).
  Hypothesis Hwf : hm_wf syms.
  Hypothesis Hj : json_parse t = Some (JObj kvs).
  Let sig := get_input_signals (visit_syms v syms) (Some n_in).
  Lemma sig_iff name w : hm_get name sig = Some w <-> hm_get (lit "main." ++ name) syms = Some w /\ w <= n_in.
  Proof using Hwf.
    unfold sig. rewrite (C28_input_signals syms (visit_syms v syms) (Some n_in) Hwf (visit_syms_ok v syms)).
    split; intros [H1 H2]; (split; [exact H1|]).
    - apply H2. reflexivity.
    - intros b [= <-]. exact H2.
  Qed.
  Lemma visited inputs : parse_inputs_text json_parse t = Ok inputs -> forall n a,
    In (n, a) (visit_inputs v inputs) <-> exists x, last_value kvs n x /\ numeric x a.
  Proof using Hj.
    intros Hin n a. unfold parse_inputs_text in Hin. rewrite Hj in Hin. destruct (parsed_last kvs inputs Hin) as [W Hv].
    rewrite <- Hv, (hm_get_in n a inputs W). split; apply Permutation_in; [apply Permutation_sym|]; apply visit_inputs_ok.
  Qed.
  Lemma visit_offers inputs w : 1 <= w -> w <= n_in -> parse_inputs_text json_parse t = Ok inputs ->
    match nm_get w (cli_witness sig (visit_inputs v inputs)) with
    | Some a => cli_offers syms kvs w a
    | None => forall a, ~ cli_offers syms kvs w a
    end.
  Proof using Hwf Hj.
    intros Hw1 Hw2 Hin. rewrite cli_witness_put.
    destruct (put_spec (fun n => hm_get n sig) (visit_inputs v inputs) [(0, fr 1)] w) as (P1&P2&_).
    destruct (nm_get w (fold_left (put (fun n => hm_get n sig)) (visit_inputs v inputs) [(0, fr 1)])) as [a|] eqn:Ea.
    - destruct (P1 a eq_refl) as [(n&Hi&Hn)|(H0&_)].
      + apply (visited inputs Hin) in Hi as (x&Hx&Ha). apply sig_iff in Hn as [Hn _]. exists n, x. auto.
      + exfalso. cbn [nm_get] in H0. destruct (N.eqb_spec w 0) as [->|]; [clear - Hw1; lia|discriminate].
    - intros a (n&x&Hx&Hn&Ha). destruct P2 as (b&Hb); [|congruence]. exists n, a. split.
      + apply (visited inputs Hin). exists x. auto.
      + apply sig_iff. auto.
  Qed.
  Lemma visit_limit inputs w a : nm_get w (cli_witness sig (visit_inputs v inputs)) = Some a -> 1 <= w -> w <= n_in.
  Proof using Hwf.
    intros H Hw1. rewrite cli_witness_put in H.
    destruct (put_spec (fun n => hm_get n sig) (visit_inputs v inputs) [(0, fr 1)] w) as (P1&_&_).
    destruct (P1 a H) as [(n&_&Hn)|(H0&_)].
    - apply sig_iff in Hn. apply Hn.
    - exfalso. cbn [nm_get] in H0. destruct (N.eqb_spec w 0) as [->|]; [clear - Hw1; lia|discriminate].
  Qed.
End Visit.

(** Visiting the chosen entries last. *)
Definition picks (syms : hmap N) (chosen : N -> option Fr) (e : text * Fr) : bool :=
  match hm_get (lit "main." ++ fst e) syms with
  | Some w => match chosen w with Some b => feqb (snd e) b | None => false end
  | None => false
  end.
Lemma partition_perm {A} (f : A -> bool) l : Permutation l (filter (fun x => negb (f x)) l ++ filter f l).
Proof.
  induction l as [|a l IH]; [constructor|]. cbn [filter]. destruct (f a); cbn [negb app].
  - apply Permutation_cons_app. exact IH.
  - constructor. exact IH.
Qed.
Definition visit_last (syms : hmap N) (chosen : N -> option Fr) : visits :=
  Visits (fun m => m) (fun m => filter (fun e => negb (picks syms chosen e)) m ++ filter (picks syms chosen) m)
    (fun m => Permutation_refl m) (fun m => partition_perm (picks syms chosen) m).

Lemma visit_last_chosen json_parse syms n_in t kvs chosen inputs : hm_wf syms -> json_parse t = Some (JObj kvs) ->
  choice syms kvs n_in chosen -> parse_inputs_text json_parse t = Ok inputs -> forall w, 1 <= w <= n_in ->
  nm_get w (cli_witness (get_input_signals (visit_syms (visit_last syms chosen) syms) (Some n_in)) (visit_inputs (visit_last syms chosen) inputs)) = chosen w.
Proof.
  intros Hwf Hj Hch Hin w Hw. specialize (Hch w Hw).
  assert (Hoff := visit_offers json_parse (visit_last syms chosen) syms n_in t kvs Hwf Hj inputs w (proj1 Hw) (proj2 Hw) Hin).
  assert (Hvis := visited json_parse (visit_last syms chosen) t kvs Hj inputs Hin).
  assert (Hsig := sig_iff (visit_last syms chosen) syms n_in Hwf).
  set (sig := get_input_signals _ _) in *. rewrite cli_witness_put in *.
  destruct (chosen w) as [a|] eqn:Ec.
  - destruct Hch as (n&x&Hl&Hn&Ha).
    assert (Hi : In (n, a) (visit_inputs (visit_last syms chosen) inputs)) by (apply Hvis; exists x; auto).
    cbn [visit_last visit_inputs] in Hi. 
    assert (Hp : picks syms chosen (n, a) = true).
    { unfold picks. cbn [fst snd]. rewrite Hn, Ec. apply feqb_true. reflexivity. }
    assert (Hi2 : In (n, a) (filter (picks syms chosen) inputs)).
    { apply filter_In. split; [|exact Hp]. apply in_app_iff in Hi as [Hi|Hi]; apply filter_In in Hi; apply Hi. }
    cbn [visit_last visit_inputs]. rewrite fold_left_app.
    set (w0 := fold_left _ (filter (fun e => negb (picks syms chosen e)) inputs) _).
    rewrite (put_exact (fun n => hm_get n sig) (filter (picks syms chosen) inputs) w0 w).
    + left. exists n. split; [exact Hi2|]. apply Hsig. split; [exact Hn|apply Hw].
    + intros n1 n2 a1 a2 I1 I2 S1 S2. apply filter_In in I1, I2. destruct I1 as [_ I1], I2 as [_ I2]. apply Hsig in S1, S2.
      unfold picks in I1, I2. cbn [fst snd] in I1, I2. rewrite (proj1 S1), Ec in I1. rewrite (proj1 S2), Ec in I2.
      apply feqb_true in I1, I2. congruence.
  - destruct (nm_get w _) as [b|]; [|reflexivity]. exfalso. exact (Hch b Hoff).
Qed.

Lemma chosen_given json_parse v syms n_in t kvs chosen : hm_wf syms -> json_parse t = Some (JObj kvs) ->
  (forall inputs w, 1 <= w <= n_in -> parse_inputs_text json_parse t = Ok inputs ->
     nm_get w (cli_witness (get_input_signals (visit_syms v syms) (Some n_in)) (visit_inputs v inputs)) = chosen w) ->
  forall inputs w x, 1 <= w -> parse_inputs_text json_parse t = Ok inputs ->
    (nm_get w (cli_witness (get_input_signals (visit_syms v syms) (Some n_in)) (visit_inputs v inputs)) = Some x <->
     w <= n_in /\ chosen w = Some x).
Proof.
  intros Hwf Hj Hc inputs w x Hw Hin. split.
  - intros H. assert (Hl := visit_limit v syms n_in Hwf inputs w x H Hw). split; [exact Hl|].
    rewrite <- (Hc inputs w (conj Hw Hl) Hin). exact H.
  - intros [Hl H]. rewrite (Hc inputs w (conj Hw Hl) Hin). exact H.
Qed.
Lemma chosen_bound chosen n_in vals :
  (forall w a, given_bound (fun w a => chosen w = Some a) n_in w a -> nth_error vals (N.to_nat w) = Some a) <-> has_chosen chosen n_in vals.
Proof.
  split.
  - intros H w Hw Hall. destruct (chosen w) as [a|] eqn:E; [|exfalso; apply (Hall w ltac:(lia)); exact E].
    apply (H w a). split; [exact Hw|]. split; [|exact E]. intros j Hj. specialize (Hall j Hj). destruct (chosen j); [eauto|congruence].
  - intros H w a (Hw&Hall&E). rewrite <- E. apply H; [exact Hw|]. intros j Hj. destruct (Hall j Hj) as (b&Hb). congruence.
Qed.

(** What decrypt does with a file of encrypt, given the values chosen for the public inputs. *)
Definition opened_with {E : pairingT Fr} (C : codecT E) (kdf : GT E -> key) (aes : cipherT) max_off
  (cb : list byte) (r : r1cs_file) (f : option (list byte)) (mb : list byte) (chosen : N -> option Fr) : Prop :=
  forall s2 cp' wp ctp op' wb vals,
    s2 cp' = Some cb -> s2 ctp = f -> s2 wp = Some wb -> cli_read_witness wb = Ok vals ->
    ((exists s3, run (decrypt_command C kdf aes max_off cp' wp ctp op') s2 = (s3, Ok tt)) <->
     opens_circuit r vals /\ has_chosen chosen (r_n_pub_in r) vals) /\
    (forall s3, run (decrypt_command C kdf aes max_off cp' wp ctp op') s2 = (s3, Ok tt) -> s3 = fs_write op' mb s2).

(** Encrypt with any document: one of the offered values is chosen for each public input, and decrypt
    succeeds exactly for a satisfying witness that has the chosen values. *)
Theorem C58_cli_decrypt_iff_any_document :
  forall (E : pairingT Fr) (C : codecT E) (D : domainT Fr) (kdf : GT E -> key) (aes : cipherT)
         json_parse max_off v co cp sp ip mp op inc s1 s1' cb sb ib mb r st syms it kvs,
    (forall g, List.length (kdf g) = 32%nat) -> List.length (c_nonce co) = 12%nat ->
    s1 cp = Some cb -> s1 sp = Some sb -> s1 ip = Some ib -> s1 mp = Some mb ->
    r1cs_from_bytes max_off cb = Ok r -> usable r -> factors_below (r_n_wires r) (r_constraints r) ->
    (inc = true -> blen ib < 2 ^ 32) ->
    utf8_decode sb = Some st -> parse_sym_file st = Ok syms -> utf8_decode ib = Some it -> json_parse it = Some (JObj kvs) ->
    run (encrypt_command C D kdf aes json_parse max_off v co cp sp ip mp op inc) s1 = (s1', Ok tt) ->
    exists chosen, choice syms kvs (r_n_pub_in r) chosen /\ opened_with C kdf aes max_off cb r (s1' op) mb chosen.
Proof.
  intros E C D kdf aes json_parse max_off v co cp sp ip mp op inc s1 s1' cb sb ib mb r st syms it kvs
    Hkdf Hn H1 H2 H3 H4 Hr Hu Hfb Hib Hst Hsy Hit Hj Hrun.
  assert (Hwf := parse_sym_file_wf _ _ Hsy).
  assert (Hin : exists inputs, parse_inputs_text json_parse it = Ok inputs).
  { pose proof Hrun as Hx. apply run_exec' in Hx. apply exec_encrypt in Hx as [[_ Hx]|Hx]; [congruence|].
    destruct Hx as (cb'&sb'&ib'&mb'&t&c&ct&k&enc&E1&E2&E3&E4&Hp&_).
    destruct Hp as (r0&st0&syms0&inputs&_&_&_&Ht&Hin&_). exists inputs. assert (t = it) by congruence. subst t. exact Hin. }
  destruct Hin as [inputs Hin].
  exists (fun w => nm_get w (cli_witness (get_input_signals (visit_syms v syms) (Some (r_n_pub_in r))) (visit_inputs v inputs))).
  split.
  { intros w Hw. exact (visit_offers json_parse v syms (r_n_pub_in r) it kvs Hwf Hj inputs w (proj1 Hw) (proj2 Hw) Hin). }
  set (chosen := fun w => nm_get w _).
  intros s2 cp' wp ctp op' wb vals Hc Hct Hw Hv. rewrite <- chosen_bound.
  apply (cli_decrypt_given E C D kdf aes json_parse max_off v co cp sp ip mp op inc s1 s1' s2 cp' wp ctp op' cb sb ib mb wb r vals st syms it
    (fun w a => chosen w = Some a) Hkdf Hn H1 H2 H3 H4 Hr Hu Hfb Hib Hst Hsy Hit); try assumption.
  apply (chosen_given json_parse v syms (r_n_pub_in r) it kvs chosen Hwf Hj).
  intros inputs' w _ Hin'. assert (inputs' = inputs) by congruence. subst inputs'. reflexivity.
Qed.
Print Assumptions C58_cli_decrypt_iff_any_document.

(** Every choice can happen: for each there is an order of visiting the hash map that takes it, so that
    a document with two values on one wire encrypts for one or the other by chance. *)
Theorem C58_every_choice_can_happen :
  forall (E : pairingT Fr) (C : codecT E) (D : domainT Fr) (kdf : GT E -> key) (aes : cipherT)
         json_parse max_off cb sb ib mb r st syms it kvs chosen,
    (forall g, List.length (kdf g) = 32%nat) ->
    r1cs_from_bytes max_off cb = Ok r -> usable r -> factors_below (r_n_wires r) (r_constraints r) ->
    utf8_decode sb = Some st -> parse_sym_file st = Ok syms -> utf8_decode ib = Some it -> json_parse it = Some (JObj kvs) ->
    choice syms kvs (r_n_pub_in r) chosen ->
    exists v, forall co cp sp ip mp op inc s1 s1',
      List.length (c_nonce co) = 12%nat -> (inc = true -> blen ib < 2 ^ 32) ->
      s1 cp = Some cb -> s1 sp = Some sb -> s1 ip = Some ib -> s1 mp = Some mb ->
      run (encrypt_command C D kdf aes json_parse max_off v co cp sp ip mp op inc) s1 = (s1', Ok tt) ->
      opened_with C kdf aes max_off cb r (s1' op) mb chosen.
Proof.
  intros E C D kdf aes json_parse max_off cb sb ib mb r st syms it kvs chosen Hkdf Hr Hu Hfb Hst Hsy Hit Hj Hch.
  assert (Hwf := parse_sym_file_wf _ _ Hsy). exists (visit_last syms chosen).
  intros co cp sp ip mp op inc s1 s1' Hn Hib H1 H2 H3 H4 Hrun s2 cp' wp ctp op' wb vals Hc Hct Hw Hv. rewrite <- chosen_bound.
  apply (cli_decrypt_given E C D kdf aes json_parse max_off (visit_last syms chosen) co cp sp ip mp op inc s1 s1' s2 cp' wp ctp op' cb sb ib mb wb r vals st syms it
    (fun w a => chosen w = Some a) Hkdf Hn H1 H2 H3 H4 Hr Hu Hfb Hib Hst Hsy Hit); try assumption.
  apply (chosen_given json_parse (visit_last syms chosen) syms (r_n_pub_in r) it kvs chosen Hwf Hj).
  intros inputs w Hw' Hin. apply (visit_last_chosen json_parse syms (r_n_pub_in r) it kvs chosen inputs Hwf Hj Hch Hin w Hw').
Qed.
Print Assumptions C58_every_choice_can_happen.

(** y * y = x, where x has a second name z and the document gives 9 to one and 16 to the other: both
    are offered, one visiting order makes the file open for y = 3 only, another for y = 4 only. *)
Definition two_syms : hmap N := [(lit "main.x", 1); (lit "main.z", 1); (lit "main.y", 2)].
Definition two_doc : list (text * json) := [(lit "x", JInt 9); (lit "z", JInt 16)].
Definition two_fs : fsys :=
  fs_write (lit "3") (ex_values_file [fr 1; fr 9; fr 3]) (fs_write (lit "4") (ex_values_file [fr 1; fr 16; fr 4])
  (fs_write (lit "s") (utf8_encode (lit "1,1,1,main.x" ++ [10] ++ lit "3,1,1,main.z" ++ [10] ++ lit "2,2,1,main.y")) ex_fs)).
Definition two_chosen (z : Z) (w : N) : option Fr := if w =? 1 then Some (fr z) else None.
Definition two_outcome (z : Z) (wp : text) : option (list byte) :=
  let '(s1, _) := run (encrypt_command ex_codec bn_domain ex_kdf32 Aes.aes256 (fun _ => Some (JObj two_doc)) (2 ^ 63 - 1)
     (visit_last two_syms (two_chosen z)) ex_coins (lit "c") (lit "s") (lit "i") (lit "m") (lit "o") true) two_fs in
  let '(s2, _) := run (decrypt_command ex_codec ex_kdf32 Aes.aes256 (2 ^ 63 - 1) (lit "c") wp (lit "o") (lit "p")) s1 in s2 (lit "p").
Example C58_two_names_nonvacuous :
  choice two_syms two_doc 1 (two_chosen 9) /\ choice two_syms two_doc 1 (two_chosen 16) /\
  two_outcome 9 (lit "3") = Some [x68; x69] /\ two_outcome 9 (lit "4") = None /\
  two_outcome 16 (lit "3") = None /\ two_outcome 16 (lit "4") = Some [x68; x69].
Proof.
  assert (Hc : forall z n, (z = 9%Z /\ n = lit "x") \/ (z = 16%Z /\ n = lit "z") -> choice two_syms two_doc 1 (two_chosen z)).
  { intros z n Hz w Hw. assert (w = 1) by lia. subst w. cbn [two_chosen N.eqb Pos.eqb]. exists n, (JInt z). split; [|split].
    - destruct Hz as [[-> ->]|[-> ->]]; unfold last_value.
      + exists [], [(lit "z", JInt 16)]. split; [reflexivity|]. intros [H|[]]. discriminate.
      + exists [(lit "x", JInt 9)], []. split; [reflexivity|]. intros [].
    - destruct Hz as [[-> ->]|[-> ->]]; reflexivity.
    - constructor. destruct Hz as [[-> _]|[-> _]]; lia. }
  split; [apply (Hc 9%Z (lit "x")); auto|]. split; [apply (Hc 16%Z (lit "z")); auto|].
  vm_compute. repeat split.
Qed.
