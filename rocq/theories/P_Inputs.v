(** Property theorems C29-C33.  Which names a document gives, what its values mean: SpecInputs.v. *)
From Coq Require Import List Bool Arith NArith ZArith Lia Permutation.
From Coq Require Import Strings.String.
From Verif Require Import Res Text Fld Zp Bn254 Groups CS Qap SpecCore Core CoreFacts P_Core Sym SpecSym SymFacts P_Sym
  Inputs SpecInputs InputsFacts R1cs Circuit SpecCircuit CircuitFacts P_Circuit.
Import ListNotations.
Local Open Scope N_scope.

(** ** C29 *)
Theorem C29_accepted_iff_every_leaf_is_numeric :
  forall kvs : list (text * json),
    (exists m, parse_inputs_with_keys (JObj kvs) = Ok m) <->
    (forall name x, doc_leaf kvs name x -> exists a, numeric x a).
Proof.
  intros kvs. cbn [parse_inputs_with_keys]. rewrite flatten_entries_leaves. split.
  - intros (m&Hm) n x Hl. apply doc_leaves_spec in Hl.
    destruct (insert_leaves_ok _ _ _ Hm) as (_&H&_); [constructor|]. eapply H. exact Hl.
  - intros H. apply insert_leaves_total. intros k x Hi. apply (H k). apply doc_leaves_spec. exact Hi.
Qed.
Print Assumptions C29_accepted_iff_every_leaf_is_numeric.

Theorem C29_other_documents_are_errors :
  forall doc, (forall kvs, doc <> JObj kvs) -> parse_inputs_with_keys doc = Err NotAnObject.
Proof. intros [|b|z|t|t|l|l] H; try reflexivity. exfalso. eapply H. reflexivity. Qed.
Print Assumptions C29_other_documents_are_errors.
Theorem C29_never_panics : forall doc, parse_inputs_with_keys doc <> Panic.
Proof.
  intros [|b|z|t|t|l|l]; try discriminate. cbn [parse_inputs_with_keys]. rewrite flatten_entries_leaves.
  apply insert_leaves_no_panic.
Qed.
Print Assumptions C29_never_panics.

(** Every name gets a value, from one of its leaves; exactly its leaf's when there is only one. *)
Lemma parsed_values kvs m : parse_inputs_with_keys (JObj kvs) = Ok m ->
  hm_wf m /\
  (forall name a, hm_get name m = Some a -> exists x, doc_leaf kvs name x /\ numeric x a) /\
  (forall name x, doc_leaf kvs name x -> exists a, hm_get name m = Some a).
Proof.
  intros H. cbn [parse_inputs_with_keys] in H. rewrite flatten_entries_leaves in H.
  destruct (insert_leaves_ok _ _ _ H) as (H1&_&H3); [constructor|]. split; [exact H1|]. split.
  - intros n a Ha. specialize (H3 n). destruct (last_leaf n (doc_leaves kvs)) as [x|] eqn:E.
    + destruct H3 as (b&Hb&Hg). rewrite Hg in Ha. assert (b = a) by congruence. subst b.
      exists x. split; [|exact Hb]. apply doc_leaves_spec. apply last_leaf_in. exact E.
    + rewrite H3 in Ha. cbn in Ha. congruence.
  - intros n x Hl. specialize (H3 n). destruct (last_leaf n (doc_leaves kvs)) as [y|] eqn:E.
    + destruct H3 as (b&_&Hg). eauto.
    + exfalso. apply (last_leaf_none _ _ E x). apply doc_leaves_spec. exact Hl.
Qed.
Lemma numeric_fun x a b : numeric x a -> numeric x b -> a = b.
Proof. intros H H'. apply scalar_spec in H, H'. congruence. Qed.

Theorem C29_values :
  forall kvs m, unambiguous kvs -> parse_inputs_with_keys (JObj kvs) = Ok m ->
    forall name a, hm_get name m = Some a <-> exists x, doc_leaf kvs name x /\ numeric x a.
Proof.
  intros kvs m Hu H name a. destruct (parsed_values kvs m H) as (_&H1&H2). split; [apply H1|].
  intros (x&Hl&Hn). destruct (H2 name x Hl) as (b&Hb). rewrite Hb. f_equal.
  destruct (H1 name b Hb) as (x'&Hl'&Hn'). assert (x' = x) by (eapply Hu; eauto). subst x'.
  eapply numeric_fun; eauto.
Qed.
Print Assumptions C29_values.
(** Objects with distinct keys that contain no bracket are unambiguous. *)
Theorem C29_plain_keys_are_unambiguous : forall kvs, plain_keys kvs -> unambiguous kvs.
Proof. exact plain_keys_unambiguous. Qed.
Print Assumptions C29_plain_keys_are_unambiguous.

(** When names clash, the later entry of the document decides. *)
Theorem C29_later_entries_win :
  forall kvs1 kvs2 m name x a,
    parse_inputs_with_keys (JObj (kvs1 ++ kvs2)) = Ok m -> unambiguous kvs2 ->
    doc_leaf kvs2 name x -> numeric x a -> hm_get name m = Some a.
Proof.
  intros kvs1 kvs2 m name x a H Hu Hl Hn. cbn [parse_inputs_with_keys] in H. rewrite flatten_entries_leaves in H.
  destruct (insert_leaves_ok _ _ _ H) as (_&_&H3); [constructor|]. specialize (H3 name).
  assert (Happ : forall l1 l2, last_leaf name (l1 ++ l2) =
    match last_leaf name l2 with Some y => Some y | None => last_leaf name l1 end).
  { induction l1 as [|[k y] l1 IH]; intros l2; cbn [app last_leaf]; [destruct (last_leaf name l2); reflexivity|].
    rewrite IH. destruct (last_leaf name l2); reflexivity. }
  assert (Hd : doc_leaves (kvs1 ++ kvs2) = doc_leaves kvs1 ++ doc_leaves kvs2) by apply flat_map_app.
  rewrite Hd, Happ in H3. destruct (last_leaf name (doc_leaves kvs2)) as [y|] eqn:E.
  - destruct H3 as (b&Hb&Hg). rewrite Hg. f_equal.
    assert (y = x). { eapply Hu; [|exact Hl]. apply doc_leaves_spec. apply last_leaf_in. exact E. }
    subst y. eapply numeric_fun; eauto.
  - exfalso. apply (last_leaf_none _ _ E x). apply doc_leaves_spec. exact Hl.
Qed.
Print Assumptions C29_later_entries_win.

(** The wire assignment, for every order [it] in which the hash map is visited. *)
Theorem C29_wire_assignment :
  forall kvs m it (signals : hmap N),
    unambiguous kvs -> separate kvs (fun n => hm_get n signals) ->
    parse_inputs_with_keys (JObj kvs) = Ok m -> Permutation m it ->
    forall w a, nm_get w (cli_witness signals it) = Some a <->
      (exists name x, doc_leaf kvs name x /\ hm_get name signals = Some w /\ numeric x a) \/
      (w = 0 /\ a = fr 1 /\ forall name x, doc_leaf kvs name x -> hm_get name signals <> Some 0).
Proof.
  intros kvs m it signals Hu Hs Hm Hp w a. rewrite cli_witness_put.
  destruct (parsed_values kvs m Hm) as (Hwf&H1&H2). pose proof (C29_values kvs m Hu Hm) as Hv.
  assert (Hin : forall n b, In (n, b) it <-> exists x, doc_leaf kvs n x /\ numeric x b).
  { intros n b. rewrite <- Hv, (hm_get_in n b m Hwf). split; apply Permutation_in; [apply Permutation_sym|]; exact Hp. }
  rewrite put_exact.
  - split.
    + intros [(n&Hi&Hn)|(Hg&Hno)].
      * left. apply Hin in Hi. destruct Hi as (x&Hl&Hx). eauto.
      * right. cbn [nm_get] in Hg. destruct (N.eqb_spec w 0) as [->|Hw]; [|discriminate Hg].
        split; [reflexivity|]. split; [congruence|]. intros n x Hl. destruct (H2 n x Hl) as (b&Hb).
        apply Hv in Hb. apply Hin in Hb. exact (Hno n b Hb).
    + intros [(n&x&Hl&Hn&Hx)|(->&->&Hno)].
      * left. exists n. split; [apply Hin; eauto|exact Hn].
      * right. split; [reflexivity|]. intros n b Hi. apply Hin in Hi. destruct Hi as (x&Hl&_). eapply Hno. exact Hl.
  - intros n n' b b' Hi Hi' Hn Hn'. apply Hin in Hi, Hi'. destruct Hi as (x&Hl&Hx), Hi' as (x'&Hl'&Hx').
    assert (n = n') by (eapply Hs; eauto). subst n'. assert (x = x') by (eapply Hu; eauto). subst x'.
    eapply numeric_fun; eauto.
Qed.
Print Assumptions C29_wire_assignment.

Definition ex_doc : list (text * json) :=
  [(lit "a", JInt 5); (lit "b", JArr [JStr (lit "12"); JArr [JInt 7; JStr (lit "-1")]])].
Example C29_nonvacuous :
  plain_keys ex_doc /\ doc_leaf ex_doc (lit "b[1][0]") (JInt 7) /\
  (forall name x, doc_leaf ex_doc name x -> exists a, numeric x a).
Proof.
  split; [|split].
  - split.
    + repeat (constructor; [intros H; cbn in H; repeat (destruct H as [H|H]; [discriminate|]); exact H|]). constructor.
    + repeat constructor; discriminate.
  - apply doc_leaves_spec. vm_compute. auto.
  - intros n x Hl. apply doc_leaves_spec in Hl. destruct (scalar_value x) as [a|e|] eqn:E.
    + exists a. apply scalar_spec. exact E.
    + exfalso. cbn in Hl. repeat (destruct Hl as [Hl|Hl]; [assert (Hx : x = snd (n, x)) by reflexivity; rewrite <- Hl in Hx; cbn in Hx; subst x; discriminate E|]). exact Hl.
    + exfalso. exact (scalar_no_panic _ E).
Qed.

(** ** C30 *)
Lemma doc_leaf_perm kvs kvs' n x : Permutation kvs kvs' -> doc_leaf kvs n x -> doc_leaf kvs' n x.
Proof. intros Hp (k&v&Hi&Hl). exists k, v. split; [|exact Hl]. eapply Permutation_in; eauto. Qed.

(** Two documents with the same entries in different orders, two visits of the hash maps. *)
Theorem C30_order_does_not_matter :
  forall kvs kvs' m m' it it' (signals : hmap N),
    Permutation kvs kvs' -> unambiguous kvs -> separate kvs (fun n => hm_get n signals) ->
    parse_inputs_with_keys (JObj kvs) = Ok m -> parse_inputs_with_keys (JObj kvs') = Ok m' ->
    Permutation m it -> Permutation m' it' ->
    forall w, nm_get w (cli_witness signals it) = nm_get w (cli_witness signals it').
Proof.
  intros kvs kvs' m m' it it' signals Hp Hu Hs Hm Hm' Hit Hit' w.
  assert (Hu' : unambiguous kvs').
  { intros n x x' H H'. eapply Hu; eapply doc_leaf_perm; try (apply Permutation_sym; exact Hp); eassumption. }
  assert (Hs' : separate kvs' (fun n => hm_get n signals)).
  { intros n n' x x' w' H H'. eapply Hs; eapply doc_leaf_perm; try (apply Permutation_sym; exact Hp); eassumption. }
  pose proof (C29_wire_assignment kvs m it signals Hu Hs Hm Hit w) as H1.
  pose proof (C29_wire_assignment kvs' m' it' signals Hu' Hs' Hm' Hit' w) as H2.
  assert (Heq : forall a, nm_get w (cli_witness signals it) = Some a <-> nm_get w (cli_witness signals it') = Some a).
  { intros a. rewrite H1, H2. split; (intros [(n&x&Hl&Hn&Hx)|(Hw&Ha&Hno)];
      [left; exists n, x; split; [eapply doc_leaf_perm; [|exact Hl]; auto using Permutation_sym|auto]
      |right; split; [exact Hw|]; split; [exact Ha|]; intros n x Hl; eapply Hno; eapply doc_leaf_perm; [|exact Hl]; auto using Permutation_sym]). }
  destruct (nm_get w (cli_witness signals it)) as [a|] eqn:E.
  - symmetry. apply Heq. reflexivity.
  - destruct (nm_get w (cli_witness signals it')) as [b|] eqn:E'; [|reflexivity].
    destruct (Heq b) as [_ H]. specialize (H eq_refl). congruence.
Qed.
Print Assumptions C30_order_does_not_matter.

Theorem C30_acceptance_does_not_depend_on_order :
  forall kvs kvs', Permutation kvs kvs' ->
    ((exists m, parse_inputs_with_keys (JObj kvs) = Ok m) <-> (exists m, parse_inputs_with_keys (JObj kvs') = Ok m)).
Proof.
  intros kvs kvs' Hp. rewrite !C29_accepted_iff_every_leaf_is_numeric.
  split; intros H n x Hl; apply (H n x); eapply doc_leaf_perm; [|exact Hl| |exact Hl]; auto using Permutation_sym.
Qed.
Print Assumptions C30_acceptance_does_not_depend_on_order.

(** Two names on one wire: which value is used depends on the hash map's visiting order. *)
Theorem C30_aliased_wires_refuted :
  forall (signals : hmap N) (n1 n2 : text) (w : N),
    n1 <> n2 -> hm_get n1 signals = Some w -> hm_get n2 signals = Some w ->
    forall z1 z2, (0 <= z1 < 2 ^ 64)%Z -> (0 <= z2 < 2 ^ 64)%Z ->
    exists m it1 it2,
      parse_inputs_with_keys (JObj [(n1, JInt z1); (n2, JInt z2)]) = Ok m /\
      Permutation m it1 /\ Permutation m it2 /\
      nm_get w (cli_witness signals it1) = Some (fr z1) /\ nm_get w (cli_witness signals it2) = Some (fr z2).
Proof.
  intros signals n1 n2 w Hn H1 H2 z1 z2 Hz1 Hz2.
  exists [(n1, fr z1); (n2, fr z2)], [(n2, fr z2); (n1, fr z1)], [(n1, fr z1); (n2, fr z2)].
  assert (E : parse_inputs_with_keys (JObj [(n1, JInt z1); (n2, JInt z2)]) = Ok [(n1, fr z1); (n2, fr z2)]).
  { pose proof (proj2 (scalar_spec _ _) (num_nat z1 Hz1)) as E1. pose proof (proj2 (scalar_spec _ _) (num_nat z2 Hz2)) as E2.
    cbn [parse_inputs_with_keys]. rewrite flatten_entries_leaves.
    change (doc_leaves [(n1, JInt z1); (n2, JInt z2)]) with [(n1, JInt z1); (n2, JInt z2)].
    cbn [insert_leaves]. rewrite E1, E2. cbn [hm_insert].
    replace (text_eqb n2 n1) with false; [reflexivity|]. symmetry. apply text_eqb_neq. congruence. }
  split; [exact E|]. split; [constructor|]. split; [apply Permutation_refl|].
  rewrite !cli_witness_put. cbn [fold_left]. unfold put. cbn [fst snd]. rewrite H1, H2, !nm_get_insert, N.eqb_refl. auto.
Qed.
Print Assumptions C30_aliased_wires_refuted.

(** ** C31 *)
Theorem C31_numbers_in_the_cli :
  forall (k : text) (z : Z) (signals : hmap N),
    ((0 <= z < 2 ^ 64)%Z -> parse_inputs_with_keys (JObj [(k, JInt z)]) = Ok [(k, fr z)]) /\
    ((- 2 ^ 63 <= z < 0)%Z -> parse_inputs_with_keys (JObj [(k, JInt z)]) = Ok [(k, fr (z + 2 ^ 64))]) /\
    ((z < - 2 ^ 63 \/ 2 ^ 64 <= z)%Z -> parse_inputs_with_keys (JObj [(k, JInt z)]) = Err UnsupportedNumber) /\
    (parse_inputs_with_keys (JObj [(k, JStr (dec_text_z z))]) = Ok [(k, fr z)]).
Proof.
  intros k z signals.
  assert (G : forall x a, (forall l, x <> JArr l) -> scalar_value x = Ok a -> parse_inputs_with_keys (JObj [(k, x)]) = Ok [(k, a)]).
  { intros x a Hx E. cbn [parse_inputs_with_keys]. rewrite flatten_entries_leaves.
    replace (doc_leaves [(k, x)]) with [(k, x)]; [cbn [insert_leaves]; rewrite E; reflexivity|].
    destruct x; try reflexivity. exfalso. eapply Hx. reflexivity. }
  split; [|split; [|split]].
  - intros Hz. apply G; [discriminate|]. apply scalar_spec. constructor. exact Hz.
  - intros Hz. apply G; [discriminate|]. apply scalar_spec. constructor. exact Hz.
  - intros Hz. cbn [parse_inputs_with_keys flatten_entries flatten_value scalar_value]. unfold number_value.
    replace ((0 <=? z) && (z <? 2 ^ 64))%Z with false.
    2:{ symmetry. apply andb_false_iff. rewrite Z.leb_gt, Z.ltb_ge. clear - Hz. lia. }
    replace ((- 2 ^ 63 <=? z) && (z <? 2 ^ 63))%Z with false; [reflexivity|].
    symmetry. apply andb_false_iff. rewrite Z.leb_gt, Z.ltb_ge. clear - Hz. lia.
  - apply G; [discriminate|]. apply scalar_spec. constructor. unfold dec_text_z. destruct (Z.ltb_spec z 0) as [Hz|Hz].
    + destruct (dec_text_spec (Z.to_N (- z))) as (Hne&_&Hv).
      destruct (digits_numeral _ Hne (dec_digits_range (Z.to_N (- z)))) as (c&r&H1&H2&H3).
      cbn zeta in H3. rewrite Hv in H3.
      assert (Hc : dec_text (Z.to_N (- z)) = c :: r /\ Z.of_N (Z.to_N (- z)) =
        Z.of_N (digits_value (filter (fun x => negb (x =? c_under)) (c :: r)))).
      { destruct H3 as [H3|[(H3&_)|(H3&_)]]; [exact H3| |]; pose proof (dec_digits_range (Z.to_N (- z))) as Hd; rewrite H3 in Hd;
          apply Forall_inv in Hd; unfold c_plus, c_minus in Hd; lia. }
      destruct Hc as [Hc1 Hc2]. exists c, r. split; [exact H1|]. split; [exact H2|]. cbn zeta. right. right.
      split; [congruence|]. rewrite <- Hc2. clear - Hz. lia.
    + pose proof (dec_text_spec (Z.to_N z)) as (Hne&_&Hv). pose proof (digits_numeral _ Hne (dec_digits_range (Z.to_N z))) as Hn.
      rewrite Hv, Z2N.id in Hn by exact Hz. exact Hn.
Qed.
Print Assumptions C31_numbers_in_the_cli.

(** In JavaScript a number is what it is: the text of n becomes the integer n again. *)
Theorem C31_numbers_in_javascript :
  forall (k : text) (z : Z) (signals : hmap N) (w : N),
    (0 <= z < 2 ^ 53)%Z -> hm_get k signals = Some w ->
    exists t, js_map_inputs [(k, JInt z)] signals = Ok [(w, t)] /\ js_bigint t = Some z.
Proof.
  intros k z signals w Hz Hk. exists (dec_text_z z). split; [|apply js_bigint_dec; apply Hz].
  unfold js_map_inputs. cbn [js_map_inputs_loop js_flatten]. unfold js_set. rewrite Hk. reflexivity.
Qed.
Print Assumptions C31_numbers_in_javascript.

(** Every negative JSON number is mapped to the wrong field element by the CLI. *)
Theorem C31_negative_numbers_refuted :
  forall (k : text) (z : Z), (- 2 ^ 63 <= z < 0)%Z ->
    exists a, parse_inputs_with_keys (JObj [(k, JInt z)]) = Ok [(k, a)] /\ a <> fr z.
Proof.
  intros k z Hz. exists (fr (z + 2 ^ 64)). split; [apply (C31_numbers_in_the_cli k z []); exact Hz|].
  intros H. assert (Hv : fr_val (fr (z + 2 ^ 64)) = fr_val (fr z)) by (rewrite H; reflexivity).
  unfold fr_val, fr in Hv. rewrite !zval_zp in Hv.
  rewrite Z.mod_small in Hv by (unfold bn_r; clear - Hz; lia).
  assert (Hm : (z mod bn_r = z + bn_r)%Z).
  { symmetry. apply (Z.mod_unique_pos _ _ (-1)); unfold bn_r; clear - Hz; lia. }
  rewrite Hm in Hv. clear - Hv. unfold bn_r in Hv. lia.
Qed.
Print Assumptions C31_negative_numbers_refuted.

(** ** C32 *)
(** What both commands do between reading the files and calling encap (commands.rs:41-66,
    177-202): symbol map, hash orders [entries] and [it], inputs. *)
Definition encrypt_assignment (r : r1cs_file) (entries : hmap N) (it : hmap Fr) (w : N) : option Fr :=
  nm_get w (cli_witness (get_input_signals entries (Some (r_n_pub_in r))) it).

(** Every named wire up to n_pub_in (all public wires of a circuit without public outputs) is
    assigned its value. *)
Theorem C32_public_wires_are_assigned :
  forall r kvs m syms entries it,
    hm_wf syms -> Permutation syms entries ->
    unambiguous kvs -> separate kvs (fun n => hm_get (lit "main." ++ n) syms) ->
    parse_inputs_with_keys (JObj kvs) = Ok m -> Permutation m it ->
    forall name x a w,
      doc_leaf kvs name x -> numeric x a -> hm_get (lit "main." ++ name) syms = Some w ->
      w <= r_n_pub_in r ->
      encrypt_assignment r entries it w = Some a.
Proof.
  intros r kvs m syms entries it Hwf Hp Hu Hs Hm Hit name x a w Hl Hx Hn Hw. unfold encrypt_assignment.
  pose proof (C28_input_signals syms entries (Some (r_n_pub_in r)) Hwf Hp) as Hsig.
  apply (C29_wire_assignment kvs m it _ Hu); auto.
  - intros n n' y y' w' H H' Hn1 Hn2. apply Hsig in Hn1, Hn2. destruct Hn1 as [Hn1 _], Hn2 as [Hn2 _]. eapply Hs; eauto.
  - left. exists name, x. split; [exact Hl|]. split; [|exact Hx]. apply Hsig. split; [exact Hn|].
    intros b Hb. injection Hb as <-. exact Hw.
Qed.
Print Assumptions C32_public_wires_are_assigned.

(** With public outputs: no wire above n_pub_in is ever assigned, whatever the inputs say. *)
Theorem C32_public_outputs_refuted :
  forall r syms entries (it : hmap Fr) w,
    hm_wf syms -> Permutation syms entries -> r_n_pub_in r < w ->
    encrypt_assignment r entries it w = None.
Proof.
  intros r syms entries it w Hwf Hp Hw. unfold encrypt_assignment. rewrite cli_witness_put.
  pose proof (C28_input_signals syms entries (Some (r_n_pub_in r)) Hwf Hp) as Hsig.
  destruct (put_spec (fun n => hm_get n (get_input_signals entries (Some (r_n_pub_in r)))) it [(0, fr 1)] w) as (_&_&H3).
  rewrite H3.
  - cbn [nm_get]. destruct (N.eqb_spec w 0) as [->|_]; [|reflexivity]. exfalso. clear - Hw. lia.
  - intros n b Hi Hn. apply Hsig in Hn. destruct Hn as [_ Hn]. specialize (Hn _ eq_refl). clear - Hw Hn. lia.
Qed.
Print Assumptions C32_public_outputs_refuted.

(** Consequence: the ciphertext records at most n_pub_in of the n_pub_out + n_pub_in public
    values, so it does not pin the last n_pub_out public wires. *)
Theorem C32_ciphertext_records_too_few_refuted :
  forall (E : pairingT Fr) (D : domainT Fr) (kdf : GT E -> key) r syms entries (it : hmap Fr)
         (alpha beta delta rr x : Fr) ct k,
    hm_wf syms -> Permutation syms entries -> 0 < r_n_pub_out r ->
    r_n_pub_out r + r_n_pub_in r < 2 ^ 32 - 1 ->
    encap_with D kdf (circom_prog (circom_of_cli r (encrypt_assignment r entries it))) alpha beta delta rr x = Ok (ct, k) ->
    N.of_nat (List.length (public_inputs ct)) <= r_n_pub_in r.
Proof.
  intros E D kdf r syms entries it alpha beta delta rr x ct k Hwf Hp Ho Hn He.
  apply C05_public_inputs_recorded in He. rewrite He.
  set (c := circom_of_cli r (encrypt_assignment r entries it)).
  assert (Hnp : cc_n_public c = r_n_pub_out r + r_n_pub_in r).
  { unfold c, circom_of_cli. cbn [cc_n_public]. apply N.mod_small. clear - Hn. lia. }
  (* the first missing wire *)
  assert (Hfirst : forall k, exists m, 1 <= m <= N.of_nat k + 1 /\
     (forall i, 1 <= i < m -> cc_witness c i <> None) /\ (m = N.of_nat k + 1 \/ cc_witness c m = None)).
  { clear. induction k as [|k (m&H1&H2&H3)].
    - exists 1. split; [lia|]. split; [intros i Hi; lia|]. left. reflexivity.
    - destruct H3 as [->|H3].
      + destruct (cc_witness c (N.of_nat k + 1)) as [v|] eqn:Ev.
        * exists (N.of_nat (S k) + 1). split; [lia|]. split; [|auto]. intros i Hi.
          destruct (N.eq_dec i (N.of_nat k + 1)) as [->|Hne]; [rewrite Ev; discriminate|]. apply H2. lia.
        * exists (N.of_nat k + 1). split; [lia|]. auto.
      + exists m. split; [lia|]. auto. }
  destruct (Hfirst (N.to_nat (r_n_pub_in r))) as (m&Hm1&Hm2&Hm3). rewrite N2Nat.id in Hm1, Hm3.
  assert (Hmiss : cc_witness c m = None).
  { destruct Hm3 as [->|H]; [|exact H]. unfold c, circom_of_cli. cbn [cc_witness].
    apply (C32_public_outputs_refuted r syms entries it _ Hwf Hp). lia. }
  destruct (circom_stops c m) as (_&_&_&Hpub&_); auto.
  - rewrite Hnp. clear - Hn. lia.
  - unfold n_alloc. rewrite Hnp. clear - Hm1 Ho. lia.
  - rewrite Hpub, map_length, range_length. clear - Hm1. lia.
Qed.
Print Assumptions C32_ciphertext_records_too_few_refuted.

Example C32_nonvacuous :
  let r := R1csFile 32 [] 3 1 1 0 0 0 [] [] in
  let syms := [(lit "main.out", 1); (lit "main.in", 2)] in
  hm_wf syms /\ 0 < r_n_pub_out r /\ r_n_pub_out r + r_n_pub_in r < 2 ^ 32 - 1 /\
  encrypt_assignment r syms [(lit "in", fr 7)] 2 = None.
Proof.
  cbn zeta. split; [|split; [reflexivity|split; [reflexivity|reflexivity]]].
  unfold hm_wf. cbn [map fst].
  repeat (constructor; [intros H; cbn [In] in H; repeat (destruct H as [H|H]; [discriminate|]); exact H|]). constructor.
Qed.

(** ** C33 *)
(** A scalar both tools read alike: an exact integer or a string of digits. *)
Inductive common_scalar : json -> Prop :=
| com_int z : (0 <= z < 2 ^ 53)%Z -> common_scalar (JInt z)
| com_str t : t <> [] -> Forall (fun c => 48 <= c <= 57) t -> common_scalar (JStr t).
(** Scalars and arrays of scalars. *)
Definition flat_doc (kvs : list (text * json)) : Prop :=
  Forall (fun kv => common_scalar (snd kv) \/ exists l, snd kv = JArr l /\ Forall common_scalar l) kvs.

Lemma common_js x : common_scalar x -> exists t, js_common x t.
Proof. intros [z Hz|t Ht Hd]; eexists; (split; [reflexivity|split; discriminate]). Qed.
Lemma common_value x : common_scalar x -> exists z, js_bigint (js_txt x) = Some z /\ numeric x (fr z).
Proof.
  intros [z Hz|t Ht Hd].
  - exists z. split; [apply js_bigint_dec; apply Hz|]. constructor. clear - Hz. lia.
  - exists (Z.of_N (digits_value t)). split; [apply js_bigint_digits; assumption|].
    constructor. apply digits_numeral; assumption.
Qed.
Lemma flat_leaves kvs n x : flat_doc kvs -> doc_leaf kvs n x -> common_scalar x.
Proof.
  intros Hf (k&v&Hi&Hl). unfold flat_doc in Hf. rewrite Forall_forall in Hf. specialize (Hf _ Hi). cbn [snd] in Hf.
  destruct Hf as [Hc|(l&->&Hc)].
  - inversion Hl as [? ? Hn|? l ? ? ? ? ? ?]; subst; [exact Hc|]. inversion Hc.
  - inversion Hl as [? ? Hn|? l' i y ? ? Hy Hl']; subst; [exfalso; eapply Hn; reflexivity|].
    rewrite Forall_forall in Hc. pose proof (Hc y (nth_error_In _ _ Hy)) as Hcy.
    inversion Hl' as [? ? Hn|? l' ? ? ? ? ? ?]; subst; [exact Hcy|]. inversion Hcy.
Qed.
Lemma js_parse_wf t : hm_wf (js_parse_sym_file t).
Proof.
  unfold js_parse_sym_file. assert (G : forall ls m, hm_wf m -> hm_wf (fold_left js_sym_step ls m)).
  { induction ls as [|l ls IH]; intros m Hm; [exact Hm|]. cbn [fold_left]. apply IH. unfold js_sym_step.
    destruct (split_on c_comma l) as [|a [|b [|c [|d [|e r]]]]]; try exact Hm.
    destruct (js_parse_int b) as [z|]; [|exact Hm]. destruct (0 <=? z)%Z; [|exact Hm]. apply hm_insert_wf. exact Hm. }
  apply G. constructor.
Qed.

Lemma parse_sym_file_wf t m : parse_sym_file t = Ok m -> hm_wf m.
Proof.
  unfold parse_sym_file. assert (G : forall ls m m', hm_wf m -> sym_loop ls m = Ok m' -> hm_wf m').
  { induction ls as [|l ls IH]; intros m0 m' Hm H; [cbn in H; congruence|]. cbn [sym_loop] in H.
    destruct (sym_step m0 l) as [m1| |] eqn:E; [|discriminate|discriminate]. apply (IH m1 m'); [|exact H].
    unfold sym_step in E. destruct (trim rust_ws l) as [|x u]; [congruence|].
    destruct (split_on c_comma (x :: u)) as [|a [|b [|c [|d [|e r]]]]]; try congruence.
    destruct (parse_i32 (trim rust_ws b)) as [z|]; [|discriminate]. destruct (z <? 0)%Z; [congruence|].
    assert (E' : m1 = hm_insert (trim rust_ws d) (Z.to_N z) m0) by congruence. rewrite E'. apply hm_insert_wf. exact Hm. }
  intros H. refine (G _ [] m _ H). constructor.
Qed.
(** From the same symbol file and the same flat document both tools give wire 1 .. bound the same
    values: the JavaScript text read as an integer, reduced, is the CLI's field element. *)
Theorem C33_tools_assign_the_same_values :
  forall (sym : text) (kvs : list (text * json)) (bound : N) syms entries m it,
    Forall plain_char sym -> parse_sym_file sym = Ok syms -> Permutation syms entries ->
    flat_doc kvs -> unambiguous kvs -> separate kvs (fun n => hm_get (lit "main." ++ n) syms) ->
    parse_inputs_with_keys (JObj kvs) = Ok m -> Permutation m it ->
    exists js, js_map_inputs kvs (get_input_signals (js_parse_sym_file sym) None) = Ok js /\
      forall w, 1 <= w <= bound ->
        match nm_get w js with
        | Some t => exists z, js_bigint t = Some z /\
                      nm_get w (cli_witness (get_input_signals entries (Some bound)) it) = Some (fr z)
        | None => nm_get w (cli_witness (get_input_signals entries (Some bound)) it) = None
        end.
Proof.
  intros sym kvs bound syms entries m it Hpc Hsym Hp Hf Hu Hs Hm Hit. pose proof (parse_sym_file_wf _ _ Hsym) as Hwf.
  set (sigj := get_input_signals (js_parse_sym_file sym) None). set (sigc := get_input_signals entries (Some bound)).
  assert (Hj : forall n w, hm_get n sigj = Some w <-> hm_get (lit "main." ++ n) syms = Some w).
  { intros n w. unfold sigj. rewrite (C28_input_signals (js_parse_sym_file sym) _ None (js_parse_wf sym) (Permutation_refl _)).
    rewrite (C27_js_agrees_on_accepted_files sym syms Hpc Hsym). split; [intros [H _]; exact H|].
    intros H. split; [exact H|]. discriminate. }
  assert (Hc : forall n w, hm_get n sigc = Some w <-> hm_get (lit "main." ++ n) syms = Some w /\ w <= bound).
  { intros n w. unfold sigc. rewrite (C28_input_signals syms entries (Some bound) Hwf Hp). split.
    - intros [H1 H2]. split; [exact H1|]. apply H2. reflexivity.
    - intros [H1 H2]. split; [exact H1|]. intros b Hb. injection Hb as <-. exact H2. }
  exists (fold_left (put (fun n => hm_get n sigj)) (map js_leaf (doc_leaves kvs)) []). split.
  { unfold js_map_inputs. apply js_map_inputs_put. eapply Forall_impl; [|exact Hf]. cbn beta. intros kv [H|(l&Hl&H)].
    - left. apply common_js. exact H.
    - right. exists l. split; [exact Hl|]. eapply Forall_impl; [|exact H]. exact common_js. }
  intros w Hw.
  assert (Hinj : forall n t, In (n, t) (map js_leaf (doc_leaves kvs)) <-> exists x, doc_leaf kvs n x /\ t = js_txt x).
  { intros n t. rewrite in_map_iff. split.
    - intros ((n'&x)&He&Hi). unfold js_leaf in He. cbn [fst snd] in He. assert (n' = n) by congruence. subst n'.
      exists x. split; [apply doc_leaves_spec; exact Hi|congruence].
    - intros (x&Hl&->). exists (n, x). split; [reflexivity|]. apply doc_leaves_spec. exact Hl. }
  assert (Hexj : forall t, nm_get w (fold_left (put (fun n => hm_get n sigj)) (map js_leaf (doc_leaves kvs)) []) = Some t <->
    exists n x, doc_leaf kvs n x /\ hm_get (lit "main." ++ n) syms = Some w /\ t = js_txt x).
  { intros t. rewrite put_exact.
    - split.
      + intros [(n&Hi&Hn)|(Hg&_)]; [|discriminate Hg]. apply Hinj in Hi. destruct Hi as (x&Hl&->).
        apply Hj in Hn. eauto.
      + intros (n&x&Hl&Hn&->). left. exists n. split; [apply Hinj; eauto|]. apply Hj. exact Hn.
    - intros n n' a b Hi Hi' Hn Hn'. apply Hinj in Hi, Hi'. destruct Hi as (x&Hl&->), Hi' as (x'&Hl'&->).
      apply Hj in Hn, Hn'. assert (n = n') by (eapply Hs; eauto). subst n'. assert (x = x') by (eapply Hu; eauto). congruence. }
  assert (Hexc : forall a, nm_get w (cli_witness sigc it) = Some a <->
    exists n x, doc_leaf kvs n x /\ hm_get (lit "main." ++ n) syms = Some w /\ numeric x a).
  { intros a. rewrite (C29_wire_assignment kvs m it sigc Hu); auto.
    - split.
      + intros [(n&x&Hl&Hn&Hx)|(H0&_)]; [|clear - Hw H0; lia]. apply Hc in Hn. destruct Hn as [Hn _]. eauto.
      + intros (n&x&Hl&Hn&Hx). left. exists n, x. split; [exact Hl|]. split; [|exact Hx]. apply Hc. split; [exact Hn|apply Hw].
    - intros n n' y y' w' H H' Hn1 Hn2. apply Hc in Hn1, Hn2. destruct Hn1 as [Hn1 _], Hn2 as [Hn2 _]. eapply Hs; eauto. }
  destruct (nm_get w (fold_left _ _ _)) as [t|] eqn:Et.
  - destruct (proj1 (Hexj t) eq_refl) as (n&x&Hl&Hn&->).
    destruct (common_value x (flat_leaves _ _ _ Hf Hl)) as (z&Hz&Hnx). exists z. split; [exact Hz|]. apply Hexc. eauto.
  - destruct (nm_get w (cli_witness sigc it)) as [a|] eqn:Ea; [|reflexivity].
    exfalso. destruct (proj1 (Hexc a) eq_refl) as (n&x&Hl&Hn&_).
    assert (H : None = Some (js_txt x)) by (apply Hexj; eauto). discriminate H.
Qed.
Print Assumptions C33_tools_assign_the_same_values.

Example C33_nonvacuous :
  let doc := [(lit "a", JInt 5); (lit "b", JArr [JStr (lit "12"); JInt 7])] in
  flat_doc doc /\ plain_keys doc /\
  hm_get (lit "main.b[1]") (match parse_sym_file (lit "1,1,1,main.a
2,2,1,main.b[0]
3,3,1,main.b[1]") with Ok s => s | _ => [] end) = Some 3.
Proof.
  cbn zeta. split; [|split; [|vm_compute; reflexivity]].
  - constructor; [left; constructor; lia|]. constructor; [|constructor]. right. eexists. split; [reflexivity|].
    constructor; [|constructor; [|constructor]]; constructor; try lia; try discriminate.
    apply forallb_digits. reflexivity.
  - split.
    + repeat (constructor; [intros H; cbn in H; repeat (destruct H as [H|H]; [discriminate|]); exact H|]). constructor.
    + repeat constructor; discriminate.
Qed.

(** Nested arrays: the CLI assigns the element, JavaScript never does. *)
Theorem C33_nested_arrays_refuted :
  forall (k : text) (z : Z) (w : N), (0 <= z < 2 ^ 53)%Z -> w <> 0 ->
    let doc := [(k, JArr [JArr [JInt z]])] in
    let signals := [(k ++ lit "[0][0]", w)] in
    js_map_inputs doc signals = Ok [] /\
    exists m, parse_inputs_with_keys (JObj doc) = Ok m /\
      forall it, Permutation m it -> nm_get w (cli_witness signals it) = Some (fr z).
Proof.
  intros k z w Hz Hw doc signals. split.
  - unfold js_map_inputs, doc, signals. cbn [js_map_inputs_loop js_flatten js_array]. unfold js_set. cbn [hm_get].
    replace (text_eqb (index_key k 0) (k ++ lit "[0][0]")) with false; [reflexivity|].
    symmetry. apply text_eqb_neq. unfold index_key. intros H. apply app_inv_head in H. vm_compute in H. discriminate H.
  - exists [(k ++ lit "[0][0]", fr z)]. split.
    + pose proof (proj2 (scalar_spec _ _) (num_nat z ltac:(clear - Hz; lia))) as E.
      unfold doc. cbn [parse_inputs_with_keys]. rewrite flatten_entries_leaves.
      replace (doc_leaves [(k, JArr [JArr [JInt z]])]) with [(k ++ lit "[0][0]", JInt z)].
      * cbn [insert_leaves]. rewrite E. reflexivity.
      * cbn [doc_leaves flat_map fst snd leaves app]. unfold index_key. rewrite <- app_assoc. reflexivity.
    + intros it Hp. apply Permutation_length_1_inv in Hp. subst it. rewrite cli_witness_put. cbn [fold_left]. unfold put.
      cbn [fst snd hm_get signals]. rewrite text_eqb_refl, nm_get_insert, N.eqb_refl. reflexivity.
Qed.
Print Assumptions C33_nested_arrays_refuted.
