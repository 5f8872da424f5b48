(** Property theorems C45 and C46: the serializable circuit.  Vocabulary: SpecSerial.v. *)
From Coq Require Import List Bool Arith NArith Lia Permutation.
From Coq Require Import Strings.String Strings.Byte.
From Verif Require Import Res Bytes Text Utf8 R1cs SpecR1cs R1csFacts Inputs InputsFacts Serial SpecSerial SerialFacts FileSys SpecCommands.
Import ListNotations.
Local Open Scope N_scope.

Lemma same_map_perm {V} (m m' : nmap V) : NoDup (map fst m) -> Permutation m m' -> same_map m m'.
Proof.
  intros Hn Hp k. assert (Hn' : NoDup (map fst m')) by (eapply Permutation_NoDup; [apply Permutation_map; exact Hp|exact Hn]).
  assert (G : forall (l : nmap V), NoDup (map fst l) -> forall v, nm_get k l = Some v <-> In (k, v) l).
  { clear. induction l as [|[k' v'] l IH]; intros Hn v; cbn [nm_get In]; [split; [discriminate|contradiction]|].
    cbn [map fst] in Hn. apply NoDup_cons_iff in Hn as [Hk Hn]. destruct (N.eqb_spec k k') as [->|Hne].
    - split; [intros [= ->]; auto|]. intros [[= ->]|Hi]; [reflexivity|]. exfalso. apply Hk. apply in_map_iff. exists (k', v). auto.
    - rewrite IH by exact Hn. split; [auto|]. intros [[= -> ->]|Hi]; [contradiction|exact Hi]. }
  destruct (nm_get k m) as [v|] eqn:E1.
  - symmetry. apply G; [exact Hn'|]. eapply Permutation_in; [exact Hp|]. apply G; assumption.
  - destruct (nm_get k m') as [v|] eqn:E2; [|reflexivity]. apply (proj1 (G m' Hn' v)) in E2.
    apply (Permutation_in _ (Permutation_sym Hp)) in E2. apply (proj2 (G m Hn v)) in E2. congruence.
Qed.
Lemma is_map_perm {V} (ok : V -> Prop) m m' : is_map ok m -> Permutation m m' -> is_map ok m'.
Proof.
  intros (H1&H2&H3) Hp. split; [|split].
  - eapply Permutation_NoDup; [apply Permutation_map; exact Hp|exact H1].
  - unfold fits64 in *. rewrite <- (Permutation_length Hp). exact H2.
  - eapply Permutation_Forall; eassumption.
Qed.
Lemma reordered_ok c d : is_circuit c -> reordered c d -> is_circuit d /\ same_circuit c d.
Proof.
  intros Hc (ls&Hr&->). assert (Hc' := Hc). destruct Hc' as (H1&H2&H3&H4&H5&H6&H7&H8&H9&H10).
  assert (Hls : (forall m, ls = Some m -> is_map is_string m) /\ same_labels (s_wire_labels c) ls).
  { destruct (s_wire_labels c) as [m|]; destruct ls as [m'|]; cbn [reordered_labels same_labels] in *; try contradiction.
    - specialize (H10 m eq_refl). split; [intros m2 [= <-]; eapply is_map_perm; eassumption|].
      apply same_map_perm; [apply H10|exact Hr].
    - split; [discriminate|exact I]. }
  destruct Hls as [Hls Hs]. split; [repeat (split; [assumption|]); exact Hls|].
  repeat (split; [reflexivity|]). exact Hs.
Qed.

(** ** C45 *)
(** Whatever order the label map is visited in, and whatever follows in the input, reading back
    gives the same circuit; likewise for test cases, which contain witnesses. *)
Theorem C45_circuit_round_trip :
  forall c d rest, is_circuit c -> reordered c d ->
    exists c', from_bincode (to_bincode d ++ rest) = Ok c' /\ same_circuit c c'.
Proof.
  intros c d rest Hc Hr. destruct (reordered_ok c d Hc Hr) as [Hd Hs]. exists d. split; [|exact Hs].
  unfold from_bincode. rewrite (d_circuit_reads d rest Hd). reflexivity.
Qed.
Print Assumptions C45_circuit_round_trip.

Theorem C45_test_case_round_trip :
  forall t u rest, is_test_case t -> reordered_test_case t u ->
    exists t', test_case_from_bincode (test_case_bincode u ++ rest) = Ok t' /\ same_test_case t t'.
Proof.
  intros t u rest (H1&H2&H3&H4) (c&m&Hc&Hm&->). destruct (reordered_ok _ _ H1 Hc) as [Hd Hs].
  eexists. split.
  - unfold test_case_from_bincode. rewrite (d_test_case_reads (STestCase c (SWitness m) (tc_name t) (tc_description t)) rest).
    + reflexivity.
    + split; [exact Hd|]. split; [|split; [exact H3|exact H4]]. eapply is_map_perm; eassumption.
  - split; [exact Hs|]. split; [|split; reflexivity]. apply same_map_perm; [apply H2|exact Hm].
Qed.
Print Assumptions C45_test_case_round_trip.

(** Different circuits have different encodings. *)
Theorem C45_injective :
  forall c d, is_circuit c -> is_circuit d -> to_bincode c = to_bincode d -> c = d.
Proof.
  intros c d Hc Hd H. pose proof (d_circuit_reads c [] Hc) as E1. pose proof (d_circuit_reads d [] Hd) as E2.
  rewrite H in E1. rewrite E1 in E2. congruence.
Qed.
Print Assumptions C45_injective.

(** Exactly the encodings are accepted: the input starts with an encoding, in which a label key may
    be repeated, the last one counting. *)
Definition labels_read (ls : option (nmap text)) (c c' : s_circuit) : Prop :=
  c' = SCircuit (s_field_size c) (s_prime_bytes c) (s_n_wires c) (s_n_pub_out c) (s_n_pub_in c) (s_n_prv_in c)
                (s_n_constraints c) (s_constraints c) ls.
Definition last_entry {V} (k : N) (l : nmap V) : option V := nm_get k (rev l).
Theorem C45_accepts_only_encodings :
  forall bs c', from_bincode bs = Ok c' ->
    exists c rest, bs = to_bincode c ++ rest /\
      match s_wire_labels c, s_wire_labels c' with
      | None, None => c' = c
      | Some l, Some m => labels_read (Some m) c c' /\ NoDup (map fst m) /\ forall k, nm_get k m = last_entry k l
      | _, _ => False
      end.
Proof.
  intros bs c' H. unfold from_bincode in H. apply rbind_ok in H as ([c2 rest]&H&[= ->]). unfold d_circuit in H.
  apply d_bind_ok in H as (fs&r1&H1&H). apply d_bind_ok in H as (pr&r2&H2&H). apply d_bind_ok in H as (nw&r3&H3&H).
  apply d_bind_ok in H as (po&r4&H4&H). apply d_bind_ok in H as (pi&r5&H5&H). apply d_bind_ok in H as (pv&r6&H6&H).
  apply d_bind_ok in H as (nc&r7&H7&H). apply d_bind_ok in H as (cs&r8&H8&H). apply d_bind_ok in H as (ls&r9&H9&[= <- <-]).
  apply d_u32_sound in H1 as [-> _]. apply d_bytes_sound in H2 as [-> _]. apply d_u32_sound in H3 as [-> _].
  apply d_u32_sound in H4 as [-> _]. apply d_u32_sound in H5 as [-> _]. apply d_u32_sound in H6 as [-> _].
  apply d_u32_sound in H7 as [-> _]. apply (d_seq_sound _ _ _ d_constraint_sound) in H8 as [-> _].
  assert (Hls : exists l, r8 = b_opt (b_map b_str) l ++ r9 /\
     match l, ls with None, None => True | Some l, Some m => m = inserted l | _, _ => False end).
  { unfold d_opt in H9. apply d_bind_ok in H9 as (t&r&Ht&H9). apply d_u8_inv in Ht as [-> _].
    destruct (N.eqb_spec t 0) as [->|Hz]; [injection H9 as <- <-; exists None; split; [reflexivity|exact I]|].
    destruct (N.eqb_spec t 1) as [->|Ho]; [|discriminate].
    apply d_bind_ok in H9 as (m&r'&Hm&[= <- <-]). apply (d_map_sound _ _ _ d_str_sound) in Hm as (l&->&->&_).
    exists (Some l). split; reflexivity. }
  destruct Hls as (l&->&Hl). exists (SCircuit fs pr nw po pi pv nc cs l), r9. split.
  - unfold to_bincode. cbn [s_field_size s_prime_bytes s_n_wires s_n_pub_out s_n_pub_in s_n_prv_in s_n_constraints s_constraints s_wire_labels].
    rewrite <- !app_assoc. reflexivity.
  - cbn [s_wire_labels]. destruct l as [l|], ls as [m|]; try contradiction; [|reflexivity]. subst m.
    split; [reflexivity|].
    assert (G : forall (l m : nmap text), NoDup (map fst m) ->
       NoDup (map fst (fold_left (fun m kv => nm_insert (fst kv) (snd kv) m) l m)) /\
       forall k, nm_get k (fold_left (fun m kv => nm_insert (fst kv) (snd kv) m) l m) =
                 match nm_get k (rev l) with Some v => Some v | None => nm_get k m end).
    { clear. induction l as [|[k v] l IH]; intros m Hm; cbn [fold_left rev fst snd]; [auto|].
      assert (Hi : NoDup (map fst (nm_insert k v m))).
      { clear - Hm. induction m as [|[k' v'] m IH]; cbn [nm_insert]; [repeat constructor; auto|].
        cbn [map fst] in Hm. apply NoDup_cons_iff in Hm as [Hk Hm]. destruct (N.eqb_spec k k') as [->|Hne]; cbn [map fst].
        - constructor; assumption.
        - constructor; [|apply IH; exact Hm]. intros Hx. apply Hk. revert Hx. clear - Hne.
          induction m as [|[k2 v2] m IHm]; cbn [nm_insert map fst In]; [intros [->|[]]; contradiction|].
          destruct (N.eqb_spec k k2); cbn [map fst In]; intros [->|H]; auto. }
      destruct (IH _ Hi) as [I1 I2]. split; [exact I1|]. intros k2. rewrite I2, nm_get_insert.
      assert (Ha : nm_get k2 (rev l ++ [(k, v)]) = match nm_get k2 (rev l) with Some x => Some x | None => if k2 =? k then Some v else None end).
      { clear. induction (rev l) as [|[a b] r IHr]; cbn [app nm_get]; [destruct (k2 =? k); reflexivity|]. destruct (k2 =? a); [reflexivity|exact IHr]. }
      rewrite Ha. destruct (nm_get k2 (rev l)); [reflexivity|]. destruct (k2 =? k); reflexivity. }
    destruct (G l [] ltac:(constructor)) as [G1 G2]. split; [exact G1|]. intros k. unfold inserted, last_entry. rewrite G2.
    destruct (nm_get k (rev l)); reflexivity.
Qed.
Print Assumptions C45_accepts_only_encodings.

(** The reader never panics, and every proper part of an encoding is an error: a file cut short is
    noticed. *)
Theorem C45_never_panics : forall bs, from_bincode bs <> Panic.
Proof.
  intros bs. unfold from_bincode. pose proof (proj2 d_circuit_mono bs) as H. destruct (d_circuit bs); cbn; [discriminate|discriminate|contradiction].
Qed.
Print Assumptions C45_never_panics.
Theorem C45_cut_short_is_an_error :
  forall c n, is_circuit c -> (n < List.length (to_bincode c))%nat -> exists e, from_bincode (firstn n (to_bincode c)) = Err e.
Proof.
  intros c n Hc Hn. unfold from_bincode. pose proof (proj2 d_circuit_mono (firstn n (to_bincode c))) as Hp.
  destruct (d_circuit (firstn n (to_bincode c))) as [[c' r]|e|] eqn:Ed; cbn; [|eauto|contradiction]. exfalso.
  apply (proj1 d_circuit_mono _ _ _ (skipn n (to_bincode c))) in Ed. rewrite firstn_skipn in Ed.
  pose proof (d_circuit_reads c [] Hc) as Hr. rewrite app_nil_r in Hr. rewrite Hr in Ed. injection Ed as _ Ed.
  symmetry in Ed. apply app_eq_nil in Ed as [_ Ed]. apply (f_equal (@List.length _)) in Ed. rewrite skipn_length in Ed. cbn [List.length] in Ed.
  clear - Hn Ed. lia.
Qed.
Print Assumptions C45_cut_short_is_an_error.

(** Saving under failures and kills: afterwards the file is as before, or loading it gives the
    circuit saved or an error, never another circuit. *)
Theorem C45_save_then_load :
  forall c p s s' o, is_circuit c -> exec (save_bincode c p) s s' o ->
    only_changed [p] s s' /\
    (s' p = s p \/ load_bincode s' p = Ok c \/ exists e, load_bincode s' p = Err e) /\
    (o = Finished (Ok tt) -> load_bincode s' p = Ok c).
Proof.
  intros c p s s' o Hc H. unfold save_bincode, write_ in H.
  assert (Hf : forall n, load_bincode (fs_write p (firstn n (to_bincode c)) s) p = Ok c \/
                         exists e, load_bincode (fs_write p (firstn n (to_bincode c)) s) p = Err e).
  { intros n. unfold load_bincode, fs_write. rewrite text_eqb_refl. destruct (Nat.lt_ge_cases n (List.length (to_bincode c))) as [Hn|Hn].
    - right. destruct (C45_cut_short_is_an_error c n Hc Hn) as [e ->]. cbn. eauto.
    - left. rewrite firstn_all2 by exact Hn. unfold from_bincode. pose proof (d_circuit_reads c [] Hc) as Hr. rewrite app_nil_r in Hr.
      rewrite Hr. reflexivity. }
  assert (Hw : forall b, only_changed [p] s (fs_write p b s)).
  { intros b q Hq. unfold fs_write. destruct (text_eqb q p) eqn:E; [|reflexivity]. apply text_eqb_eq in E. subst q.
    exfalso. apply Hq. left. reflexivity. }
  assert (Hs : only_changed [p] s s) by (intros q _; reflexivity).
  assert (Hfull : load_bincode (fs_write p (to_bincode c) s) p = Ok c).
  { unfold load_bincode, fs_write. rewrite text_eqb_refl. unfold from_bincode. pose proof (d_circuit_reads c [] Hc) as Hr. rewrite app_nil_r in Hr.
    rewrite Hr. reflexivity. }
  inversion H as [|? ?| | |? ? ? ? ? ? H'|? ? ? ? ? ? H'|? ? n ? ? ? ? H'|? ? n ? ?]; subst.
  - split; [exact Hs|]. split; [auto|]. discriminate.
  - inversion H'; subst; (split; [apply Hw|]; split; [auto|]; auto).
  - inversion H'; subst; (split; [exact Hs|]; split; [auto|]; discriminate).
  - inversion H'; subst; (split; [apply Hw|]; split; [right; apply Hf|]; discriminate).
  - split; [apply Hw|]. split; [right; apply Hf|]. discriminate.
Qed.
Print Assumptions C45_save_then_load.

Definition ex_s_circuit : s_circuit :=
  SCircuit 2 [x05; x01] 3 0 1 1 1 [SConstraint (SLC [SFactor 2 [x01; x00]]) (SLC []) (SLC [SFactor 1 [x07; x00]; SFactor 0 [x01; x00]])]
           (Some [(0, lit "one"); (7, [20320; 9])]).
Definition ex_test_case : s_test_case :=
  STestCase ex_s_circuit (SWitness [(2, [xff]); (0, [])]) [97; 128512] None.
Example C45_nonvacuous :
  is_test_case ex_test_case /\ reordered ex_s_circuit ex_s_circuit /\
  (exists u, reordered_test_case ex_test_case u /\ u <> ex_test_case) /\
  from_bincode (firstn 20 (to_bincode ex_s_circuit)) = Err BEof.
Proof.
  assert (Hsm : forall t, Forall scalar t -> (List.length (utf8_encode t) < 100)%nat -> is_string t).
  { intros t H1 H2. split; [exact H1|]. unfold fits64. change (2 ^ 64) with 18446744073709551616. lia. }
  assert (Hc : is_circuit ex_s_circuit).
  { unfold is_circuit. do 9 (split; [first [reflexivity|repeat constructor]|]). intros m [= <-]. split; [|split; [reflexivity|]].
    - repeat constructor; cbn; intuition discriminate.
    - repeat constructor; try (apply Hsm; [repeat constructor; unfold scalar; cbn; lia|apply Nat.ltb_lt; vm_compute; reflexivity]). }
  split; [|split; [|split]].
  - split; [exact Hc|]. split; [|split].
    + split; [|split; [reflexivity|repeat constructor]]. repeat constructor; cbn; intuition discriminate.
    + apply Hsm; [repeat constructor; unfold scalar; cbn; lia|apply Nat.ltb_lt; vm_compute; reflexivity].
    + discriminate.
  - exists (s_wire_labels ex_s_circuit). split; [apply Permutation_refl|reflexivity].
  - eexists. split.
    + exists ex_s_circuit, [(0, []); (2, [xff])]. split; [|split; [apply perm_swap|reflexivity]].
      exists (s_wire_labels ex_s_circuit). split; [apply Permutation_refl|reflexivity].
    + discriminate.
  - vm_compute. reflexivity.
Qed.

(** ** C46 *)
(** Every row, in order, with every term of A, B and C, in order; and the counts.  Labels are not
    carried over. *)
Definition lc_same (l : lc_t) (s : s_lc) : Prop :=
  Forall2 (fun f sf => fst f = f_wire_id sf /\ snd f = f_coefficient_bytes sf) l (lc_factors s).
Theorem C46_conversion_is_faithful :
  forall r, let s := to_serializable r in
    Forall2 (fun c sc => lc_same (c_a c) (sc_a sc) /\ lc_same (c_b c) (sc_b sc) /\ lc_same (c_c c) (sc_c sc))
            (r_constraints r) (s_constraints s) /\
    s_field_size s = r_field_size r /\ s_prime_bytes s = r_prime r /\ s_n_wires s = r_n_wires r /\
    s_n_pub_out s = r_n_pub_out r /\ s_n_pub_in s = r_n_pub_in r /\ s_n_prv_in s = r_n_prv_in r /\
    s_n_constraints s = r_n_constraints r /\ s_wire_labels s = None.
Proof.
  intros r. cbv zeta. split; [|repeat split; reflexivity]. cbn [to_serializable s_constraints].
  assert (Hl : forall l, lc_same l (lc_to_serializable l)).
  { intros l. unfold lc_same, lc_to_serializable. cbn [lc_factors]. induction l; cbn [map]; constructor; auto. }
  induction (r_constraints r) as [|c cs IH]; cbn [map]; constructor; [|exact IH].
  cbn [constraint_to_serializable sc_a sc_b sc_c]. auto.
Qed.
Print Assumptions C46_conversion_is_faithful.

(** Two files have the same serializable circuit exactly when they differ at most in their labels. *)
Theorem C46_injective_up_to_labels :
  forall r r', to_serializable r = to_serializable r' <->
    (r_field_size r = r_field_size r' /\ r_prime r = r_prime r' /\ r_n_wires r = r_n_wires r' /\
     r_n_pub_out r = r_n_pub_out r' /\ r_n_pub_in r = r_n_pub_in r' /\ r_n_prv_in r = r_n_prv_in r' /\
     r_n_constraints r = r_n_constraints r' /\ r_constraints r = r_constraints r').
Proof.
  intros r r'. split.
  - intros H. injection H as H1 H2 H3 H4 H5 H6 H7 H8. repeat (split; [assumption|]).
    assert (Hinj : forall c c', constraint_to_serializable c = constraint_to_serializable c' -> c = c').
    { assert (Hl : forall l l', lc_to_serializable l = lc_to_serializable l' -> l = l').
      { intros l l' H. injection H as H. revert l' H. induction l as [|[w b] l IH]; intros [|[w' b'] l'] H; try discriminate; [reflexivity|].
        cbn [map fst snd] in H. injection H as <- <- H. f_equal. apply IH. exact H. }
      intros [a b c] [a' b' c'] H. assert (Ha := f_equal sc_a H). assert (Hb := f_equal sc_b H). assert (Hc := f_equal sc_c H).
      cbn [constraint_to_serializable sc_a sc_b sc_c c_a c_b c_c] in *. apply Hl in Ha, Hb, Hc. congruence. }
    clear - H8 Hinj. revert H8. generalize (r_constraints r) (r_constraints r'). induction l as [|c l IH]; intros [|c' l'] H; try discriminate; [reflexivity|].
    cbn [map] in H. assert (Hcons : forall A (a b : A) k m, a :: k = b :: m -> a = b /\ k = m) by (intros; split; congruence).
    apply Hcons in H as [Hc H]. f_equal; [apply Hinj|apply IH]; assumption.
  - intros (H1&H2&H3&H4&H5&H6&H7&H8). unfold to_serializable. congruence.
Qed.
Print Assumptions C46_injective_up_to_labels.

(** The export pipeline: parse any circuit file, convert, encode, decode: the same rows. *)
Theorem C46_export_pipeline :
  forall max_off file r rest, r1cs_from_bytes max_off file = Ok r ->
    from_bincode (to_bincode (to_serializable r) ++ rest) = Ok (to_serializable r).
Proof.
  intros max_off file r rest H. apply r1cs_sound in H as [Hok _]. unfold from_bincode. rewrite d_circuit_reads; [reflexivity|].
  assert (H32 : 2 ^ 32 < 2 ^ 64) by reflexivity.
  destruct Hok as [K1 K2 K3 K4 K5 K6 K7 K8 K9 K10 _ _].
  assert (Hlc : forall l, lc_ok (r_field_size r) l -> is_lc (lc_to_serializable l)).
  { intros l [L1 L2]. unfold is_lc, lc_to_serializable. cbn [lc_factors]. split; [unfold fits64; rewrite map_length; lia|].
    apply Forall_map. eapply Forall_impl; [|exact L2]. cbn beta. intros f [F1 F2]. cbn [f_wire_id f_coefficient_bytes]. split; [exact F1|].
    unfold fits64. unfold blen in F2. lia. }
  unfold is_circuit, to_serializable.
  cbn [s_field_size s_prime_bytes s_n_wires s_n_pub_out s_n_pub_in s_n_prv_in s_n_constraints s_constraints s_wire_labels].
  split; [exact K1|]. split; [unfold fits64; unfold blen in K2; lia|]. repeat (split; [assumption|]).
  split; [unfold fits64; rewrite map_length; lia|]. split; [|discriminate].
  apply Forall_map. eapply Forall_impl; [|exact K9]. cbn beta. intros c (C1&C2&C3).
  unfold is_constraint, constraint_to_serializable. cbn [sc_a sc_b sc_c]. auto.
Qed.
Print Assumptions C46_export_pipeline.
Example C46_nonvacuous :
  to_serializable (R1csFile 1 [x07] 2 0 1 0 9 1 [Constraint [(1, [x02])] [(0, [x01])] []] [0; 5]) =
  SCircuit 1 [x07] 2 0 1 0 1 [SConstraint (SLC [SFactor 1 [x02]]) (SLC [SFactor 0 [x01]]) (SLC [])] None.
Proof. reflexivity. Qed.
