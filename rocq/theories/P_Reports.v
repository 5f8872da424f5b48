(** C71: how each command ends.  Vocabulary: SpecReports.v. *)
From Coq Require Import List Bool Arith NArith ZArith Lia Permutation.
From Coq Require Import Strings.String Strings.Byte.
From Verif Require Import Res Bytes Text Utf8 Fld Zp Groups Bn254 CS CSFacts Qap SpecCore Core CoreFacts CoreMore P_Core
  R1cs SpecR1cs R1csFacts P_R1cs Wtns SpecWtns WtnsFacts P_Wtns Circuit SpecCircuit CircuitFacts P_Circuit
  ArkSer ArkSerFacts P_Ser Sym SpecSym SymFacts P_Sym Inputs SpecInputs InputsFacts P_Inputs
  Combined SpecCombined CombinedFacts P_Combined Gcm SpecGcm GcmFacts P_Gcm FileSys Commands SpecCommands CommandsFacts P_Commands SpecReports.
Import ListNotations.
Local Open Scope N_scope.

(** ** Synthesis of a circuit never refers to a variable it has not allocated. *)
Definition vmap_ok (ni nw : nat) (vars : vmap) : Prop := forall i v, vars i = Some v -> var_ok ni nw v.
Lemma vmap_ok_mono ni nw ni' nw' vars : (ni <= ni')%nat -> (nw <= nw')%nat -> vmap_ok ni nw vars -> vmap_ok ni' nw' vars.
Proof. intros H1 H2 H i v Hv. specialize (H i v Hv). destruct v; cbn [var_ok] in *; lia. Qed.
Lemma vmap_ok_insert ni nw vars i v : vmap_ok ni nw vars -> var_ok ni nw v -> vmap_ok ni nw (vmap_insert i v vars).
Proof. intros H Hv j u. unfold vmap_insert. destruct (j =? i); [intros X; injection X as <-; exact Hv|apply H]. Qed.
Lemma enforce_wf ni nw vars cs : vmap_ok ni nw vars -> prog_ok ni nw (enforce_all vars cs).
Proof.
  intros H. assert (L : forall l, CS.lc_ok ni nw (build_lc vars l)).
  { intros l. apply Forall_forall. intros [k v] Hin. apply in_flat_map in Hin as ([i b]&_&Hin). cbn [fst snd] in *.
    destruct (vars i) as [v'|] eqn:Ev; [|contradiction]. destruct Hin as [Hin|[]]. injection Hin as _ <-. exact (H i v' Ev). }
  induction cs as [|d cs IH]; cbn [enforce_all prog_ok]; [exact I|]. auto.
Qed.
Lemma witnesses_wf w ids k : (forall ni nw vars, vmap_ok ni nw vars -> prog_ok ni nw (k vars)) ->
  forall ni nw vars, vmap_ok ni nw vars -> prog_ok ni nw (alloc_witnesses w ids vars k).
Proof.
  intros Hk. induction ids as [|id ids IH]; intros ni nw vars Hv; cbn [alloc_witnesses]; [apply Hk; exact Hv|].
  unfold wire_source. destruct (w id) as [x|]; cbn [prog_ok]; [|exact I]. apply IH. apply vmap_ok_insert.
  - eapply vmap_ok_mono; [| |exact Hv]; lia.
  - cbn [var_ok]. lia.
Qed.
Lemma inputs_wf w ids k : (forall ni nw vars, vmap_ok ni nw vars -> prog_ok ni nw (k vars)) ->
  forall ni nw vars, vmap_ok ni nw vars -> prog_ok ni nw (alloc_inputs w ids vars k).
Proof.
  intros Hk. induction ids as [|id ids IH]; intros ni nw vars Hv; cbn [alloc_inputs]; [apply Hk; exact Hv|].
  unfold wire_source. destruct (w id) as [x|]; cbn [prog_ok]; [|exact I]. apply IH. apply vmap_ok_insert.
  - eapply vmap_ok_mono; [| |exact Hv]; lia.
  - cbn [var_ok]. lia.
Qed.
Theorem circom_well_formed : forall c, well_formed (circom_prog c).
Proof.
  intros c. unfold well_formed, wf_prog, circom_prog. apply inputs_wf.
  - intros ni nw vars Hv. apply witnesses_wf; [|exact Hv]. intros ni' nw' vars' Hv'. apply enforce_wf. exact Hv'.
  - intros i v. unfold vmap_init. destruct (i =? 0); [|discriminate]. intros X. injection X as <-. cbn [var_ok]. lia.
Qed.

(** ** The first thing that is wrong *)
Lemma first_that_det {R} (l : list (Prop * R)) a b : first_that l a -> first_that l b -> a = b.
Proof. induction 1 as [P r l HP|P r0 l r HP H IH]; intros X; inversion X; subst; [reflexivity|contradiction|contradiction|auto]. Qed.
Lemma first_that_iff {R} (l : list (Prop * R)) a b : first_that l a -> (a = b <-> first_that l b).
Proof. intros H. split; [intros <-; exact H|apply first_that_det; exact H]. Qed.

Lemma bad_or_not (ss : list said) : In Bad ss \/ ~ In Bad ss.
Proof.
  induction ss as [|s ss [IH|IH]]; [right; intros []|left; right; exact IH|].
  destruct s; [right|right|left; left; reflexivity]; intros [X|X]; congruence || contradiction.
Qed.
Lemma bad_line_iff t : has_bad_line t <-> parse_sym_file t = Err SymBadWire.
Proof.
  split.
  - intros (ls&l&Hf&<-&Hin&Hs).
    assert (Hss : exists ss, Forall2 (says rust_ws) ls ss /\ In Bad ss).
    { clear Hf. induction ls as [|x ls IH]; [contradiction|].
      assert (T : exists ss, Forall2 (says rust_ws) ls ss).
      { clear. induction ls as [|y ls (ss&IH)]; [exists []; constructor|]. destruct (says_total rust_ws y) as (u&Hu). exists (u :: ss). constructor; assumption. }
      destruct Hin as [->|Hin].
      - destruct T as (ss&T). exists (Bad :: ss). split; [constructor; assumption|left; reflexivity].
      - destruct (IH Hin) as (ss&H1&H2). destruct (says_total rust_ws x) as (u&Hu). exists (u :: ss). split; [constructor; assumption|right; exact H2]. }
    destruct Hss as (ss&H1&H2). apply (proj2 (C27_symbol_file ls ss ltac:(destruct ls; [contradiction|discriminate]) Hf H1)). exact H2.
  - intros H. destruct (C27_covers_every_text t) as (ls&ss&Hn&Hf&<-&Hs). destruct (C27_symbol_file ls ss Hn Hf Hs) as [A B].
    assert (Hb : In Bad ss).
    { destruct (bad_or_not ss) as [X|X]; [exact X|].
      destruct (A X) as (m&Hm&_). congruence. }
    exists ls. clear - Hf Hs Hb.
    assert (G : exists l, In l ls /\ says rust_ws l Bad).
    { clear Hf. induction Hs as [|x s ls ss Hx Hs IH]; [contradiction|]. destruct Hb as [->|Hb].
      - exists x. split; [left; reflexivity|exact Hx].
      - destruct (IH Hb) as (l&H1&H2). exists l. split; [right; exact H1|exact H2]. }
    destruct G as (l&H1&H2). exists l. auto.
Qed.
Lemma sym_outcome t : (exists m, parse_sym_file t = Ok m) \/ parse_sym_file t = Err SymBadWire.
Proof.
  destruct (C27_covers_every_text t) as (ls&ss&Hn&Hf&<-&Hs). destruct (C27_symbol_file ls ss Hn Hf Hs) as [A B].
  destruct (bad_or_not ss) as [X|X]; [right; auto|].
  left. destruct (A X) as (m&Hm&_). eauto.
Qed.

Section Reports.
  Context (E : pairingT Fr) (C : codecT E) (D : domainT Fr) (kdf : GT E -> key) (aes : cipherT)
          (json_parse : text -> option json) (max_off : N).

  Ltac no := apply ft_next; [|].
  Lemma is_circuit_dec s p :
    (exists b r, s p = Some b /\ r1cs_from_bytes max_off b = Ok r) \/
    ~ is_circuit max_off s p /\ (forall e k, run (load_r1cs max_off p e k) s = (s, Err e)).
  Proof.
    unfold is_circuit, load_r1cs. cbn [run]. destruct (s p) as [b|] eqn:Ep; cbn [try_opt].
    - destruct (r1cs_from_bytes max_off b) as [r|e0|] eqn:Er; cbn [try_].
      + left. eauto.
      + right. split; [intros (b'&r&H1&H2); congruence|]. intros e k. reflexivity.
      + exfalso. exact (C17_never_panics max_off b Er).
    - right. split; [intros (b'&r&H1&H2); congruence|]. intros e k. reflexivity.
  Qed.
  Lemma run_load_r1cs s p b r e k : s p = Some b -> r1cs_from_bytes max_off b = Ok r ->
    run (load_r1cs max_off p e k) s = run (k r) s.
  Proof. intros H1 H2. unfold load_r1cs. cbn [run]. rewrite H1. cbn [try_opt]. rewrite H2. reflexivity. Qed.
  Lemma is_text_dec s p : (exists t, is_text s p t /\ (forall e k, run (read_string p e k) s = run (k t) s)) \/
    ~ (exists t, is_text s p t) /\ (forall e k, run (read_string p e k) s = (s, Err e)).
  Proof.
    unfold is_text, read_string. cbn [run]. destruct (s p) as [b|] eqn:Ep; cbn [try_opt].
    - destruct (utf8_decode b) as [t|] eqn:Et; cbn [try_opt].
      + left. exists t. split; [eauto|reflexivity].
      + right. split; [intros (t&b'&H1&H2); congruence|reflexivity].
    - right. split; [intros (t&b'&H1&H2); congruence|reflexivity].
  Qed.
  Lemma is_text_det s p t t' : is_text s p t -> is_text s p t' -> t = t'.
  Proof. intros (b&H1&H2) (b'&H3&H4). congruence. Qed.
  Lemma is_input_iff s p t : is_text s p t ->
    (is_input json_parse s p <-> exists m, parse_inputs_text json_parse t = Ok m).
  Proof.
    intros Ht. unfold is_input, parse_inputs_text. split.
    - intros (t'&kvs&Ht'&Hj&Hl). rewrite (is_text_det s p t t' Ht Ht'), Hj. apply C29_accepted_iff_every_leaf_is_numeric. exact Hl.
    - intros (m&Hm). destruct (json_parse t) as [doc|] eqn:Ej; [|discriminate].
      destruct doc as [|b|z|f|u|l|kvs]; try (rewrite C29_other_documents_are_errors in Hm by (intros; discriminate); discriminate).
      exists t, kvs. split; [exact Ht|]. split; [exact Ej|]. apply C29_accepted_iff_every_leaf_is_numeric. eauto.
  Qed.

  Lemma prepare_ends v cp sp ip s k rest :
    (forall t c, first_that rest (snd (run (k t c) s))) ->
    first_that (prepare_reports json_parse max_off s cp sp ip ++ rest)
               (snd (run (prepare json_parse max_off v cp sp ip k) s)).
  Proof.
    intros Hk. unfold prepare, prepare_reports. cbn [app].
    destruct (is_circuit_dec s cp) as [(cb&r&Hcb&Hr)|[Hn Hrun]]; [|rewrite Hrun; apply ft_here; exact Hn].
    apply ft_next; [intros X; apply X; exists cb, r; auto|]. rewrite (run_load_r1cs s cp cb r _ _ Hcb Hr).
    destruct (is_text_dec s sp) as [(st&Hst&Hrun)|[Hn Hrun]]; rewrite Hrun; [|apply ft_here; exact Hn].
    apply ft_next; [intros X; apply X; eauto|]. clear Hrun.
    destruct (sym_outcome st) as [(syms&Hsy)|Hsy]; rewrite Hsy; cbn [try_ run snd].
    2:{ apply ft_here. exists st. split; [exact Hst|]. apply bad_line_iff. exact Hsy. }
    apply ft_next. { intros (t&Ht&Hb). rewrite (is_text_det s sp t st Ht Hst) in Hb. apply bad_line_iff in Hb. congruence. }
    destruct (is_text_dec s ip) as [(it&Hit&Hrun)|[Hn Hrun]]; rewrite Hrun; [|apply ft_here; exact Hn].
    apply ft_next; [intros X; apply X; eauto|]. clear Hrun.
    destruct (parse_inputs_text json_parse it) as [inp|e|] eqn:Ei; cbn [try_ run snd].
    - apply ft_next; [intros X; apply X; apply (is_input_iff s ip it Hit); eauto|].
      rewrite (run_load_r1cs s cp cb r _ _ Hcb Hr). apply Hk.
    - apply ft_here. intros X. apply (is_input_iff s ip it Hit) in X as (m&X). congruence.
    - exfalso. unfold parse_inputs_text in Ei. destruct (json_parse it); [|discriminate]. exact (C29_never_panics _ Ei).
  Qed.

  Lemma run_encap_outcome co c : (c_delta co = f0 /\ run_encap E D kdf co c = Panic) \/
    (c_delta co <> f0 /\ exists ct k, run_encap E D kdf co c = Ok (ct, k)).
  Proof.
    unfold run_encap. destruct (C06_encap_outcome Fr E D kdf (circom_prog c) (c_alpha co) (c_beta co) (c_delta co) (c_r co) (c_x co)) as (A&B&_).
    destruct (feqb_spec (c_delta co) f0) as [H|H]; [left; auto|right; auto].
  Qed.

  Lemma encap_ends v co cp sp ip ctp kp s :
    first_that (encap_reports json_parse max_off s co cp sp ip)
               (snd (run (encap_command C D kdf json_parse max_off v co cp sp ip ctp kp) s)).
  Proof.
    unfold encap_command, encap_reports. apply prepare_ends. intros t c.
    destruct (run_encap_outcome co c) as [[H1 H2]|(H1&ct&k&H2)]; rewrite H2; cbn [try_].
    - apply ft_here. exact H1.
    - apply ft_next; [exact H1|]. apply ft_here. exact I.
  Qed.

  Lemma encrypt_ends v co cp sp ip mp op inc s :
    (forall g, List.length (kdf g) = 32%nat) ->
    first_that (encrypt_reports json_parse max_off s co cp sp ip mp)
               (snd (run (encrypt_command C D kdf aes json_parse max_off v co cp sp ip mp op inc) s)).
  Proof.
    intros Hkdf. unfold encrypt_command, encrypt_reports. apply prepare_ends. intros t c.
    destruct (run_encap_outcome co c) as [[H1 H2]|(H1&ct&k&H2)]; rewrite H2; cbn [try_].
    - apply ft_here. exact H1.
    - apply ft_next; [exact H1|]. cbv zeta. cbn [run].
      assert (Hk : List.length k = 32%nat) by (apply encap_key in H2 as [g ->]; apply Hkdf).
      destruct (s mp) as [m|] eqn:Em; cbn [try_opt run snd]; [|apply ft_here; reflexivity].
      apply ft_next; [discriminate|]. destruct (C38_failures aes k (c_nonce co) m) as (_&F1&F2&_).
      change (2 ^ 36 - 32) with gcm_limit. destruct (N.lt_ge_cases gcm_limit (blen m)) as [Hg|Hg].
      + destruct (N.le_gt_cases (blen m) (2 ^ 36)) as [Hx|Hx].
        * rewrite F1 by assumption. apply ft_here. eauto.
        * rewrite F2 by assumption. apply ft_next; [|apply ft_here; eauto].
          intros (m'&Hm'&_&Hle). injection Hm' as <-. apply N.lt_nge in Hx. exact (Hx Hle).
      + destruct (encrypt_gcm_ok aes k (c_nonce co) m Hk Hg) as (c0&_&He). rewrite He. cbn [try_ run snd].
        apply ft_next. { intros (m'&Hm'&Hlt&_). injection Hm' as <-. apply N.le_ngt in Hg. exact (Hg Hlt). }
        apply ft_next. { intros (m'&Hm'&Hlt). injection Hm' as <-. apply N.le_ngt in Hg. apply Hg. unfold gcm_limit. clear - Hlt. lia. }
        apply ft_here. exact I.
  Qed.

  Lemma witness_ends s wp k rest :
    (forall b vals, s wp = Some b -> cli_read_witness b = Ok vals -> first_that rest (snd (run (k vals) s))) ->
    first_that ((kills_reader s wp, Panic) :: (~ is_witness_file s wp, Err ELoadWitness) ::
                (~ is_witness s wp, Err EConvertWitness) :: rest)
               (snd (run (load_witness wp k) s)).
  Proof.
    intros Hk. unfold load_witness. cbn [run]. unfold kills_reader, is_witness_file, is_witness.
    destruct (s wp) as [b|] eqn:Eb; cbn [try_opt run snd].
    2:{ apply ft_next; [intros (b&X&_); discriminate|]. apply ft_here. intros (b&f&X&_). discriminate. }
    destruct (wtns_from_bytes b) as [f|e|] eqn:Ef; cbn [try_ run snd].
    - apply ft_next; [intros (b'&X&Y); congruence|]. apply ft_next; [intros X; apply X; eauto|].
      destruct (to_field_elements f) as [vals|e|] eqn:Ev; cbn [try_ run snd].
      + assert (Hc : cli_read_witness b = Ok vals) by (unfold cli_read_witness; rewrite Ef; exact Ev).
        apply ft_next; [intros X; apply X; eauto|]. apply (Hk b vals eq_refl Hc).
      + apply ft_here. intros (b'&vals&X&Y). injection X as <-. unfold cli_read_witness in Y. rewrite Ef in Y. cbn [rbind] in Y. congruence.
      + exfalso. unfold to_field_elements, of_option in Ev. destruct (all_some _); discriminate.
    - apply ft_next; [intros (b'&X&Y); congruence|]. apply ft_here. intros (b'&f&X&Y). congruence.
    - apply ft_here. eauto.
  Qed.

  Lemma decap_ends cp wp ctp kp s :
    first_that (decap_reports E C kdf max_off s cp wp ctp)
               (snd (run (decap_command C kdf max_off cp wp ctp kp) s)).
  Proof.
    unfold decap_command, decap_reports.
    destruct (is_circuit_dec s cp) as [(cb&r&Hcb&Hr)|[Hn Hrun]]; [|rewrite Hrun; apply ft_here; exact Hn].
    apply ft_next; [intros X; apply X; exists cb, r; auto|]. rewrite (run_load_r1cs s cp cb r _ _ Hcb Hr).
    apply witness_ends. intros wb vals Hwb Hv. cbn [run].
    destruct (s ctp) as [bs|] eqn:Ebs; cbn [try_opt run snd]; [|apply ft_here; reflexivity].
    apply ft_next; [discriminate|].
    destruct (ct_deserialize C bs) as [[ct tl]|] eqn:Ect; cbn [try_opt run snd].
    2:{ apply ft_here. eauto. }
    apply ft_next; [intros (bs'&X&Y); congruence|]. fold (load_r1cs max_off cp). rewrite (run_load_r1cs s cp cb r _ _ Hcb Hr).
    destruct (decap kdf (circom_prog (circom_of_cli r (witness_of vals))) ct) as [k|e|] eqn:Ek; cbn [try_ run snd].
    - apply ft_next; [|apply ft_here; exact I]. intros X. apply X. exists bs. split; [reflexivity|]. exists cb, wb, k.
      split; [exact Hcb|]. split; [exact Hwb|]. exists r, vals, ct, tl. auto.
    - apply ft_here. intros (bs'&X&cb'&wb'&k&Y&Z&r'&vals'&ct'&tl'&A1&A2&A3&A4).
      injection X as <-. assert (cb' = cb) by congruence. assert (wb' = wb) by congruence. subst cb' wb'.
      assert (r' = r) by congruence. assert (vals' = vals) by congruence. subst r' vals'. assert (ct' = ct) by congruence. subst ct'.
      unfold witness_of in Ek. congruence.
    - exfalso. exact (proj1 (C04_decap_never_panics Fr E kdf _ ct (circom_well_formed _)) Ek).
  Qed.

  Lemma decrypt_ends cp wp ctp op s :
    first_that (decrypt_reports E C kdf aes max_off s cp wp ctp)
               (snd (run (decrypt_command C kdf aes max_off cp wp ctp op) s)).
  Proof.
    unfold decrypt_command, decrypt_reports. cbn [app map run].
    destruct (s ctp) as [f|] eqn:Ef; cbn [try_opt run snd]; [|apply ft_here; reflexivity].
    apply ft_next; [discriminate|].
    destruct (cli_split f) as [p|e|] eqn:Ep; cbn [try_ run snd].
    3:{ exfalso. destruct (C36_errors f) as (_&_&_&_&H). exact (H Ep). }
    2:{ destruct e;
        repeat first [apply ft_here; eauto; fail | apply ft_next; [intros (f'&X&Y); congruence|]]. }
    do 4 (apply ft_next; [intros (f'&X&Y); congruence|]).
    destruct (is_circuit_dec s cp) as [(cb&r&Hcb&Hr)|[Hn Hrun]]; [|rewrite Hrun; apply ft_here; exact Hn].
    apply ft_next; [intros X; apply X; exists cb, r; auto|]. rewrite (run_load_r1cs s cp cb r _ _ Hcb Hr).
    apply witness_ends. intros wb vals Hwb Hv.
    assert (Hcomb : combined s ctp p) by (exists f; auto).
    assert (Huniq : forall p', combined s ctp p' -> p' = p) by (intros p' (f'&X&Y); congruence).
    destruct (ct_deserialize C (p_witness p)) as [[ct tl]|] eqn:Ect; cbn [try_opt run snd].
    2:{ apply ft_here. eauto. }
    apply ft_next; [intros (p'&X&Y); rewrite (Huniq p' X) in Y; congruence|]. rewrite (run_load_r1cs s cp cb r _ _ Hcb Hr).
    assert (Hrec : forall cb' wb' k, s cp = Some cb' -> s wp = Some wb' -> recovers C kdf max_off cb' wb' (p_witness p) k ->
      decap kdf (circom_prog (circom_of_cli r (witness_of vals))) ct = Ok k).
    { intros cb' wb' k Y Z (r'&vals'&ct'&tl'&A1&A2&A3&A4).
      assert (cb' = cb) by congruence. assert (wb' = wb) by congruence. subst cb' wb'.
      assert (r' = r) by congruence. assert (vals' = vals) by congruence. subst r' vals'. assert (ct' = ct) by congruence. subst ct'. exact A4. }
    destruct (decap kdf (circom_prog (circom_of_cli r (witness_of vals))) ct) as [k|e|] eqn:Ek; cbn [try_ run snd].
    3:{ exfalso. exact (proj1 (C04_decap_never_panics Fr E kdf _ ct (circom_well_formed _)) Ek). }
    2:{ apply ft_here. intros (p'&X&cb'&wb'&k&Y&Z&A). rewrite (Huniq p' X) in A. specialize (Hrec cb' wb' k Y Z A). congruence. }
    assert (Hk : recovers C kdf max_off cb wb (p_witness p) k) by (exists r, vals, ct, tl; auto).
    apply ft_next. { intros X. apply X. exists p. split; [exact Hcomb|]. exists cb, wb, k. auto. }
    assert (Hkey : forall p' cb' wb' k', combined s ctp p' -> s cp = Some cb' -> s wp = Some wb' ->
      recovers C kdf max_off cb' wb' (p_witness p') k' -> p' = p /\ k' = k).
    { intros p' cb' wb' k' X Y Z A. specialize (Huniq p' X). subst p'. specialize (Hrec cb' wb' k' Y Z A). split; congruence. }
    destruct (decrypt_gcm aes k (p_message p)) as [m|e|] eqn:Em; cbn [try_ run snd].
    - apply ft_next. { intros (p'&cb'&wb'&k'&nonce&c&X1&X2&X3&X4&X5&X6&X7&X8).
        destruct (Hkey p' cb' wb' k' X1 X2 X3 X4) as [-> ->].
        assert (Hp : decrypt_gcm aes k (p_message p) = Panic) by (apply C39_panics_iff; split; [exact X5|]; exists nonce, c; auto).
        congruence. }
      apply ft_next; [|apply ft_here; exact I]. intros X. apply X. exists cb, wb, f, m. repeat (split; [assumption|]).
      split; [reflexivity|]. apply opened_iff. exists p, k. auto.
    - apply ft_next. { intros (p'&cb'&wb'&k'&nonce&c&X1&X2&X3&X4&X5&X6&X7&X8).
        destruct (Hkey p' cb' wb' k' X1 X2 X3 X4) as [-> ->].
        assert (Hp : decrypt_gcm aes k (p_message p) = Panic) by (apply C39_panics_iff; split; [exact X5|]; exists nonce, c; auto).
        congruence. }
      apply ft_here. intros (cb'&wb'&f'&m&X1&X2&X3&X4). apply opened_iff in X4 as (p'&k'&Y1&Y2&Y3).
      destruct (Hkey p' cb' wb' k') as [-> ->]; [exists f'; split; congruence|exact X1|exact X2|exact Y2|]. congruence.
    - apply C39_panics_iff in Em as (Hl&nonce&c&H1&H2&H3). apply ft_here. exists p, cb, wb, k, nonce, c. auto 10.
  Qed.
End Reports.

(** C71: a run that nothing disturbs ends with the result of the first thing that is wrong. *)
Theorem C71_encap_ends :
  forall (E : pairingT Fr) (C : codecT E) (D : domainT Fr) (kdf : GT E -> key) json_parse max_off v co cp sp ip ctp kp s r,
    snd (run (encap_command C D kdf json_parse max_off v co cp sp ip ctp kp) s) = r <->
    first_that (encap_reports json_parse max_off s co cp sp ip) r.
Proof. intros. apply first_that_iff, encap_ends. Qed.
Print Assumptions C71_encap_ends.

Theorem C71_encrypt_ends :
  forall (E : pairingT Fr) (C : codecT E) (D : domainT Fr) (kdf : GT E -> key) (aes : cipherT) json_parse max_off v co cp sp ip mp op inc s r,
    (forall g, List.length (kdf g) = 32%nat) ->
    (snd (run (encrypt_command C D kdf aes json_parse max_off v co cp sp ip mp op inc) s) = r <->
     first_that (encrypt_reports json_parse max_off s co cp sp ip mp) r).
Proof. intros. apply first_that_iff, encrypt_ends. assumption. Qed.
Print Assumptions C71_encrypt_ends.

Theorem C71_decap_ends :
  forall (E : pairingT Fr) (C : codecT E) (kdf : GT E -> key) max_off cp wp ctp kp s r,
    snd (run (decap_command C kdf max_off cp wp ctp kp) s) = r <->
    first_that (decap_reports E C kdf max_off s cp wp ctp) r.
Proof. intros. apply first_that_iff, decap_ends. Qed.
Print Assumptions C71_decap_ends.

Theorem C71_decrypt_ends :
  forall (E : pairingT Fr) (C : codecT E) (kdf : GT E -> key) (aes : cipherT) max_off cp wp ctp op s r,
    snd (run (decrypt_command C kdf aes max_off cp wp ctp op) s) = r <->
    first_that (decrypt_reports E C kdf aes max_off s cp wp ctp) r.
Proof. intros. apply first_that_iff, decrypt_ends. Qed.
Print Assumptions C71_decrypt_ends.

(** Instances: a run that succeeds, and some that do not. *)
Example C71_instances :
  (forall aes, first_that (encrypt_reports ex_json (2 ^ 63 - 1) ex_fs ex_coins (lit "c") (lit "s") (lit "i") (lit "m")) (Ok tt) /\
    exists out, first_that (decrypt_reports fr_pairing ex_codec ex_kdf32 aes (2 ^ 63 - 1) (fs_write (lit "o") out ex_fs) (lit "c") (lit "w") (lit "o")) (Ok tt)) /\
  first_that (encap_reports ex_json (2 ^ 63 - 1) (fun _ => None) ex_coins (lit "c") (lit "s") (lit "i")) (Err ELoadR1cs) /\
  first_that (encap_reports ex_json (2 ^ 63 - 1) (fs_write (lit "s") [xff] ex_fs) ex_coins (lit "c") (lit "s") (lit "i")) (Err EReadSym) /\
  first_that (encap_reports ex_json (2 ^ 63 - 1) (fs_write (lit "s") (utf8_encode (lit "1,x,1,a")) ex_fs) ex_coins (lit "c") (lit "s") (lit "i")) (Err EParseSym) /\
  first_that (decap_reports fr_pairing ex_codec ex_kdf32 (2 ^ 63 - 1) ex_fs (lit "c") (lit "c") (lit "w")) (Err ELoadWitness).
Proof.
  split; [|split; [|split; [|split]]].
  - intros aes. destruct (C41_nonvacuous aes true) as (s1&H1&_&_&_&H2).
    assert (Hk : forall g, List.length (ex_kdf32 g) = 32%nat) by (intros g; apply le_bytes_length).
    split.
    + apply (C71_encrypt_ends fr_pairing ex_codec bn_domain ex_kdf32 aes ex_json (2 ^ 63 - 1) ex_visits ex_coins (lit "c") (lit "s") (lit "i") (lit "m") (lit "o") true ex_fs (Ok tt) Hk).
      rewrite H1. reflexivity.
    + pose proof (run_exec' _ _ _ _ H1) as Hx. apply exec_encrypt in Hx as [[_ Hx]|(cb&sb&ib&mb&t&c&ct&k&enc&_&_&_&_&_&_&_&Hx)]; [congruence|].
      cbv zeta in Hx. destruct Hx as [[_ [Hx|Hx]]|[Hs _]]; [congruence|congruence|]. eexists.
      apply (C71_decrypt_ends fr_pairing ex_codec ex_kdf32 aes (2 ^ 63 - 1) (lit "c") (lit "w") (lit "o") (lit "p")).
      rewrite <- Hs, H2. reflexivity.
  - apply (C71_encap_ends fr_pairing ex_codec bn_domain ex_kdf32 ex_json (2 ^ 63 - 1) ex_visits ex_coins (lit "c") (lit "s") (lit "i") (lit "o") (lit "k")). reflexivity.
  - apply (C71_encap_ends fr_pairing ex_codec bn_domain ex_kdf32 ex_json (2 ^ 63 - 1) ex_visits ex_coins (lit "c") (lit "s") (lit "i") (lit "o") (lit "k")).
    unfold encap_command, prepare. rewrite (run_load_r1cs (2 ^ 63 - 1) _ _ ex_circuit_file ex_circuit); [|reflexivity|exact ex_circuit_reads]. vm_compute. reflexivity.
  - apply (C71_encap_ends fr_pairing ex_codec bn_domain ex_kdf32 ex_json (2 ^ 63 - 1) ex_visits ex_coins (lit "c") (lit "s") (lit "i") (lit "o") (lit "k")).
    unfold encap_command, prepare. rewrite (run_load_r1cs (2 ^ 63 - 1) _ _ ex_circuit_file ex_circuit); [|reflexivity|exact ex_circuit_reads]. vm_compute. reflexivity.
  - apply (C71_decap_ends fr_pairing ex_codec ex_kdf32 (2 ^ 63 - 1) (lit "c") (lit "c") (lit "w") (lit "k")).
    unfold decap_command. rewrite (run_load_r1cs (2 ^ 63 - 1) _ _ ex_circuit_file ex_circuit); [|reflexivity|exact ex_circuit_reads]. vm_compute. reflexivity.
Qed.
