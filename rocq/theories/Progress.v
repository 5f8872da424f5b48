(** Lemmas for P_Progress.v: executions of the printing commands, step by step. *)
From Coq Require Import List Bool Arith NArith ZArith Lia.
From Coq Require Import Strings.String Strings.Byte.
From Verif Require Import Res Bytes Text Utf8 Fld Groups Bn254 CS Qap Core R1cs Wtns Circuit ArkSer Sym Inputs Combined Gcm
  FileSys Commands SpecCommands CommandsFacts Printing PrintingFacts SpecPrinting.
Import ListNotations.
Local Open Scope string_scope.
Local Open Scope list_scope.
Local Open Scope N_scope.

(** [t] begins with [a]. *)
Fixpoint prefixb (a t : text) : bool :=
  match a, t with
  | [], _ => true
  | x :: a, y :: t => (x =? y) && prefixb a t
  | _ :: _, [] => false
  end.
(** The two texts differ where both have a character. *)
Fixpoint diverge (a b : text) : bool :=
  match a, b with
  | x :: a, y :: b => negb (x =? y) || diverge a b
  | _, _ => false
  end.
Lemma prefixb_iff a : forall t, prefixb a t = true <-> exists rest, t = a ++ rest.
Proof.
  induction a as [|x a IH]; intros [|y t]; cbn [prefixb app].
  - split; [eauto|reflexivity].
  - split; [eauto|reflexivity].
  - split; [discriminate|]. intros [rest H]. discriminate.
  - rewrite andb_true_iff, N.eqb_eq, IH. split.
    + intros [-> [rest ->]]. eauto.
    + intros [rest H]. injection H as -> ->. eauto.
Qed.
Lemma diverge_prefix a : forall b x, diverge a b = true -> prefixb a (b ++ x) = false.
Proof.
  induction a as [|c a IH]; intros [|d b] x; cbn [diverge prefixb app]; try discriminate.
  destruct (N.eqb_spec c d); cbn [negb orb andb]; [apply IH|reflexivity].
Qed.
Lemma printed_iff l a : printed l a <-> existsb (fun m => prefixb a (words m)) l = true.
Proof.
  rewrite existsb_exists. unfold printed. split.
  - intros (m&rest&Hi&Hw). exists m. split; [exact Hi|]. apply prefixb_iff. eauto.
  - intros (m&Hi&Hp). apply prefixb_iff in Hp as [rest Hp]. eauto.
Qed.

Section Steps.
  (** The beginnings of lines looked for. *)
  Context (M : list text).
  Definition quiet (m : said) : Prop := forall a, In a M -> prefixb a (words m) = false.
  Definition calm (l : list said) : Prop := Forall quiet l.
  Definition beginning (b : text) : Prop := forallb (fun a => diverge a b) M = true.
  Lemma quiet_begin st b x : beginning b -> quiet (Said st (b ++ x)).
  Proof. unfold beginning. rewrite forallb_forall. intros H a Ha. apply diverge_prefix. apply H. exact Ha. Qed.
  Lemma quiet_whole st b : beginning b -> quiet (Said st b).
  Proof. intros H. rewrite <- (app_nil_r b). apply quiet_begin. exact H. Qed.
  Lemma calm_unprinted l a : calm l -> In a M -> existsb (fun m => prefixb a (words m)) l = false.
  Proof. intros H Ha. induction H as [|m l Hm _ IH]; [reflexivity|]. cbn [existsb]. rewrite (Hm a Ha). exact IH. Qed.

  Definition halted (s s' : fsys) (l : list said) (o : outcome failure) : Prop := s' = s /\ calm l /\ o <> Finished (Ok tt).
  Definition after (k : talk) (s s' : fsys) (l : list said) (o : outcome failure) : Prop :=
    exists l1 l2, l = l1 ++ l2 /\ calm l1 /\ texec k s s' l2 o.
  Lemma after_start k s s' l o : texec k s s' l o -> after k s s' l o.
  Proof. intros H. exists [], l. split; [reflexivity|]. split; [constructor|exact H]. Qed.
  Lemma after_say m k s s' l o : quiet m -> after (TSay m k) s s' l o -> halted s s' l o \/ after k s s' l o.
  Proof.
    intros Hm (l1&l2&->&Hc&H). inversion H; subst.
    - left. split; [reflexivity|]. rewrite app_nil_r. split; [exact Hc|discriminate].
    - right. match goal with X : texec k _ _ ?z _ |- _ => exists (l1 ++ [m]), z end. rewrite <- app_assoc. split; [reflexivity|]. split; [|assumption].
      apply Forall_app. split; [exact Hc|]. constructor; [exact Hm|constructor].
    - left. split; [reflexivity|]. rewrite app_nil_r. split; [exact Hc|discriminate].
  Qed.
  Lemma after_says ms k s s' l o : calm ms -> after (says ms k) s s' l o -> halted s s' l o \/ after k s s' l o.
  Proof.
    intros Hms. revert l. induction Hms as [|m ms Hm _ IH]; intros l H; [right; exact H|].
    cbn [says] in H. apply after_say in H as [H|H]; [left; exact H| |exact Hm]. apply IH. exact H.
  Qed.
  Lemma after_end_err f s s' l o : after (TEnd (Err f)) s s' l o -> halted s s' l o.
  Proof.
    intros (l1&l2&->&Hc&H). inversion H; subst; rewrite app_nil_r; (split; [reflexivity|]); (split; [exact Hc|discriminate]).
  Qed.
  Lemma after_end_panic s s' l o : after (TEnd Panic) s s' l o -> halted s s' l o.
  Proof.
    intros (l1&l2&->&Hc&H). inversion H; subst; rewrite app_nil_r; (split; [reflexivity|]); (split; [exact Hc|discriminate]).
  Qed.
  Lemma after_try {E' A} (x : res E' A) f k s s' l o : after (ttry x f k) s s' l o ->
    halted s s' l o \/ exists a, x = Ok a /\ after (k a) s s' l o.
  Proof.
    destruct x as [a|e|]; cbn [ttry]; intros H; [right; eauto|left..]; [eapply after_end_err|apply after_end_panic]; exact H.
  Qed.
  Lemma after_try_opt {A} (x : option A) e k s s' l o : after (ttry_opt x e k) s s' l o ->
    halted s s' l o \/ exists a, x = Some a /\ after (k a) s s' l o.
  Proof. destruct x as [a|]; cbn [ttry_opt]; intros H; [right; eauto|left; eapply after_end_err; exact H]. Qed.
  Lemma after_read p e k s s' l o : after (TRead p (fun c => ttry_opt c e k)) s s' l o ->
    halted s s' l o \/ exists b, s p = Some b /\ after (k b) s s' l o.
  Proof.
    intros (l1&l2&->&Hc&H). inversion H; subst.
    - left. split; [reflexivity|]. rewrite app_nil_r. split; [exact Hc|discriminate].
    - apply after_try_opt with (e := e). exists l1, l2. auto.
    - left. cbn [ttry_opt] in *. apply after_end_err with (f := e). exists l1, l2. auto.
  Qed.
  (** Writing: nothing more is said unless the whole file was written. *)
  Lemma texec_twrite p b e k s s' l o : texec (twrite p b e k) s s' l o ->
    (l = [] /\ (s' = s \/ exists n, s' = fs_write p (firstn n b) s) /\ o <> Finished (Ok tt)) \/ texec k (fs_write p b s) s' l o.
  Proof.
    intros H. inversion H; subst.
    - left. split; [reflexivity|]. split; [left; reflexivity|discriminate].
    - right. assumption.
    - left. match goal with H : texec (TEnd _) _ _ _ _ |- _ => inversion H; subst end; (split; [reflexivity|]; split; [left; reflexivity|discriminate]).
    - left. match goal with H : texec (TEnd _) _ _ _ _ |- _ => inversion H; subst end; (split; [reflexivity|]; split; [right; eexists; reflexivity|discriminate]).
    - left. split; [reflexivity|]. split; [right; eexists; reflexivity|discriminate].
  Qed.
  Lemma texec_say m k s s' l o : texec (TSay m k) s s' l o ->
    (l = [] /\ s' = s /\ o <> Finished (Ok tt)) \/ exists l', l = m :: l' /\ texec k s s' l' o.
  Proof.
    intros H. inversion H; subst.
    - left. split; [reflexivity|]. split; [reflexivity|discriminate].
    - right. eauto.
    - left. split; [reflexivity|]. split; [reflexivity|discriminate].
  Qed.
  Lemma texec_end s s' l o : texec (TEnd (Ok tt)) s s' l o -> l = [] /\ s' = s.
  Proof. intros H. inversion H; subst; auto. Qed.
End Steps.

(** The beginnings of the lines printed before the first output is announced. *)
Definition early : list text :=
  [ u8 "🔐 Starting Encap..."; u8 "  ⚠ Circuit synthesis error (expected for encap without witness): "; u8 "  ✓ Circuit setup: ";
    u8 "  ✓ Extracted "; u8 "  ✓ Sampled random parameters (α, β, δ, r, x)"; u8 "  ⏳ Evaluating QAP polynomials at x...";
    u8 "  ✓ Generated CRS with "; u8 "  ⏳ Computing pairing for key derivation..."; u8 "  ✓ Derived key from pairing";
    u8 "🔓 Starting Decap..."; u8 "  ✗ Circuit constraints not satisfied!"; u8 "  ✓ Circuit synthesized and satisfied";
    u8 "  ✓ Extracted full assignment: "; u8 "  ✗ Public input mismatch at index "; u8 "  ⏳ Computing A from witness and CRS...";
    u8 "  ⏳ Computing B from witness and CRS..."; u8 "  ⏳ Computing C from witness and CRS...";
    u8 "  ⏳ Computing pairing for key recovery..."; u8 "  ✓ Successfully recovered key";
    u8 "   - Constraints: "; u8 "   - Public inputs: "; u8 "   - Wires: "; 10 :: u8 "📂 Loading symbol file..."; u8 "📂 Loading R1CS circuit...";
    10 :: u8 "📋 Loading public inputs from JSON..."; u8 "   - Parsed "; 10 :: u8 "🔐 Running Encap..."; 10 :: u8 "📋 Loading witness from snarkjs...";
    u8 "   - Witness elements: "; 10 :: u8 "📦 Loading ciphertext..."; u8 "   - Ciphertext size: "; 10 :: u8 "🔓 Running Decap...";
    u8 "🔐 Step 1: Running Encap..."; u8 "   ✅ Witness ciphertext generated ("; 10 :: u8 "� Step 2: Encrypting message...";
    u8 "   - Message size: "; u8 "   ✅ Message encrypted ("; u8 "   - Flag: "; u8 "   - Witness ciphertext: "; u8 "   - Public input: ";
    u8 "   - Encrypted message: "; u8 "� Step 1: Parsing combined ciphertext..."; 10 :: u8 "🔓 Step 2: Running Decap...";
    u8 "   ✅ Key recovered from witness" ].
Local Opaque u8 dec_text.

Section Executions.
  Context (E : pairingT Fr) (C : codecT E) (D : domainT Fr) (kdf : GT E -> key) (aes : cipherT)
          (json_parse : text -> option json) (max_off : N).
  Context (M : list text).
  Hypothesis HM : Forall (beginning M) early.
  Let q_begin b (Hb : In b early) st x : quiet M (Said st (b ++ x)).
  Proof. apply quiet_begin. exact (proj1 (Forall_forall _ _) HM b Hb). Qed.
  Let q_whole b (Hb : In b early) st : quiet M (Said st b).
  Proof. apply quiet_whole. exact (proj1 (Forall_forall _ _) HM b Hb). Qed.
  Ltac walk := lazymatch goal with
    | |- In ?b (?b :: _) => apply in_eq
    | |- In _ (_ :: _) => apply in_cons; walk
    end.
  Ltac early_tac := unfold early; walk.
  Ltac hush := unfold out, err; lazymatch goal with
    | |- quiet _ (Said _ (?b ++ _)) => apply (q_begin b); early_tac
    | |- quiet _ (Said _ ?b) => apply (q_whole b); early_tac
    end.
  Ltac all_hush := unfold calm; repeat (lazymatch goal with
    | |- Forall _ [] => apply Forall_nil
    | |- Forall _ (_ :: _) => apply Forall_cons; [hush|]
    | |- Forall _ (_ ++ _) => apply Forall_app; split
    end).

  Lemma after_load_r1cs p e k s s' l o : after M (t_load_r1cs max_off p e k) s s' l o ->
    halted M s s' l o \/ exists b r, s p = Some b /\ r1cs_from_bytes max_off b = Ok r /\ after M (k r) s s' l o.
  Proof using Type.
    intros H. apply after_read in H as [H|(b&Hb&H)]; [left; exact H|].
    apply after_try in H as [H|(r&Hr&H)]; [left; exact H|]. eauto 8.
  Qed.
  Lemma after_read_string p e k s s' l o : after M (t_read_string p e k) s s' l o ->
    halted M s s' l o \/ exists b t, s p = Some b /\ utf8_decode b = Some t /\ after M (k t) s s' l o.
  Proof using Type.
    intros H. apply after_read in H as [H|(b&Hb&H)]; [left; exact H|].
    apply after_try_opt in H as [H|(r&Hr&H)]; [left; exact H|]. eauto 8.
  Qed.
  Lemma calm_header r : calm M (header_lines r).
  Proof using HM. unfold header_lines. all_hush. Qed.
  Lemma after_load_witness p k s s' l o : after M (t_load_witness p k) s s' l o ->
    halted M s s' l o \/ exists b vals, s p = Some b /\ cli_read_witness b = Ok vals /\ after M (k vals) s s' l o.
  Proof using HM.
    intros H. apply after_say in H as [H|H]; [left; exact H| |hush].
    apply after_read in H as [H|(b&Hb&H)]; [left; exact H|].
    apply after_try in H as [H|(f&Hf&H)]; [left; exact H|].
    apply after_say in H as [H|H]; [left; exact H| |hush].
    apply after_try in H as [H|(vals&Hv&H)]; [left; exact H|].
    right. exists b, vals. split; [exact Hb|]. split; [|exact H]. unfold cli_read_witness. rewrite Hf. exact Hv.
  Qed.
  Lemma after_prepare v cp sp ip before k s s' l o : calm M before ->
    after M (t_prepare json_parse max_off v cp sp ip before k) s s' l o ->
    halted M s s' l o \/ exists cb sb ib t c, s cp = Some cb /\ s sp = Some sb /\ s ip = Some ib /\
      prepared json_parse max_off v cb sb ib t c /\ after M (k t c) s s' l o.
  Proof using HM.
    intros Hbefore H. unfold t_prepare in H. apply after_say in H as [H|H]; [left; exact H| |hush].
    apply after_load_r1cs in H as [H|(cb&r&Hcb&Hr&H)]; [left; exact H|].
    apply after_says in H as [H|H]; [left; exact H| |apply Forall_app; split; [apply calm_header|all_hush]].
    apply after_read_string in H as [H|(sb&st&Hsb&Hst&H)]; [left; exact H|].
    apply after_try in H as [H|(syms&Hsy&H)]; [left; exact H|]. cbv zeta in H.
    apply after_say in H as [H|H]; [left; exact H| |hush].
    apply after_read_string in H as [H|(ib&t&Hib&Ht&H)]; [left; exact H|].
    apply after_try in H as [H|(inp&Hin&H)]; [left; exact H|].
    apply after_say in H as [H|H]; [left; exact H| |hush].
    apply after_says in H as [H|H]; [left; exact H| |exact Hbefore].
    apply after_load_r1cs in H as [H|(cb'&r'&Hcb'&Hr'&H)]; [left; exact H|].
    right. assert (cb' = cb) by congruence. subst cb'. assert (r' = r) by congruence. subst r'.
    exists cb, sb, ib, t. eexists. split; [exact Hcb|]. split; [exact Hsb|]. split; [exact Hib|]. split; [|exact H].
    exists r, st, syms, inp. repeat (split; [assumption|]). reflexivity.
  Qed.
  Lemma calm_encap c alpha beta delta r x : calm M (fst (encap_out D kdf c alpha beta delta r x)).
  Proof using HM.
    unfold encap_out. destruct (synth c cs_new) as [cs e]. cbv zeta.
    assert (H1 : calm M ([out (u8 "🔐 Starting Encap...")] ++
              (match e with
               | Some e => [out (u8 "  ⚠ Circuit synthesis error (expected for encap without witness): " ++ serr_text e)]
               | None => [] end) ++
              [out (u8 "  ✓ Circuit setup: " ++ num (List.length (rows cs)) ++ u8 " constraints, " ++ num (num_variables cs) ++ u8 " variables")])).
    { destruct e; all_hush. }
    set (l1 := _ ++ _) in *. clearbody l1.
    destruct (inst cs) as [|one pub]; [exact H1|]. destruct (evaluate_qap D cs x) as [[u v] w].
    assert (H2 : forall n, calm M (l1 ++ [out (u8 "  ✓ Extracted " ++ num n ++ u8 " public inputs"); out (u8 "  ✓ Sampled random parameters (α, β, δ, r, x)");
                       out (u8 "  ⏳ Evaluating QAP polynomials at x...")])).
    { intros n. apply Forall_app. split; [exact H1|]. all_hush. }
    specialize (H2 (List.length pub)). set (l2 := l1 ++ _) in *. clearbody l2.
    destruct (crs_loop E (seq 0 (num_variables cs)) alpha beta delta r u v w) as [[[qu qv] qp]|e'|]; [|exact H2..].
    assert (H3 : calm M (l2 ++ [out (u8 "  ✓ Generated CRS with " ++ num (num_variables cs) ++ u8 " query elements");
                         out (u8 "  ⏳ Computing pairing for key derivation...")])).
    { apply Forall_app. split; [exact H2|]. all_hush. }
    set (l3 := l2 ++ _) in *. clearbody l3.
    assert (H4 : calm M (l3 ++ [out (u8 "  ✓ Derived key from pairing")])).
    { apply Forall_app. split; [exact H3|]. all_hush. }
    destruct (collect qp 1 pub) as [bs ss].
    destruct qp as [|p0 qp]; cbn [fst snd].
    - destruct (match bs with [] => _ | _ => msm bs ss end); [exact H4|exact H3].
    - destruct (msm (p0 :: bs) (f1 :: ss)); [exact H4|exact H3].
  Qed.
  Lemma calm_decap c ct : calm M (fst (decap_out kdf c ct)).
  Proof using HM.
    unfold decap_out. destruct (synth c cs_new) as [cs [e|]]; cbv zeta; [cbn [fst]; all_hush|].
    destruct (is_satisfied cs) as [[|]|]; cbn [fst]; [|all_hush..].
    destruct (Nat.ltb (List.length (inst cs ++ wit cs)) (1 + List.length (public_inputs ct))); cbn [fst]; [all_hush|].
    destruct (mismatch (inst cs ++ wit cs) 0 (public_inputs ct)) as [[i|]|]; cbn [fst]; [all_hush| |all_hush].
    destruct (collect (r_u_query_g1 (ct_key ct)) 0 (inst cs ++ wit cs)) as [ab as_]. destruct ab as [|a0 ab]; [cbn [fst]; all_hush|].
    destruct (msm (a0 :: ab) as_) as [a_sum|]; [|cbn [fst]; all_hush].
    destruct (collect (r_v_query_g2 (ct_key ct)) 0 (inst cs ++ wit cs)) as [bb bs]. destruct bb as [|b0 bb]; [cbn [fst]; all_hush|].
    destruct (msm (b0 :: bb) bs) as [b_sum|]; [|cbn [fst]; all_hush].
    destruct (collect (phi_delta_query_g1 (ct_key ct)) 0 (inst cs ++ wit cs)) as [cb cs_]. destruct cb as [|c0 cb]; [cbn [fst]; all_hush|].
    destruct (msm (c0 :: cb) cs_) as [c_point|]; cbn [fst]; all_hush.
  Qed.
  Lemma after_run_encap co c k s s' l o : after M (t_run_encap D kdf co c k) s s' l o ->
    halted M s s' l o \/ exists x, run_encap E D kdf co c = Ok x /\ after M (k x) s s' l o.
  Proof using HM.
    unfold t_run_encap, run_encap. rewrite <- encap_out_result.
    pose proof (calm_encap (circom_prog c) (c_alpha co) (c_beta co) (c_delta co) (c_r co) (c_x co)) as Hc.
    destruct (encap_out D kdf (circom_prog c) (c_alpha co) (c_beta co) (c_delta co) (c_r co) (c_x co)) as [l0 r]. cbn [fst snd] in *.
    intros H. apply after_says in H as [H|H]; [left; exact H| |exact Hc]. apply after_try in H. exact H.
  Qed.
  Lemma after_run_decap c ct k s s' l o : after M (t_run_decap kdf c ct k) s s' l o ->
    halted M s s' l o \/ exists x, decap kdf (circom_prog c) ct = Ok x /\ after M (k x) s s' l o.
  Proof using HM.
    unfold t_run_decap. rewrite <- decap_out_result. pose proof (calm_decap (circom_prog c) ct) as Hc.
    destruct (decap_out kdf (circom_prog c) ct) as [l0 r]. cbn [fst snd] in *.
    intros H. apply after_says in H as [H|H]; [left; exact H| |exact Hc]. apply after_try in H. exact H.
  Qed.
  Lemma calm_split f : calm M (split_lines f).
  Proof using HM.
    unfold split_lines. cbv zeta. destruct (cli_split f) as [p|[| | |]|]; all_hush. destruct (p_public p); all_hush.
  Qed.

  (** encap *)
  Lemma after_encap v co cp sp ip ctp kp s s' l o : calm M [out (10 :: u8 "🔐 Running Encap...")] ->
    texec (encap_talk C D kdf json_parse max_off v co cp sp ip ctp kp) s s' l o ->
    halted M s s' l o \/ exists cb sb ib t c ct k l1 l2, s cp = Some cb /\ s sp = Some sb /\ s ip = Some ib /\
      prepared json_parse max_off v cb sb ib t c /\ run_encap E D kdf co c = Ok (ct, k) /\ l = l1 ++ l2 /\ calm M l1 /\
      texec (TSay (out (10 :: u8 "💾 Saving ciphertext..."))
        (twrite ctp (ct_bytes C ct) (EWriteCiphertext, u8 "Failed to write ciphertext file")
        (says [out (u8 "   ✅ Ciphertext saved (" ++ num (List.length (ct_bytes C ct)) ++ u8 " bytes)");
               out (10 :: u8 "🔑 Saving key...")]
        (twrite kp (key_bytes k) (EWriteKey, u8 "Failed to write key file")
        (TSay (out (u8 "   ✅ Key saved (" ++ num (List.length (key_bytes k)) ++ u8 " bytes)"))
        (TEnd (Ok tt))))))) s s' l2 o.
  Proof using HM.
    intros Hb H. apply (after_start M) in H. unfold encap_talk in H.
    apply after_prepare in H as [H|(cb&sb&ib&t&c&Hc&Hs&Hi&Hp&H)]; [left; exact H| |exact Hb].
    apply after_run_encap in H as [H|([ct k]&He&H)]; [left; exact H|]. cbv zeta in H.
    right. destruct H as (l1&l2&->&Hl1&H). exists cb, sb, ib, t, c, ct, k, l1, l2. repeat (split; [assumption|]).
    split; [reflexivity|]. split; [exact Hl1|exact H].
  Qed.
  (** decap *)
  Lemma after_decap cp wp ctp kp s s' l o :
    texec (decap_talk C kdf max_off cp wp ctp kp) s s' l o ->
    halted M s s' l o \/ exists cb wb bs k l1 l2, s cp = Some cb /\ s wp = Some wb /\ s ctp = Some bs /\
      recovers C kdf max_off cb wb bs k /\ l = l1 ++ l2 /\ calm M l1 /\
      texec (TSay (out (10 :: u8 "🔑 Saving recovered key..."))
        (twrite kp (key_bytes k) (EWriteKey, u8 "Failed to write key file")
        (TSay (out (u8 "   ✅ Key saved (" ++ num (List.length (key_bytes k)) ++ u8 " bytes)"))
        (TEnd (Ok tt))))) s s' l2 o.
  Proof using HM.
    intros H. apply (after_start M) in H. unfold decap_talk in H.
    apply after_say in H as [H|H]; [left; exact H| |hush].
    apply after_load_r1cs in H as [H|(cb&r&Hcb&Hr&H)]; [left; exact H|].
    apply after_says in H as [H|H]; [left; exact H| |apply calm_header].
    apply after_load_witness in H as [H|(wb&vals&Hwb&Hv&H)]; [left; exact H|].
    apply after_say in H as [H|H]; [left; exact H| |hush].
    apply after_read in H as [H|(bs&Hbs&H)]; [left; exact H|].
    apply after_try_opt in H as [H|([ct rest]&Hct&H)]; [left; exact H|].
    apply after_says in H as [H|H]; [left; exact H| |all_hush].
    apply after_load_r1cs in H as [H|(cb'&r'&Hcb'&Hr'&H)]; [left; exact H|].
    assert (cb' = cb) by congruence. subst cb'. assert (r' = r) by congruence. subst r'.
    apply after_run_decap in H as [H|(k&Hk&H)]; [left; exact H|].
    right. destruct H as (l1&l2&->&Hl1&H). exists cb, wb, bs, k, l1, l2. repeat (split; [assumption|]).
    split; [exists r, vals, ct, rest; auto|]. split; [reflexivity|]. split; [exact Hl1|exact H].
  Qed.
  (** encrypt *)
  Lemma after_encrypt v co cp sp ip mp op inc s s' l o :
    texec (encrypt_talk C D kdf aes json_parse max_off v co cp sp ip mp op inc) s s' l o ->
    halted M s s' l o \/ exists cb sb ib mb t c ct k enc l1 l2, s cp = Some cb /\ s sp = Some sb /\ s ip = Some ib /\ s mp = Some mb /\
      prepared json_parse max_off v cb sb ib t c /\ run_encap E D kdf co c = Ok (ct, k) /\ encrypt_gcm aes k (c_nonce co) mb = Ok enc /\
      l = l1 ++ l2 /\ calm M l1 /\
      let combined := cli_combine inc (ct_bytes C ct) (utf8_encode t) enc in
      texec (TSay (out (10 :: u8 "� Step 3: Creating combined ciphertext..."))
        (twrite op combined (EWriteCombined, u8 "Failed to write combined ciphertext")
        (says [out (u8 "   ✅ Combined ciphertext saved (" ++ num (List.length combined) ++ u8 " bytes)");
           out (10 :: if inc then u8 "✨ Encryption complete! Public inputs are embedded in the ciphertext."
                      else u8 "✨ Encryption complete! Remember to share the public inputs separately.")]
        (TEnd (Ok tt))))) s s' l2 o.
  Proof using HM.
    intros H. apply (after_start M) in H. unfold encrypt_talk in H.
    apply after_say in H as [H|H]; [left; exact H| |hush].
    apply after_prepare in H as [H|(cb&sb&ib&t&c&Hc&Hs&Hi&Hp&H)]; [left; exact H| |apply Forall_nil].
    apply after_run_encap in H as [H|([ct k]&He&H)]; [left; exact H|]. cbv zeta in H.
    apply after_says in H as [H|H]; [left; exact H| |all_hush].
    apply after_read in H as [H|(mb&Hm&H)]; [left; exact H|].
    apply after_say in H as [H|H]; [left; exact H| |hush].
    apply after_try in H as [H|(enc&Hg&H)]; [left; exact H|].
    cbn [says] in H. apply after_say in H as [H|H]; [left; exact H| |hush].
    right. destruct H as (l1&l2&->&Hl1&H). exists cb, sb, ib, mb, t, c, ct, k, enc, l1, l2. repeat (split; [assumption|]).
    split; [reflexivity|]. split; [exact Hl1|exact H].
  Qed.
  (** decrypt *)
  Lemma after_decrypt cp wp ctp op s s' l o :
    texec (decrypt_talk C kdf aes max_off cp wp ctp op) s s' l o ->
    halted M s s' l o \/
    exists l1 l2, l = l1 ++ l2 /\ calm M l1 /\ exists (x : res crypt_error (list byte)),
      texec (TSay (out (10 :: u8 "🔓 Step 3: Decrypting message..."))
        (ttry x (fun _ => (EDecryptMessage, u8 "Message decryption failed")) (fun m =>
         twrite op m (EWriteOutput, u8 "Failed to write decrypted file")
        (says [out (u8 "   ✅ Decrypted message saved (" ++ num (List.length m) ++ u8 " bytes)");
               out (10 :: u8 "✨ Decryption complete!")]
        (TEnd (Ok tt)))))) s s' l2 o /\
      forall m, x = Ok m -> exists cb wb f, s cp = Some cb /\ s wp = Some wb /\ s ctp = Some f /\ opened E C kdf aes max_off cb wb f m.
  Proof using HM.
    intros H. apply (after_start M) in H. unfold decrypt_talk in H.
    apply after_say in H as [H|H]; [left; exact H| |hush].
    apply after_read in H as [H|(f&Hf&H)]; [left; exact H|].
    apply after_says in H as [H|H]; [left; exact H| |apply calm_split].
    apply after_try in H as [H|(p&Hp&H)]; [left; exact H|].
    apply after_says in H as [H|H]; [left; exact H| |all_hush].
    apply after_load_r1cs in H as [H|(cb&r&Hcb&Hr&H)]; [left; exact H|].
    apply after_says in H as [H|H]; [left; exact H| |].
    2:{ unfold header_lines. cbn [firstn]. all_hush. }
    apply after_load_witness in H as [H|(wb&vals&Hwb&Hv&H)]; [left; exact H|].
    apply after_try_opt in H as [H|([ct rest]&Hct&H)]; [left; exact H|].
    apply after_load_r1cs in H as [H|(cb'&r'&Hcb'&Hr'&H)]; [left; exact H|].
    assert (cb' = cb) by congruence. subst cb'. assert (r' = r) by congruence. subst r'.
    apply after_run_decap in H as [H|(k&Hk&H)]; [left; exact H|].
    cbn [says] in H. apply after_say in H as [H|H]; [left; exact H| |hush].
    right. destruct H as (l1&l2&->&Hl1&H). exists l1, l2. split; [reflexivity|]. split; [exact Hl1|].
    exists (decrypt_gcm aes k (p_message p)). split; [exact H|]. intros m Hm.
    exists cb, wb, f. repeat (split; [assumption|]). exists p, k. split; [exact Hp|]. split; [|exact Hm]. exists r, vals, ct, rest. auto.
  Qed.
End Executions.
