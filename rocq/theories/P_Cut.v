(** C88: what a command killed while it writes an output file leaves behind and has printed. *)
From Coq Require Import List Bool Arith NArith ZArith Lia.
From Coq Require Import Strings.String Strings.Byte.
From Verif Require Import Res Bytes Text Utf8 Fld Groups Bn254 CS Qap Core R1cs Wtns Circuit ArkSer ArkSerFacts P_Ser Sym Inputs
  Combined SpecCombined CombinedFacts P_Combined Gcm FileSys Commands SpecCommands CommandsFacts P_Commands CliArgs Main
  Printing PrintingFacts SpecPrinting Listings SpecProgress Progress P_Printing P_Progress.
Import ListNotations.
Local Open Scope string_scope.
Local Open Scope list_scope.
Local Open Scope N_scope.
Local Opaque u8 dec_text.

(** A run that changes a file can be killed in the middle of the write that gave it its last contents. *)
Lemma killed_in_last_write p (t : talk) : forall s s' l r, hear t s = (s', l, r) -> s' p <> s p ->
  exists b l1 s1, s' p = Some b /\ forall n, texec t s (fs_write p (firstn n b) s1) l1 Killed.
Proof.
  induction t as [r0|m k IH|q k IH|q b k IH]; intros s s' l r H Hne; cbn [hear] in H.
  - injection H as <- _ _. destruct (Hne eq_refl).
  - destruct (hear k s) as [[s2 l2] r2] eqn:Hk. injection H as <- _ _.
    destruct (IH _ _ _ _ Hk Hne) as (b&l1&s1&Hb&He). exists b, (m :: l1), s1. split; [exact Hb|].
    intros n. apply tx_say. exact (He n).
  - destruct (IH (s q) _ _ _ _ H Hne) as (b&l1&s1&Hb&He). exists b, l1, s1. split; [exact Hb|].
    intros n. apply tx_read. exact (He n).
  - assert (Hd : s' p = fs_write q b s p \/ s' p <> fs_write q b s p).
    { destruct (s' p) as [x|], (fs_write q b s p) as [y|]; [|right; discriminate|right; discriminate|left; reflexivity].
      destruct (list_eq_dec Byte.byte_eq_dec x y) as [->|Hxy]; [left; reflexivity|right].
      intros He. apply Hxy. injection He. auto. }
    destruct Hd as [Hd|Hd].
    + unfold fs_write in Hd. destruct (text_eqb p q) eqn:Hpq; [|destruct (Hne Hd)].
      apply text_eqb_eq in Hpq. subst q. exists b, [], s. split; [exact Hd|]. intros n. apply tx_write_killed.
    + destruct (IH true _ _ _ _ H Hd) as (b2&l1&s1&Hb&He). exists b2, l1, s1. split; [exact Hb|].
      intros n. apply tx_write. exact (He n).
Qed.

(** Between an announcement and its confirmation any part of the file may be what is there. Whenever a
    command would change an output file, it can be killed so that the file holds just the first n bytes of
    what it would hold, for each n; the announcement then stands on the screen and the confirmation does not
    (n = 0: the old contents are already gone). *)
Theorem C88_a_kill_may_leave_any_part :
  forall (E : pairingT Fr) (C : codecT E) (D : domainT Fr) (kdf : GT E -> key) (aes : cipherT)
         json_parse max_off v co q s undisturbed p announcement confirmation b n,
    apart q -> In (p, announcement, confirmation) (outputs q) ->
    run (dispatch C D kdf aes json_parse max_off v co q) s = (undisturbed, Ok tt) ->
    undisturbed p = Some b -> s p <> Some b ->
    (n < List.length b)%nat -> s p <> Some (firstn n b) ->
    exists s' l,
      texec (dispatch_talk C D kdf aes json_parse max_off v co q) s s' l Killed /\
      s' p = Some (firstn n b) /\ printed l announcement /\ ~ printed l confirmation.
Proof.
  intros E C D kdf aes jp mo v co q s u p a c b n Hap Hin Hrun Hb Hne Hn Hns.
  set (t := dispatch_talk C D kdf aes jp mo v co q) in *.
  destruct (hear t s) as [[s1 l] r] eqn:Hh.
  assert (Hs1 : s1 = u).
  { pose proof (proj1 (C87_printing_changes_nothing E C D kdf aes jp mo v co q) s s1 l r Hh) as Hr.
    rewrite Hrun in Hr. injection Hr as <- _. reflexivity. }
  subst s1.
  destruct (killed_in_last_write p t s u l r Hh) as (b'&l1&s1&Hb'&He); [rewrite Hb; congruence|].
  rewrite Hb in Hb'. injection Hb' as <-.
  specialize (He n).
  pose proof (C88_progress_lines_are_true E C D kdf aes jp mo v co q _ _ _ _ Hap He) as [Ht _].
  destruct (Ht p a c Hin) as (Hc&Ha&_). clear Ht.
  assert (Hp : fs_write p (firstn n b) s1 p = Some (firstn n b)).
  { unfold fs_write. rewrite (proj2 (text_eqb_eq p p) eq_refl). reflexivity. }
  exists (fs_write p (firstn n b) s1), l1. split; [exact He|]. split; [exact Hp|]. split.
  - destruct (existsb (fun m => prefixb a (words m)) l1) eqn:Hx; [apply printed_iff; exact Hx|].
    exfalso. apply Hns. rewrite <- Ha; [exact Hp|]. intros Hpr. apply printed_iff in Hpr. congruence.
  - intros Hpr. destruct (Hc Hpr) as [_ Hf]. rewrite Hp, Hrun in Hf. cbn [fst] in Hf. rewrite Hb in Hf.
    injection Hf as Hf. apply (f_equal (@List.length byte)) in Hf. rewrite firstn_length in Hf. lia.
Qed.

(** The theorem's hypotheses are met: the example's decrypt, killed after the first of the message's two bytes. *)
Definition ex_decrypt : request := DoDecrypt (lit "c") (lit "w") (lit "o") (lit "p").
Lemma ex_decrypt_runs (aes : cipherT) : exists s,
  run (dispatch ex_codec bn_domain ex_kdf32 aes ex_json (2 ^ 63 - 1) ex_visits ex_coins ex_decrypt) s =
    (fs_write (lit "p") [x68; x69] s, Ok tt) /\ s (lit "p") = None.
Proof.
  destruct (C41_nonvacuous aes true) as (s1&Hrun&_&_&_&Hdec). exists s1. split; [exact Hdec|].
  set (qe := DoEncrypt (lit "c") (lit "s") (lit "i") (lit "m") (lit "o") true).
  assert (Ht : exists l, texec (dispatch_talk ex_codec bn_domain ex_kdf32 aes ex_json (2 ^ 63 - 1) ex_visits ex_coins qe)
    ex_fs s1 l (Finished (Ok tt))).
  { apply hears with (1 := same_encrypt fr_pairing ex_codec bn_domain ex_kdf32 aes ex_json (2 ^ 63 - 1) ex_visits ex_coins
      (lit "c") (lit "s") (lit "i") (lit "m") (lit "o") true) (2 := Hrun). }
  clear Hrun Hdec. destruct Ht as [l Ht].
  destruct (C88_progress_lines_are_true fr_pairing ex_codec bn_domain ex_kdf32 aes ex_json (2 ^ 63 - 1) ex_visits ex_coins qe
    _ _ _ _ I Ht) as [_ H]. clear Ht. rewrite H; [reflexivity|].
  intros a c [Hi|[]]. discriminate (f_equal (fun x => hd 0 (fst (fst x))) Hi).
Qed.
Example C88_cut_nonvacuous : forall (aes : cipherT),
  exists s s' l,
    texec (dispatch_talk ex_codec bn_domain ex_kdf32 aes ex_json (2 ^ 63 - 1) ex_visits ex_coins ex_decrypt) s s' l Killed /\
    s (lit "p") = None /\ s' (lit "p") = Some [x68] /\
    printed l (10 :: u8 "🔓 Step 3: Decrypting message...") /\ ~ printed l (u8 "   ✅ Decrypted message saved (").
Proof.
  intros aes. destruct (ex_decrypt_runs aes) as (s1&Hdec&Hp).
  destruct (C88_a_kill_may_leave_any_part fr_pairing ex_codec bn_domain ex_kdf32 aes ex_json (2 ^ 63 - 1) ex_visits ex_coins ex_decrypt
    s1 _ _ _ _ [x68; x69] 1 I (or_introl eq_refl) Hdec) as (s'&l&He&Hs&Ha&Hc).
  - reflexivity.
  - rewrite Hp. discriminate.
  - cbn. lia.
  - rewrite Hp. discriminate.
  - exists s1, s', l. split; [exact He|]. split; [exact Hp|]. split; [exact Hs|]. split; [exact Ha|exact Hc].
Qed.

(** ** A write that fails part-way *)

(** What the command says when writing an output file fails. *)
Definition complaints (q : request) : list (path * text) :=
  match q with
  | DoEncap _ _ _ ciphertext key =>
      [ (ciphertext, u8 "Failed to write ciphertext file"); (key, u8 "Failed to write key file") ]
  | DoDecap _ _ _ key => [ (key, u8 "Failed to write key file") ]
  | DoEncrypt _ _ _ _ output _ => [ (output, u8 "Failed to write combined ciphertext") ]
  | DoDecrypt _ _ _ output => [ (output, u8 "Failed to write decrypted file") ]
  end.

(** Whenever a write fails the command ends, with an error that is one of [W]. *)
Fixpoint fussy (W : list (path * text)) (t : talk) : Prop :=
  match t with
  | TEnd _ => True
  | TSay _ k => fussy W k
  | TRead _ k => forall x, fussy W (k x)
  | TWrite p _ k => (exists f, k false = TEnd (Err f) /\ In (p, snd f) W) /\ fussy W (k true)
  end.
Section Fussy.
  Context (W : list (path * text)).
  Lemma fussy_says l k : fussy W k -> fussy W (says l k).
  Proof. intros H. induction l; [exact H|]. assumption. Qed.
  Lemma fussy_try {E' A} (x : res E' A) f k : (forall a, fussy W (k a)) -> fussy W (ttry x f k).
  Proof. intros Hk. destruct x; cbn [ttry]; [apply Hk|exact I|exact I]. Qed.
  Lemma fussy_try_opt {A} (x : option A) e k : (forall a, fussy W (k a)) -> fussy W (ttry_opt x e k).
  Proof. intros Hk. destruct x; cbn [ttry_opt]; [apply Hk|exact I]. Qed.
  Lemma fussy_twrite p b e k : In (p, snd e) W -> fussy W k -> fussy W (twrite p b e k).
  Proof. intros He Hk. split; [|exact Hk]. exists e. split; [reflexivity|exact He]. Qed.
  Lemma fussy_say m k : fussy W k -> fussy W (TSay m k).
  Proof. exact (fun H => H). Qed.
  Lemma fussy_read p k : (forall x, fussy W (k x)) -> fussy W (TRead p k).
  Proof. exact (fun H => H). Qed.
  Context (E : pairingT Fr) (C : codecT E) (D : domainT Fr) (kdf : GT E -> key) (aes : cipherT)
          (json_parse : text -> option json) (max_off : N).
  Lemma fussy_load_r1cs p e k : (forall r, fussy W (k r)) -> fussy W (t_load_r1cs max_off p e k).
  Proof using Type. intros Hk x. apply fussy_try_opt. intros b. apply fussy_try. exact Hk. Qed.
  Lemma fussy_read_string p e k : (forall r, fussy W (k r)) -> fussy W (t_read_string p e k).
  Proof using Type. intros Hk x. apply fussy_try_opt. intros b. apply fussy_try_opt. exact Hk. Qed.
  Lemma fussy_load_witness p k : (forall l, fussy W (k l)) -> fussy W (t_load_witness p k).
  Proof using Type.
    intros Hk. apply fussy_say, fussy_read. intros x. apply fussy_try_opt. intros b. apply fussy_try. intros f. apply fussy_say.
    apply fussy_try. exact Hk.
  Qed.
  Lemma fussy_prepare v cp sp ip before k : (forall t c, fussy W (k t c)) -> fussy W (t_prepare json_parse max_off v cp sp ip before k).
  Proof using Type.
    intros Hk. apply fussy_say. apply fussy_load_r1cs. intros r. apply fussy_says. apply fussy_read_string. intros st.
    apply fussy_try. intros syms. cbv zeta. apply fussy_say. apply fussy_read_string. intros it.
    apply fussy_try. intros inputs. apply fussy_say. apply fussy_says. apply fussy_load_r1cs. intros r'. apply Hk.
  Qed.
  Lemma fussy_run_encap co c k : (forall x, fussy W (k x)) -> fussy W (t_run_encap D kdf co c k).
  Proof using Type.
    intros Hk. unfold t_run_encap. destruct (encap_out D kdf (circom_prog c) (c_alpha co) (c_beta co) (c_delta co) (c_r co) (c_x co)) as [l r].
    apply fussy_says. apply fussy_try. exact Hk.
  Qed.
  Lemma fussy_run_decap c ct k : (forall x, fussy W (k x)) -> fussy W (t_run_decap kdf c ct k).
  Proof using Type.
    intros Hk. unfold t_run_decap. destruct (decap_out kdf (circom_prog c) ct) as [l r]. apply fussy_says. apply fussy_try. exact Hk.
  Qed.
End Fussy.
Lemma fussy_dispatch (E : pairingT Fr) (C : codecT E) (D : domainT Fr) (kdf : GT E -> key) (aes : cipherT) json_parse max_off v co q :
  fussy (complaints q) (dispatch_talk C D kdf aes json_parse max_off v co q).
Proof.
  destruct q; cbn [dispatch_talk].
  - apply fussy_prepare. intros t c. apply fussy_run_encap. intros [ct k]. cbv zeta. apply fussy_say. apply fussy_twrite; [left; reflexivity|].
    apply fussy_says. apply fussy_twrite; [right; left; reflexivity|exact I].
  - apply fussy_say. apply fussy_load_r1cs. intros r. apply fussy_says. apply fussy_load_witness. intros l. apply fussy_say, fussy_read.
    intros x. apply fussy_try_opt. intros bs.
    apply fussy_try_opt. intros [ct rest]. apply fussy_says. apply fussy_load_r1cs. intros r'. apply fussy_run_decap. intros k.
    apply fussy_say. apply fussy_twrite; [left; reflexivity|exact I].
  - apply fussy_say. apply fussy_prepare. intros t c. apply fussy_run_encap. intros [ct k]. cbv zeta. apply fussy_says. apply fussy_read. intros x.
    apply fussy_try_opt. intros m. apply fussy_say. apply fussy_try. intros e. apply fussy_says. apply fussy_twrite; [left; reflexivity|].
    apply fussy_says. exact I.
  - apply fussy_say, fussy_read. intros x. apply fussy_try_opt. intros f. apply fussy_says. apply fussy_try. intros p. apply fussy_says.
    apply fussy_load_r1cs.
    intros r. apply fussy_says. apply fussy_load_witness. intros l. apply fussy_try_opt. intros [ct rest]. apply fussy_load_r1cs.
    intros r'. apply fussy_run_decap. intros k. apply fussy_says. apply fussy_try. intros m. apply fussy_twrite; [left; reflexivity|].
    apply fussy_says. exact I.
Qed.

Lemma fails_in_last_write W p (t : talk) : forall s s' l r, fussy W t -> hear t s = (s', l, r) -> s' p <> s p ->
  exists b l1 s1 f, s' p = Some b /\ In (p, snd f) W /\
    forall n, texec t s (fs_write p (firstn n b) s1) l1 (Finished (Err f)).
Proof.
  induction t as [r0|m k IH|q k IH|q b k IH]; intros s s' l r Hf H Hne; cbn [hear fussy] in H, Hf.
  - injection H as <- _ _. destruct (Hne eq_refl).
  - destruct (hear k s) as [[s2 l2] r2] eqn:Hk. injection H as <- _ _.
    destruct (IH _ _ _ _ Hf Hk Hne) as (b&l1&s1&f&Hb&Hi&He). exists b, (m :: l1), s1, f. split; [exact Hb|]. split; [exact Hi|].
    intros n. apply tx_say. exact (He n).
  - destruct (IH (s q) _ _ _ _ (Hf _) H Hne) as (b&l1&s1&f&Hb&Hi&He). exists b, l1, s1, f. split; [exact Hb|]. split; [exact Hi|].
    intros n. apply tx_read. exact (He n).
  - assert (Hd : s' p = fs_write q b s p \/ s' p <> fs_write q b s p).
    { destruct (s' p) as [x|], (fs_write q b s p) as [y|]; [|right; discriminate|right; discriminate|left; reflexivity].
      destruct (list_eq_dec Byte.byte_eq_dec x y) as [->|Hxy]; [left; reflexivity|right].
      intros He. apply Hxy. injection He. auto. }
    destruct Hf as [(f&Hkf&Hi) Hft]. destruct Hd as [Hd|Hd].
    + unfold fs_write in Hd. destruct (text_eqb p q) eqn:Hpq; [|destruct (Hne Hd)].
      apply text_eqb_eq in Hpq. subst q. exists b, [], s, f. split; [exact Hd|]. split; [exact Hi|].
      intros n. apply tx_write_short with (n := n). rewrite Hkf. apply tx_end.
    + destruct (IH true _ _ _ _ Hft H Hd) as (b2&l1&s1&f2&Hb&Hi2&He). exists b2, l1, s1, f2. split; [exact Hb|]. split; [exact Hi2|].
      intros n. apply tx_write. exact (He n).
Qed.

(** The same when the disk is full: for each n the write can fail having written n bytes; the command then
    ends with the error about that file (so with a failing status), but what it wrote stays. *)
Theorem C88_a_failed_write_may_leave_any_part :
  forall (E : pairingT Fr) (C : codecT E) (D : domainT Fr) (kdf : GT E -> key) (aes : cipherT)
         json_parse max_off v co q s undisturbed p announcement confirmation b n,
    apart q -> In (p, announcement, confirmation) (outputs q) ->
    run (dispatch C D kdf aes json_parse max_off v co q) s = (undisturbed, Ok tt) ->
    undisturbed p = Some b -> s p <> Some b ->
    (n < List.length b)%nat -> s p <> Some (firstn n b) ->
    exists s' l e complaint,
      texec (dispatch_talk C D kdf aes json_parse max_off v co q) s s' l (Finished (Err (e, complaint))) /\
      In (p, complaint) (complaints q) /\
      s' p = Some (firstn n b) /\ printed l announcement /\ ~ printed l confirmation.
Proof.
  intros E C D kdf aes jp mo v co q s u p a c b n Hap Hin Hrun Hb Hne Hn Hns.
  pose proof (fussy_dispatch E C D kdf aes jp mo v co q) as Hfu.
  set (t := dispatch_talk C D kdf aes jp mo v co q) in *.
  destruct (hear t s) as [[s1 l] r] eqn:Hh.
  assert (Hs1 : s1 = u).
  { pose proof (proj1 (C87_printing_changes_nothing E C D kdf aes jp mo v co q) s s1 l r Hh) as Hr.
    rewrite Hrun in Hr. injection Hr as <- _. reflexivity. }
  subst s1.
  destruct (fails_in_last_write _ p t s u l r Hfu Hh) as (b'&l1&s1&f&Hb'&Hi&He); [rewrite Hb; congruence|].
  rewrite Hb in Hb'. injection Hb' as <-.
  specialize (He n). destruct f as [e w].
  pose proof (C88_progress_lines_are_true E C D kdf aes jp mo v co q _ _ _ _ Hap He) as [Ht _].
  destruct (Ht p a c Hin) as (Hc&Ha&_). clear Ht.
  assert (Hp : fs_write p (firstn n b) s1 p = Some (firstn n b)).
  { unfold fs_write. rewrite (proj2 (text_eqb_eq p p) eq_refl). reflexivity. }
  exists (fs_write p (firstn n b) s1), l1, e, w. split; [exact He|]. split; [exact Hi|]. split; [exact Hp|]. split.
  - destruct (existsb (fun m => prefixb a (words m)) l1) eqn:Hx; [apply printed_iff; exact Hx|].
    exfalso. apply Hns. rewrite <- Ha; [exact Hp|]. intros Hpr. apply printed_iff in Hpr. congruence.
  - intros Hpr. destruct (Hc Hpr) as [_ Hf]. rewrite Hp, Hrun in Hf. cbn [fst] in Hf. rewrite Hb in Hf.
    injection Hf as Hf. apply (f_equal (@List.length byte)) in Hf. rewrite firstn_length in Hf. lia.
Qed.

Example C88_full_disk_nonvacuous : forall (aes : cipherT),
  exists s s' l e,
    texec (dispatch_talk ex_codec bn_domain ex_kdf32 aes ex_json (2 ^ 63 - 1) ex_visits ex_coins ex_decrypt) s s' l
      (Finished (Err (e, u8 "Failed to write decrypted file"))) /\
    s (lit "p") = None /\ s' (lit "p") = Some [x68].
Proof.
  intros aes. destruct (ex_decrypt_runs aes) as (s1&Hdec&Hp).
  destruct (C88_a_failed_write_may_leave_any_part fr_pairing ex_codec bn_domain ex_kdf32 aes ex_json (2 ^ 63 - 1) ex_visits ex_coins ex_decrypt
    s1 _ _ _ _ [x68; x69] 1 I (or_introl eq_refl) Hdec) as (s'&l&e&w&He&Hw&Hs&_).
  - reflexivity.
  - rewrite Hp. discriminate.
  - cbn. lia.
  - rewrite Hp. discriminate.
  - exists s1, s', l, e. destruct Hw as [Hw|[]]. apply pair_equal_spec in Hw as [_ <-].
    split; [exact He|]. split; [exact Hp|exact Hs].
Qed.
