(** Theorems about the playground page (C77). *)
From Coq Require Import List Bool Arith NArith ZArith Lia.
From Coq Require Import Strings.String Strings.Byte.
From Verif Require Import Res Bytes Text Utf8 Inputs Combined JsonText SpecJson JsonFacts Playground SpecPlayground.
Import ListNotations.
Local Open Scope nat_scope.

Section Histories.
  Context {coins enc_error dec_error : Type}.
  Context (lib_encrypt : coins -> list byte -> text -> json -> list byte -> bool -> res enc_error (list byte)).
  Context (lib_decrypt : list byte -> list byte -> list byte -> json -> res dec_error (list byte)).
  Context (round : text -> json) (lossy : list byte -> text).
  Notation page := (@page coins enc_error dec_error).
  Notation event := (@event coins).
  Notation step := (step lib_encrypt lib_decrypt round lossy).
  Notation run_page := (run_page lib_encrypt lib_decrypt round lossy).
  Notation settle := (settle lib_encrypt lib_decrypt lossy).

  Lemma run_snoc h e : run_page (h ++ [e]) = step (run_page h) e.
  Proof. unfold Playground.run_page. rewrite fold_left_app. reflexivity. Qed.
  Lemma run_app h h' : run_page (h ++ h') = fold_left step h' (run_page h).
  Proof. unfold Playground.run_page. apply fold_left_app. Qed.

  Definition call_files (c : @call coins) : files :=
    match c with CallEncrypt _ fs _ _ _ | CallDecrypt fs _ _ | CallCustomEncrypt _ fs _ _ _ | CallCustomDecrypt fs _ _ => fs end.
  Definition no_sym (o : option files) : Prop := match o with Some fs => f_sym fs = None | None => True end.
  Record inv (s : page) : Prop := {
    i_ct : p_ciphertext s = None;
    i_circuit : no_sym (p_circuit s);
    i_files : no_sym (c_files s);
    i_calls : match p_calls s with [] => p_loading s = false | [c] => p_loading s = true /\ f_sym (call_files c) = None | _ => False end }.

  Ltac break := repeat match goal with
    | |- context [if ?b then _ else _] => destruct b eqn:?
    | |- context [match ?x with _ => _ end] => destruct x eqn:?
    end.
  Lemma both_files_some (s : page) fs : both_files s = Some fs -> c_files s = Some fs /\ f_r1cs fs <> [] /\ f_wasm fs <> [].
  Proof.
    unfold both_files. destruct (c_files s) as [[r w y]|]; [|discriminate]. cbn [f_r1cs f_wasm].
    destruct r; [discriminate|]. destruct w; [discriminate|]. intros E. split; [exact E|]. replace fs with (Files (b :: r) (b0 :: w) y) by congruence.
    split; discriminate.
  Qed.
  Lemma settle_nth_one c (s : page) i : p_calls s = [c] -> settle_nth lib_encrypt lib_decrypt lossy i s = match i with O => settle c (set_calls [] s) | _ => s end.
  Proof.
    intros E. unfold settle_nth. rewrite E. destruct i as [|[|i]]; reflexivity.
  Qed.
  Lemma settle_nth_none (s : page) i : p_calls s = [] -> settle_nth lib_encrypt lib_decrypt lossy i s = s.
  Proof. intros E. unfold settle_nth. rewrite E. destruct i; reflexivity. Qed.

  Lemma inv_step s e : inv s -> inv (step s e).
  Proof.
    intros [H1 H2 H3 H4]. destruct e; cbn [Playground.step].
    all: try (destruct s; cbn in *; constructor; cbn; assumption).
    - unfold auto_solve. break; try (constructor; assumption); destruct s; cbn in *; constructor; cbn; assumption.
    - unfold edit_puzzle, put_cell. break; try (constructor; assumption); destruct s; cbn in *; constructor; cbn; assumption.
    - unfold edit_solution, put_cell. break; try (constructor; assumption); destruct s; cbn in *; constructor; cbn; assumption.
    - unfold click_encrypt.
      destruct (negb (is_tab s Sudoku && is_mode s Encrypt) || p_loading s || negb (nonempty (p_message s))) eqn:Eb; [constructor; assumption|].
      destruct (p_circuit s) as [fs|] eqn:Ec; [|destruct s; cbn in *; constructor; cbn; try assumption; rewrite ?Ec; exact I].
      apply orb_false_elim in Eb as [Eb _]. apply orb_false_elim in Eb as [_ Eb].
      assert (Ecalls : p_calls s = []).
      { destruct (p_calls s) as [|c [|]]; [reflexivity|destruct H4; congruence|contradiction]. }
      destruct (negb (Nat.eqb (List.length (p_puzzle s)) 81)); destruct s; cbn in *; subst; constructor; cbn; try assumption; auto.
    - unfold click_decrypt. destruct (negb (is_tab s Sudoku && is_mode s Decrypt) || p_loading s) eqn:Eb; [constructor; assumption|].
      apply orb_false_elim in Eb as [_ Eb].
      assert (Ecalls : p_calls s = []).
      { destruct (p_calls s) as [|c [|]]; [reflexivity|destruct H4; congruence|contradiction]. }
      destruct (ciphertext_to_use s) as [ct|]; [|constructor; assumption].
      destruct (p_circuit s) as [fs|] eqn:Ec.
      + break; destruct s; cbn in *; subst; constructor; cbn; try assumption; auto.
      + destruct s; cbn in *; subst; constructor; cbn; try assumption; auto.
    - unfold upload. destruct s; cbn in *. break; constructor; cbn; assumption.
    - destruct s; cbn in *. constructor; cbn; try assumption. reflexivity.
    - unfold upload_r1cs. destruct s; cbn in *. constructor; cbn; try assumption; reflexivity.
    - unfold upload_wasm. destruct s; cbn in *. constructor; cbn; try assumption; reflexivity.
    - unfold public_file. break; destruct s; cbn in *; constructor; cbn; assumption.
    - unfold private_file. break; destruct s; cbn in *; constructor; cbn; assumption.
    - unfold custom_upload. destruct s; cbn in *. break; constructor; cbn; assumption.
    - unfold click_custom_encrypt.
      destruct (negb (is_tab s Custom && is_mode s Encrypt) || p_loading s || negb (nonempty (c_message s))) eqn:Eb; [constructor; assumption|].
      apply orb_false_elim in Eb as [Eb _]. apply orb_false_elim in Eb as [_ Eb].
      assert (Ecalls : p_calls s = []).
      { destruct (p_calls s) as [|c [|]]; [reflexivity|destruct H4; congruence|contradiction]. }
      destruct (c_files s) as [fs0|] eqn:Ef; [|constructor; try assumption; rewrite Ef; exact I].
      destruct (both_files s) as [fs|] eqn:Eb2.
      + apply both_files_some in Eb2 as [Eb2 _]. rewrite Ef in Eb2. replace fs0 with fs in * by congruence. clear Eb2.
        break; destruct s; cbn in *; subst; constructor; cbn; try assumption; auto.
      + destruct s; cbn in *; subst; constructor; cbn; try assumption; auto.
    - unfold click_custom_decrypt. destruct (negb (is_tab s Custom && is_mode s Decrypt) || p_loading s) eqn:Eb; [constructor; assumption|].
      apply orb_false_elim in Eb as [_ Eb].
      assert (Ecalls : p_calls s = []).
      { destruct (p_calls s) as [|c [|]]; [reflexivity|destruct H4; congruence|contradiction]. }
      destruct (c_ciphertext s) as [ct|]; [|constructor; assumption].
      destruct (c_files s) as [fs0|] eqn:Ef; [|constructor; try assumption; rewrite Ef; exact I].
      destruct (both_files s) as [fs|] eqn:Eb2.
      + apply both_files_some in Eb2 as [Eb2 _]. rewrite Ef in Eb2. replace fs0 with fs in * by congruence. clear Eb2.
        break; destruct s; cbn in *; subst; constructor; cbn; try assumption; auto.
      + destruct s; cbn in *; subst; constructor; cbn; try assumption; auto.
    - destruct (p_calls s) as [|c [|]] eqn:Ec; [rewrite settle_nth_none by exact Ec; constructor; try assumption; rewrite Ec; exact H4| |contradiction].
      rewrite (settle_nth_one c) by exact Ec. destruct i; [|constructor; try assumption; rewrite Ec; exact H4].
      destruct H4 as [H4 H5]. destruct c; cbn [call_files] in H5; unfold Playground.settle, call_encrypt; rewrite ?H5;
        try destruct (lib_decrypt _ _ _ _); destruct s; cbn in *; constructor; cbn; try assumption; reflexivity.
  Qed.
  Lemma inv_run h : inv (run_page h).
  Proof.
    induction h as [|e h IH] using rev_ind; [constructor; cbn; reflexivity || exact I|]. rewrite run_snoc. apply inv_step. exact IH.
  Qed.

  (** ** What an event leaves alone *)
  Definition is_click (e : event) : bool :=
    match e with ClickEncrypt _ | ClickDecrypt | ClickCustomEncrypt _ | ClickCustomDecrypt | Settles _ => true | _ => false end.
  Lemma frame s e : is_click e = false ->
    p_calls (step s e) = p_calls s /\ p_loading (step s e) = p_loading s /\ p_decrypted (step s e) = p_decrypted s /\ c_decrypted (step s e) = c_decrypted s.
  Proof.
    destruct e; cbn [is_click]; try discriminate; intros _; cbn [Playground.step].
    all: unfold auto_solve, edit_puzzle, edit_solution, put_cell, upload, public_file, private_file, custom_upload, upload_r1cs, upload_wasm, generate.
    all: break; destruct s; cbn; auto.
  Qed.
  Lemma not_loading s : inv s -> p_loading s = false -> p_calls s = [].
  Proof. intros H L. pose proof (i_calls s H) as H4. destruct (p_calls s) as [|c [|]]; [reflexivity|destruct H4; congruence|contradiction]. Qed.
  Lemma zeros (l : list json) : existsb is_zero l = false <-> ~ In (JInt 0%Z) l.
  Proof.
    split.
    - intros H Hin. assert (existsb is_zero l = true); [|congruence]. apply existsb_exists. exists (JInt 0%Z). split; [exact Hin|reflexivity].
    - intros H. destruct (existsb is_zero l) eqn:E; [|reflexivity]. exfalso. apply H. apply existsb_exists in E as (x&Hx&Hz).
      destruct x; try discriminate Hz. cbn in Hz. apply Z.eqb_eq in Hz. subst. exact Hx.
  Qed.
  Lemma tab_iff (s : page) t : is_tab s t = true <-> p_tab s = t.
  Proof. unfold is_tab. destruct (p_tab s), t; split; intros; congruence || discriminate. Qed.
  Lemma mode_iff (s : page) m : is_mode s m = true <-> p_mode s = m.
  Proof. unfold is_mode. destruct (p_mode s), m; split; intros; congruence || discriminate. Qed.
  Lemma nonempty_iff t : nonempty t = true <-> t <> [].
  Proof. destruct t; cbn; split; intros; congruence || discriminate. Qed.

  (** ** The four buttons: either a call starts, or only the error text changes. *)
  Definition calm (s s' : page) : Prop :=
    p_calls s' = p_calls s /\ p_loading s' = p_loading s /\ p_decrypted s' = p_decrypted s /\ c_decrypted s' = c_decrypted s.
  Lemma calm_error x s : calm s (set_error x s). Proof. destruct s; repeat split. Qed.
  Lemma calm_refl s : calm s s. Proof. repeat split. Qed.
  Lemma decrypt_cases s :
    (exists r w sym ct inputs, decrypt_starts s r w ct inputs /\ p_circuit s = Some (Files r w sym) /\
       p_calls (click_decrypt s) = p_calls s ++ [CallDecrypt (Files r w sym) ct inputs] /\ p_loading (click_decrypt s) = true /\
       p_decrypted (click_decrypt s) = [] /\ c_decrypted (click_decrypt s) = c_decrypted s) \/
    ((forall r w ct inputs, ~ decrypt_starts s r w ct inputs) /\ calm s (click_decrypt s)).
  Proof.
    unfold click_decrypt. destruct (negb (is_tab s Sudoku && is_mode s Decrypt) || p_loading s) eqn:Eb.
    { right. split; [|apply calm_refl]. intros r w ct inputs (H1&H2&H3&_).
      apply tab_iff in H1. apply mode_iff in H2. rewrite H1, H2, H3 in Eb. discriminate. }
    apply orb_false_elim in Eb as [Eb EL]. apply negb_false_iff, andb_prop in Eb as [E1 E2]. apply tab_iff in E1. apply mode_iff in E2.
    assert (Ect : forall ct, ciphertext_to_use s = Some ct <-> (p_uploaded s = Some ct \/ p_uploaded s = None /\ p_ciphertext s = Some ct)).
    { intros ct. unfold ciphertext_to_use. destruct (p_uploaded s); split; intros H; [left; congruence|destruct H as [H|[H _]]; congruence|right; auto|destruct H as [H|[_ H]]; congruence]. }
    destruct (ciphertext_to_use s) as [ct|] eqn:Ec.
    2:{ right. split; [|apply calm_refl]. intros r w ct inputs (_&_&_&_&H&_). apply Ect in H. discriminate. }
    destruct (p_circuit s) as [fs|] eqn:Ef.
    2:{ right. split; [|apply calm_error]. intros r w ct' inputs (_&_&_&(sym&H)&_). congruence. }
    destruct (existsb is_zero (p_solution s)) eqn:Ez.
    { right. split; [|apply calm_error]. intros r w ct' inputs (_&_&_&_&_&_&H&_). apply zeros in H. congruence. }
    destruct (Nat.eqb (List.length (p_solution s)) 81) eqn:El; cbn [negb].
    2:{ right. split; [|apply calm_error]. intros r w ct' inputs (_&_&_&_&_&H&_). apply Nat.eqb_eq in H. congruence. }
    left. destruct fs as [r w sym]. exists r, w, sym, ct. eexists. split; [|split; [reflexivity|split; [|split; [|split]]]].
    - split; [exact E1|]. split; [exact E2|]. split; [exact EL|]. split; [exists sym; exact Ef|]. split; [apply Ect; reflexivity|].
      split; [apply Nat.eqb_eq; exact El|]. split; [apply zeros; exact Ez|reflexivity].
    - destruct s. reflexivity.
    - destruct s. reflexivity.
    - destruct s. reflexivity.
    - destruct s. reflexivity.
  Qed.
  Lemma custom_decrypt_cases s :
    (exists r w sym ct inputs, custom_decrypt_starts (js_json_parse round) s r w ct inputs /\ c_files s = Some (Files r w sym) /\
       p_calls (click_custom_decrypt round s) = p_calls s ++ [CallCustomDecrypt (Files r w sym) ct inputs] /\ p_loading (click_custom_decrypt round s) = true /\
       p_decrypted (click_custom_decrypt round s) = p_decrypted s /\ c_decrypted (click_custom_decrypt round s) = []) \/
    ((forall r w ct inputs, ~ custom_decrypt_starts (js_json_parse round) s r w ct inputs) /\ calm s (click_custom_decrypt round s)).
  Proof.
    unfold click_custom_decrypt. destruct (negb (is_tab s Custom && is_mode s Decrypt) || p_loading s) eqn:Eb.
    { right. split; [|apply calm_refl]. intros r w ct inputs (H1&H2&H3&_).
      apply tab_iff in H1. apply mode_iff in H2. rewrite H1, H2, H3 in Eb. discriminate. }
    apply orb_false_elim in Eb as [Eb EL]. apply negb_false_iff, andb_prop in Eb as [E1 E2]. apply tab_iff in E1. apply mode_iff in E2.
    destruct (c_ciphertext s) as [ct|] eqn:Ec.
    2:{ right. split; [|apply calm_refl]. intros r w ct inputs (_&_&_&_&_&_&H&_). congruence. }
    destruct (c_files s) as [fs0|] eqn:Ef.
    2:{ right. split; [|apply calm_refl]. intros r w ct' inputs (_&_&_&(sym&H)&_). congruence. }
    destruct (both_files s) as [fs|] eqn:E3.
    2:{ right. split; [|apply calm_error]. intros r w ct' inputs (_&_&_&(sym&H)&Hr&Hw&_). unfold both_files in E3. rewrite H in E3.
        cbn [f_r1cs f_wasm] in E3. destruct r; [congruence|]. destruct w; [congruence|discriminate]. }
    apply both_files_some in E3 as (E3&Hr&Hw). rewrite Ef in E3. assert (fs0 = fs) by congruence. subst fs0. clear E3.
    assert (Ein : forall inputs, js_json_parse round (full_inputs s) = Some inputs <->
       (c_private s <> [] /\ js_json_parse round (c_private s) = Some inputs \/ c_private s = [] /\ js_json_parse round (c_public s) = Some inputs)).
    { intros inputs. unfold full_inputs. destruct (c_private s) as [|x t]; cbn [nonempty].
      - split; [intros H; right; auto|]. intros [[H _]|[_ H]]; [congruence|exact H].
      - split; [intros H; left; split; [discriminate|exact H]|]. intros [[_ H]|[H _]]; [exact H|discriminate]. }
    destruct (js_json_parse round (full_inputs s)) as [inputs|] eqn:Ei.
    2:{ right. split; [|apply calm_error]. intros r w ct' inputs (_&_&_&_&_&_&_&H). apply Ein in H. discriminate. }
    left. destruct fs as [r w sym]. exists r, w, sym, ct, inputs. split; [|split; [reflexivity|split; [|split; [|split]]]].
    - split; [exact E1|]. split; [exact E2|]. split; [exact EL|]. split; [exists sym; exact Ef|]. split; [exact Hr|]. split; [exact Hw|].
      split; [exact Ec|]. apply Ein. reflexivity.
    - destruct s. reflexivity.
    - destruct s. reflexivity.
    - destruct s. reflexivity.
    - destruct s. reflexivity.
  Qed.
  Lemma encrypt_cases co s :
    (exists fs inputs, encrypt_starts s /\ p_circuit s = Some fs /\ inputs = JObj [(lit "puzzle", JArr (p_puzzle s))] /\
       p_calls (click_encrypt co s) = p_calls s ++ [CallEncrypt co fs inputs (text_encode (p_message s)) true] /\ p_loading (click_encrypt co s) = true /\
       p_decrypted (click_encrypt co s) = p_decrypted s /\ c_decrypted (click_encrypt co s) = c_decrypted s) \/
    (~ encrypt_starts s /\ calm s (click_encrypt co s)).
  Proof.
    unfold click_encrypt. destruct (negb (is_tab s Sudoku && is_mode s Encrypt) || p_loading s || negb (nonempty (p_message s))) eqn:Eb.
    { right. split; [|apply calm_refl]. intros (H1&H2&H3&H4&_). apply tab_iff in H1. apply mode_iff in H2. apply nonempty_iff in H4.
      rewrite H1, H2, H3, H4 in Eb. discriminate. }
    apply orb_false_elim in Eb as [Eb EM]. apply orb_false_elim in Eb as [Eb EL]. apply negb_false_iff, andb_prop in Eb as [E1 E2]. apply tab_iff in E1. apply mode_iff in E2.
    apply negb_false_iff, nonempty_iff in EM.
    destruct (p_circuit s) as [fs|] eqn:Ec.
    2:{ right. split; [|apply calm_error]. intros (_&_&_&_&H&_). congruence. }
    destruct (Nat.eqb (List.length (p_puzzle s)) 81) eqn:El; cbn [negb].
    2:{ right. split; [|apply calm_error]. intros (_&_&_&_&_&H). apply Nat.eqb_eq in H. congruence. }
    left. exists fs. eexists. apply Nat.eqb_eq in El. split; [repeat split; try assumption; congruence|]. split; [reflexivity|]. split; [reflexivity|].
    destruct s. repeat split.
  Qed.
  Lemma custom_encrypt_cases co s :
    (exists fs inputs, custom_encrypt_starts (js_json_parse round) s /\ c_files s = Some fs /\ js_json_parse round (c_public s) = Some inputs /\
       p_calls (click_custom_encrypt round co s) = p_calls s ++ [CallCustomEncrypt co fs inputs (text_encode (c_message s)) (c_include s)] /\
       p_loading (click_custom_encrypt round co s) = true /\
       p_decrypted (click_custom_encrypt round co s) = p_decrypted s /\ c_decrypted (click_custom_encrypt round co s) = c_decrypted s) \/
    (~ custom_encrypt_starts (js_json_parse round) s /\ calm s (click_custom_encrypt round co s)).
  Proof.
    unfold click_custom_encrypt. destruct (negb (is_tab s Custom && is_mode s Encrypt) || p_loading s || negb (nonempty (c_message s))) eqn:Eb.
    { right. split; [|apply calm_refl]. intros (H1&H2&H3&H4&_). apply tab_iff in H1. apply mode_iff in H2. apply nonempty_iff in H4.
      rewrite H1, H2, H3, H4 in Eb. discriminate. }
    apply orb_false_elim in Eb as [Eb EM]. apply orb_false_elim in Eb as [Eb EL]. apply negb_false_iff, andb_prop in Eb as [E1 E2]. apply tab_iff in E1. apply mode_iff in E2.
    apply negb_false_iff, nonempty_iff in EM.
    destruct (c_files s) as [fs0|] eqn:Ef.
    2:{ right. split; [|apply calm_refl]. intros (_&_&_&_&_&_&fs&H&_). congruence. }
    destruct (both_files s) as [fs|] eqn:E3.
    2:{ right. split; [|apply calm_error]. intros (_&_&_&_&_&_&fs&H&Hr&Hw). unfold both_files in E3. rewrite H in E3.
        destruct (f_r1cs fs); [congruence|]. destruct (f_wasm fs); [congruence|discriminate]. }
    apply both_files_some in E3 as (E3&Hr&Hw). rewrite Ef in E3. assert (fs0 = fs) by congruence. subst fs0. clear E3.
    destruct (nonempty (c_public s)) eqn:Ep; cbn [negb].
    2:{ right. split; [|apply calm_error]. intros (_&_&_&_&H&_). apply nonempty_iff in H. congruence. }
    destruct (js_json_parse round (c_public s)) as [inputs|] eqn:Ei.
    2:{ right. split; [|apply calm_error]. intros (_&_&_&_&_&H&_). congruence. }
    apply nonempty_iff in Ep. left. exists fs, inputs. split.
    { split; [exact E1|]. split; [exact E2|]. split; [exact EL|]. split; [exact EM|]. split; [exact Ep|]. split; [congruence|]. exists fs. auto. }
    split; [reflexivity|]. split; [reflexivity|]. destruct s. repeat split.
  Qed.
  (** While a call is in flight, nothing but its settling changes it or the messages shown. *)
  Lemma quiet_step s e : inv s -> p_loading s = true -> (forall i, e <> Settles i) -> calm s (step s e).
  Proof.
    intros Hi Hl Hn. destruct (is_click e) eqn:Ee; [|destruct (frame s e Ee) as (F1&F2&F3&F4); repeat split; assumption].
    destruct e; try discriminate Ee; cbn [Playground.step].
    - destruct (encrypt_cases co s) as [(fs&i&(_&_&H&_)&_)|[_ H]]; [congruence|exact H].
    - destruct (decrypt_cases s) as [(r&w&y&c&i&(_&_&H&_)&_)|[_ H]]; [congruence|exact H].
    - destruct (custom_encrypt_cases co s) as [(fs&i&(_&_&H&_)&_)|[_ H]]; [congruence|exact H].
    - destruct (custom_decrypt_cases s) as [(r&w&y&c&i&(_&_&H&_)&_)|[_ H]]; [congruence|exact H].
    - exfalso. apply (Hn i). reflexivity.
  Qed.
  Lemma quiet_run h q : p_loading (run_page h) = true -> none_settles q -> calm (run_page h) (run_page (h ++ q)).
  Proof.
    revert h. induction q as [|e q IH] using rev_ind; intros h Hl Hq; [rewrite app_nil_r; apply calm_refl|].
    assert (Hq' : none_settles q) by (intros i Hin; apply (Hq i); apply in_or_app; left; exact Hin).
    destruct (IH h Hl Hq') as (C1&C2&C3&C4).
    rewrite app_assoc, run_snoc. destruct (quiet_step (run_page (h ++ q)) e) as (D1&D2&D3&D4); [apply inv_run|congruence| |].
    - intros i E. apply (Hq i). apply in_or_app. right. left. exact E.
    - repeat split; congruence.
  Qed.
  Lemma settled h c q : p_calls (run_page h) = [c] -> none_settles q ->
    run_page (h ++ q ++ [Settles 0]) = settle c (set_calls [] (run_page (h ++ q))).
  Proof.
    intros Hc Hq. assert (Hl : p_loading (run_page h) = true).
    { pose proof (i_calls _ (inv_run h)) as H. rewrite Hc in H. apply H. }
    destruct (quiet_run h q Hl Hq) as (C1&_). rewrite app_assoc, run_snoc. cbn [Playground.step]. apply (settle_nth_one c). congruence.
  Qed.

  (** ** Uploads *)
  Lemma uploaded_step s e : p_uploaded (step s e) = match e with Upload b => Some b | _ => p_uploaded s end.
  Proof.
    destruct e; cbn [Playground.step].
    all: unfold auto_solve, edit_puzzle, edit_solution, put_cell, upload, public_file, private_file, custom_upload, upload_r1cs, upload_wasm, generate,
      click_encrypt, click_decrypt, click_custom_encrypt, click_custom_decrypt, settle_nth, Playground.settle, start.
    all: break; destruct s; cbn; reflexivity.
  Qed.
  Lemma custom_uploaded_step s e : inv s -> c_ciphertext (step s e) = match e with CustomUpload b => Some b | _ => c_ciphertext s end.
  Proof.
    intros Hi. destruct e; cbn [Playground.step].
    all: try (unfold auto_solve, edit_puzzle, edit_solution, put_cell, upload, public_file, private_file, custom_upload, upload_r1cs, upload_wasm, generate,
      click_encrypt, click_decrypt, click_custom_encrypt, click_custom_decrypt, start; break; destruct s; cbn in *; congruence || reflexivity).
    pose proof (i_calls s Hi) as H4. destruct (p_calls s) as [|c [|]] eqn:Ec; [rewrite settle_nth_none by exact Ec; reflexivity| |contradiction].
    rewrite (settle_nth_one c) by exact Ec. destruct i; [|reflexivity]. destruct H4 as [_ H5].
    destruct c; cbn [call_files] in H5; unfold Playground.settle, call_encrypt; rewrite ?H5; try destruct (lib_decrypt _ _ _ _); destruct s; reflexivity.
  Qed.
End Histories.

(** ** C77: the playground *)
(** Encrypting in the playground never succeeds, on either tab: the page has no symbol file to give to
    the library.  The ciphertexts it holds are the files uploaded last, and the custom tab says
    "Encryption successful!" exactly when one was uploaded there. *)
Theorem C77_encryption_never_succeeds :
  forall coins enc_error dec_error
         (lib_encrypt : coins -> list byte -> text -> json -> list byte -> bool -> res enc_error (list byte))
         (lib_decrypt : list byte -> list byte -> list byte -> json -> res dec_error (list byte)) round lossy h,
    let s := run_page lib_encrypt lib_decrypt round lossy h in
    p_ciphertext s = None /\ p_uploaded s = last_upload h /\ c_ciphertext s = last_custom_upload h /\
    (says_encrypted s = true <-> p_mode s = Encrypt /\ p_tab s = Custom /\ last_custom_upload h <> None).
Proof.
  intros coins EE DE le ld rd lo h s.
  assert (H1 : p_ciphertext s = None) by apply (i_ct _ (inv_run le ld rd lo h)).
  assert (H2 : p_uploaded s = last_upload h /\ c_ciphertext s = last_custom_upload h).
  { subst s. clear H1. induction h as [|e h [IH1 IH2]] using rev_ind; [split; reflexivity|]. rewrite run_snoc. unfold last_upload, last_custom_upload.
    rewrite !fold_left_app. cbn [fold_left]. fold (last_upload h). fold (last_custom_upload h).
    rewrite uploaded_step, custom_uploaded_step by apply inv_run. split; destruct e; congruence. }
  destruct H2 as [H2 H3]. split; [exact H1|]. split; [exact H2|]. split; [exact H3|].
  unfold says_encrypted. rewrite H1, H3. destruct (p_mode s), (p_tab s), (last_custom_upload h); split; intros H; try discriminate; try (destruct H as (?&?&?); congruence); try (split; [reflexivity|split; [reflexivity|discriminate]]).
Qed.
Print Assumptions C77_encryption_never_succeeds.

(** Each attempt ends with the TypeError, whatever happens meanwhile; afterwards the page is ready for
    the next click. *)
Theorem C77_encryption_attempts_fail :
  forall coins enc_error dec_error
         (lib_encrypt : coins -> list byte -> text -> json -> list byte -> bool -> res enc_error (list byte))
         (lib_decrypt : list byte -> list byte -> list byte -> json -> res dec_error (list byte)) round lossy h co meanwhile click,
    let run := run_page lib_encrypt lib_decrypt round lossy in
    (encrypt_starts (run h) /\ click = ClickEncrypt co \/
     custom_encrypt_starts (js_json_parse round) (run h) /\ click = ClickCustomEncrypt co) ->
    none_settles meanwhile ->
    let s := run (h ++ [click] ++ meanwhile ++ [Settles 0]) in
    p_error s = Some (EncryptFailed (Some NoTrimOfUndefined)) /\ p_loading s = false /\ p_calls s = [].
Proof.
  intros coins EE DE le ld rd lo h co q click run H Hq s. subst s run.
  assert (Hc : exists c, p_calls (run_page le ld rd lo (h ++ [click])) = [c] /\ f_sym (call_files c) = None /\
            exists co fs i m b, c = CallEncrypt co fs i m b \/ c = CallCustomEncrypt co fs i m b).
  { pose proof (inv_run le ld rd lo h) as Hi. pose proof (inv_run le ld rd lo (h ++ [click])) as Hi'.
    pose proof (i_calls _ Hi') as Hs. rewrite run_snoc in *.
    destruct H as [[H ->]|[H ->]]; cbn [step] in *.
    - assert (Hn : p_calls (run_page le ld rd lo h) = []) by (apply not_loading; [exact Hi|apply H]).
      destruct (encrypt_cases co (run_page le ld rd lo h)) as [(fs&i&_&_&_&Hc&_)|[Hx _]]; [|contradiction].
      rewrite Hn in Hc. cbn [app] in Hc. rewrite Hc in *. eexists. split; [reflexivity|]. split; [apply Hs|]. eauto 8.
    - assert (Hn : p_calls (run_page le ld rd lo h) = []) by (apply not_loading; [exact Hi|apply H]).
      destruct (custom_encrypt_cases rd co (run_page le ld rd lo h)) as [(fs&i&_&_&_&Hc&_)|[Hx _]]; [|contradiction].
      rewrite Hn in Hc. cbn [app] in Hc. rewrite Hc in *. eexists. split; [reflexivity|]. split; [apply Hs|]. eauto 8. }
  destruct Hc as (c&Hc&Hy&co'&fs&i&m&b&Ec).
  pose proof (settled le ld rd lo (h ++ [click]) c q Hc Hq) as Hrun. rewrite <- app_assoc in Hrun. rewrite Hrun.
  rewrite <- app_assoc. destruct (run_page le ld rd lo (h ++ [click] ++ q)).
  destruct Ec as [-> | ->]; cbn [call_files] in Hy; unfold settle, call_encrypt; rewrite Hy; repeat split.
Qed.
Print Assumptions C77_encryption_attempts_fail.

(** At most one call is in flight, and the buttons are disabled exactly while it is. *)
Theorem C77_one_call_at_a_time :
  forall coins enc_error dec_error
         (lib_encrypt : coins -> list byte -> text -> json -> list byte -> bool -> res enc_error (list byte))
         (lib_decrypt : list byte -> list byte -> list byte -> json -> res dec_error (list byte)) round lossy h,
    let s := run_page lib_encrypt lib_decrypt round lossy h in
    List.length (p_calls s) <= 1 /\ (p_loading s = true <-> p_calls s <> []).
Proof.
  intros coins EE DE le ld rd lo h s. pose proof (i_calls _ (inv_run le ld rd lo h)) as H. fold s in H.
  destruct (p_calls s) as [|c [|]]; [|destruct H|contradiction].
  - split; [cbn; lia|]. split; [congruence|intros X; contradiction X; reflexivity].
  - split; [cbn; lia|]. split; [discriminate|auto].
Qed.
Print Assumptions C77_one_call_at_a_time.

(** Clicking decrypt (Sudoku tab): when the call settles, the page shows the text of what decrypt
    returns for the ciphertext, circuit, puzzle and solution that were on the page at the click, or
    the error; whatever happened meanwhile. *)
Theorem C77_decrypt_shows :
  forall coins enc_error dec_error
         (lib_encrypt : coins -> list byte -> text -> json -> list byte -> bool -> res enc_error (list byte))
         (lib_decrypt : list byte -> list byte -> list byte -> json -> res dec_error (list byte)) round lossy h meanwhile r1cs wasm ct inputs,
    let run := run_page lib_encrypt lib_decrypt round lossy in
    decrypt_starts (run h) r1cs wasm ct inputs -> none_settles meanwhile ->
    let s := run (h ++ [ClickDecrypt] ++ meanwhile ++ [Settles 0]) in
    p_loading s = false /\ last_upload h = Some ct /\
    match lib_decrypt r1cs wasm ct inputs with
    | Ok b => p_decrypted s = shown_text lossy b
    | Err e => p_decrypted s = [] /\ p_error s = Some (DecryptFailed (Some e))
    | Panic => p_decrypted s = [] /\ p_error s = Some (DecryptFailed None)
    end.
Proof.
  intros coins EE DE le ld rd lo h q r w ct i run Hs Hq s. subst s run.
  pose proof (inv_run le ld rd lo h) as Hi.
  assert (Hn : p_calls (run_page le ld rd lo h) = []) by (apply not_loading; [exact Hi|apply Hs]).
  pose proof (C77_encryption_never_succeeds coins EE DE le ld rd lo h) as (Hp&Hu&_).
  destruct (decrypt_cases (run_page le ld rd lo h)) as [(r'&w'&y&ct'&i'&Hs'&Hf&Hc&Hl&Hd&_)|[Hx _]]; [|exfalso; apply (Hx r w ct i); exact Hs].
  assert (Efs : r' = r /\ w' = w).
  { destruct Hs as (_&_&_&(y'&Hy)&_). split; congruence. }
  assert (Ect : ct' = ct /\ i' = i).
  { destruct Hs as (_&_&_&_&H1&_&_&H2), Hs' as (_&_&_&_&H1'&_&_&H2'). split; [|congruence].
    destruct H1 as [H1|[H1 K1]], H1' as [H1'|[H1' K1']]; congruence. }
  destruct Efs as [-> ->], Ect as [-> ->].
  assert (Hc' : p_calls (run_page le ld rd lo (h ++ [ClickDecrypt])) = [CallDecrypt (Files r w y) ct i]).
  { rewrite run_snoc. cbn [step]. rewrite Hc, Hn. reflexivity. }
  pose proof (settled le ld rd lo (h ++ [ClickDecrypt]) _ q Hc' Hq) as Hrun. rewrite <- app_assoc in Hrun. rewrite Hrun.
  destruct (quiet_run le ld rd lo (h ++ [ClickDecrypt]) q) as (_&_&C3&_); [rewrite run_snoc; exact Hl|exact Hq|].
  assert (C3' : p_decrypted (run_page le ld rd lo ((h ++ [ClickDecrypt]) ++ q)) = []) by (rewrite C3, run_snoc; exact Hd).
  assert (Hlast : last_upload h = Some ct).
  { rewrite <- Hu. destruct Hs as (_&_&_&_&[H|[_ H]]&_); [exact H|]. cbv zeta in Hp. congruence. }
  destruct (run_page le ld rd lo ((h ++ [ClickDecrypt]) ++ q)). unfold settle. cbn [f_r1cs f_wasm].
  destruct (ld r w ct i); cbn in *; auto.
Qed.
Print Assumptions C77_decrypt_shows.

(** The same for the custom tab; the inputs are those of one field, the public field's content is not
    used when the private field has any (no merging). *)
Theorem C77_custom_decrypt_shows :
  forall coins enc_error dec_error
         (lib_encrypt : coins -> list byte -> text -> json -> list byte -> bool -> res enc_error (list byte))
         (lib_decrypt : list byte -> list byte -> list byte -> json -> res dec_error (list byte)) round lossy h meanwhile r1cs wasm ct inputs,
    let run := run_page lib_encrypt lib_decrypt round lossy in
    custom_decrypt_starts (js_json_parse round) (run h) r1cs wasm ct inputs -> none_settles meanwhile ->
    let s := run (h ++ [ClickCustomDecrypt] ++ meanwhile ++ [Settles 0]) in
    p_loading s = false /\ last_custom_upload h = Some ct /\
    match lib_decrypt r1cs wasm ct inputs with
    | Ok b => c_decrypted s = shown_text lossy b
    | Err e => c_decrypted s = [] /\ p_error s = Some (DecryptFailed (Some e))
    | Panic => c_decrypted s = [] /\ p_error s = Some (DecryptFailed None)
    end.
Proof.
  intros coins EE DE le ld rd lo h q r w ct i run Hs Hq s. subst s run.
  pose proof (inv_run le ld rd lo h) as Hi.
  assert (Hn : p_calls (run_page le ld rd lo h) = []) by (apply not_loading; [exact Hi|apply Hs]).
  pose proof (C77_encryption_never_succeeds coins EE DE le ld rd lo h) as (_&_&Hu&_).
  destruct (custom_decrypt_cases rd (run_page le ld rd lo h)) as [(r'&w'&y&ct'&i'&Hs'&Hf&Hc&Hl&_&Hd)|[Hx _]]; [|exfalso; apply (Hx r w ct i); exact Hs].
  assert (Efs : r' = r /\ w' = w).
  { destruct Hs as (_&_&_&(y'&Hy)&_). split; congruence. }
  assert (Ect : ct' = ct /\ i' = i).
  { destruct Hs as (_&_&_&_&_&_&H1&H2), Hs' as (_&_&_&_&_&_&H1'&H2'). split; [congruence|].
    destruct H2 as [[H2 H3]|[H2 H3]], H2' as [[H2' H3']|[H2' H3']]; congruence. }
  destruct Efs as [-> ->], Ect as [-> ->].
  assert (Hc' : p_calls (run_page le ld rd lo (h ++ [ClickCustomDecrypt])) = [CallCustomDecrypt (Files r w y) ct i]).
  { rewrite run_snoc. cbn [step]. rewrite Hc, Hn. reflexivity. }
  pose proof (settled le ld rd lo (h ++ [ClickCustomDecrypt]) _ q Hc' Hq) as Hrun. rewrite <- app_assoc in Hrun. rewrite Hrun.
  destruct (quiet_run le ld rd lo (h ++ [ClickCustomDecrypt]) q) as (_&_&_&C4); [rewrite run_snoc; exact Hl|exact Hq|].
  assert (C4' : c_decrypted (run_page le ld rd lo ((h ++ [ClickCustomDecrypt]) ++ q)) = []) by (rewrite C4, run_snoc; exact Hd).
  assert (Hlast : last_custom_upload h = Some ct) by (rewrite <- Hu; apply Hs).
  destruct (run_page le ld rd lo ((h ++ [ClickCustomDecrypt]) ++ q)). unfold settle. cbn [f_r1cs f_wasm].
  destruct (ld r w ct i); cbn in *; auto.
Qed.
Print Assumptions C77_custom_decrypt_shows.

(** A message shown as decrypted is the text of what decrypt returned for the last decryption that was
    started on that tab, for the ciphertext uploaded last before it. *)
Theorem C77_shown_was_decrypted :
  forall coins enc_error dec_error
         (lib_encrypt : coins -> list byte -> text -> json -> list byte -> bool -> res enc_error (list byte))
         (lib_decrypt : list byte -> list byte -> list byte -> json -> res dec_error (list byte)) round lossy h t,
    let run := run_page lib_encrypt lib_decrypt round lossy in
    says_decrypted (run h) = Some t ->
    exists h1 h2 r1cs wasm ct inputs b,
      lib_decrypt r1cs wasm ct inputs = Ok b /\ t = shown_text lossy b /\
      (p_tab (run h) = Sudoku /\ h = h1 ++ ClickDecrypt :: h2 /\ last_upload h1 = Some ct /\
       decrypt_starts (run h1) r1cs wasm ct inputs /\
       (forall a b r w c i, h2 = a ++ ClickDecrypt :: b -> ~ decrypt_starts (run (h1 ++ ClickDecrypt :: a)) r w c i) \/
       p_tab (run h) = Custom /\ h = h1 ++ ClickCustomDecrypt :: h2 /\ last_custom_upload h1 = Some ct /\
       custom_decrypt_starts (js_json_parse round) (run h1) r1cs wasm ct inputs /\
       (forall a b r w c i, h2 = a ++ ClickCustomDecrypt :: b -> ~ custom_decrypt_starts (js_json_parse round) (run (h1 ++ ClickCustomDecrypt :: a)) r w c i)).
Proof.
  intros coins EE DE le ld rd lo h t run.
  set (org := fun h r w ct i => exists h1 h2, h = h1 ++ ClickDecrypt :: h2 /\ last_upload h1 = Some ct /\ decrypt_starts (run h1) r w ct i /\
    (forall a b r w c i, h2 = a ++ ClickDecrypt :: b -> ~ decrypt_starts (run (h1 ++ ClickDecrypt :: a)) r w c i)).
  set (corg := fun h r w ct i => exists h1 h2, h = h1 ++ ClickCustomDecrypt :: h2 /\ last_custom_upload h1 = Some ct /\
    custom_decrypt_starts (js_json_parse rd) (run h1) r w ct i /\
    (forall a b r w c i, h2 = a ++ ClickCustomDecrypt :: b -> ~ custom_decrypt_starts (js_json_parse rd) (run (h1 ++ ClickCustomDecrypt :: a)) r w c i)).
  assert (G : forall h,
    (p_decrypted (run h) = [] \/ exists r w ct i b, org h r w ct i /\ ld r w ct i = Ok b /\ p_decrypted (run h) = shown_text lo b) /\
    (c_decrypted (run h) = [] \/ exists r w ct i b, corg h r w ct i /\ ld r w ct i = Ok b /\ c_decrypted (run h) = shown_text lo b) /\
    match p_calls (run h) with
    | [CallDecrypt fs ct i] => org h (f_r1cs fs) (f_wasm fs) ct i
    | [CallCustomDecrypt fs ct i] => corg h (f_r1cs fs) (f_wasm fs) ct i
    | _ => True
    end).
  { clear h. induction h as [|e h (IH1&IH2&IH3)] using rev_ind; [split; [left; reflexivity|split; [left; reflexivity|exact I]]|].
    pose proof (inv_run le ld rd lo h) as Hi. pose proof (C77_encryption_never_succeeds coins EE DE le ld rd lo h) as (Hp&Hu&Hcu&_). cbv zeta in Hp, Hu, Hcu.
    assert (K1 : forall r w ct i, org h r w ct i -> (e = ClickDecrypt -> forall r w c i, ~ decrypt_starts (run h) r w c i) -> org (h ++ [e]) r w ct i).
    { intros r w ct i (h1&h2&E&L&S&N) Hn. exists h1, (h2 ++ [e]). split; [rewrite E, <- app_assoc; reflexivity|]. split; [exact L|]. split; [exact S|].
      intros a b. destruct b as [|x b _] using rev_ind; intros r' w' c' i' Eh.
      - apply app_inj_tail in Eh as [-> ->]. rewrite <- E. apply Hn. reflexivity.
      - change (a ++ ClickDecrypt :: b ++ [x]) with (a ++ (ClickDecrypt :: b) ++ [x]) in Eh. rewrite app_assoc in Eh. apply app_inj_tail in Eh as [-> _].
        apply (N a b). reflexivity. }
    assert (K2 : forall r w ct i, corg h r w ct i -> (e = ClickCustomDecrypt -> forall r w c i, ~ custom_decrypt_starts (js_json_parse rd) (run h) r w c i) -> corg (h ++ [e]) r w ct i).
    { intros r w ct i (h1&h2&E&L&S&N) Hn. exists h1, (h2 ++ [e]). split; [rewrite E, <- app_assoc; reflexivity|]. split; [exact L|]. split; [exact S|].
      intros a b. destruct b as [|x b _] using rev_ind; intros r' w' c' i' Eh.
      - apply app_inj_tail in Eh as [-> ->]. rewrite <- E. apply Hn. reflexivity.
      - change (a ++ ClickCustomDecrypt :: b ++ [x]) with (a ++ (ClickCustomDecrypt :: b) ++ [x]) in Eh. rewrite app_assoc in Eh. apply app_inj_tail in Eh as [-> _].
        apply (N a b). reflexivity. }
    assert (J1 : (e = ClickDecrypt -> forall r w c i, ~ decrypt_starts (run h) r w c i) ->
      forall x, x = [] \/ (exists r w ct i b, org h r w ct i /\ ld r w ct i = Ok b /\ x = shown_text lo b) ->
                x = [] \/ (exists r w ct i b, org (h ++ [e]) r w ct i /\ ld r w ct i = Ok b /\ x = shown_text lo b)).
    { intros Hn x [H|(r&w&ct&i&b&Ho&H)]; [left; exact H|right]. exists r, w, ct, i, b. split; [apply K1; assumption|exact H]. }
    assert (J2 : (e = ClickCustomDecrypt -> forall r w c i, ~ custom_decrypt_starts (js_json_parse rd) (run h) r w c i) ->
      forall x, x = [] \/ (exists r w ct i b, corg h r w ct i /\ ld r w ct i = Ok b /\ x = shown_text lo b) ->
                x = [] \/ (exists r w ct i b, corg (h ++ [e]) r w ct i /\ ld r w ct i = Ok b /\ x = shown_text lo b)).
    { intros Hn x [H|(r&w&ct&i&b&Ho&H)]; [left; exact H|right]. exists r, w, ct, i, b. split; [apply K2; assumption|exact H]. }
    assert (Calm : (e = ClickDecrypt -> forall r w c i, ~ decrypt_starts (run h) r w c i) ->
      (e = ClickCustomDecrypt -> forall r w c i, ~ custom_decrypt_starts (js_json_parse rd) (run h) r w c i) -> calm (run h) (run (h ++ [e])) ->
      (p_decrypted (run (h ++ [e])) = [] \/ exists r w ct i b, org (h ++ [e]) r w ct i /\ ld r w ct i = Ok b /\ p_decrypted (run (h ++ [e])) = shown_text lo b) /\
      (c_decrypted (run (h ++ [e])) = [] \/ exists r w ct i b, corg (h ++ [e]) r w ct i /\ ld r w ct i = Ok b /\ c_decrypted (run (h ++ [e])) = shown_text lo b) /\
      match p_calls (run (h ++ [e])) with
      | [CallDecrypt fs ct i] => org (h ++ [e]) (f_r1cs fs) (f_wasm fs) ct i
      | [CallCustomDecrypt fs ct i] => corg (h ++ [e]) (f_r1cs fs) (f_wasm fs) ct i
      | _ => True
      end).
    { intros N1 N2 (C1&_&C3&C4). rewrite C1, C3, C4. split; [apply (J1 N1); exact IH1|]. split; [apply (J2 N2); exact IH2|].
      destruct (p_calls (run h)) as [|[co fs i m b|fs ct i|co fs i m b|fs ct i] [|c' l]]; try exact I; [apply K1|apply K2]; assumption. }
    assert (Hrun : run (h ++ [e]) = step le ld rd lo (run h) e) by apply run_snoc.
    destruct (is_click e) eqn:Ee.
    2:{ destruct (frame le ld rd lo (run h) e Ee) as (F1&F2&F3&F4). apply Calm; try (intros ->; discriminate Ee). rewrite Hrun. repeat split; assumption. }
    destruct e; try discriminate Ee; cbn [step] in Hrun.
    - (* ClickEncrypt *) destruct (encrypt_cases co (run h)) as [(fs&i&Hs&_&_&Hc&_&Hd1&Hd2)|[_ Hcalm]].
      + rewrite Hrun, Hd1, Hd2, Hc. rewrite (not_loading (run h) Hi) by apply Hs. split; [apply J1; [discriminate|exact IH1]|]. split; [apply J2; [discriminate|exact IH2]|exact I].
      + apply Calm; try discriminate. rewrite Hrun. exact Hcalm.
    - (* ClickDecrypt *) destruct (decrypt_cases (run h)) as [(r&w&y&ct&i&Hs&Hf&Hc&_&Hd1&Hd2)|[Hn Hcalm]].
      + rewrite Hrun, Hd1, Hd2, Hc. rewrite (not_loading (run h) Hi) by apply Hs. split; [left; reflexivity|]. split; [apply J2; [discriminate|exact IH2]|].
        cbn [app f_r1cs f_wasm]. exists h, []. split; [reflexivity|]. split; [|split; [exact Hs|]].
        * rewrite <- Hu. destruct Hs as (_&_&_&_&[H|[_ H]]&_); [exact H|]. unfold run in H. congruence.
        * intros a b r' w' c' i' E. destruct a; discriminate E.
      + apply Calm; [intros _; exact Hn|discriminate|]. rewrite Hrun. exact Hcalm.
    - (* ClickCustomEncrypt *) destruct (custom_encrypt_cases rd co (run h)) as [(fs&i&Hs&_&_&Hc&_&Hd1&Hd2)|[_ Hcalm]].
      + rewrite Hrun, Hd1, Hd2, Hc. rewrite (not_loading (run h) Hi) by apply Hs. split; [apply J1; [discriminate|exact IH1]|]. split; [apply J2; [discriminate|exact IH2]|exact I].
      + apply Calm; try discriminate. rewrite Hrun. exact Hcalm.
    - (* ClickCustomDecrypt *) destruct (custom_decrypt_cases rd (run h)) as [(r&w&y&ct&i&Hs&Hf&Hc&_&Hd1&Hd2)|[Hn Hcalm]].
      + rewrite Hrun, Hd1, Hd2, Hc. rewrite (not_loading (run h) Hi) by apply Hs. split; [apply J1; [discriminate|exact IH1]|]. split; [left; reflexivity|].
        cbn [app f_r1cs f_wasm]. exists h, []. split; [reflexivity|]. split; [|split; [exact Hs|]].
        * rewrite <- Hcu. apply Hs.
        * intros a b r' w' c' i' E. destruct a; discriminate E.
      + apply Calm; [discriminate|intros _; exact Hn|]. rewrite Hrun. exact Hcalm.
    - (* Settles *) destruct (p_calls (run h)) as [|c [|]] eqn:Ec.
      + rewrite (settle_nth_none le ld lo _ i Ec) in Hrun. apply Calm; try discriminate. rewrite Hrun. apply calm_refl.
      + rewrite (settle_nth_one le ld lo c _ i Ec) in Hrun. destruct i as [|i].
        2:{ apply Calm; try discriminate. rewrite Hrun. apply calm_refl. }
        assert (A1 := J1 ltac:(discriminate) _ IH1). assert (A2 := J2 ltac:(discriminate) _ IH2).
        destruct c as [co fs i m b|fs ct i|co fs i m b|fs ct i].
        * assert (E1 : p_decrypted (run (h ++ [Settles 0])) = p_decrypted (run h) /\ c_decrypted (run (h ++ [Settles 0])) = c_decrypted (run h) /\ p_calls (run (h ++ [Settles 0])) = []).
          { rewrite Hrun. unfold settle. destruct (call_encrypt le co fs i m b); destruct (run h); repeat split. }
          destruct E1 as (-> & -> & ->). split; [exact A1|]. split; [exact A2|exact I].
        * assert (Ho : org (h ++ [Settles 0]) (f_r1cs fs) (f_wasm fs) ct i) by (apply K1; [exact IH3|discriminate]).
          assert (E1 : c_decrypted (run (h ++ [Settles 0])) = c_decrypted (run h) /\ p_calls (run (h ++ [Settles 0])) = [] /\
             p_decrypted (run (h ++ [Settles 0])) = match ld (f_r1cs fs) (f_wasm fs) ct i with Ok b => shown_text lo b | _ => p_decrypted (run h) end).
          { rewrite Hrun. unfold settle. destruct (ld (f_r1cs fs) (f_wasm fs) ct i); destruct (run h); repeat split. }
          destruct E1 as (-> & -> & ->). split; [|split; [exact A2|exact I]].
          destruct (ld (f_r1cs fs) (f_wasm fs) ct i) as [b| |] eqn:Ed; [|exact A1..].
          right. exists (f_r1cs fs), (f_wasm fs), ct, i, b. split; [exact Ho|]. split; [exact Ed|reflexivity].
        * assert (E1 : p_decrypted (run (h ++ [Settles 0])) = p_decrypted (run h) /\ c_decrypted (run (h ++ [Settles 0])) = c_decrypted (run h) /\ p_calls (run (h ++ [Settles 0])) = []).
          { rewrite Hrun. unfold settle. destruct (call_encrypt le co fs i m b); destruct (run h); repeat split. }
          destruct E1 as (-> & -> & ->). split; [exact A1|]. split; [exact A2|exact I].
        * assert (Ho : corg (h ++ [Settles 0]) (f_r1cs fs) (f_wasm fs) ct i) by (apply K2; [exact IH3|discriminate]).
          assert (E1 : p_decrypted (run (h ++ [Settles 0])) = p_decrypted (run h) /\ p_calls (run (h ++ [Settles 0])) = [] /\
             c_decrypted (run (h ++ [Settles 0])) = match ld (f_r1cs fs) (f_wasm fs) ct i with Ok b => shown_text lo b | _ => c_decrypted (run h) end).
          { rewrite Hrun. unfold settle. destruct (ld (f_r1cs fs) (f_wasm fs) ct i); destruct (run h); repeat split. }
          destruct E1 as (-> & -> & ->). split; [exact A1|split; [|exact I]].
          destruct (ld (f_r1cs fs) (f_wasm fs) ct i) as [b| |] eqn:Ed; [|exact A2..].
          right. exists (f_r1cs fs), (f_wasm fs), ct, i, b. split; [exact Ho|]. split; [exact Ed|reflexivity].
      + exfalso. pose proof (i_calls _ Hi) as H. unfold run in Ec. rewrite Ec in H. exact H. }
  unfold says_decrypted. destruct (p_mode (run h)); [discriminate|]. destruct (G h) as (G1&G2&_). destruct (p_tab (run h)).
  - destruct (nonempty (p_decrypted (run h))) eqn:En; [|discriminate]. intros E. assert (p_decrypted (run h) = t) by congruence. subst t.
    destruct G1 as [G1|(r&w&ct&i&b&(h1&h2&E1&E2&E3&E4)&E5&E6)]; [rewrite G1 in En; discriminate|].
    exists h1, h2, r, w, ct, i, b. split; [exact E5|]. split; [exact E6|]. left. repeat split; try assumption; apply E3.
  - destruct (nonempty (c_decrypted (run h))) eqn:En; [|discriminate]. intros E. assert (c_decrypted (run h) = t) by congruence. subst t.
    destruct G2 as [G2|(r&w&ct&i&b&(h1&h2&E1&E2&E3&E4)&E5&E6)]; [rewrite G2 in En; discriminate|].
    exists h1, h2, r, w, ct, i, b. split; [exact E5|]. split; [exact E6|]. right. repeat split; try assumption; apply E3.
Qed.
Print Assumptions C77_shown_was_decrypted.
