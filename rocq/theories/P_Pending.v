(** Property theorems C84: API calls that are pending while other calls run and the caller changes its
    objects.  Vocabulary: SpecPending.v, SpecJsValues.v, SpecEndToEnd.v. *)
From Coq Require Import List Bool Arith NArith ZArith Lia Sorted Permutation.
From Coq Require Import Strings.String Strings.Byte.
From Verif Require Import Res Bytes Text Utf8 Fld Zp Groups Bn254 CS CSFacts Qap SpecCore Core CoreFacts CoreMore P_Core
  R1cs SpecR1cs R1csFacts R1csJs R1csJsFacts P_R1cs Wtns SpecWtns WtnsFacts P_Wtns Circuit SpecCircuit CircuitFacts P_Circuit
  ArkSer ArkSerFacts P_Ser Sym SpecSym SymFacts P_Sym Reader JsNumber Inputs SpecInputs InputsFacts P_Inputs
  Combined SpecCombined CombinedFacts P_Combined Gcm SpecGcm GcmFacts P_Gcm FileSys Commands SpecCommands CommandsFacts
  PartialEncap P_Commands JsZkenc JsZkencFacts P_JsZkenc SpecJs C44Facts P_JsApi JsIff SpecBound P_Bound
  SpecNumerals P_Numerals WitnessCalc SpecWitnessCalc WitnessCalcFacts P_WitnessCalc JsFull SpecEndToEnd EndToEndFacts P_EndToEnd
  JsonText SpecJson JsonFacts JsonMore JsonObj JsonWrite P_Json JsValues SpecJsValues P_JsValues WasmInit Pending SpecPending.
Import ListNotations.
Local Open Scope nat_scope.

(** ** One call, piece by piece *)
(** Where a call is after the turns [l]. *)
Fixpoint after (p : async outcome) (l : list args) {struct l} : option (async outcome) :=
  match l with
  | [] => Some p
  | a :: l => match p with Await k | AwaitInit k => after (k a) l | Fin _ => None end
  end.
Lemma after_snoc p l q k a : after p l = Some q -> (q = Await k \/ q = AwaitInit k) -> after p (l ++ [a]) = Some (k a).
Proof.
  revert p. induction l as [|b l IH]; intros p H Hq; cbn [after app] in *.
  - assert (p = q) by congruence. subst p. destruct Hq as [-> | ->]; reflexivity.
  - destruct p; [discriminate|apply IH; assumption..].
Qed.

Lemma nth_put {A} (l : list A) : forall i j x y, nth_error l i = Some y -> nth_error (put l i x) j = if i =? j then Some x else nth_error l j.
Proof.
  induction l as [|z l IH]; intros [|i] [|j] x y H; cbn in *; try discriminate; try reflexivity. apply (IH _ _ _ _ H).
Qed.
Lemma turns_snoc i tr act h : turns i (tr ++ [(act, h)]) = turns i tr ++ match act with Turn j => if j =? i then [h i] else [] | _ => [] end.
Proof. unfold turns. rewrite flat_map_app. cbn [flat_map fst snd]. rewrite app_nil_r. reflexivity. Qed.

Lemma starts_rejected p : starts_init p PRejected = PRejected.
Proof. destruct p; reflexivity. Qed.
Section Page.
  Context (code : nat -> kind -> args -> async outcome).
  (** What the turns of a call have led to. *)
  Definition progress (i : nat) (c : kind) (ts : list args) (ini : promise) (st : status) : Prop :=
    match st with
    | NotYet c' => c' = c /\ ts = []
    | Waiting p => exists a0 l, ts = a0 :: l /\ after (code i c a0) l = Some p /\ (forall r, p <> Fin r)
    | Over r => exists a0 l, ts = a0 :: l /\
        (after (code i c a0) l = Some (Fin r) \/
         r = Err EInit /\ ini = PRejected /\ exists l' a k, l = l' ++ [a] /\ after (code i c a0) l' = Some (AwaitInit k))
    end.
  Lemma settled i c a0 l ini p : after (code i c a0) l = Some p -> progress i c (a0 :: l) ini (settle p).
  Proof.
    intros H. destruct p as [r|k|k]; cbn [settle progress]; exists a0, l; (split; [reflexivity|]).
    - left. exact H.
    - split; [exact H|discriminate].
    - split; [exact H|discriminate].
  Qed.
  Lemma progress_init i c ts ini ini' st : (ini = PRejected -> ini' = PRejected) -> progress i c ts ini st -> progress i c ts ini' st.
  Proof.
    intros H. destruct st as [c'|p|r]; cbn [progress]; [tauto|tauto|]. intros (a0&l&Ht&[Ha|(Hr&Hi&Hl)]); exists a0, l; (split; [exact Ht|]); [left; exact Ha|].
    right. split; [exact Hr|]. split; [apply H; exact Hi|exact Hl].
  Qed.
  Lemma progressed cs tr w : history code cs tr w -> forall i c, nth_error cs i = Some c ->
    exists st, nth_error (calls w) i = Some st /\ progress i c (turns i tr) (init w) st.
  Proof.
    induction 1 as [h|tr w act w' _ IH Hm]; intros i c Hc.
    - exists (NotYet c). cbn [calls]. split; [rewrite nth_error_map, Hc; reflexivity|split; reflexivity].
    - specialize (IH i c Hc). destruct IH as (st&Hst&Hp). rewrite turns_snoc.
      destruct Hm as [w h|w j c' Hj|w j k Hj|w j k Hj Hr|w j k Hj Hr|w ok Hi]; cbn [heap goes_on calls init];
        try (exists st; split; [exact Hst|rewrite app_nil_r; revert Hp; apply progress_init; cbn [init]; congruence]);
        rewrite (nth_put _ _ _ _ _ Hj); (destruct (Nat.eqb_spec j i) as [->|Hn];
          [|exists st; split; [exact Hst|rewrite app_nil_r; revert Hp; apply progress_init; intros ->; apply starts_rejected]]);
        assert (Est := Hst); rewrite Hj in Est; injection Est as <-; (eexists; split; [reflexivity|]).
      + destruct Hp as [-> ->]. cbn [app]. apply settled. reflexivity.
      + destruct Hp as (a0&l&->&Ha&_). cbn [app]. apply settled. apply (after_snoc _ _ _ _ _ Ha). left. reflexivity.
      + destruct Hp as (a0&l&->&Ha&_). cbn [app]. apply settled. apply (after_snoc _ _ _ _ _ Ha). right. reflexivity.
      + destruct Hp as (a0&l&->&Ha&_). cbn [settle progress]. exists a0, (l ++ [heap w i]). split; [reflexivity|]. right.
        split; [reflexivity|]. split; [exact Hr|]. exists l, (heap w i), k. split; [reflexivity|exact Ha].
  Qed.
  Lemma over_after cs tr w i c r : history code cs tr w -> nth_error cs i = Some c -> nth_error (calls w) i = Some (Over r) ->
    r = Err EInit /\ init w = PRejected \/ exists a0 l, turns i tr = a0 :: l /\ after (code i c a0) l = Some (Fin r).
  Proof.
    intros H Hc Hr. destruct (progressed _ _ _ H _ _ Hc) as (st&Hst&Hp). rewrite Hr in Hst. injection Hst as <-.
    destruct Hp as (a0&l&Ht&[Ha|(Hr'&Hi&_)]); [right; exists a0, l; split; assumption|left; split; assumption].
  Qed.

  (** ** Nobody is stuck *)
  Lemma waits_for_init cs tr w : history code cs tr w -> forall i k, nth_error (calls w) i = Some (Waiting (AwaitInit k)) -> init w <> PNull.
  Proof.
    assert (S : forall p k ini, settle p = Waiting (AwaitInit k) -> starts_init p ini <> PNull).
    { intros p k ini H. destruct p; try discriminate H. cbn [starts_init]. destruct ini; discriminate. }
    assert (S2 : forall p ini, ini <> PNull -> starts_init p ini <> PNull).
    { intros p ini H. destruct p; [exact H|exact H|]. cbn [starts_init]. destruct ini; congruence. }
    induction 1 as [h|tr w act w' _ IH Hm]; intros i k Hw.
    - cbn [calls] in Hw. rewrite nth_error_map in Hw. destruct (nth_error cs i); discriminate Hw.
    - destruct Hm as [w h|w j c' Hj|w j k' Hj|w j k' Hj Hr|w j k' Hj Hr|w ok Hi]; cbn [goes_on calls init] in *;
        try (apply (IH i k); exact Hw); try (destruct ok; discriminate);
        rewrite (nth_put _ _ _ _ _ Hj) in Hw; (destruct (Nat.eqb_spec j i) as [->|Hn]; [apply (S _ k); congruence|apply S2; apply (IH i k); exact Hw]).
  Qed.
  Lemma can_move cs tr w i : history code cs tr w ->
    (forall c, nth_error (calls w) i = Some (NotYet c) -> exists w', moves code w (Turn i) w') /\
    (forall p, nth_error (calls w) i = Some (Waiting p) -> (exists w', moves code w (Turn i) w') \/ init w = PPending).
  Proof.
    intros H. split.
    - intros c Hc. eexists. apply mv_call. exact Hc.
    - intros [r|k|k] Hw.
      + exfalso. assert (Hl : exists c, nth_error cs i = Some c).
        { assert (L : List.length (calls w) = List.length cs).
          { clear Hw. induction H as [h|tr w act w' _ IH Hm]; [apply map_length|]. 
            assert (P : forall (l : list status) j x, List.length (put l j x) = List.length l) by (induction l as [|y l IHl]; intros [|j] x; cbn; congruence).
            destruct Hm; cbn [goes_on calls]; rewrite ?P; exact IH. }
          assert (Hlt : i < List.length (calls w)) by (apply nth_error_Some; congruence).
          destruct (nth_error cs i) as [c|] eqn:Ec; [exists c; reflexivity|]. apply nth_error_None in Ec. lia. }
        destruct Hl as (c&Hc). destruct (progressed _ _ _ H _ _ Hc) as (st&Hst&Hp). rewrite Hw in Hst. injection Hst as <-. destruct Hp as (_&_&_&_&Hf). exact (Hf r eq_refl).
      + left. eexists. apply mv_resume. exact Hw.
      + destruct (init w) eqn:Ei.
        * exfalso. exact (waits_for_init _ _ _ H _ _ Hw Ei).
        * right. reflexivity.
        * left. eexists. eapply mv_ready; eassumption.
        * left. eexists. eapply mv_not_ready; eassumption.
  Qed.

  (** ** Everything can happen *)
  Lemma realise cs i : forall l p r, after p l = Some (Fin r) -> forall tr w, history code cs tr w ->
    nth_error (calls w) i = Some (settle p) -> init w = PResolved -> exists tr' w', history code cs tr' w' /\ nth_error (calls w') i = Some (Over r).
  Proof.
    induction l as [|a l IH]; intros p r Ha tr w H Hw Hi; cbn [after] in Ha.
    - assert (p = Fin r) by congruence. subst p. exists tr, w. split; assumption.
    - assert (Hc : history code cs (tr ++ [(Outside, fun _ => a)]) (Page (fun _ => a) (init w) (calls w))).
      { apply (hi_step _ _ _ _ _ (Page (fun _ => a) (init w) (calls w)) H). apply mv_change. }
      destruct p as [r'|k|k]; [discriminate| |].
      + assert (Hm := mv_resume code (Page (fun _ => a) (init w) (calls w)) i k Hw). cbn [heap] in Hm.
        refine (IH (k a) r Ha _ _ (hi_step _ _ _ _ _ _ Hc Hm) _ _); cbn [goes_on calls init].
        * rewrite (nth_put _ _ _ _ _ Hw). rewrite Nat.eqb_refl. reflexivity.
        * rewrite Hi. destruct (k a); reflexivity.
      + assert (Hm := mv_ready code (Page (fun _ => a) (init w) (calls w)) i k Hw Hi). cbn [heap] in Hm.
        refine (IH (k a) r Ha _ _ (hi_step _ _ _ _ _ _ Hc Hm) _ _); cbn [goes_on calls init].
        * rewrite (nth_put _ _ _ _ _ Hw). rewrite Nat.eqb_refl. reflexivity.
        * rewrite Hi. destruct (k a); reflexivity.
  Qed.
  Lemma realised c a0 l r : after (code 0 c a0) l = Some (Fin r) -> (forall k, code 0 c a0 <> Await k) ->
    exists tr w, history code [c] tr w /\ nth_error (calls w) 0 = Some (Over r).
  Proof.
    intros Ha Hk. set (w0 := Page (fun _ => a0) PNull (map NotYet [c])).
    assert (H0 : history code [c] [] w0) by constructor.
    assert (H1 : history code [c] [(Turn 0, fun _ => a0)] (goes_on w0 0 (code 0 c a0))).
    { exact (hi_step _ _ _ _ _ _ H0 (mv_call code w0 0 c eq_refl)). }
    revert Ha Hk H1. generalize (code 0 c a0). intros p Ha Hk H1. destruct p as [r'|k|k].
    - destruct l; [|discriminate]. cbn [after] in Ha. exists [(Turn 0, fun _ => a0)], (goes_on w0 0 (Fin r')). split; [exact H1|]. cbn. congruence.
    - exfalso. exact (Hk k eq_refl).
    - assert (H2 := hi_step _ _ _ _ _ _ H1 (mv_init code (goes_on w0 0 (AwaitInit k)) true eq_refl)).
      exact (realise [c] 0 l (AwaitInit k) r Ha _ _ H2 eq_refl eq_refl).
  Qed.
End Page.

Ltac ordered ns :=
  exists ns; split; [repeat first [apply SSorted_nil|apply SSorted_cons|apply Forall_nil|apply Forall_cons; [lia|]]|repeat first [apply Forall2_nil|apply Forall2_cons; [reflexivity|]]].

Section Calls.
  Context (E : pairingT Fr) (C : codecT E) (D : domainT Fr) (kdf : GT E -> key) (aes : cipherT) (W : N) (fuel : nat)
          (compile : list byte -> option wmodule).
  Notation callE := (call E C D kdf aes W fuel compile).

  Lemma encap_after co a0 l r : after (callE co KEncap a0) l = Some (Fin r) ->
    exists a1, l = [a1] /\ r = api_result file_and_key (v_encap E C D kdf W fuel co (o_r1cs a1) (o_sym a1) (o_inputs a1)).
  Proof.
    intros H. destruct l as [|a1 l]; [discriminate|]. cbn [call encap_call amap after] in H.
    destruct l as [|? l]; [|discriminate]. injection H as <-. exists a1. split; reflexivity.
  Qed.

  Lemma encrypt_after co a0 l r : after (callE co KEncrypt a0) l = Some (Fin r) ->
    exists a1 a2 a3, in_order [a0; a1; a2; a3] (a0 :: l) /\ r = api_result file_and_key (encrypt_reads E C D kdf aes W fuel co a0 a1 a2 a3).
  Proof.
    intros H. destruct l as [|a1 l]; [discriminate|]. cbn [call encrypt_call encap_call abind amap after] in H.
    unfold encrypt_reads. destruct (v_encap E C D kdf W fuel co (o_r1cs a1) (o_sym a1) (o_inputs a1)) as [[ct k]|e|] eqn:He; cbn [rmap_err abind amap after] in H.
    2: { destruct l as [|? l]; [|discriminate]. injection H as <-. exists a1, a1, a1. split; [ordered [0; 1; 1; 1]|rewrite He; reflexivity]. }
    2: { destruct l as [|? l]; [|discriminate]. injection H as <-. exists a1, a1, a1. split; [ordered [0; 1; 1; 1]|rewrite He; reflexivity]. }
    destruct l as [|b1 l]; [discriminate|]. cbn [abind amap after] in H.
    destruct l as [|b2 l]; [discriminate|]. cbn [abind amap after fst snd gcm_encrypt_call] in H.
    destruct l as [|a2 l]; [discriminate|]. cbn [abind amap after fst snd] in H.
    destruct l as [|b3 l]; [discriminate|]. cbn [abind amap after fst snd] in H.
    destruct (aesGcmEncrypt aes k (c_nonce co) (o_message a2)) as [enc|e|] eqn:Hg; cbn [rmap_err abind amap after] in H.
    2: { destruct l as [|? l]; [|discriminate]. injection H as <-. exists a1, a2, a2. split; [ordered [0; 1; 4; 4]|rewrite He; cbn [rbind snd]; rewrite Hg; reflexivity]. }
    2: { destruct l as [|? l]; [|discriminate]. injection H as <-. exists a1, a2, a2. split; [ordered [0; 1; 4; 4]|rewrite He; cbn [rbind snd]; rewrite Hg; reflexivity]. }
    destruct l as [|a3 l]; [discriminate|]. cbn [abind amap after fst snd] in H.
    destruct l as [|? l]; [|discriminate]. injection H as <-. exists a1, a2, a3. split; [ordered [0; 1; 4; 6]|].
    rewrite He. cbn [rbind fst snd]. rewrite Hg. cbn [rmap_err rbind]. unfold embed, api_result. destruct (o_include a0); [|].
    - destruct (v_stringify (VObject (o_inputs a3))) as [t|e|]; cbn [rmap_err rbind]; [|reflexivity..].
      match goal with |- context [js_combine ?x ?y ?z ?u] => destruct (js_combine x y z u) as [f|e|] end; reflexivity.
    - cbn [rmap_err rbind]. match goal with |- context [js_combine ?x ?y ?z ?u] => destruct (js_combine x y z u) as [f|e|] end; reflexivity.
  Qed.

  Lemma decap_after co a0 l r : after (callE co KDecap a0) l = Some (Fin r) ->
    exists a1 a2 a3, in_order [a0; a1; a2; a3] (a0 :: l) /\ r = full_result RKey (decap_reads E C kdf W fuel compile a1 a2 a3).
  Proof.
    intros H. destruct l as [|a1 l]; [discriminate|]. cbn [call decap_call abind amap after] in H. unfold witness_call, builder_call in H.
    unfold decap_reads. destruct (compile (o_wasm a1)) as [m|] eqn:Hm; cbn [abind amap after] in H.
    2: { destruct l as [|? l]; [|discriminate]. injection H as <-. exists a1, a1, a1. split; [ordered [0; 1; 1; 1]|rewrite Hm; reflexivity]. }
    destruct l as [|b1 l]; [discriminate|]. cbn [abind amap after] in H.
    destruct l as [|b2 l]; [discriminate|]. cbn [abind amap after] in H.
    destruct l as [|a2 l]; [discriminate|]. cbn [abind amap after] in H. unfold wtns_call in H.
    destruct (v_calculate_wtns m (o_inputs a2)) as [wb|e|] eqn:Hw; cbn [rmap_err abind amap after] in H.
    2: { destruct l as [|? l]; [|discriminate]. injection H as <-. exists a1, a2, a2. split; [ordered [0; 1; 4; 4]|rewrite Hm, Hw; reflexivity]. }
    2: { destruct l as [|? l]; [|discriminate]. injection H as <-. exists a1, a2, a2. split; [ordered [0; 1; 4; 4]|rewrite Hm, Hw; reflexivity]. }
    destruct l as [|b3 l]; [discriminate|]. cbn [abind amap after] in H.
    destruct l as [|b4 l]; [discriminate|]. cbn [abind amap after] in H.
    destruct l as [|a3 l]; [discriminate|]. cbn [abind amap after] in H.
    destruct l as [|? l]; [|discriminate]. injection H as <-. exists a1, a2, a3. split; [ordered [0; 1; 4; 7]|].
    rewrite Hm, Hw. cbn [rmap_err rbind full_result]. destruct (js_decap E C kdf W fuel (o_r1cs a3) wb (jb_window (o_ciphertext a3))); reflexivity.
  Qed.

  Lemma decrypt_after co a0 l r : after (callE co KDecrypt a0) l = Some (Fin r) ->
    exists a1 a2 a3, in_order [a0; a1; a2; a3] (a0 :: l) /\ r = full_result RMessage (decrypt_reads E C kdf aes W fuel compile a0 a1 a2 a3).
  Proof.
    intros H. cbn [call] in H. unfold decrypt_call in H. unfold decrypt_reads.
    destruct (js_split (o_ciphertext a0)) as [[wc enc]|e|] eqn:Hs; cbn [rmap_err] in H.
    2: { destruct l as [|? l]; [|discriminate]. cbn [amap after] in H. injection H as <-. exists a0, a0, a0. split; [ordered [0; 0; 0; 0]|reflexivity]. }
    2: { destruct l as [|? l]; [|discriminate]. cbn [amap after] in H. injection H as <-. exists a0, a0, a0. split; [ordered [0; 0; 0; 0]|reflexivity]. }
    destruct l as [|a1 l]; [discriminate|]. cbn [decap_call abind amap after] in H. unfold witness_call, builder_call in H.
    destruct (compile (o_wasm a1)) as [m|] eqn:Hm; cbn [abind amap after] in H.
    2: { destruct l as [|? l]; [|discriminate]. injection H as <-. exists a1, a1, a1. split; [ordered [0; 1; 1; 1]|rewrite Hm; reflexivity]. }
    destruct l as [|b1 l]; [discriminate|]. cbn [abind amap after] in H.
    destruct l as [|b2 l]; [discriminate|]. cbn [abind amap after] in H.
    destruct l as [|a2 l]; [discriminate|]. cbn [abind amap after] in H. unfold wtns_call in H.
    destruct (v_calculate_wtns m (o_inputs a2)) as [wb|e|] eqn:Hw; cbn [rmap_err abind amap after] in H.
    2: { destruct l as [|? l]; [|discriminate]. injection H as <-. exists a1, a2, a2. split; [ordered [0; 1; 4; 4]|rewrite Hm, Hw; reflexivity]. }
    2: { destruct l as [|? l]; [|discriminate]. injection H as <-. exists a1, a2, a2. split; [ordered [0; 1; 4; 4]|rewrite Hm, Hw; reflexivity]. }
    destruct l as [|b3 l]; [discriminate|]. cbn [abind amap after] in H.
    destruct l as [|b4 l]; [discriminate|]. cbn [abind amap after] in H.
    destruct l as [|a3 l]; [discriminate|]. cbn [abind amap after fst snd] in H.
    destruct (js_decap E C kdf W fuel (o_r1cs a3) wb wc) as [k|e|] eqn:Hk; cbn [rmap_err abind amap after] in H.
    2: { destruct l as [|? l]; [|discriminate]. injection H as <-. exists a1, a2, a3. split; [ordered [0; 1; 4; 7]|rewrite Hm, Hw; cbn [rmap_err rbind fst snd]; rewrite Hk; reflexivity]. }
    2: { destruct l as [|? l]; [|discriminate]. injection H as <-. exists a1, a2, a3. split; [ordered [0; 1; 4; 7]|rewrite Hm, Hw; cbn [rmap_err rbind fst snd]; rewrite Hk; reflexivity]. }
    exists a1, a2, a3. rewrite Hm, Hw. cbn [rmap_err rbind fst snd]. rewrite Hk. cbn [rmap_err rbind full_result].
    destruct l as [|b5 l]; [discriminate|]. cbn [abind amap after gcm_decrypt_call] in H.
    destruct l as [|b6 l]; [discriminate|]. cbn [abind amap after] in H.
    destruct l as [|b7 l]; [discriminate|]. cbn [abind amap after] in H.
    destruct l as [|b8 l]; [discriminate|]. cbn [abind amap after] in H.
    destruct (aesGcmDecrypt aes k enc) as [x|e|] eqn:Hg; cbn [rmap_err abind amap after] in H.
    2: { destruct l as [|? l]; [|discriminate]. injection H as <-. split; [ordered [0; 1; 4; 7]|reflexivity]. }
    2: { destruct l as [|? l]; [|discriminate]. injection H as <-. split; [ordered [0; 1; 4; 7]|reflexivity]. }
    destruct l as [|b9 l]; [discriminate|]. cbn [abind amap after] in H.
    destruct l as [|? l]; [|discriminate]. injection H as <-. split; [ordered [0; 1; 4; 7]|reflexivity].
  Qed.
End Calls.

Fixpoint depth_le (n : nat) (p : async outcome) : Prop :=
  match n with
  | O => exists r, p = Fin r
  | S n => match p with Fin _ => True | Await k | AwaitInit k => forall a, depth_le n (k a) end
  end.
Lemma depth_after n : forall p l q, depth_le n p -> after p l = Some q -> List.length l <= n.
Proof.
  induction n as [|n IH]; intros p l q Hd Ha; destruct l as [|a l]; cbn [List.length after] in *; try lia.
  - destruct Hd as (r&->). discriminate.
  - cbn [depth_le] in Hd. destruct p; [discriminate|..]; apply le_n_S; eapply IH; eauto.
Qed.
Section Reach.
  Context (E : pairingT Fr) (C : codecT E) (D : domainT Fr) (kdf : GT E -> key) (aes : cipherT) (W : N) (fuel : nat)
          (compile : list byte -> option wmodule).
  Notation callE := (call E C D kdf aes W fuel compile).
  Lemma encrypt_realises co a0 a1 a2 a3 :
    exists l, after (callE co KEncrypt a0) l = Some (Fin (api_result file_and_key (encrypt_reads E C D kdf aes W fuel co a0 a1 a2 a3))).
  Proof.
    unfold encrypt_reads.
    destruct (v_encap E C D kdf W fuel co (o_r1cs a1) (o_sym a1) (o_inputs a1)) as [[ct k]|e|] eqn:He.
    2, 3: exists [a1]; cbn [call encrypt_call encap_call abind amap after]; rewrite He; reflexivity.
    cbn [rbind fst snd]. destruct (aesGcmEncrypt aes k (c_nonce co) (o_message a2)) as [enc|e|] eqn:Hg.
    2, 3: exists [a1; a1; a1; a2; a2]; cbn [call encrypt_call encap_call abind amap after]; rewrite He;
      cbn [rmap_err rbind abind amap after snd fst gcm_encrypt_call]; rewrite Hg; reflexivity.
    exists [a1; a1; a1; a2; a2; a3]. cbn [call encrypt_call encap_call abind amap after]. rewrite He.
    cbn [rmap_err rbind abind amap after snd fst gcm_encrypt_call]. rewrite Hg. cbn [rmap_err rbind abind amap after snd fst]. do 2 f_equal.
    unfold embed, api_result. destruct (o_include a0); [|].
    - destruct (v_stringify (VObject (o_inputs a3))) as [t|e|]; cbn [rmap_err rbind]; [|reflexivity..].
      match goal with |- context [js_combine ?x ?y ?z ?u] => destruct (js_combine x y z u) as [f|e|] end; reflexivity.
    - cbn [rmap_err rbind]. match goal with |- context [js_combine ?x ?y ?z ?u] => destruct (js_combine x y z u) as [f|e|] end; reflexivity.
  Qed.
  Lemma decrypt_realises co a0 a1 a2 a3 :
    exists l, after (callE co KDecrypt a0) l = Some (Fin (full_result RMessage (decrypt_reads E C kdf aes W fuel compile a0 a1 a2 a3))).
  Proof.
    unfold decrypt_reads. cbn [call]. unfold decrypt_call.
    destruct (js_split (o_ciphertext a0)) as [[wc enc]|e|]; cbn [rmap_err]; [|exists []; reflexivity..].
    destruct (compile (o_wasm a1)) as [m|] eqn:Hm.
    2: { exists [a1]. cbn [decap_call abind amap after]. unfold witness_call, builder_call. rewrite Hm. reflexivity. }
    destruct (v_calculate_wtns m (o_inputs a2)) as [wb|e|] eqn:Hw.
    2, 3: exists [a1; a1; a1; a2]; cbn [decap_call abind amap after]; unfold witness_call, builder_call; rewrite Hm; cbn [abind amap after]; unfold wtns_call; rewrite Hw; reflexivity.
    cbn [rmap_err rbind fst snd]. destruct (js_decap E C kdf W fuel (o_r1cs a3) wb wc) as [k|e|] eqn:Hk.
    2, 3: exists [a1; a1; a1; a2; a2; a2; a3]; cbn [decap_call abind amap after]; unfold witness_call, builder_call; rewrite Hm; cbn [abind amap after]; unfold wtns_call; rewrite Hw;
      cbn [rmap_err rbind abind amap after fst snd]; rewrite Hk; reflexivity.
    cbn [rmap_err rbind]. destruct (aesGcmDecrypt aes k enc) as [x|e|] eqn:Hg.
    - exists [a1; a1; a1; a2; a2; a2; a3; a3; a3; a3; a3; a3]. cbn [decap_call abind amap after]. unfold witness_call, builder_call. rewrite Hm. cbn [abind amap after]. unfold wtns_call. rewrite Hw.
      cbn [rmap_err rbind abind amap after fst snd]. rewrite Hk. cbn [rmap_err rbind abind amap after fst snd gcm_decrypt_call]. rewrite Hg. reflexivity.
    - exists [a1; a1; a1; a2; a2; a2; a3; a3; a3; a3; a3]. cbn [decap_call abind amap after]. unfold witness_call, builder_call. rewrite Hm. cbn [abind amap after]. unfold wtns_call. rewrite Hw.
      cbn [rmap_err rbind abind amap after fst snd]. rewrite Hk. cbn [rmap_err rbind abind amap after fst snd gcm_decrypt_call]. rewrite Hg. reflexivity.
    - exists [a1; a1; a1; a2; a2; a2; a3; a3; a3; a3; a3]. cbn [decap_call abind amap after]. unfold witness_call, builder_call. rewrite Hm. cbn [abind amap after]. unfold wtns_call. rewrite Hw.
      cbn [rmap_err rbind abind amap after fst snd]. rewrite Hk. cbn [rmap_err rbind abind amap after fst snd gcm_decrypt_call]. rewrite Hg. reflexivity.
  Qed.
  Lemma call_depth co c a0 : depth_le 12 (callE co c a0).
  Proof.
    destruct c; cbn [call].
    - cbn [encap_call amap depth_le]. trivial.
    - cbn [encrypt_call encap_call abind amap depth_le]. intros a1. destruct (v_encap _ _ _ _ _ _ _ _ _ _) as [ck|e|]; cbn [rmap_err abind amap depth_le gcm_encrypt_call]; trivial.
      intros _ _ a2 _. destruct (aesGcmEncrypt _ _ _ _) as [x|e|]; cbn [rmap_err abind amap depth_le]; trivial.
    - cbn [decap_call abind amap depth_le]. intros a1. unfold witness_call, builder_call. destruct (compile (o_wasm a1)) as [m|]; cbn [abind amap depth_le]; trivial.
      intros _ _ a2. unfold wtns_call. destruct (v_calculate_wtns _ _) as [x|e|]; cbn [rmap_err abind amap depth_le]; trivial.
    - unfold decrypt_call. destruct (js_split _) as [wm|e|]; cbn [rmap_err abind amap depth_le]; trivial.
      cbn [decap_call abind amap depth_le]. intros a1. unfold witness_call, builder_call. destruct (compile (o_wasm a1)) as [m|]; cbn [abind amap depth_le]; trivial.
      intros _ _ a2. unfold wtns_call. destruct (v_calculate_wtns _ _) as [x|e|]; cbn [rmap_err abind amap depth_le]; trivial.
      intros _ _ a3. destruct (js_decap _ _ _ _ _ _ _ _) as [k|e|]; cbn [rmap_err abind amap depth_le gcm_decrypt_call]; trivial.
      intros _ _ _ _. destruct (aesGcmDecrypt _ _ _) as [y|e|]; cbn [rmap_err abind amap depth_le]; trivial. intros _. eexists. reflexivity.
  Qed.
  Lemma call_no_await co c a0 k : callE co c a0 <> Await k.
  Proof. destruct c; cbn [call]; try discriminate. unfold decrypt_call. destruct (js_split _) as [wm|e|]; cbn [rmap_err abind amap decap_call]; discriminate. Qed.
End Reach.


(** ** The theorems *)
Section Theorems.
  Context (E : pairingT Fr) (C : codecT E) (D : domainT Fr) (kdf : GT E -> key) (aes : cipherT) (W : N) (fuel : nat)
          (compile : list byte -> option wmodule) (co : nat -> coins).
  Notation apiE := (api E C D kdf aes W fuel compile co).
  Lemma ordered_in l ts a : in_order l ts -> (forall a', In a' ts -> a' = a) -> Forall (fun x => x = a) l.
  Proof.
    intros (ns&_&H) Hs. induction H as [|n x ns l Hn _ IH]; constructor; [|exact IH]. apply Hs. eapply nth_error_In. exact Hn.
  Qed.
  Lemma encrypt_reads_now c a : encrypt_reads E C D kdf aes W fuel c a a a a =
    v_encrypt E C D kdf aes W fuel c (o_r1cs a) (o_sym a) (o_inputs a) (o_message a) (o_include a).
  Proof. reflexivity. Qed.
  Lemma decap_reads_now a m : compile (o_wasm a) = Some m -> decap_reads E C kdf W fuel compile a a a =
    Some (v_decap E C kdf W fuel m (o_r1cs a) (jb_window (o_ciphertext a)) (o_inputs a)).
  Proof. intros H. unfold decap_reads. rewrite H. reflexivity. Qed.
  Lemma rbind_assoc' {X Y Z0 Er} (x : res Er X) (f : X -> res Er Y) (g : Y -> res Er Z0) : rbind (rbind x f) g = rbind x (fun y => rbind (f y) g).
  Proof. destruct x; reflexivity. Qed.
  Lemma decrypt_reads_now a m : compile (o_wasm a) = Some m -> decrypt_reads E C kdf aes W fuel compile a a a a =
    Some (v_decrypt E C kdf aes W fuel m (o_r1cs a) (o_ciphertext a) (o_inputs a)).
  Proof.
    intros H. unfold decrypt_reads, v_decrypt, v_decap. destruct (js_split (o_ciphertext a)) as [wm|e|]; [|reflexivity..]. rewrite H. cbn [rmap_err rbind].
    rewrite rbind_assoc'. reflexivity.
  Qed.
End Theorems.

(** encrypt and encap: which moments count.  The options count as they are when the call is made; the
    circuit, the symbols and the inputs at one later moment; the message still later; the embedded
    inputs last.  Nothing else does: not the other calls, not the order in which they run. *)
Theorem C84_encrypt_reads :
  forall (E : pairingT Fr) (C : codecT E) (D : domainT Fr) (kdf : GT E -> key) (aes : cipherT) W fuel compile co cs tr w i r,
    history (api E C D kdf aes W fuel compile co) cs tr w ->
    nth_error cs i = Some KEncrypt -> nth_error (calls w) i = Some (Over r) ->
    (r = Err EInit /\ init w = PRejected) \/
    exists a0 a1 a2 a3, hd_error (turns i tr) = Some a0 /\ in_order [a0; a1; a2; a3] (turns i tr) /\
      r = api_result file_and_key (encrypt_reads E C D kdf aes W fuel (co i) a0 a1 a2 a3).
Proof.
  intros E C D kdf aes W fuel compile co cs tr w i r H Hc Hr. destruct (over_after _ _ _ _ _ _ _ H Hc Hr) as [Hi|(a0&l&Ht&Ha)]; [left; exact Hi|right].
  apply (encrypt_after E C D kdf aes W fuel compile (co i) a0) in Ha as (a1&a2&a3&Ho&->). exists a0, a1, a2, a3. rewrite Ht. split; [reflexivity|]. split; [exact Ho|reflexivity].
Qed.
Print Assumptions C84_encrypt_reads.
Theorem C84_encap_reads :
  forall (E : pairingT Fr) (C : codecT E) (D : domainT Fr) (kdf : GT E -> key) (aes : cipherT) W fuel compile co cs tr w i r,
    history (api E C D kdf aes W fuel compile co) cs tr w ->
    nth_error cs i = Some KEncap -> nth_error (calls w) i = Some (Over r) ->
    (r = Err EInit /\ init w = PRejected) \/
    exists a0 a1, turns i tr = [a0; a1] /\
      r = api_result file_and_key (v_encap E C D kdf W fuel (co i) (o_r1cs a1) (o_sym a1) (o_inputs a1)).
Proof.
  intros E C D kdf aes W fuel compile co cs tr w i r H Hc Hr. destruct (over_after _ _ _ _ _ _ _ H Hc Hr) as [Hi|(a0&l&Ht&Ha)]; [left; exact Hi|right].
  apply (encap_after E C D kdf aes W fuel compile (co i) a0) in Ha as (a1&->&->). exists a0, a1. split; [exact Ht|reflexivity].
Qed.
Print Assumptions C84_encap_reads.
(** decrypt and decap: the ciphertext given to decrypt counts as it is when the call is made (the one
    given to decap at the end); the WASM code, the inputs and the circuit at three later moments. *)
Theorem C84_decrypt_reads :
  forall (E : pairingT Fr) (C : codecT E) (D : domainT Fr) (kdf : GT E -> key) (aes : cipherT) W fuel compile co cs tr w i r,
    history (api E C D kdf aes W fuel compile co) cs tr w ->
    nth_error cs i = Some KDecrypt -> nth_error (calls w) i = Some (Over r) ->
    (r = Err EInit /\ init w = PRejected) \/
    exists a0 a1 a2 a3, hd_error (turns i tr) = Some a0 /\ in_order [a0; a1; a2; a3] (turns i tr) /\
      r = full_result RMessage (decrypt_reads E C kdf aes W fuel compile a0 a1 a2 a3).
Proof.
  intros E C D kdf aes W fuel compile co cs tr w i r H Hc Hr. destruct (over_after _ _ _ _ _ _ _ H Hc Hr) as [Hi|(a0&l&Ht&Ha)]; [left; exact Hi|right].
  apply (decrypt_after E C D kdf aes W fuel compile (co i) a0) in Ha as (a1&a2&a3&Ho&->). exists a0, a1, a2, a3. rewrite Ht. split; [reflexivity|]. split; [exact Ho|reflexivity].
Qed.
Print Assumptions C84_decrypt_reads.
Theorem C84_decap_reads :
  forall (E : pairingT Fr) (C : codecT E) (D : domainT Fr) (kdf : GT E -> key) (aes : cipherT) W fuel compile co cs tr w i r,
    history (api E C D kdf aes W fuel compile co) cs tr w ->
    nth_error cs i = Some KDecap -> nth_error (calls w) i = Some (Over r) ->
    (r = Err EInit /\ init w = PRejected) \/
    exists a1 a2 a3, in_order [a1; a2; a3] (turns i tr) /\
      r = full_result RKey (decap_reads E C kdf W fuel compile a1 a2 a3).
Proof.
  intros E C D kdf aes W fuel compile co cs tr w i r H Hc Hr. destruct (over_after _ _ _ _ _ _ _ H Hc Hr) as [Hi|(a0&l&Ht&Ha)]; [left; exact Hi|right].
  apply (decap_after E C D kdf aes W fuel compile (co i) a0) in Ha as (a1&a2&a3&(ns&Hs&Ho)&->). exists a1, a2, a3. rewrite Ht. split; [|reflexivity].
  inversion Ho as [|n x ns' l' _ Ho']; subst. inversion Hs; subst. exists ns'. split; assumption.
Qed.
Print Assumptions C84_decap_reads.

(** Calls on objects that keep their values while the calls are pending do not disturb one another:
    each gives what it gives alone, in every order and number of calls; only a failed initialisation
    stops them. *)
Theorem C84_calls_do_not_interfere :
  forall (E : pairingT Fr) (C : codecT E) (D : domainT Fr) (kdf : GT E -> key) (aes : cipherT) W fuel compile co cs tr w i c r a m,
    history (api E C D kdf aes W fuel compile co) cs tr w ->
    nth_error cs i = Some c -> nth_error (calls w) i = Some (Over r) ->
    (forall a', In a' (turns i tr) -> a' = a) -> compile (o_wasm a) = Some m ->
    (r = Err EInit /\ init w = PRejected) \/ r = undisturbed E C D kdf aes W fuel m (co i) c a.
Proof.
  intros E C D kdf aes W fuel compile co cs tr w i c r a m H Hc Hr Ht Hm.
  assert (Heq : forall l, in_order l (turns i tr) -> Forall (fun x => x = a) l) by (intros l Hl; apply (ordered_in _ _ _ Hl Ht)).
  destruct c.
  - destruct (C84_encap_reads _ _ _ _ _ _ _ _ _ _ _ _ _ _ H Hc Hr) as [Hi|(a0&a1&Hts&->)]; [left; exact Hi|right].
    assert (a1 = a) by (apply Ht; rewrite Hts; right; left; reflexivity). subst a1. reflexivity.
  - destruct (C84_encrypt_reads _ _ _ _ _ _ _ _ _ _ _ _ _ _ H Hc Hr) as [Hi|(a0&a1&a2&a3&_&Ho&->)]; [left; exact Hi|right].
    apply Heq in Ho. inversion Ho as [|? ? -> Ho1]; subst. inversion Ho1 as [|? ? -> Ho2]; subst. inversion Ho2 as [|? ? -> Ho3]; subst. inversion Ho3 as [|? ? -> _]; subst. reflexivity.
  - destruct (C84_decap_reads _ _ _ _ _ _ _ _ _ _ _ _ _ _ H Hc Hr) as [Hi|(a1&a2&a3&Ho&->)]; [left; exact Hi|right].
    apply Heq in Ho. inversion Ho as [|? ? -> Ho1]; subst. inversion Ho1 as [|? ? -> Ho2]; subst. inversion Ho2 as [|? ? -> _]; subst.
    rewrite (decap_reads_now _ _ _ _ _ _ _ _ Hm). reflexivity.
  - destruct (C84_decrypt_reads _ _ _ _ _ _ _ _ _ _ _ _ _ _ H Hc Hr) as [Hi|(a0&a1&a2&a3&_&Ho&->)]; [left; exact Hi|right].
    apply Heq in Ho. inversion Ho as [|? ? -> Ho1]; subst. inversion Ho1 as [|? ? -> Ho2]; subst. inversion Ho2 as [|? ? -> Ho3]; subst. inversion Ho3 as [|? ? -> _]; subst.
    rewrite (decrypt_reads_now _ _ _ _ _ _ _ _ _ Hm). reflexivity.
Qed.
Print Assumptions C84_calls_do_not_interfere.

(** Every call that is not over can go on, unless it waits for wasmInit, and no call runs more than 13
    pieces: nothing other calls or the page do can keep it from ending. *)
Theorem C84_calls_end :
  forall (E : pairingT Fr) (C : codecT E) (D : domainT Fr) (kdf : GT E -> key) (aes : cipherT) W fuel compile co cs tr w,
    history (api E C D kdf aes W fuel compile co) cs tr w ->
    List.length (calls w) = List.length cs /\
    forall i st, nth_error (calls w) i = Some st ->
      List.length (turns i tr) <= 13 /\
      ((exists r, st = Over r) \/ (exists w', moves (api E C D kdf aes W fuel compile co) w (Turn i) w') \/
       (init w = PPending /\ forall ok : bool, exists w', moves (api E C D kdf aes W fuel compile co) w InitOver w' /\ init w' = if ok then PResolved else PRejected)).
Proof.
  intros E C D kdf aes W fuel compile co cs tr w H.
  assert (L : List.length (calls w) = List.length cs).
  { clear - H. induction H as [h|tr w act w' _ IH Hm]; [apply map_length|].
    assert (P : forall (l : list status) j x, List.length (put l j x) = List.length l) by (induction l as [|y l IHl]; intros [|j] x; cbn; congruence).
    destruct Hm; cbn [goes_on calls]; rewrite ?P; exact IH. }
  split; [exact L|]. intros i st Hst.
  assert (Hc : exists c, nth_error cs i = Some c).
  { assert (Hlt : i < List.length (calls w)) by (apply nth_error_Some; congruence).
    destruct (nth_error cs i) as [c|] eqn:Ec; [exists c; reflexivity|]. apply nth_error_None in Ec. lia. }
  destruct Hc as (c&Hc). destruct (progressed _ _ _ _ H _ _ Hc) as (st'&Hst'&Hp). rewrite Hst in Hst'. injection Hst' as <-.
  assert (Hlen : forall a0 l q, after (api E C D kdf aes W fuel compile co i c a0) l = Some q -> List.length l <= 12).
  { intros a0 l q Ha. eapply depth_after; [|exact Ha]. apply call_depth. }
  destruct (can_move _ _ _ _ i H) as [M1 M2]. split.
  - destruct st as [c'|p|r]; cbn [progress] in Hp.
    + destruct Hp as [_ ->]. cbn. lia.
    + destruct Hp as (a0&l&->&Ha&_). cbn [List.length]. specialize (Hlen _ _ _ Ha). lia.
    + destruct Hp as (a0&l&->&[Ha|(_&_&l'&a&k&->&Ha)]); cbn [List.length]; specialize (Hlen _ _ _ Ha); [lia|].
      destruct (Nat.eq_dec (List.length l') 12) as [E12|]; [|rewrite app_length; cbn [List.length]; lia]. exfalso.
      assert (Hd := call_depth E C D kdf aes W fuel compile (co i) c a0).
      assert (Hn := after_snoc _ _ _ k a Ha (or_intror eq_refl)). apply (depth_after 12) in Hn; [|exact Hd]. rewrite app_length, E12 in Hn. cbn in Hn. lia.
  - destruct st as [c'|p|r]; [right; left; apply (M1 c'); exact Hst| |left; exists r; reflexivity].
    destruct (M2 p Hst) as [Hm|Hi]; [right; left; exact Hm|right; right]. split; [exact Hi|]. intros ok. eexists. split; [apply (mv_init _ _ ok Hi)|reflexivity].
Qed.
Print Assumptions C84_calls_end.

(** The moments are real: with a page that changes its objects, encrypt and decrypt can end with
    exactly the results of four arbitrary states of the objects. *)
Theorem C84_every_reading_happens :
  forall (E : pairingT Fr) (C : codecT E) (D : domainT Fr) (kdf : GT E -> key) (aes : cipherT) W fuel compile co r,
    r <> Err EInit ->
    ((exists tr w, history (api E C D kdf aes W fuel compile co) [KEncrypt] tr w /\ nth_error (calls w) 0 = Some (Over r)) <->
     exists a0 a1 a2 a3, r = api_result file_and_key (encrypt_reads E C D kdf aes W fuel (co 0) a0 a1 a2 a3)) /\
    ((exists tr w, history (api E C D kdf aes W fuel compile co) [KDecrypt] tr w /\ nth_error (calls w) 0 = Some (Over r)) <->
     exists a0 a1 a2 a3, r = full_result RMessage (decrypt_reads E C kdf aes W fuel compile a0 a1 a2 a3)).
Proof.
  intros E C D kdf aes W fuel compile co r Hr. split; split.
  - intros (tr&w&H&Ho). destruct (C84_encrypt_reads E C D kdf aes W fuel compile co _ tr w 0 r H eq_refl Ho) as [[Hi _]|(a0&a1&a2&a3&_&_&->)]; [contradiction|]. exists a0, a1, a2, a3. reflexivity.
  - intros (a0&a1&a2&a3&->). destruct (encrypt_realises E C D kdf aes W fuel compile (co 0) a0 a1 a2 a3) as (l&Hl).
    apply (realised (api E C D kdf aes W fuel compile co) KEncrypt a0 l); [exact Hl|apply call_no_await].
  - intros (tr&w&H&Ho). destruct (C84_decrypt_reads E C D kdf aes W fuel compile co _ tr w 0 r H eq_refl Ho) as [[Hi _]|(a0&a1&a2&a3&_&_&->)]; [contradiction|]. exists a0, a1, a2, a3. reflexivity.
  - intros (a0&a1&a2&a3&->). destruct (decrypt_realises E C D kdf aes W fuel compile (co 0) a0 a1 a2 a3) as (l&Hl).
    apply (realised (api E C D kdf aes W fuel compile co) KDecrypt a0 l); [exact Hl|apply call_no_await].
Qed.
Print Assumptions C84_every_reading_happens.

(** ** What a changed object does to the file *)
Lemma encrypt_reads_json (E : pairingT Fr) (C : codecT E) (D : domainT Fr) (kdf : GT E -> key) (aes : cipherT) W fuel co a0 a1 a2 a3 f k :
  encrypt_reads E C D kdf aes W fuel co a0 a1 a2 a3 = Ok (f, k) -> numbers_finite (VObject (o_inputs a3)) ->
  js_encrypt E C D kdf aes (fun _ => public_json (written (o_inputs a3))) W fuel co (o_r1cs a1) (o_sym a1) (seen (o_inputs a1)) (o_message a2) (o_include a0) = Ok (f, k).
Proof.
  intros H Hf. unfold encrypt_reads in H. unfold js_encrypt. rewrite encap_seen in H. destruct (js_encap _ _ _ _ _ _ _ _ _ _) as [[ct k']|e|]; cbn [rbind fst snd] in *; [|discriminate..].
  destruct (rmap_err ACrypt (aesGcmEncrypt aes k' (c_nonce co) (o_message a2))) as [enc|e|]; cbn [rbind] in *; [|discriminate..].
  destruct (o_include a0).
  - destruct (C83_json_stringify (VObject (o_inputs a3))) as [S1 S2].
    assert (Hb : ~ holds_bigint (VObject (o_inputs a3))).
    { intros Hb. rewrite (S1 Hb) in H. discriminate. }
    rewrite (S2 Hb Hf) in H. cbn [is_undefined rmap_err rbind] in H. rewrite written_unfold in H. exact H.
  - exact H.
Qed.
(** The file opens to the message of the later moment, for those who solve the circuit for the inputs
    of the earlier moment, and shows the inputs of the last. *)
Theorem C84_changed_while_pending :
  forall (E : pairingT Fr) (C : codecT E) (D : domainT Fr) (kdf : GT E -> key) (aes : cipherT) W fuel round lossy co a0 a1 a2 a3 f k m r ins full a,
    (forall g, List.length (kdf g) = 32) -> List.length (c_nonce co) = 12 ->
    encrypt_reads E C D kdf aes W fuel co a0 a1 a2 a3 = Ok (f, k) ->
    compiled m r ins (js_wires (o_sym a1)) -> circuit_file (o_r1cs a1) r -> js_usable r ->
    fits_encrypt W fuel (o_r1cs a1) (o_sym a1) -> fits_calculated W fuel (o_r1cs a1) r ->
    numbers_finite (VObject (o_inputs a3)) -> js_data round (JObj (written (o_inputs a3))) -> (blen (public_json (written (o_inputs a3))) < 2 ^ 32)%N ->
    shaped_doc ins (seen full) -> solves m (seen full) -> incl (o_inputs a1) full -> ordinary (seen (o_inputs a1)) ->
    jb_valid a -> jb_window a = f ->
    v_decrypt E C kdf aes W fuel m (o_r1cs a1) a full = Ok (o_message a2) /\
    (o_include a0 = true -> get_public_input (text_decode lossy) (js_json_parse round) a = Ok (JObj (written (o_inputs a3)))).
Proof.
  intros E C D kdf aes W fuel round lossy co a0 a1 a2 a3 f k m r ins full a Hk Hn He Hc Hcf Hu Hfe Hfc Hfin Hj Hq Hsh Hso Hi Ho Hv Hw.
  apply encrypt_reads_json in He; [|exact Hfin]. split.
  - rewrite decrypt_seen. apply seen_incl in Hi.
    exact (C56_js_encrypt_then_decrypt E C D kdf aes _ W fuel co (o_r1cs a1) (o_sym a1) (seen (o_inputs a1)) (seen full) (o_message a2) (o_include a0) f k m r ins a
      Hk Hn (fun _ => Hq) Hc Hcf Hu Hfe Hfc He Hsh Hso Hi Ho Hv Hw).
  - intros Hinc. rewrite Hinc in He.
    apply js_encrypt_inv in He as (ctb&enc&He&Hcb&_&_); [|assumption..]. cbn beta in Hcb.
    assert (Hs : (blen ctb < 2 ^ 32)%N).
    { destruct Hfe as (W1&W2&W3&W4&W5).
      destruct (js_encap_facts E C D kdf W fuel co (o_sym a1) (seen (o_inputs a1)) (o_r1cs a1) ctb k r Hcf Hu W1 W2 W3 W4 W5 He) as (ct&c&_&_&Hs&_). exact Hs. }
    destruct (C34_round_trip_across_tools true ctb (public_json (written (o_inputs a3))) enc Hs (fun _ => Hq)) as (f'&Hf1&Hf&_&_).
    assert (Hff : f' = f) by congruence. subst f'.
    destruct (C37_returns_the_embedded_input _ _ (text_decode lossy) (js_json_parse round) ctb (public_json (written (o_inputs a3))) enc a Hs Hq Hv) as (H&_&_).
    rewrite H by congruence. rewrite public_json_read by exact Hj. reflexivity.
Qed.
Print Assumptions C84_changed_while_pending.
Lemma encrypt_reads_eq (E : pairingT Fr) (C : codecT E) (D : domainT Fr) (kdf : GT E -> key) (aes : cipherT) W fuel co a0 a1 a2 a3 :
  ~ holds_bigint (VObject (o_inputs a3)) -> numbers_finite (VObject (o_inputs a3)) ->
  encrypt_reads E C D kdf aes W fuel co a0 a1 a2 a3 =
  js_encrypt E C D kdf aes (fun _ => public_json (written (o_inputs a3))) W fuel co (o_r1cs a1) (o_sym a1) (seen (o_inputs a1)) (o_message a2) (o_include a0).
Proof.
  intros Hb Hf. unfold encrypt_reads, js_encrypt. rewrite encap_seen. destruct (js_encap _ _ _ _ _ _ _ _ _ _) as [[ct k']|e|]; cbn [rbind fst snd]; [|reflexivity..].
  destruct (rmap_err ACrypt (aesGcmEncrypt aes k' (c_nonce co) (o_message a2))) as [enc|e|]; cbn [rbind]; [|reflexivity..].
  destruct (o_include a0); [|reflexivity]. destruct (C83_json_stringify (VObject (o_inputs a3))) as [_ S2].
  rewrite (S2 Hb Hf). cbn [is_undefined rmap_err rbind]. rewrite written_unfold. reflexivity.
Qed.

(** The hypotheses are met: a page calls encrypt for x = 9 with the message "hi", writes "ho" into the
    message's buffer and 4 into the inputs while the call is pending.  The file opens to "ho" with the
    root of 9, and says x = 4. *)
Definition ex_args (x : Z) (message : list byte) : args :=
  Args ex_circuit_file [] ex_sym_text [(lit "x", VNumber x)] message (whole []) true.
Example C84_nonvacuous : forall (aes : cipherT) lossy compile,
  exists tr w f k,
    history (api fr_pairing ex_codec bn_domain ex_kdf32 aes (2 ^ 32) 1000 compile (fun _ => ex_coins)) [KEncrypt] tr w /\
    nth_error (calls w) 0 = Some (Over (Ok (RFile f k))) /\
    encrypt_reads fr_pairing ex_codec bn_domain ex_kdf32 aes (2 ^ 32) 1000 ex_coins (ex_args 9 [x68; x69]) (ex_args 9 [x68; x69]) (ex_args 4 [x68; x6f]) (ex_args 4 [x68; x6f]) = Ok (f, k) /\
    v_decrypt fr_pairing ex_codec ex_kdf32 aes (2 ^ 32) 1000 ex_wmodule ex_circuit_file (whole f) [(lit "y", VNumber (-3)); (lit "x", VNumber 9)] = Ok [x68; x6f] /\
    get_public_input (text_decode lossy) (js_json_parse JFloat) (whole f) = Ok (JObj [(lit "x", JInt 4)]).
Proof.
  intros aes lossy compile.
  set (a0 := ex_args 9 [x68; x69]). set (a2 := ex_args 4 [x68; x6f]).
  assert (Hkdf : forall g, List.length (ex_kdf32 g) = 32%nat) by (intros g; apply le_bytes_length).
  assert (Hfe : fits_encrypt (2 ^ 32) 1000 ex_circuit_file ex_sym_text) by (repeat split; vm_compute; auto; discriminate).
  assert (Hfc : fits_calculated (2 ^ 32) 1000 ex_circuit_file ex_circuit) by (repeat split; vm_compute; auto; discriminate).
  assert (Hde : c_delta ex_coins <> f0).
  { intros Hd. apply (proj2 (feqb_true Fr _ _)) in Hd. vm_compute in Hd. discriminate. }
  assert (Hu : js_usable ex_circuit) by (split; vm_compute; auto; discriminate).
  assert (Hms : (blen [x68; x6f] <= gcm_limit)%N) by (vm_compute; discriminate).
  assert (Hfl : flat_doc [(lit "x", JInt 9)]).
  { constructor; [left; cbn [snd]; apply com_int; split; [discriminate|reflexivity]|constructor]. }
  assert (Hv : forall f, jb_valid (whole f)) by (intros f; unfold jb_valid, whole; cbn [jb_offset jb_length jb_buffer]; apply N.le_refl).
  assert (Hb : ~ holds_bigint (VObject (o_inputs a2))).
  { intros Hb. inversion Hb as [| |? k' x Hin Hx]; subst. destruct Hin as [H|[]]; injection H as <- <-; inversion Hx. }
  assert (Hfin : numbers_finite (VObject (o_inputs a2))) by (apply nf_object; repeat constructor; discriminate).
  destruct (C44_js_encrypt_succeeds fr_pairing ex_codec bn_domain ex_kdf32 aes (fun _ => public_json (written (o_inputs a2))) (2 ^ 32) 1000 ex_coins ex_circuit_file
      ex_sym_text [(lit "x", JInt 9)] [x68; x6f] true ex_circuit Hkdf eq_refl Hde ex_circuit_is_file Hfe Hfl Hms) as (f&k&He).
  assert (Hr : encrypt_reads fr_pairing ex_codec bn_domain ex_kdf32 aes (2 ^ 32) 1000 ex_coins a0 a0 a2 a2 = Ok (f, k)).
  { rewrite (encrypt_reads_eq _ _ _ _ _ _ _ _ _ _ _ _ Hb Hfin). exact He. }
  destruct (C84_every_reading_happens fr_pairing ex_codec bn_domain ex_kdf32 aes (2 ^ 32) 1000 compile (fun _ => ex_coins) (Ok (RFile f k)) ltac:(discriminate)) as [[_ HH] _].
  destruct HH as (tr&w&Hh&Ho). { exists a0, a0, a2, a2. rewrite Hr. reflexivity. }
  exists tr, w, f, k. split; [exact Hh|]. split; [exact Ho|]. split; [exact Hr|].
  assert (X := C84_changed_while_pending fr_pairing ex_codec bn_domain ex_kdf32 aes (2 ^ 32) 1000 JFloat lossy ex_coins a0 a0 a2 a2 f k ex_wmodule ex_circuit ex_ins
    [(lit "y", VNumber (-3)); (lit "x", VNumber 9)] (whole f) Hkdf eq_refl Hr ex_compiled ex_circuit_is_file Hu Hfe Hfc Hfin).
  assert (Y : v_decrypt fr_pairing ex_codec ex_kdf32 aes (2 ^ 32) 1000 ex_wmodule (o_r1cs a0) (whole f) [(lit "y", VNumber (-3)); (lit "x", VNumber 9)] = Ok (o_message a2) /\
    (o_include a0 = true -> get_public_input (text_decode lossy) (js_json_parse JFloat) (whole f) = Ok (JObj (written (o_inputs a2))))).
  { apply X; clear X.
    - apply jd_obj.
      + repeat constructor; cbn; intuition discriminate.
      + exists [], [lit "x"]. split; [reflexivity|]. split; [constructor|]. split; [intros k' []|]. split.
        { intros k' n [<-|[]] Hi; apply array_index_iff in Hi; discriminate Hi. }
        split; [reflexivity|]. exists keep_other. split; [apply keep_other_iff|]. vm_compute. reflexivity.
      + repeat (apply Forall_cons || apply Forall_nil); cbn [fst snd]; split; [|apply jd_int; discriminate].
        split; [|repeat constructor; lia]. intros a b hi lo Eq. destruct a as [|? [|? a]]; discriminate Eq.
    - vm_compute. reflexivity.
    - intros k' v [H|[H|[]]]; injection H as <- <-; exists []; (split; [cbn; auto|constructor; discriminate]).
    - set (h := Z.to_N (-3 mod bn_r)). exists [(name_hash (lit "y"), 0%N, h); (name_hash (lit "x"), 0%N, 9%N)], [1%N; 9%N; h]. split.
      + exists [[(name_hash (lit "y"), 0%N, h)]; [(name_hash (lit "x"), 0%N, 9%N)]]. split; [|split; [reflexivity|apply perm_swap]].
        constructor; [|constructor; [|constructor]].
        * exists [(-3)%Z], 1%N. split; [repeat constructor|]. split; [right; left; reflexivity|]. split; reflexivity.
        * exists [9%Z], 1%N. split; [repeat constructor|]. split; [left; reflexivity|]. split; reflexivity.
      + vm_compute. reflexivity.
    - intros e [<-|[]]. right. left. reflexivity.
    - split.
      + intros k' v zs z [H|[]] Hn Hz. injection H as <- <-.
        assert (zs = [9%Z]) by (eapply numbers_fun; [exact Hn|repeat constructor]). subst zs. destruct Hz as [<-|[]]. split; [lia|reflexivity].
      + intros name t (k'&v&[H|[]]&Hl). injection H as <- <-. inversion Hl.
    - apply Hv.
    - apply window_whole. }
  destruct Y as [Y1 Y2]. split; [exact Y1|exact (Y2 eq_refl)].
Qed.
