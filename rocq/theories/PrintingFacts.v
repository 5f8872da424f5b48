(** The talking commands of Printing.v are the commands of Commands.v with printing added. *)
From Coq Require Import List Bool Arith NArith ZArith Lia.
From Coq Require Import Strings.Byte.
From Verif Require Import Res Bytes Text Utf8 Fld Groups Bn254 CS Qap Core R1cs Wtns Circuit ArkSer Sym Inputs Combined Gcm
  FileSys Commands Printing.
Import ListNotations.

(** The same reads, writes and result; printing left out. *)
Inductive same : talk -> cmd cmd_error -> Prop :=
| same_end r : same (TEnd r) (Ret (rmap_err fst r))
| same_say m k c : same k c -> same (TSay m k) c
| same_read p k k' : (forall x, same (k x) (k' x)) -> same (TRead p k) (Read p k')
| same_write p b k k' : (forall ok, same (k ok) (k' ok)) -> same (TWrite p b k) (Write p b k').

Lemma same_says l k c : same k c -> same (says l k) c.
Proof. intros H. induction l as [|m l IH]; [exact H|]. constructor. exact IH. Qed.
Lemma same_try {E' A} (x : res E' A) (f : E' -> failure) g k k' :
  (forall e, fst (f e) = g e) -> (forall a, same (k a) (k' a)) -> same (ttry x f k) (try_ x g k').
Proof.
  intros Hf Hk. destruct x as [a|e|]; cbn [ttry try_]; [apply Hk| |].
  - rewrite <- Hf. exact (same_end (Err (f e))).
  - exact (same_end Panic).
Qed.
Lemma same_try_opt {A} (x : option A) (e : failure) e' k k' :
  fst e = e' -> (forall a, same (k a) (k' a)) -> same (ttry_opt x e k) (try_opt x e' k').
Proof. intros <- Hk. destruct x as [a|]; cbn [ttry_opt try_opt]; [apply Hk|]. exact (same_end (Err e)). Qed.
Lemma same_twrite p b (e : failure) e' k k' : fst e = e' -> same k k' -> same (twrite p b e k) (write_ p b e' k').
Proof. intros <- H. constructor. intros [|]; [exact H|]. exact (same_end (Err e)). Qed.

Section CoreOut.
  Context {F : fieldT} {E : pairingT F} (D : domainT F) (kdf : GT E -> key).
  Lemma encap_out_result circuit alpha beta delta r x :
    snd (encap_out D kdf circuit alpha beta delta r x) = encap_with D kdf circuit alpha beta delta r x.
  Proof.
    unfold encap_out, encap_with. destruct (synth circuit cs_new) as [cs e]. cbn [fst]. cbv zeta.
    destruct (inst cs) as [|one pub]; [reflexivity|].
    destruct (evaluate_qap D cs x) as [[u v] w].
    destruct (crs_loop E (seq 0 (num_variables cs)) alpha beta delta r u v w) as [[[qu qv] qp]|e'|]; [|reflexivity..].
    destruct (collect qp 1 pub) as [bs ss].
    destruct qp as [|p0 qp]; cbn [fst snd].
    - destruct (match bs with [] => _ | _ => msm bs ss end); reflexivity.
    - destruct (msm (p0 :: bs) (f1 :: ss)); reflexivity.
  Qed.
  Lemma mismatch_check (full : list F) expected : forall i,
    pub_check full i expected = match mismatch full i expected with None => None | Some None => Some true | Some (Some _) => Some false end.
  Proof.
    induction expected as [|e es IH]; intros i; cbn [pub_check mismatch]; [reflexivity|].
    destruct (nth_error full (i + 1)) as [a|]; [|reflexivity]. destruct (feqb a e); [apply IH|reflexivity].
  Qed.
  Lemma decap_out_result circuit ct : snd (decap_out kdf circuit ct) = decap kdf circuit ct.
  Proof.
    unfold decap_out, decap. destruct (synth circuit cs_new) as [cs [e|]]; cbv zeta; [reflexivity|].
    destruct (is_satisfied cs) as [[|]|]; [|reflexivity..].
    destruct (Nat.ltb (length (inst cs ++ wit cs)) (1 + length (public_inputs ct))); [reflexivity|].
    rewrite mismatch_check. destruct (mismatch (inst cs ++ wit cs) 0 (public_inputs ct)) as [[i|]|]; [reflexivity| |reflexivity].
    destruct (collect (r_u_query_g1 (ct_key ct)) 0 (inst cs ++ wit cs)) as [ab as_]. destruct ab as [|a0 ab]; [reflexivity|].
    destruct (msm (a0 :: ab) as_) as [a_sum|]; [|reflexivity].
    destruct (collect (r_v_query_g2 (ct_key ct)) 0 (inst cs ++ wit cs)) as [bb bs]. destruct bb as [|b0 bb]; [reflexivity|].
    destruct (msm (b0 :: bb) bs) as [b_sum|]; [|reflexivity].
    destruct (collect (phi_delta_query_g1 (ct_key ct)) 0 (inst cs ++ wit cs)) as [cb cs_]. destruct cb as [|c0 cb]; [reflexivity|].
    destruct (msm (c0 :: cb) cs_) as [c_point|]; reflexivity.
  Qed.
End CoreOut.

Section Same.
  Context (E : pairingT Fr) (C : codecT E) (D : domainT Fr) (kdf : GT E -> key) (aes : cipherT)
          (json_parse : text -> option json) (max_off : N).

  Lemma same_load_r1cs p (e : failure) e' k k' : fst e = e' -> (forall r, same (k r) (k' r)) ->
    same (t_load_r1cs max_off p e k) (load_r1cs max_off p e' k').
  Proof.
    intros <- H. constructor. intros x. apply same_try_opt; [reflexivity|]. intros b. apply same_try; [reflexivity|exact H].
  Qed.
  Lemma same_read_string p (e : failure) e' k k' : fst e = e' -> (forall t, same (k t) (k' t)) ->
    same (t_read_string p e k) (read_string p e' k').
  Proof.
    intros <- H. constructor. intros x. apply same_try_opt; [reflexivity|]. intros b. apply same_try_opt; [reflexivity|exact H].
  Qed.
  Lemma same_load_witness p k k' : (forall l, same (k l) (k' l)) -> same (t_load_witness p k) (load_witness p k').
  Proof.
    intros H. unfold t_load_witness, load_witness. do 2 constructor. intros x. apply same_try_opt; [reflexivity|].
    intros b. apply same_try; [reflexivity|]. intros f. constructor. apply same_try; [reflexivity|exact H].
  Qed.
  Lemma same_prepare v cp sp ip before k k' : (forall t c, same (k t c) (k' t c)) ->
    same (t_prepare json_parse max_off v cp sp ip before k) (prepare json_parse max_off v cp sp ip k').
  Proof.
    intros H. unfold t_prepare, prepare. constructor. apply same_load_r1cs; [reflexivity|]. intros r.
    apply same_says. apply same_read_string; [reflexivity|]. intros st.
    apply same_try; [reflexivity|]. intros syms. cbv zeta. constructor. apply same_read_string; [reflexivity|]. intros it.
    apply same_try; [reflexivity|]. intros inputs. constructor. apply same_says. apply same_load_r1cs; [reflexivity|]. intros r'. apply H.
  Qed.
  Lemma same_run_encap co c k k' : (forall x, same (k x) (k' x)) ->
    same (t_run_encap D kdf co c k) (try_ (run_encap E D kdf co c) (fun _ => EEncap) k').
  Proof.
    intros H. unfold t_run_encap, run_encap. rewrite <- encap_out_result.
    destruct (encap_out D kdf (circom_prog c) (c_alpha co) (c_beta co) (c_delta co) (c_r co) (c_x co)) as [l r]. cbn [snd].
    apply same_says. apply same_try; [reflexivity|exact H].
  Qed.
  Lemma same_run_decap c ct k k' : (forall x, same (k x) (k' x)) ->
    same (t_run_decap kdf c ct k) (try_ (decap kdf (circom_prog c) ct) (fun _ => EDecap) k').
  Proof.
    intros H. unfold t_run_decap. rewrite <- decap_out_result.
    destruct (decap_out kdf (circom_prog c) ct) as [l r]. cbn [snd]. apply same_says. apply same_try; [reflexivity|exact H].
  Qed.

  Lemma same_encap v co cp sp ip ctp kp :
    same (encap_talk C D kdf json_parse max_off v co cp sp ip ctp kp) (encap_command C D kdf json_parse max_off v co cp sp ip ctp kp).
  Proof.
    apply same_prepare. intros t c. apply same_run_encap. intros [ct k]. cbv zeta. constructor.
    apply same_twrite; [reflexivity|]. apply same_says. apply same_twrite; [reflexivity|]. constructor. exact (same_end (Ok tt)).
  Qed.
  Lemma same_decap cp wp ctp kp : same (decap_talk C kdf max_off cp wp ctp kp) (decap_command C kdf max_off cp wp ctp kp).
  Proof.
    constructor. apply same_load_r1cs; [reflexivity|]. intros r. apply same_says. apply same_load_witness. intros l. do 2 constructor.
    intros x. apply same_try_opt; [reflexivity|]. intros bs. apply same_try_opt; [reflexivity|]. intros [ct rest]. apply same_says.
    apply same_load_r1cs; [reflexivity|]. intros r'. apply same_run_decap. intros k. constructor. apply same_twrite; [reflexivity|].
    constructor. exact (same_end (Ok tt)).
  Qed.
  Lemma same_encrypt v co cp sp ip mp op inc :
    same (encrypt_talk C D kdf aes json_parse max_off v co cp sp ip mp op inc)
         (encrypt_command C D kdf aes json_parse max_off v co cp sp ip mp op inc).
  Proof.
    constructor. apply same_prepare. intros t c. apply same_run_encap. intros [ct k]. cbv zeta. apply same_says. constructor. intros x.
    apply same_try_opt; [reflexivity|]. intros m. constructor. apply same_try; [reflexivity|]. intros e. apply same_says.
    apply same_twrite; [reflexivity|]. apply same_says. exact (same_end (Ok tt)).
  Qed.
  Lemma same_decrypt cp wp ctp op : same (decrypt_talk C kdf aes max_off cp wp ctp op) (decrypt_command C kdf aes max_off cp wp ctp op).
  Proof.
    do 2 constructor. intros x. apply same_try_opt; [reflexivity|]. intros f. apply same_says. apply same_try; [reflexivity|]. intros p.
    apply same_says. apply same_load_r1cs; [reflexivity|]. intros r. apply same_says. apply same_load_witness. intros l.
    apply same_try_opt; [reflexivity|]. intros [ct rest]. apply same_load_r1cs; [reflexivity|]. intros r'. apply same_run_decap. intros k.
    apply same_says. apply same_try; [reflexivity|]. intros m. apply same_twrite; [reflexivity|]. apply same_says. exact (same_end (Ok tt)).
  Qed.
End Same.

(** What [same] means for runs and for executions. *)
Lemma same_hear t c : same t c -> forall s, run c s = (fst (fst (hear t s)), rmap_err fst (snd (hear t s))).
Proof.
  induction 1 as [r|m k c H IH|p k k' H IH|p b k k' H IH]; intros s; cbn [run hear].
  - reflexivity.
  - rewrite IH. destruct (hear k s) as [[s' l] r]. reflexivity.
  - apply IH.
  - apply IH.
Qed.
Lemma same_texec t s s' l o : texec t s s' l o -> forall c, same t c ->
  exec c s s' Killed \/ exec c s s' (match o with Finished r => Finished (rmap_err fst r) | Killed => Killed end).
Proof.
  induction 1 as [r s|c s|m k s s' l o H IH|m k s|p k s s' l o H IH|p k s s' l o H IH|p b k s s' l o H IH|p b k s s' l o H IH|p b n k s s' l o H IH|p b n k s];
    intros c' Hs.
  - inversion Hs; subst. right. constructor.
  - left. constructor.
  - inversion Hs; subst. apply IH. assumption.
  - left. constructor.
  - inversion Hs; subst. destruct (IH (k' (s p))) as [X|X]; [auto|left|right]; constructor; exact X.
  - inversion Hs; subst. destruct (IH (k' None)) as [X|X]; [auto|left|right]; apply ex_read_fails; exact X.
  - inversion Hs; subst. destruct (IH (k' true)) as [X|X]; [auto|left|right]; apply ex_write; exact X.
  - inversion Hs; subst. destruct (IH (k' false)) as [X|X]; [auto|left|right]; apply ex_write_fails; exact X.
  - inversion Hs; subst. destruct (IH (k' false)) as [X|X]; [auto|left|right]; apply (ex_write_short p b n); exact X.
  - inversion Hs; subst. left. apply ex_write_killed.
Qed.
(** The undisturbed run is one of the executions. *)
Lemma hear_texec t : forall s s' l r, hear t s = (s', l, r) -> texec t s s' l (Finished r).
Proof.
  induction t as [r0|m k IH|p k IH|p b k IH]; intros s s' l r; cbn [hear]; intros H.
  - injection H as <- <- <-. constructor.
  - destruct (hear k s) as [[s1 l1] r1] eqn:Eh. injection H as <- <- <-. constructor. apply IH. exact Eh.
  - constructor. apply IH. exact H.
  - constructor. apply IH. exact H.
Qed.

(** Every way to end satisfies [P]. *)
Inductive ends (P : failure -> Prop) : talk -> Prop :=
| ends_end r : (forall f, r = Err f -> P f) -> ends P (TEnd r)
| ends_say m k : ends P k -> ends P (TSay m k)
| ends_read p k : (forall x, ends P (k x)) -> ends P (TRead p k)
| ends_write p b k : (forall ok, ends P (k ok)) -> ends P (TWrite p b k).
Lemma ends_texec P t s s' l o : texec t s s' l o -> ends P t -> forall f, o = Finished (Err f) -> P f.
Proof.
  induction 1; intros He f0 Ho; inversion He; subst; try discriminate; eauto. injection Ho as ->. auto.
Qed.
Section Ends.
  Context (P : failure -> Prop).
  Lemma ends_ok : ends P (TEnd (Ok tt)).
  Proof. constructor. discriminate. Qed.
  Lemma ends_says l k : ends P k -> ends P (says l k).
  Proof. intros H. induction l; [exact H|]. constructor. assumption. Qed.
  Lemma ends_try {E' A} (x : res E' A) f k : (forall e, P (f e)) -> (forall a, ends P (k a)) -> ends P (ttry x f k).
  Proof. intros Hf Hk. destruct x; cbn [ttry]; [apply Hk| |]; constructor; intros f0 H; [injection H as <-; apply Hf|discriminate]. Qed.
  Lemma ends_try_opt {A} (x : option A) e k : P e -> (forall a, ends P (k a)) -> ends P (ttry_opt x e k).
  Proof. intros Hf Hk. destruct x; cbn [ttry_opt]; [apply Hk|]; constructor; intros f0 H. injection H as <-. exact Hf. Qed.
  Lemma ends_twrite p b e k : P e -> ends P k -> ends P (twrite p b e k).
  Proof. intros He Hk. constructor. intros [|]; [exact Hk|]. constructor. intros f H. injection H as <-. exact He. Qed.
End Ends.

