(** How the commands of Commands.v execute. *)
From Coq Require Import List Bool Arith NArith ZArith Lia Permutation.
From Coq Require Import Strings.Byte.
From Verif Require Import Res Bytes Text Utf8 Fld Groups Bn254 Qap Core R1cs Wtns Circuit ArkSer Sym Inputs Combined Gcm SpecGcm
  FileSys Commands SpecCommands.
Import ListNotations.
Local Open Scope N_scope.

Lemma fs_write_same p b s : fs_write p b s p = Some b.
Proof. unfold fs_write. rewrite text_eqb_refl. reflexivity. Qed.
Lemma fs_write_other p b s q : q <> p -> fs_write p b s q = s q.
Proof. intros H. unfold fs_write. rewrite (proj2 (text_eqb_neq q p)) by exact H. reflexivity. Qed.

(** The command ended or was killed without having changed anything. *)
Definition stopped {E} (s s' : fsys) (o : outcome E) : Prop := s' = s /\ o <> Finished (Ok tt).

Section Steps.
  Context {E : Type}.
  Implicit Types (s : fsys) (o : outcome E).
  Lemma exec_ret r s s' o : exec (Ret r) s s' o -> s' = s /\ (o = Finished r \/ o = Killed).
  Proof. intros H. inversion H; subst; auto. Qed.
  Lemma exec_try {A E'} (x : res E' A) (f : E' -> E) k s s' o :
    exec (try_ x f k) s s' o -> stopped s s' o \/ exists a, x = Ok a /\ exec (k a) s s' o.
  Proof.
    destruct x as [a|e|]; cbn [try_]; intros H; [eauto| |]; left; apply exec_ret in H as [-> [->| ->]]; split; auto; discriminate.
  Qed.
  Lemma exec_try_opt {A} (x : option A) (e : E) k s s' o :
    exec (try_opt x e k) s s' o -> stopped s s' o \/ exists a, x = Some a /\ exec (k a) s s' o.
  Proof.
    destruct x as [a|]; cbn [try_opt]; intros H; [eauto|]. left. apply exec_ret in H as [-> [->| ->]]; split; auto; discriminate.
  Qed.
  Lemma exec_read_opt p (e : E) (k : list byte -> cmd E) s s' o :
    exec (Read p (fun c => try_opt c e k)) s s' o ->
    stopped s s' o \/ exists b, s p = Some b /\ exec (k b) s s' o.
  Proof.
    intros H. inversion H; subst; clear H.
    - left. split; [reflexivity|discriminate].
    - match goal with H : exec _ _ _ _ |- _ => apply exec_try_opt in H; exact H end.
    - match goal with H : exec _ _ _ _ |- _ => apply exec_try_opt in H; destruct H as [H|(a&H&_)]; [left; exact H|discriminate H] end.
  Qed.
  (** The state after a write that succeeded is passed on; otherwise the run is over. *)
  Lemma exec_write p b (e : E) k s s' o :
    exec (write_ p b e k) s s' o ->
    exec k (fs_write p b s) s' o \/
    ((s' = s \/ exists n, s' = fs_write p (firstn n b) s) /\ (o = Finished (Err e) \/ o = Killed)).
  Proof.
    unfold write_. intros H. inversion H; subst; clear H; cbv beta iota in *.
    - right. auto.
    - left. assumption.
    - match goal with H : exec _ _ _ _ |- _ => apply exec_ret in H as [-> Ho] end. right. auto.
    - match goal with H : exec _ _ _ _ |- _ => apply exec_ret in H as [-> Ho] end. right. split; eauto.
    - right. split; eauto.
  Qed.
  Lemma run_exec' (c : cmd E) s s' r : run c s = (s', r) -> exec c s s' (Finished r).
  Proof. intros H. pose proof (run_exec c s) as X. rewrite H in X. exact X. Qed.
End Steps.

Section Commands.
  Context (E : pairingT Fr) (C : codecT E) (D : domainT Fr) (kdf : GT E -> key) (aes : cipherT)
          (json_parse : text -> option json) (max_off : N).

  Lemma exec_load_r1cs p e k s s' o :
    exec (load_r1cs max_off p e k) s s' o ->
    stopped s s' o \/ exists b r, s p = Some b /\ r1cs_from_bytes max_off b = Ok r /\ exec (k r) s s' o.
  Proof.
    intros H. apply exec_read_opt in H as [H|(b&Hb&H)]; [left; exact H|].
    apply exec_try in H as [H|(r&Hr&H)]; [left; exact H|]. eauto 8.
  Qed.
  Lemma exec_read_string p e k s s' o :
    exec (read_string p e k) s s' o ->
    stopped s s' o \/ exists b t, s p = Some b /\ utf8_decode b = Some t /\ exec (k t) s s' o.
  Proof.
    intros H. apply exec_read_opt in H as [H|(b&Hb&H)]; [left; exact H|].
    apply exec_try_opt in H as [H|(r&Hr&H)]; [left; exact H|]. eauto 8.
  Qed.
  Lemma exec_load_witness p k s s' o :
    exec (load_witness p k) s s' o ->
    stopped s s' o \/ exists b vals, s p = Some b /\ cli_read_witness b = Ok vals /\ exec (k vals) s s' o.
  Proof.
    intros H. apply exec_read_opt in H as [H|(b&Hb&H)]; [left; exact H|].
    apply exec_try in H as [H|(f&Hf&H)]; [left; exact H|].
    apply exec_try in H as [H|(vals&Hv&H)]; [left; exact H|].
    right. exists b, vals. split; [exact Hb|]. split; [|exact H]. unfold cli_read_witness. rewrite Hf. exact Hv.
  Qed.

  (** What the four commands do before their first write. *)
  Definition prepared (v : visits) (cb sb ib : list byte) (t : text) (c : circom) : Prop :=
    exists r st syms inputs,
      r1cs_from_bytes max_off cb = Ok r /\ utf8_decode sb = Some st /\ parse_sym_file st = Ok syms /\
      utf8_decode ib = Some t /\ parse_inputs_text json_parse t = Ok inputs /\
      c = circom_of_cli r (fun w => nm_get w (cli_witness (get_input_signals (visit_syms v syms) (Some (r_n_pub_in r)))
                                                          (visit_inputs v inputs))).
  Lemma exec_prepare v cp sp ip k s s' o :
    exec (prepare json_parse max_off v cp sp ip k) s s' o ->
    stopped s s' o \/ exists cb sb ib t c, s cp = Some cb /\ s sp = Some sb /\ s ip = Some ib /\
      prepared v cb sb ib t c /\ exec (k t c) s s' o.
  Proof.
    intros H. unfold prepare in H.
    apply exec_load_r1cs in H as [H|(cb&r&Hcb&Hr&H)]; [left; exact H|].
    apply exec_read_string in H as [H|(sb&st&Hsb&Hst&H)]; [left; exact H|].
    apply exec_try in H as [H|(syms&Hsy&H)]; [left; exact H|]. cbv zeta in H.
    apply exec_read_string in H as [H|(ib&t&Hib&Ht&H)]; [left; exact H|].
    apply exec_try in H as [H|(inp&Hin&H)]; [left; exact H|].
    apply exec_load_r1cs in H as [H|(cb'&r'&Hcb'&Hr'&H)]; [left; exact H|].
    right. assert (cb' = cb) by congruence. subst cb'. assert (r' = r) by congruence. subst r'.
    exists cb, sb, ib, t. eexists. split; [exact Hcb|]. split; [exact Hsb|]. split; [exact Hib|]. split; [|exact H].
    exists r, st, syms, inp. repeat (split; [assumption|]). reflexivity.
  Qed.
  Lemma run_prepare v cp sp ip k s cb sb ib t c :
    s cp = Some cb -> s sp = Some sb -> s ip = Some ib -> prepared v cb sb ib t c ->
    run (prepare json_parse max_off v cp sp ip k) s = run (k t c) s.
  Proof.
    intros Hc Hs Hi (r&st&syms&inp&Hr&Hst&Hsy&Ht&Hin&->).
    unfold prepare, load_r1cs, read_string. cbn [run]. rewrite Hc. cbn [try_opt]. rewrite Hr. cbn [try_ run].
    rewrite Hs. cbn [try_opt]. rewrite Hst. cbn [try_opt]. rewrite Hsy. cbn [try_ run]. rewrite Hi. cbn [try_opt].
    rewrite Ht. cbn [try_opt]. rewrite Hin. cbn [try_ run]. rewrite Hc. cbn [try_opt]. rewrite Hr. reflexivity.
  Qed.

  (** encap *)
  Lemma exec_encap v co cp sp ip ctp kp s s' o :
    exec (encap_command C D kdf json_parse max_off v co cp sp ip ctp kp) s s' o ->
    stopped s s' o \/ exists cb sb ib t c ct k, s cp = Some cb /\ s sp = Some sb /\ s ip = Some ib /\
      prepared v cb sb ib t c /\ run_encap E D kdf co c = Ok (ct, k) /\
      (((s' = s \/ exists n, s' = fs_write ctp (firstn n (ct_bytes C ct)) s) /\
        (o = Finished (Err EWriteCiphertext) \/ o = Killed)) \/
       ((s' = fs_write ctp (ct_bytes C ct) s \/ exists n, s' = fs_write kp (firstn n k) (fs_write ctp (ct_bytes C ct) s)) /\
        (o = Finished (Err EWriteKey) \/ o = Killed)) \/
       (s' = fs_write kp k (fs_write ctp (ct_bytes C ct) s) /\ (o = Finished (Ok tt) \/ o = Killed))).
  Proof.
    intros H. unfold encap_command in H.
    apply exec_prepare in H as [H|(cb&sb&ib&t&c&Hc&Hs&Hi&Hp&H)]; [left; exact H|].
    apply exec_try in H as [H|([ct k]&He&H)]; [left; exact H|].
    right. exists cb, sb, ib, t, c, ct, k. repeat (split; [assumption|]). unfold key_bytes in H.
    apply exec_write in H as [H|H]; [|left; exact H].
    apply exec_write in H as [H|H]; [|right; left; exact H].
    right. right. apply exec_ret in H. exact H.
  Qed.
  Lemma run_encap_command v co cp sp ip ctp kp s cb sb ib t c ct k :
    s cp = Some cb -> s sp = Some sb -> s ip = Some ib -> prepared v cb sb ib t c ->
    run_encap E D kdf co c = Ok (ct, k) ->
    run (encap_command C D kdf json_parse max_off v co cp sp ip ctp kp) s =
    (fs_write kp k (fs_write ctp (ct_bytes C ct) s), Ok tt).
  Proof.
    intros Hc Hs Hi Hp He. unfold encap_command. rewrite (run_prepare v cp sp ip _ s cb sb ib t c Hc Hs Hi Hp).
    rewrite He. reflexivity.
  Qed.

  (** encrypt *)
  Lemma exec_encrypt v co cp sp ip mp op inc s s' o :
    exec (encrypt_command C D kdf aes json_parse max_off v co cp sp ip mp op inc) s s' o ->
    stopped s s' o \/ exists cb sb ib mb t c ct k enc, s cp = Some cb /\ s sp = Some sb /\ s ip = Some ib /\ s mp = Some mb /\
      prepared v cb sb ib t c /\ run_encap E D kdf co c = Ok (ct, k) /\ encrypt_gcm aes k (c_nonce co) mb = Ok enc /\
      let f := cli_combine inc (ct_bytes C ct) (utf8_encode t) enc in
      (((s' = s \/ exists n, s' = fs_write op (firstn n f) s) /\ (o = Finished (Err EWriteCombined) \/ o = Killed)) \/
       (s' = fs_write op f s /\ (o = Finished (Ok tt) \/ o = Killed))).
  Proof.
    intros H. unfold encrypt_command in H.
    apply exec_prepare in H as [H|(cb&sb&ib&t&c&Hc&Hs&Hi&Hp&H)]; [left; exact H|].
    apply exec_try in H as [H|([ct k]&He&H)]; [left; exact H|]. cbv zeta in H.
    apply exec_read_opt in H as [H|(mb&Hm&H)]; [left; exact H|].
    apply exec_try in H as [H|(enc&Hg&H)]; [left; exact H|].
    right. exists cb, sb, ib, mb, t, c, ct, k, enc. repeat (split; [assumption|]). cbv zeta.
    apply exec_write in H as [H|H]; [|left; exact H]. right. apply exec_ret in H. exact H.
  Qed.
  Lemma run_encrypt_command v co cp sp ip mp op inc s cb sb ib mb t c ct k enc :
    s cp = Some cb -> s sp = Some sb -> s ip = Some ib -> s mp = Some mb -> prepared v cb sb ib t c ->
    run_encap E D kdf co c = Ok (ct, k) -> encrypt_gcm aes k (c_nonce co) mb = Ok enc ->
    run (encrypt_command C D kdf aes json_parse max_off v co cp sp ip mp op inc) s =
    (fs_write op (cli_combine inc (ct_bytes C ct) (utf8_encode t) enc) s, Ok tt).
  Proof.
    intros Hc Hs Hi Hm Hp He Hg. unfold encrypt_command. rewrite (run_prepare v cp sp ip _ s cb sb ib t c Hc Hs Hi Hp).
    rewrite He. cbn [try_ run]. rewrite Hm. cbn [try_opt]. rewrite Hg. reflexivity.
  Qed.

  (** decap *)
  Lemma exec_decap cp wp ctp kp s s' o :
    exec (decap_command C kdf max_off cp wp ctp kp) s s' o ->
    stopped s s' o \/ exists cb wb bs k, s cp = Some cb /\ s wp = Some wb /\ s ctp = Some bs /\
      recovers C kdf max_off cb wb bs k /\
      (((s' = s \/ exists n, s' = fs_write kp (firstn n k) s) /\ (o = Finished (Err EWriteKey) \/ o = Killed)) \/
       (s' = fs_write kp k s /\ (o = Finished (Ok tt) \/ o = Killed))).
  Proof.
    intros H. unfold decap_command in H.
    apply exec_load_r1cs in H as [H|(cb&r&Hcb&Hr&H)]; [left; exact H|].
    apply exec_load_witness in H as [H|(wb&vals&Hwb&Hv&H)]; [left; exact H|].
    apply exec_read_opt in H as [H|(bs&Hbs&H)]; [left; exact H|].
    apply exec_try_opt in H as [H|([ct rest]&Hct&H)]; [left; exact H|].
    apply exec_load_r1cs in H as [H|(cb'&r'&Hcb'&Hr'&H)]; [left; exact H|].
    assert (cb' = cb) by congruence. subst cb'. assert (r' = r) by congruence. subst r'.
    apply exec_try in H as [H|(k&Hk&H)]; [left; exact H|].
    right. exists cb, wb, bs, k. repeat (split; [assumption|]). split; [exists r, vals, ct, rest; auto|].
    unfold key_bytes in H. apply exec_write in H as [H|H]; [|left; exact H]. right. apply exec_ret in H. exact H.
  Qed.
  Lemma run_decap_command cp wp ctp kp s cb wb bs k :
    s cp = Some cb -> s wp = Some wb -> s ctp = Some bs -> recovers C kdf max_off cb wb bs k ->
    run (decap_command C kdf max_off cp wp ctp kp) s = (fs_write kp k s, Ok tt).
  Proof.
    intros Hc Hw Hb (r&vals&ct&rest&Hr&Hv&Hct&Hk). unfold cli_read_witness in Hv. apply rbind_ok in Hv as (f&Hf&Hv).
    unfold decap_command, load_r1cs, load_witness. cbn [run]. rewrite Hc. cbn [try_opt]. rewrite Hr. cbn [try_ run].
    rewrite Hw. cbn [try_opt]. rewrite Hf. cbn [try_]. rewrite Hv. cbn [try_ run]. rewrite Hb. cbn [try_opt].
    rewrite Hct. cbn [try_opt run]. rewrite Hc. cbn [try_opt]. rewrite Hr. cbn [try_]. unfold witness_of. rewrite Hk. reflexivity.
  Qed.

  (** decrypt *)
  Definition opened (cb wb f m : list byte) : Prop :=
    exists p k, cli_split f = Ok p /\ recovers C kdf max_off cb wb (p_witness p) k /\ decrypt_gcm aes k (p_message p) = Ok m.
  Lemma exec_decrypt cp wp ctp op s s' o :
    exec (decrypt_command C kdf aes max_off cp wp ctp op) s s' o ->
    stopped s s' o \/ exists cb wb f m, s cp = Some cb /\ s wp = Some wb /\ s ctp = Some f /\ opened cb wb f m /\
      (((s' = s \/ exists n, s' = fs_write op (firstn n m) s) /\ (o = Finished (Err EWriteOutput) \/ o = Killed)) \/
       (s' = fs_write op m s /\ (o = Finished (Ok tt) \/ o = Killed))).
  Proof.
    intros H. unfold decrypt_command in H.
    apply exec_read_opt in H as [H|(f&Hf&H)]; [left; exact H|].
    apply exec_try in H as [H|(p&Hp&H)]; [left; exact H|].
    apply exec_load_r1cs in H as [H|(cb&r&Hcb&Hr&H)]; [left; exact H|].
    apply exec_load_witness in H as [H|(wb&vals&Hwb&Hv&H)]; [left; exact H|].
    apply exec_try_opt in H as [H|([ct rest]&Hct&H)]; [left; exact H|].
    apply exec_load_r1cs in H as [H|(cb'&r'&Hcb'&Hr'&H)]; [left; exact H|].
    assert (cb' = cb) by congruence. subst cb'. assert (r' = r) by congruence. subst r'.
    apply exec_try in H as [H|(k&Hk&H)]; [left; exact H|].
    apply exec_try in H as [H|(m&Hm&H)]; [left; exact H|].
    right. exists cb, wb, f, m. repeat (split; [assumption|]). split.
    - exists p, k. split; [exact Hp|]. split; [|exact Hm]. exists r, vals, ct, rest. auto.
    - apply exec_write in H as [H|H]; [|left; exact H]. right. apply exec_ret in H. exact H.
  Qed.
  Lemma run_decrypt_command cp wp ctp op s cb wb f m :
    s cp = Some cb -> s wp = Some wb -> s ctp = Some f -> opened cb wb f m ->
    run (decrypt_command C kdf aes max_off cp wp ctp op) s = (fs_write op m s, Ok tt).
  Proof.
    intros Hc Hw Hf (p&k&Hp&(r&vals&ct&rest&Hr&Hv&Hct&Hk)&Hm). unfold cli_read_witness in Hv. apply rbind_ok in Hv as (wf&Hwf&Hv).
    unfold decrypt_command, load_r1cs, load_witness. cbn [run]. rewrite Hf. cbn [try_opt]. rewrite Hp. cbn [try_ run].
    rewrite Hc. cbn [try_opt]. rewrite Hr. cbn [try_ run].
    rewrite Hw. cbn [try_opt]. rewrite Hwf. cbn [try_]. rewrite Hv. cbn [try_].
    rewrite Hct. cbn [try_opt run]. rewrite Hc. cbn [try_opt]. rewrite Hr. cbn [try_]. unfold witness_of. rewrite Hk. cbn [try_].
    rewrite Hm. reflexivity.
  Qed.
End Commands.
