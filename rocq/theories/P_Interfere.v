(** C72: the commands beside other processes.  Vocabulary: Interfere.v, SpecCommands.v. *)
From Coq Require Import List Bool Arith NArith ZArith Lia Permutation.
From Coq Require Import Strings.String Strings.Byte.
From Verif Require Import Res Bytes Text Utf8 Fld Zp Groups Bn254 CS Qap SpecCore Core
  R1cs SpecR1cs Wtns SpecWtns Circuit SpecCircuit
  ArkSer Sym SpecSym Inputs SpecInputs
  P_Ser Combined SpecCombined CombinedFacts P_Combined Gcm SpecGcm GcmFacts P_Gcm FileSys Commands SpecCommands CommandsFacts P_Commands Interfere.
Import ListNotations.
Local Open Scope N_scope.

(** Nothing was written and the run did not succeed. *)
Definition quiet {E} (l : list event) (o : outcome E) : Prop :=
  (forall p b w, ~ In (Wrote p b w) l) /\ o <> Finished (Ok tt).
Lemma quiet_nil {E} (o : outcome E) : o <> Finished (Ok tt) -> quiet [] o.
Proof. intros H. split; [intros p b w []|exact H]. Qed.
Lemma quiet_saw {E} p c l (o : outcome E) : quiet l o -> quiet (Saw p c :: l) o.
Proof. intros [H1 H2]. split; [|exact H2]. intros q b w [X|X]; [discriminate|exact (H1 q b w X)]. Qed.

Section Steps.
  Context {E : Type}.
  Implicit Types (l : list event) (o : outcome E).
  Lemma beside_ret r l o : beside (Ret r) l o -> l = [] /\ (o = Finished r \/ o = Killed).
  Proof. intros H. inversion H; subst; auto. Qed.
  Lemma beside_try {A E'} (x : res E' A) (f : E' -> E) k l o :
    beside (try_ x f k) l o -> quiet l o \/ exists a, x = Ok a /\ beside (k a) l o.
  Proof.
    destruct x as [a|e|]; cbn [try_]; intros H; [eauto| |]; left; apply beside_ret in H as [-> [->| ->]]; apply quiet_nil; discriminate.
  Qed.
  Lemma beside_try_opt {A} (x : option A) (e : E) k l o :
    beside (try_opt x e k) l o -> quiet l o \/ exists a, x = Some a /\ beside (k a) l o.
  Proof.
    destruct x as [a|]; cbn [try_opt]; intros H; [eauto|]. left. apply beside_ret in H as [-> [->| ->]]; apply quiet_nil; discriminate.
  Qed.
  Lemma beside_read p (e : E) (k : list byte -> cmd E) l o :
    beside (Read p (fun c => try_opt c e k)) l o ->
    quiet l o \/ exists b l', l = Saw p (Some b) :: l' /\ beside (k b) l' o.
  Proof.
    intros H. inversion H as [|c E1 E2 E3|p' k' c l' o' H' E1 E2 E3| | | | ]; subst; clear H.
    - left. apply quiet_nil. discriminate.
    - apply beside_try_opt in H' as [Hq|(b&->&H')]; [left; apply quiet_saw; exact Hq|]. right. eauto.
  Qed.
  Lemma beside_write p b (e : E) k l o :
    beside (write_ p b e k) l o ->
    (l = [] \/ exists n, l = [Wrote p (firstn n b) false]) /\ (o = Finished (Err e) \/ o = Killed) \/
    exists l', l = Wrote p b true :: l' /\ beside k l' o.
  Proof.
    unfold write_. intros H. inversion H as [|c E1 E2 E3| |p' b' k' l' o' H' E1 E2 E3|p' b' n k' l' o' H' E1 E2 E3|p' b' k' l' o' H' E1 E2 E3|p' b' n k' E1 E2 E3]; subst; clear H; cbv beta iota in *.
    - left. auto.
    - right. eauto.
    - left. apply beside_ret in H' as [-> Ho]. split; [right; eauto|exact Ho].
    - left. apply beside_ret in H' as [-> Ho]. auto.
    - left. split; [right; eauto|auto].
  Qed.
End Steps.

Section Commands.
  Context (E : pairingT Fr) (C : codecT E) (D : domainT Fr) (kdf : GT E -> key) (aes : cipherT)
          (json_parse : text -> option json) (max_off : N).
  Lemma beside_r1cs p e k l o :
    beside (load_r1cs max_off p e k) l o ->
    quiet l o \/ exists b r l', l = Saw p (Some b) :: l' /\ r1cs_from_bytes max_off b = Ok r /\ beside (k r) l' o.
  Proof.
    intros H. apply beside_read in H as [H|(b&l'&->&H)]; [auto|].
    apply beside_try in H as [H|(r&Hr&H)]; [left; apply quiet_saw; exact H|]. right. eauto 8.
  Qed.
  Lemma beside_string p e k l o :
    beside (read_string p e k) l o ->
    quiet l o \/ exists b t l', l = Saw p (Some b) :: l' /\ utf8_decode b = Some t /\ beside (k t) l' o.
  Proof.
    intros H. apply beside_read in H as [H|(b&l'&->&H)]; [auto|].
    apply beside_try_opt in H as [H|(r&Hr&H)]; [left; apply quiet_saw; exact H|]. right. eauto 8.
  Qed.
  Lemma beside_witness p k l o :
    beside (load_witness p k) l o ->
    quiet l o \/ exists b vals l', l = Saw p (Some b) :: l' /\ cli_read_witness b = Ok vals /\ beside (k vals) l' o.
  Proof.
    intros H. apply beside_read in H as [H|(b&l'&->&H)]; [auto|].
    apply beside_try in H as [H|(f&Hf&H)]; [left; apply quiet_saw; exact H|].
    apply beside_try in H as [H|(vals&Hv&H)]; [left; apply quiet_saw; exact H|].
    right. exists b, vals, l'. split; [reflexivity|]. split; [|exact H]. unfold cli_read_witness. rewrite Hf. exact Hv.
  Qed.
End Commands.

(** One complete write after what was seen, or a part of it. *)
Inductive then_wrote {E} (seen : list event) (p : path) (b : list byte) (e : E) : list event -> outcome E -> Prop :=
| tw_none o : o = Finished (Err e) \/ o = Killed -> then_wrote seen p b e seen o
| tw_part n o : o = Finished (Err e) \/ o = Killed -> then_wrote seen p b e (seen ++ [Wrote p (firstn n b) false]) o
| tw_all o : o = Finished (Ok tt) \/ o = Killed -> then_wrote seen p b e (seen ++ [Wrote p b true]) o.
Lemma write_last {E} seen p b (e : E) l o : beside (write_ p b e (Ret (Ok tt))) l o -> then_wrote seen p b e (seen ++ l) o.
Proof.
  intros H. apply beside_write in H as [[[->|(n&->)] Ho]|(l'&->&H)].
  - rewrite app_nil_r. apply tw_none. exact Ho.
  - apply tw_part. exact Ho.
  - apply beside_ret in H as [-> Ho]. apply tw_all. exact Ho.
Qed.

(** decrypt, whatever others do meanwhile: either it writes nothing and does not succeed, or it saw a
    ciphertext, a circuit, a witness and (again) a circuit such that the last three open the
    ciphertext to a message, and it writes that message to the output path, or a part of it from the
    beginning if it is stopped; success means all of it. *)
Theorem C72_decrypt_beside_others :
  forall (E : pairingT Fr) (C : codecT E) (kdf : GT E -> key) (aes : cipherT) max_off cp wp ctp op l o,
    beside (decrypt_command C kdf aes max_off cp wp ctp op) l o ->
    quiet l o \/
    exists f cb1 r1 wb cb2 m,
      r1cs_from_bytes max_off cb1 = Ok r1 /\ opens C kdf aes max_off cb2 wb f m /\
      then_wrote [Saw ctp (Some f); Saw cp (Some cb1); Saw wp (Some wb); Saw cp (Some cb2)] op m EWriteOutput l o.
Proof.
  intros E C kdf aes mx cp wp ctp op l o H. unfold decrypt_command in H.
  apply beside_read in H as [H|(f&l1&->&H)]; [auto|].
  apply beside_try in H as [H|(p&Hp&H)]; [left; apply quiet_saw; exact H|].
  apply beside_r1cs in H as [H|(cb1&r1&l2&->&Hr1&H)]; [left; apply quiet_saw; exact H|].
  apply beside_witness in H as [H|(wb&vals&l3&->&Hv&H)]; [left; do 2 apply quiet_saw; exact H|].
  apply beside_try_opt in H as [H|([ct rest]&Hct&H)]; [left; do 3 apply quiet_saw; exact H|].
  apply beside_r1cs in H as [H|(cb2&r2&l4&->&Hr2&H)]; [left; do 3 apply quiet_saw; exact H|].
  apply beside_try in H as [H|(k&Hk&H)]; [left; do 4 apply quiet_saw; exact H|].
  apply beside_try in H as [H|(m&Hm&H)]; [left; do 4 apply quiet_saw; exact H|].
  right. exists f, cb1, r1, wb, cb2, m. split; [exact Hr1|]. split.
  - apply opened_iff. exists p, k. split; [exact Hp|]. split; [|exact Hm]. exists r2, vals, ct, rest. auto.
  - apply (write_last [Saw ctp (Some f); Saw cp (Some cb1); Saw wp (Some wb); Saw cp (Some cb2)]). exact H.
Qed.
Print Assumptions C72_decrypt_beside_others.

Theorem C72_decap_beside_others :
  forall (E : pairingT Fr) (C : codecT E) (kdf : GT E -> key) max_off cp wp ctp kp l o,
    beside (decap_command C kdf max_off cp wp ctp kp) l o ->
    quiet l o \/
    exists cb1 r1 wb bs cb2 k,
      r1cs_from_bytes max_off cb1 = Ok r1 /\ recovers C kdf max_off cb2 wb bs k /\
      then_wrote [Saw cp (Some cb1); Saw wp (Some wb); Saw ctp (Some bs); Saw cp (Some cb2)] kp k EWriteKey l o.
Proof.
  intros E C kdf mx cp wp ctp kp l o H. unfold decap_command in H.
  apply beside_r1cs in H as [H|(cb1&r1&l1&->&Hr1&H)]; [auto|].
  apply beside_witness in H as [H|(wb&vals&l2&->&Hv&H)]; [left; apply quiet_saw; exact H|].
  apply beside_read in H as [H|(bs&l3&->&H)]; [left; do 2 apply quiet_saw; exact H|].
  apply beside_try_opt in H as [H|([ct rest]&Hct&H)]; [left; do 3 apply quiet_saw; exact H|].
  apply beside_r1cs in H as [H|(cb2&r2&l4&->&Hr2&H)]; [left; do 3 apply quiet_saw; exact H|].
  apply beside_try in H as [H|(k&Hk&H)]; [left; do 4 apply quiet_saw; exact H|].
  right. exists cb1, r1, wb, bs, cb2, k. split; [exact Hr1|]. split; [exists r2, vals, ct, rest; auto|].
  unfold key_bytes in H. apply (write_last [Saw cp (Some cb1); Saw wp (Some wb); Saw ctp (Some bs); Saw cp (Some cb2)]). exact H.
Qed.
Print Assumptions C72_decap_beside_others.

(** encrypt reads the circuit file twice.  What it wrote is what an undisturbed run writes in a file
    system that holds the circuit it saw the second time and the other contents it saw, as long as
    the circuit it saw the first time has the same number of public inputs. *)
Theorem C72_encrypt_beside_others :
  forall (E : pairingT Fr) (C : codecT E) (D : domainT Fr) (kdf : GT E -> key) (aes : cipherT)
         json_parse max_off v co cp sp ip mp op inc l o,
    beside (encrypt_command C D kdf aes json_parse max_off v co cp sp ip mp op inc) l o ->
    quiet l o \/
    exists cb1 r1 sb ib cb2 r2 mb out,
      r1cs_from_bytes max_off cb1 = Ok r1 /\ r1cs_from_bytes max_off cb2 = Ok r2 /\
      then_wrote [Saw cp (Some cb1); Saw sp (Some sb); Saw ip (Some ib); Saw cp (Some cb2); Saw mp (Some mb)] op out EWriteCombined l o /\
      (r_n_pub_in r1 = r_n_pub_in r2 -> forall s, s cp = Some cb2 -> s sp = Some sb -> s ip = Some ib -> s mp = Some mb ->
         run (encrypt_command C D kdf aes json_parse max_off v co cp sp ip mp op inc) s = (fs_write op out s, Ok tt)).
Proof.
  intros E C D kdf aes jp mx v co cp sp ip mp op inc l o H. unfold encrypt_command, prepare in H.
  apply beside_r1cs in H as [H|(cb1&r1&l1&->&Hr1&H)]; [auto|].
  apply beside_string in H as [H|(sb&st&l2&->&Hst&H)]; [left; apply quiet_saw; exact H|].
  apply beside_try in H as [H|(syms&Hsy&H)]; [left; do 2 apply quiet_saw; exact H|]. cbv zeta in H.
  apply beside_string in H as [H|(ib&it&l3&->&Hit&H)]; [left; do 2 apply quiet_saw; exact H|].
  apply beside_try in H as [H|(inp&Hin&H)]; [left; do 3 apply quiet_saw; exact H|].
  apply beside_r1cs in H as [H|(cb2&r2&l4&->&Hr2&H)]; [left; do 3 apply quiet_saw; exact H|].
  apply beside_try in H as [H|([ct k]&He&H)]; [left; do 4 apply quiet_saw; exact H|].
  apply beside_read in H as [H|(mb&l5&->&H)]; [left; do 4 apply quiet_saw; exact H|].
  apply beside_try in H as [H|(enc&Hg&H)]; [left; do 5 apply quiet_saw; exact H|].
  right. exists cb1, r1, sb, ib, cb2, r2, mb. eexists. split; [exact Hr1|]. split; [exact Hr2|]. split.
  - apply (write_last [Saw cp (Some cb1); Saw sp (Some sb); Saw ip (Some ib); Saw cp (Some cb2); Saw mp (Some mb)]). exact H.
  - intros Hn s H1 H2 H3 H4. rewrite Hn in He.
    eapply run_encrypt_command with (cb := cb2) (sb := sb) (ib := ib) (mb := mb); try eassumption.
    exists r2, st, syms, inp. repeat (split; [assumption|]). reflexivity.
Qed.
Print Assumptions C72_encrypt_beside_others.

(** encap writes the ciphertext and, only after the complete ciphertext, the key. *)
Theorem C72_encap_beside_others :
  forall (E : pairingT Fr) (C : codecT E) (D : domainT Fr) (kdf : GT E -> key)
         json_parse max_off v co cp sp ip ctp kp l o,
    beside (encap_command C D kdf json_parse max_off v co cp sp ip ctp kp) l o ->
    quiet l o \/
    exists cb1 r1 sb ib cb2 r2 ct k,
      r1cs_from_bytes max_off cb1 = Ok r1 /\ r1cs_from_bytes max_off cb2 = Ok r2 /\
      let seen := [Saw cp (Some cb1); Saw sp (Some sb); Saw ip (Some ib); Saw cp (Some cb2)] in
      ((l = seen \/ exists n, l = seen ++ [Wrote ctp (firstn n ct) false]) /\
       (o = Finished (Err EWriteCiphertext) \/ o = Killed) \/
       then_wrote (seen ++ [Wrote ctp ct true]) kp k EWriteKey l o) /\
      (r_n_pub_in r1 = r_n_pub_in r2 -> forall s, s cp = Some cb2 -> s sp = Some sb -> s ip = Some ib ->
         run (encap_command C D kdf json_parse max_off v co cp sp ip ctp kp) s = (fs_write kp k (fs_write ctp ct s), Ok tt)).
Proof.
  intros E C D kdf jp mx v co cp sp ip ctp kp l o H. unfold encap_command, prepare in H.
  apply beside_r1cs in H as [H|(cb1&r1&l1&->&Hr1&H)]; [auto|].
  apply beside_string in H as [H|(sb&st&l2&->&Hst&H)]; [left; apply quiet_saw; exact H|].
  apply beside_try in H as [H|(syms&Hsy&H)]; [left; do 2 apply quiet_saw; exact H|]. cbv zeta in H.
  apply beside_string in H as [H|(ib&it&l3&->&Hit&H)]; [left; do 2 apply quiet_saw; exact H|].
  apply beside_try in H as [H|(inp&Hin&H)]; [left; do 3 apply quiet_saw; exact H|].
  apply beside_r1cs in H as [H|(cb2&r2&l4&->&Hr2&H)]; [left; do 3 apply quiet_saw; exact H|].
  apply beside_try in H as [H|([ct k]&He&H)]; [left; do 4 apply quiet_saw; exact H|].
  unfold key_bytes in H. right. exists cb1, r1, sb, ib, cb2, r2, (ct_bytes C ct), k. split; [exact Hr1|]. split; [exact Hr2|]. cbv zeta. split.
  - set (seen := [Saw cp (Some cb1); Saw sp (Some sb); Saw ip (Some ib); Saw cp (Some cb2)]).
    apply beside_write in H as [[Hl Ho]|(l'&->&H)].
    + left. split; [|exact Ho]. destruct Hl as [->|(n&->)]; [left; reflexivity|right; exists n; reflexivity].
    + right. apply (write_last (seen ++ [Wrote ctp (ct_bytes C ct) true])) in H. exact H.
  - intros Hn s H1 H2 H3. rewrite Hn in He.
    apply (run_encap_command E C D kdf jp mx v co cp sp ip ctp kp s cb2 sb ib it _ ct k H1 H2 H3) with (2 := He).
    exists r2, st, syms, inp. repeat (split; [assumption|]). reflexivity.
Qed.
Print Assumptions C72_encap_beside_others.

(** When the circuit has gone or cannot be read the second time, every command that got this far ends
    with the error about creating the circuit, having written nothing. *)
Definition unreadable max_off (c : option (list byte)) : Prop :=
  c = None \/ exists b e, c = Some b /\ r1cs_from_bytes max_off b = Err e.
Section SecondRead.
  Context {E : Type}.
  Implicit Types (l : list event) (o : outcome E).
  Lemma saw_next p k q c l o : beside (Read p k) (Saw q c :: l) o -> beside (k c) l o.
  Proof. intros H. inversion H; subst; assumption. Qed.
  Lemma nothing_after r x l o : ~ beside (Ret r) (x :: l) o.
  Proof. intros H. inversion H. Qed.
  Lemma saw_opt {A} (x : option A) (e : E) k y l o : beside (try_opt x e k) (y :: l) o -> exists a, x = Some a /\ beside (k a) (y :: l) o.
  Proof. destruct x as [a|]; cbn [try_opt]; intros H; [eauto|]. contradiction (nothing_after _ _ _ _ H). Qed.
  Lemma saw_try {A E'} (x : res E' A) (f : E' -> E) k y l o : beside (try_ x f k) (y :: l) o -> exists a, x = Ok a /\ beside (k a) (y :: l) o.
  Proof. destruct x as [a|e|]; cbn [try_]; intros H; [eauto| |]; contradiction (nothing_after _ _ _ _ H). Qed.
End SecondRead.
Lemma saw_r1cs mx p e q c k y l o : beside (load_r1cs mx p e k) (Saw q c :: y :: l) o -> exists r, beside (k r) (y :: l) o.
Proof. unfold load_r1cs. intros H. apply saw_next, saw_opt in H as (b&->&H). apply saw_try in H as (r&_&H). eauto. Qed.
Lemma saw_text p e q c k y l o : beside (read_string p e k) (Saw q c :: y :: l) o -> exists r, beside (k r) (y :: l) o.
Proof. unfold read_string. intros H. apply saw_next, saw_opt in H as (b&->&H). apply saw_opt in H as (r&_&H). eauto. Qed.
Lemma saw_wtns p q c k y l o : beside (load_witness p k) (Saw q c :: y :: l) o -> exists r, beside (k r) (y :: l) o.
Proof. unfold load_witness. intros H. apply saw_next, saw_opt in H as (b&->&H). apply saw_try in H as (f&_&H). apply saw_try in H as (r&_&H). eauto. Qed.
Lemma gone mx p e q c k l o : beside (load_r1cs mx p e k) (Saw q c :: l) o -> unreadable mx c -> l = [] /\ (o = Finished (Err e) \/ o = Killed).
Proof.
  unfold load_r1cs. intros H Hu. apply saw_next in H. destruct Hu as [->|(b&e'&->&Hb)]; cbn [try_opt] in H.
  - apply beside_ret in H. exact H.
  - rewrite Hb in H. cbn [try_] in H. apply beside_ret in H. exact H.
Qed.

Theorem C72_circuit_gone :
  forall (E : pairingT Fr) (C : codecT E) (D : domainT Fr) (kdf : GT E -> key) (aes : cipherT) json_parse max_off v co
         cp sp ip mp wp ctp kp op inc a b c d (rest : list event) (o : outcome cmd_error),
    unreadable max_off d ->
    let ends := rest = [] /\ (o = Finished (Err ECreateCircuit) \/ o = Killed) in
    (beside (encrypt_command C D kdf aes json_parse max_off v co cp sp ip mp op inc)
       ([Saw cp a; Saw sp b; Saw ip c; Saw cp d] ++ rest) o -> ends) /\
    (beside (encap_command C D kdf json_parse max_off v co cp sp ip ctp kp)
       ([Saw cp a; Saw sp b; Saw ip c; Saw cp d] ++ rest) o -> ends) /\
    (beside (decrypt_command C kdf aes max_off cp wp ctp op)
       ([Saw ctp a; Saw cp b; Saw wp c; Saw cp d] ++ rest) o -> ends) /\
    (beside (decap_command C kdf max_off cp wp ctp kp)
       ([Saw cp a; Saw wp b; Saw ctp c; Saw cp d] ++ rest) o -> ends).
Proof.
  intros E C D kdf aes jp mx v co cp sp ip mp wp ctp kp op inc a b c d rest o Hu ends. cbn [app]. repeat apply conj; intros H.
  - unfold encrypt_command, prepare in H. apply saw_r1cs in H as (r&H). apply saw_text in H as (st&H).
    apply saw_try in H as (syms&_&H). cbv zeta in H. apply saw_text in H as (it&H). apply saw_try in H as (inp&_&H).
    exact (gone _ _ _ _ _ _ _ _ H Hu).
  - unfold encap_command, prepare in H. apply saw_r1cs in H as (r&H). apply saw_text in H as (st&H).
    apply saw_try in H as (syms&_&H). cbv zeta in H. apply saw_text in H as (it&H). apply saw_try in H as (inp&_&H).
    exact (gone _ _ _ _ _ _ _ _ H Hu).
  - unfold decrypt_command in H. apply saw_next, saw_opt in H as (f&->&H). apply saw_try in H as (pp&_&H).
    apply saw_r1cs in H as (r&H). apply saw_wtns in H as (w&H). apply saw_opt in H as ([ct rs]&_&H).
    exact (gone _ _ _ _ _ _ _ _ H Hu).
  - unfold decap_command in H. apply saw_r1cs in H as (r&H). apply saw_wtns in H as (w&H). apply saw_next, saw_opt in H as (f&->&H).
    apply saw_opt in H as ([ct rs]&_&H). exact (gone _ _ _ _ _ _ _ _ H Hu).
Qed.
Print Assumptions C72_circuit_gone.

(** The runs of C41_nonvacuous are such executions, with every file seen and the message written; and
    a disturbed one: another process removes the circuit between the two times it is read. *)
Example C72_instances :
  forall (aes : cipherT),
    (exists l, beside (encrypt_command ex_codec bn_domain ex_kdf32 aes ex_json (2 ^ 63 - 1) ex_visits ex_coins
               (lit "c") (lit "s") (lit "i") (lit "m") (lit "o") true) l (Finished (Ok tt))) /\
    (exists l, beside (decrypt_command ex_codec ex_kdf32 aes (2 ^ 63 - 1) (lit "c") (lit "w") (lit "o") (lit "p")) l (Finished (Ok tt)) /\
       exists m, In (Wrote (lit "p") m true) l) /\
    beside (encap_command ex_codec bn_domain ex_kdf32 ex_json (2 ^ 63 - 1) ex_visits ex_coins
               (lit "c") (lit "s") (lit "i") (lit "o") (lit "k"))
      [Saw (lit "c") (Some ex_circuit_file); Saw (lit "s") (Some ex_sym_file); Saw (lit "i") (Some ex_input_file); Saw (lit "c") None]
      (Finished (Err ECreateCircuit)).
Proof.
  intros aes.
  destruct (C41_nonvacuous aes true) as (s1&H1&_&_&_&H2). split; [|split].
  - destruct (run_beside (encrypt_command ex_codec bn_domain ex_kdf32 aes ex_json (2 ^ 63 - 1) ex_visits ex_coins
               (lit "c") (lit "s") (lit "i") (lit "m") (lit "o") true) ex_fs) as (l&Hl).
    rewrite H1 in Hl. exists l. exact Hl.
  - destruct (run_beside (decrypt_command ex_codec ex_kdf32 aes (2 ^ 63 - 1) (lit "c") (lit "w") (lit "o") (lit "p")) s1) as (l&Hl).
    rewrite H2 in Hl. cbn [snd] in Hl. exists l. split; [exact Hl|].
    apply C72_decrypt_beside_others in Hl as [[_ Hq]|(f&cb1&r1&wb&cb2&m&_&_&Ht)]; [exfalso; apply Hq; reflexivity|].
    exists m. inversion Ht as [o Ho|n o Ho|o Ho]; [destruct Ho; discriminate|destruct Ho; discriminate|].
    apply in_or_app. right. left. reflexivity.
  - assert (Hin : exists l, parse_inputs_text ex_json (lit "{}") = Ok l) by (eexists; reflexivity).
    destruct Hin as [inputs Hin].
    assert (Hsym : exists syms, parse_sym_file (lit "1,1,1,main.x" ++ [10] ++ lit "2,2,1,main.y") = Ok syms)
      by (eexists; vm_compute; reflexivity).
    destruct Hsym as (syms&Hsym).
    assert (Hs : utf8_decode ex_sym_file = Some (lit "1,1,1,main.x" ++ [10] ++ lit "2,2,1,main.y")) by (vm_compute; reflexivity).
    assert (Hi : utf8_decode ex_input_file = Some (lit "{}")) by (vm_compute; reflexivity).
    unfold encap_command, prepare, load_r1cs, read_string.
    apply bs_read. cbn [try_opt]. rewrite ex_circuit_reads. cbn [try_].
    apply bs_read. cbn [try_opt]. rewrite Hs. cbn [try_opt]. rewrite Hsym. cbn [try_].
    apply bs_read. cbn [try_opt]. rewrite Hi. cbn [try_opt]. rewrite Hin. cbn [try_].
    apply bs_read. cbn [try_opt]. apply bs_ret.
Qed.
