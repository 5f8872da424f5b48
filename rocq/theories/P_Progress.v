(** C88: the progress lines tell the truth, wherever the run stops. *)
From Coq Require Import List Bool Arith NArith ZArith Lia.
From Coq Require Import Strings.String Strings.Byte.
From Verif Require Import Res Bytes Text Utf8 Fld Groups Bn254 CS Qap Core R1cs Wtns Circuit ArkSer ArkSerFacts P_Ser Sym Inputs
  Combined SpecCombined CombinedFacts P_Combined Gcm FileSys Commands SpecCommands CommandsFacts P_Commands CliArgs Main
  Printing PrintingFacts SpecPrinting Listings SpecProgress Progress.
Import ListNotations.
Local Open Scope string_scope.
Local Open Scope list_scope.
Local Open Scope N_scope.
Local Opaque u8 dec_text.

Lemma prefixb_self a x : prefixb a (a ++ x) = true.
Proof. apply prefixb_iff. eauto. Qed.
Lemma prefixb_refl a : prefixb a a = true.
Proof. apply prefixb_iff. exists []. symmetry. apply app_nil_r. Qed.
Lemma printed_app l1 l2 a : printed (l1 ++ l2) a <-> printed l1 a \/ printed l2 a.
Proof. rewrite !printed_iff, existsb_app, orb_true_iff. reflexivity. Qed.
Lemma printed_cons m l a : printed (m :: l) a <-> prefixb a (words m) = true \/ printed l a.
Proof. rewrite !printed_iff. cbn [existsb]. rewrite orb_true_iff. reflexivity. Qed.
Lemma printed_nil a : ~ printed [] a.
Proof. intros (m&rest&Hi&_). exact Hi. Qed.
Lemma printed_calm M l1 l2 a : calm M l1 -> In a M -> (printed (l1 ++ l2) a <-> printed l2 a).
Proof.
  intros Hc Ha. rewrite printed_app. split; [|auto]. intros [H|H]; [|exact H].
  apply printed_iff in H. rewrite (calm_unprinted M l1 a Hc Ha) in H. discriminate.
Qed.
Lemma texec_says_end ms : forall s s' l o, texec (says ms (TEnd (Ok tt))) s s' l o -> s' = s /\ (o = Finished (Ok tt) -> l = ms).
Proof.
  induction ms as [|m ms IH]; intros s s' l o H; cbn [says] in H.
  - apply texec_end in H as [-> ->]. auto.
  - apply texec_say in H as [(->&->&Ho)|(l'&->&H)]; [split; [reflexivity|]; intros ->; exfalso; apply Ho; reflexivity|].
    apply IH in H as [-> H]. split; [reflexivity|]. intros Ho. f_equal. exact (H Ho).
Qed.
Lemma beginnings_early M : forallb (fun b => forallb (fun a => diverge a b) M) early = true -> Forall (beginning M) early.
Proof. rewrite forallb_forall. intros H. apply Forall_forall. exact H. Qed.

(** One output file. *)
Lemma one_file a c p b e x ms s s' l o : prefixb c a = false ->
  texec (TSay (out a) (twrite p b e (says (out (c ++ x) :: ms) (TEnd (Ok tt))))) s s' l o ->
  (printed l c -> s' = fs_write p b s) /\ (~ printed l a -> s' = s) /\ (o = Finished (Ok tt) -> printed l c) /\
  (s' = s \/ exists b', s' = fs_write p b' s).
Proof.
  intros Hca H. apply texec_say in H as [(->&->&Ho)|(l2&->&H)].
  - split; [intros Hp; destruct (printed_nil _ Hp)|]. split; [reflexivity|]. split; [intros ->; destruct (Ho eq_refl)|left; reflexivity].
  - assert (Ha : printed (out a :: l2) a) by (apply printed_cons; left; apply prefixb_refl).
    apply texec_twrite in H as [(->&Hs&Ho)|H].
    + split.
      { intros Hp. apply printed_cons in Hp as [Hp|Hp]; [cbn [words out] in Hp; congruence|destruct (printed_nil _ Hp)]. }
      split; [intros Hn; destruct (Hn Ha)|]. split; [intros ->; destruct (Ho eq_refl)|].
      destruct Hs as [->|[n ->]]; [left; reflexivity|right; eauto].
    + apply texec_says_end in H as [-> Hl]. split; [reflexivity|]. split; [intros Hn; destruct (Hn Ha)|]. split; [|right; eauto].
      intros Ho. rewrite (Hl Ho). apply printed_cons. right. apply printed_cons. left. apply prefixb_self.
Qed.
(** Two output files. *)
Lemma two_files a1 c1 p1 b1 e1 x1 a2 c2 p2 b2 e2 x2 s s' l o :
  prefixb c1 a1 = false -> prefixb a2 a1 = false -> prefixb c2 a1 = false ->
  (forall x, prefixb a2 (c1 ++ x) = false) -> (forall x, prefixb c2 (c1 ++ x) = false) -> prefixb c2 a2 = false ->
  p1 <> p2 ->
  texec (TSay (out a1) (twrite p1 b1 e1 (says [out (c1 ++ x1); out a2]
        (twrite p2 b2 e2 (TSay (out (c2 ++ x2)) (TEnd (Ok tt))))))) s s' l o ->
  ((printed l c1 -> s' p1 = Some b1) /\ (~ printed l a1 -> s' p1 = s p1) /\ (o = Finished (Ok tt) -> printed l c1)) /\
  ((printed l c2 -> s' p2 = Some b2) /\ (~ printed l a2 -> s' p2 = s p2) /\ (o = Finished (Ok tt) -> printed l c2)) /\
  (forall p, p <> p1 -> p <> p2 -> s' p = s p).
Proof.
  intros H1 H2 H3 H4 H5 H6 Hne H.
  assert (Hw : forall p b t q, q <> p -> fs_write p b t q = t q) by (intros; apply fs_write_other; assumption).
  apply texec_say in H as [(->&->&Ho)|(l2&->&H)].
  { repeat split; try reflexivity; try (intros Hp; destruct (printed_nil _ Hp)); intros ->; destruct (Ho eq_refl). }
  assert (Ha : forall l2, printed (out a1 :: l2) a1) by (intros; apply printed_cons; left; apply prefixb_refl).
  assert (Hd : forall l2 t, prefixb t a1 = false -> printed (out a1 :: l2) t -> printed l2 t).
  { intros l' t Ht Hp. apply printed_cons in Hp as [Hp|Hp]; [cbn [words out] in Hp; congruence|exact Hp]. }
  apply texec_twrite in H as [(->&Hs&Ho)|H].
  { assert (Hs2 : forall p, p <> p1 -> s' p = s p) by (intros p Hp; destruct Hs as [->|[n ->]]; [reflexivity|apply Hw; exact Hp]).
    split; [|split].
    - split; [intros Hp; apply Hd in Hp; [destruct (printed_nil _ Hp)|exact H1]|]. split; [intros Hn; destruct (Hn (Ha _))|intros ->; destruct (Ho eq_refl)].
    - split; [intros Hp; apply Hd in Hp; [destruct (printed_nil _ Hp)|exact H3]|].
      split; [intros _; apply Hs2; congruence|intros ->; destruct (Ho eq_refl)].
    - intros p Hp _. apply Hs2. exact Hp. }
  cbn [says] in H. apply texec_say in H as [(->&->&Ho)|(l3&->&H)].
  { split; [|split].
    - split; [intros _; apply fs_write_same|]. split; [intros Hn; destruct (Hn (Ha _))|intros ->; destruct (Ho eq_refl)].
    - split; [intros Hp; apply Hd in Hp; [destruct (printed_nil _ Hp)|exact H3]|].
      split; [intros _; apply Hw; congruence|intros ->; destruct (Ho eq_refl)].
    - intros p Hp _. apply Hw. exact Hp. }
  assert (Hc1 : forall l3, printed (out a1 :: out (c1 ++ x1) :: l3) c1).
  { intros. apply printed_cons. right. apply printed_cons. left. apply prefixb_self. }
  assert (Hd2 : forall l3 t, prefixb t a1 = false -> (forall x, prefixb t (c1 ++ x) = false) ->
     printed (out a1 :: out (c1 ++ x1) :: l3) t -> printed l3 t).
  { intros l' t Ht Ht2 Hp. apply Hd in Hp; [|exact Ht]. apply printed_cons in Hp as [Hp|Hp]; [|exact Hp].
    cbn [words out] in Hp. rewrite Ht2 in Hp. discriminate. }
  apply texec_say in H as [(->&->&Ho)|(l4&->&H)].
  { split; [|split].
    - split; [intros _; apply fs_write_same|]. split; [intros Hn; destruct (Hn (Ha _))|intros ->; destruct (Ho eq_refl)].
    - split; [intros Hp; apply Hd2 in Hp; [destruct (printed_nil _ Hp)|exact H3|exact H5]|].
      split; [intros _; apply Hw; congruence|intros ->; destruct (Ho eq_refl)].
    - intros p Hp _. apply Hw. exact Hp. }
  assert (Ha2 : forall l4, printed (out a1 :: out (c1 ++ x1) :: out a2 :: l4) a2).
  { intros. apply printed_cons. right. apply printed_cons. right. apply printed_cons. left. apply prefixb_refl. }
  apply texec_twrite in H as [(->&Hs&Ho)|H].
  { assert (Hs2 : forall p, p <> p2 -> s' p = fs_write p1 b1 s p).
    { intros p Hp. destruct Hs as [->|[n ->]]; [reflexivity|apply Hw; exact Hp]. }
    split; [|split].
    - split; [intros _; rewrite Hs2 by congruence; apply fs_write_same|]. split; [intros Hn; destruct (Hn (Ha _))|intros ->; destruct (Ho eq_refl)].
    - split; [|split; [intros Hn; destruct (Hn (Ha2 _))|intros ->; destruct (Ho eq_refl)]].
      intros Hp. apply Hd2 in Hp; [|exact H3|exact H5]. apply printed_cons in Hp as [Hp|Hp]; [cbn [words out] in Hp; congruence|destruct (printed_nil _ Hp)].
    - intros p Hp Hp2. rewrite Hs2 by exact Hp2. apply Hw. exact Hp. }
  assert (Hs : s' = fs_write p2 b2 (fs_write p1 b1 s) /\ (o = Finished (Ok tt) -> l4 = [out (c2 ++ x2)])).
  { apply (texec_says_end [out (c2 ++ x2)]). exact H. }
  destruct Hs as [-> Hl].
  split; [|split].
  - split; [intros _; rewrite Hw by congruence; apply fs_write_same|]. split; [intros Hn; destruct (Hn (Ha _))|intros _; apply Hc1].
  - split; [intros _; apply fs_write_same|]. split; [intros Hn; destruct (Hn (Ha2 _))|]. intros Ho. rewrite (Hl Ho).
    do 3 (apply printed_cons; right). apply printed_cons. left. apply prefixb_self.
  - intros p Hp Hp2. rewrite Hw by exact Hp2. apply Hw. exact Hp.
Qed.

(** When a confirmation line was printed, its file holds what the undisturbed run puts there, and the
    undisturbed run succeeds; while its announcement was not printed, its file is untouched; when the
    command ends successfully, every confirmation was printed; other files are never touched. *)
Theorem C88_progress_lines_are_true :
  forall (E : pairingT Fr) (C : codecT E) (D : domainT Fr) (kdf : GT E -> key) (aes : cipherT)
         json_parse max_off v co q s s' l o,
    apart q ->
    texec (dispatch_talk C D kdf aes json_parse max_off v co q) s s' l o ->
    let undisturbed := run (dispatch C D kdf aes json_parse max_off v co q) s in
    (forall p announcement confirmation, In (p, announcement, confirmation) (outputs q) ->
       (printed l confirmation -> snd undisturbed = Ok tt /\ s' p = fst undisturbed p) /\
       (~ printed l announcement -> s' p = s p) /\
       (o = Finished (Ok tt) -> printed l confirmation)) /\
    (forall p, (forall a c, ~ In (p, a, c) (outputs q)) -> s' p = s p).
Proof.
  intros E C D kdf aes json_parse max_off v co q s s' l o Hap H und. subst und.
  assert (Halt : forall M, (forall p a c, In (p, a, c) (outputs q) -> In a M /\ In c M) -> halted M s s' l o ->
    (forall p a c, In (p, a, c) (outputs q) ->
       (printed l c -> snd (run (dispatch C D kdf aes json_parse max_off v co q) s) = Ok tt /\
          s' p = fst (run (dispatch C D kdf aes json_parse max_off v co q) s) p) /\
       (~ printed l a -> s' p = s p) /\ (o = Finished (Ok tt) -> printed l c)) /\
    (forall p, (forall a c, ~ In (p, a, c) (outputs q)) -> s' p = s p)).
  { intros M HM (->&Hc&Ho). split; [|reflexivity]. intros p a c Hi. apply HM in Hi as [Ha Hic].
    split; [|split; [reflexivity|intros ->; destruct (Ho eq_refl)]].
    intros Hp. apply printed_iff in Hp. rewrite (calm_unprinted M l c Hc Hic) in Hp. discriminate. }
  destruct q as [cp sp ip ctp kp|cp wp ctp kp|cp sp ip mp op inc|cp wp ctp op]; cbn [dispatch_talk dispatch] in H, Halt |- *; cbn [outputs apart] in *.
  - set (M := [10 :: u8 "💾 Saving ciphertext..."; u8 "   ✅ Ciphertext saved ("; 10 :: u8 "🔑 Saving key..."; u8 "   ✅ Key saved ("]).
    assert (HM : Forall (beginning M) early) by (apply beginnings_early; vm_compute; reflexivity).
    apply (after_encap E C D kdf json_parse max_off M HM) in H as [H|(cb&sb&ib&t&c&ct&k&l1&l2&Hc&Hs&Hi&Hp&He&->&Hl1&H)].
    + apply (Halt M); [|exact H]. subst M. intros p a c Hin. cbn [In] in Hin |- *.
      destruct Hin as [Hin|[Hin|[]]]; injection Hin as <- <- <-; auto 10.
    + rewrite (run_encap_command E C D kdf json_parse max_off v co cp sp ip ctp kp s cb sb ib t c ct k Hc Hs Hi Hp He). cbn [fst snd].
      apply two_files in H as ((A1&A2&A3)&(B1&B2&B3)&Hoth);
        [|vm_compute; reflexivity|vm_compute; reflexivity|vm_compute; reflexivity
         |intros; apply diverge_prefix; vm_compute; reflexivity|intros; apply diverge_prefix; vm_compute; reflexivity|vm_compute; reflexivity|exact Hap].
      split.
      * intros p a c' [Hin|[Hin|[]]]; injection Hin as <- <- <-.
        -- rewrite !(printed_calm M l1 l2) by (try exact Hl1; subst M; cbn [In]; auto 10).
           split; [intros Hpr; split; [reflexivity|]|split; assumption]. rewrite (A1 Hpr). rewrite fs_write_other by exact Hap. rewrite fs_write_same. reflexivity.
        -- rewrite !(printed_calm M l1 l2) by (try exact Hl1; subst M; cbn [In]; auto 10).
           split; [intros Hpr; split; [reflexivity|]|split; assumption]. rewrite (B1 Hpr), fs_write_same. reflexivity.
      * intros p Hno. apply Hoth; intros ->; eapply Hno; [left|right; left]; reflexivity.
    + rewrite Forall_forall in HM. apply Forall_cons; [|apply Forall_nil]. apply quiet_whole. apply HM.
      unfold early. repeat (lazymatch goal with |- In ?b (?b :: _) => apply in_eq | |- In _ (_ :: _) => apply in_cons end).
  - set (M := [10 :: u8 "🔑 Saving recovered key..."; u8 "   ✅ Key saved ("]).
    assert (HM : Forall (beginning M) early) by (apply beginnings_early; vm_compute; reflexivity).
    apply (after_decap E C kdf max_off M HM) in H as [H|(cb&wb&bs&k&l1&l2&Hc&Hw&Hb&Hr&->&Hl1&H)].
    + apply (Halt M); [|exact H]. subst M. intros p a c Hin. cbn [In] in Hin |- *.
      destruct Hin as [Hin|[]]; injection Hin as <- <- <-; auto 10.
    + rewrite (run_decap_command E C kdf max_off cp wp ctp kp s cb wb bs k Hc Hw Hb Hr). cbn [fst snd].
      apply (one_file _ _ _ _ _ _ []) in H as (A1&A2&A3&A4); [|vm_compute; reflexivity].
      split.
      * intros p a c' [Hin|[]]; injection Hin as <- <- <-.
        rewrite !(printed_calm M l1 l2) by (try exact Hl1; subst M; cbn [In]; auto 10).
        split; [intros Hpr; split; [reflexivity|]; rewrite (A1 Hpr); reflexivity|]. split; [|exact A3]. intros Hn. rewrite (A2 Hn). reflexivity.
      * intros p Hno. destruct A4 as [->|[b' ->]]; [reflexivity|]. apply fs_write_other. intros ->. eapply Hno. left. reflexivity.
  - set (M := [10 :: u8 "� Step 3: Creating combined ciphertext..."; u8 "   ✅ Combined ciphertext saved ("]).
    assert (HM : Forall (beginning M) early) by (apply beginnings_early; vm_compute; reflexivity).
    apply (after_encrypt E C D kdf aes json_parse max_off M HM) in H as [H|(cb&sb&ib&mb&t&c&ct&k&enc&l1&l2&Hc&Hs&Hi&Hm&Hp&He&Hg&->&Hl1&H)].
    + apply (Halt M); [|exact H]. subst M. intros p a c Hin. cbn [In] in Hin |- *.
      destruct Hin as [Hin|[]]; injection Hin as <- <- <-; auto 10.
    + rewrite (run_encrypt_command E C D kdf aes json_parse max_off v co cp sp ip mp op inc s cb sb ib mb t c ct k enc Hc Hs Hi Hm Hp He Hg). cbn [fst snd].
      cbv zeta in H. apply one_file in H as (A1&A2&A3&A4); [|vm_compute; reflexivity].
      split.
      * intros p a c' [Hin|[]]; injection Hin as <- <- <-.
        rewrite !(printed_calm M l1 l2) by (try exact Hl1; subst M; cbn [In]; auto 10).
        split; [intros Hpr; split; [reflexivity|]; rewrite (A1 Hpr); reflexivity|]. split; [|exact A3]. intros Hn. rewrite (A2 Hn). reflexivity.
      * intros p Hno. destruct A4 as [->|[b' ->]]; [reflexivity|]. apply fs_write_other. intros ->. eapply Hno. left. reflexivity.
  - set (M := [10 :: u8 "🔓 Step 3: Decrypting message..."; u8 "   ✅ Decrypted message saved ("]).
    assert (HM : Forall (beginning M) early) by (apply beginnings_early; vm_compute; reflexivity).
    apply (after_decrypt E C kdf aes max_off M HM) in H as [H|(l1&l2&->&Hl1&x&H&Hx)].
    + apply (Halt M); [|exact H]. subst M. intros p a c Hin. cbn [In] in Hin |- *.
      destruct Hin as [Hin|[]]; injection Hin as <- <- <-; auto 10.
    + assert (Hfail : (exists e, texec (TSay (out (10 :: u8 "🔓 Step 3: Decrypting message...")) (TEnd (match e with Some f => Err f | None => Panic end))) s s' l2 o) ->
        s' = s /\ o <> Finished (Ok tt) /\ ~ printed l2 (u8 "   ✅ Decrypted message saved (")).
      { clear. intros [e H]. assert (Hend : forall t t' m z, texec (TEnd (match e with Some f => Err f | None => Panic end)) t t' m z -> m = [] /\ t' = t /\ z <> Finished (Ok tt)).
        { clear. intros t t' m z H. destruct e; inversion H; subst; repeat split; discriminate. }
        apply texec_say in H as [(->&->&Ho)|(l'&->&H)].
        - split; [reflexivity|]. split; [exact Ho|]. apply printed_nil.
        - apply Hend in H as (->&->&Ho). split; [reflexivity|]. split; [exact Ho|]. intros Hp. apply printed_cons in Hp as [Hp|Hp]; [|destruct (printed_nil _ Hp)].
          vm_compute in Hp. discriminate. }
      assert (Hbad : s' = s /\ o <> Finished (Ok tt) /\ ~ printed l2 (u8 "   ✅ Decrypted message saved (") ->
        (forall p a c, In (p, a, c) [(op, 10 :: u8 "🔓 Step 3: Decrypting message...", u8 "   ✅ Decrypted message saved (")] ->
         (printed (l1 ++ l2) c -> snd (run (decrypt_command C kdf aes max_off cp wp ctp op) s) = Ok tt /\
            s' p = fst (run (decrypt_command C kdf aes max_off cp wp ctp op) s) p) /\
         (~ printed (l1 ++ l2) a -> s' p = s p) /\ (o = Finished (Ok tt) -> printed (l1 ++ l2) c)) /\
        (forall p, (forall a c, ~ In (p, a, c) [(op, 10 :: u8 "🔓 Step 3: Decrypting message...", u8 "   ✅ Decrypted message saved (")]) -> s' p = s p)).
      { intros (->&Ho&Hn). split; [|reflexivity]. intros p a c' [Hin|[]]; injection Hin as <- <- <-.
        rewrite !(printed_calm M l1 l2) by (try exact Hl1; subst M; cbn [In]; auto 10).
        split; [intros Hp; destruct (Hn Hp)|]. split; [reflexivity|]. intros ->. destruct (Ho eq_refl). }
      destruct x as [m|e|]; cbn [ttry] in H.
      * destruct (Hx m eq_refl) as (cb&wb&f&Hc&Hw&Hf&Ho).
        rewrite (run_decrypt_command E C kdf aes max_off cp wp ctp op s cb wb f m Hc Hw Hf Ho). cbn [fst snd].
        apply one_file in H as (A1&A2&A3&A4); [|vm_compute; reflexivity].
        split.
        -- intros p a c' [Hin|[]]; injection Hin as <- <- <-.
           rewrite !(printed_calm M l1 l2) by (try exact Hl1; subst M; cbn [In]; auto 10).
           split; [intros Hpr; split; [reflexivity|]; rewrite (A1 Hpr); reflexivity|]. split; [|exact A3]. intros Hn. rewrite (A2 Hn). reflexivity.
        -- intros p Hno. destruct A4 as [->|[b' ->]]; [reflexivity|]. apply fs_write_other. intros ->. eapply Hno. left. reflexivity.
      * apply Hbad, Hfail. eexists (Some _). exact H.
      * apply Hbad, Hfail. exists None. exact H.
Qed.
Print Assumptions C88_progress_lines_are_true.

(** Lines, not the screen: what looks like a line on the screen may be part of another line. For every
    valid text there is a ciphertext file with which decrypt shows that text, as it is, before it has even
    looked for the circuit file; it then fails, and touches no file. *)
Theorem C88_the_screen_can_lie :
  forall t, Forall scalar t -> blen (utf8_encode t) < 2 ^ 32 ->
    exists f, forall (E : pairingT Fr) (C : codecT E) (kdf : GT E -> key) (aes : cipherT) max_off cp wp ctp op s,
      s ctp = Some f -> s cp = None ->
      exists l before rest,
        hear (decrypt_talk C kdf aes max_off cp wp ctp op) s = (s, l, Err (ELoadR1cs, u8 "Failed to load R1CS circuit")) /\
        shown l = before ++ t ++ rest.
Proof.
  intros t Ht Hlt. exists (x01 :: block [] ++ block (utf8_encode t) ++ []). set (f := x01 :: _).
  assert (Hsp : cli_split f = Ok (Parts [] (Some (utf8_encode t)) [])).
  { apply cli_split_full; [vm_compute; reflexivity|exact Hlt]. }
  clearbody f. intros E C kdf aes max_off cp wp ctp op s Hf Hno.
  assert (Hl : exists l1 l2, split_lines f = l1 ++ out (u8 "   - Public input: " ++ t) :: l2).
  { unfold split_lines. rewrite Hsp. cbn [p_public]. rewrite lossy_encode by exact Ht. eexists [_; _], _. reflexivity. }
  destruct Hl as (l1&l2&Hl).
  unfold decrypt_talk. rewrite hear_say, hear_read, Hf. cbn [ttry_opt]. rewrite hear_says, Hsp. cbn [ttry]. rewrite hear_says.
  unfold t_load_r1cs. rewrite hear_read, Hno. cbn [ttry_opt hear]. rewrite Hl.
  eexists. exists (words (out (u8 "� Step 1: Parsing combined ciphertext...")) ++ [10] ++ shown l1 ++ u8 "   - Public input: "). eexists.
  split; [reflexivity|]. unfold shown. cbn [flat_map]. rewrite !flat_map_app. cbn [flat_map words out]. rewrite <- !app_assoc. reflexivity.
Qed.
Print Assumptions C88_the_screen_can_lie.

Lemma hears t c s s1 : same t c -> run c s = (s1, Ok tt) -> exists l, texec t s s1 l (Finished (Ok tt)).
Proof.
  intros Hs Hr. rewrite (same_hear _ _ Hs) in Hr. destruct (hear t s) as [[s2 l] r] eqn:Eh. cbn [fst snd] in Hr.
  apply pair_equal_spec in Hr as [-> Hr]. assert (r = Ok tt) by (destruct r as [[]|e|]; [reflexivity|discriminate..]). subst r.
  exists l. apply hear_texec. exact Eh.
Qed.

(** An execution that ends successfully, and one killed at once. *)
Example C88_nonvacuous : forall (aes : cipherT),
  let q := DoEncrypt (lit "c") (lit "s") (lit "i") (lit "m") (lit "o") true in
  let t := dispatch_talk ex_codec bn_domain ex_kdf32 aes ex_json (2 ^ 63 - 1) ex_visits ex_coins q in
  apart q /\ apart (DoEncap (lit "c") (lit "s") (lit "i") (lit "o") (lit "k")) /\
  (exists s' l, texec t ex_fs s' l (Finished (Ok tt)) /\ printed l (u8 "   ✅ Combined ciphertext saved (") /\
     s' (lit "o") = fst (run (dispatch ex_codec bn_domain ex_kdf32 aes ex_json (2 ^ 63 - 1) ex_visits ex_coins q) ex_fs) (lit "o")) /\
  (exists l, texec t ex_fs ex_fs l Killed /\ ~ printed l (10 :: u8 "� Step 3: Creating combined ciphertext...")).
Proof.
  intros aes q t. split; [exact I|]. split; [intros H; vm_compute in H; discriminate|].
  split.
  - destruct (C41_nonvacuous aes true) as (s1&Hrun&_).
    assert (Ht : exists l, texec t ex_fs s1 l (Finished (Ok tt))).
    { apply hears with (1 := same_encrypt fr_pairing ex_codec bn_domain ex_kdf32 aes ex_json (2 ^ 63 - 1) ex_visits ex_coins
        (lit "c") (lit "s") (lit "i") (lit "m") (lit "o") true) (2 := Hrun). }
    clear Hrun. destruct Ht as [l Ht]. exists s1, l. split; [exact Ht|].
    destruct (C88_progress_lines_are_true fr_pairing ex_codec bn_domain ex_kdf32 aes ex_json (2 ^ 63 - 1) ex_visits ex_coins q _ _ _ _ I Ht) as [H _].
    destruct (H _ _ _ (or_introl eq_refl)) as (H1&_&H2). specialize (H2 eq_refl). split; [exact H2|]. apply H1 in H2. exact (proj2 H2).
  - exists []. split; [constructor|apply printed_nil].
Qed.
