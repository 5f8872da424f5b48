(** C87, continued: what decrypt shows of an embedded public input that may be no UTF-8. *)
From Coq Require Import List Bool Arith NArith Lia.
From Coq Require Import Strings.String Strings.Byte.
From Verif Require Import Res Bytes Text Utf8 Printing Listings SpecLossy.
Import ListNotations.
Local Open Scope list_scope.
Local Open Scope N_scope.

Lemma char_shape c : scalar c ->
  (exists b0, utf8_char c = [b0] /\ Utf8.in_range 0 127 b0 = true) \/
  (exists b0 b1, utf8_char c = [b0; b1] /\ Utf8.in_range 0 127 b0 = false /\ Utf8.in_range 194 223 b0 = true /\ Utf8.cont b1 = true) \/
  (exists b0 b1 b2, utf8_char c = [b0; b1; b2] /\ Utf8.in_range 0 127 b0 = false /\ Utf8.in_range 194 223 b0 = false /\
     Utf8.in_range 224 239 b0 = true /\
     Utf8.in_range (if Byte.to_N b0 =? 224 then 160 else 128) (if Byte.to_N b0 =? 237 then 159 else 191) b1 = true /\ Utf8.cont b2 = true) \/
  (exists b0 b1 b2 b3, utf8_char c = [b0; b1; b2; b3] /\ Utf8.in_range 0 127 b0 = false /\ Utf8.in_range 194 223 b0 = false /\
     Utf8.in_range 224 239 b0 = false /\ Utf8.in_range 240 244 b0 = true /\
     Utf8.in_range (if Byte.to_N b0 =? 240 then 144 else 128) (if Byte.to_N b0 =? 244 then 143 else 191) b1 = true /\
     Utf8.cont b2 = true /\ Utf8.cont b3 = true).
Proof.
  intros Hs. pose proof (utf8_decode_char 0 c [] Hs) as G. cbn [utf8_decode_fuel option_map app] in G. rewrite app_nil_r in G.
  pose proof (utf8_char_length c) as Hl. destruct (Utf8.utf8_char c) as [|b0 q] eqn:Ec; [cbn in Hl; lia|]. clear Hl Ec.
  cbn [utf8_decode_fuel] in G.
  destruct (Utf8.in_range 0 127 b0) eqn:R1. { destruct q; [|discriminate]. left. eauto. }
  destruct (Utf8.in_range 194 223 b0) eqn:R2.
  { destruct q as [|b1 q]; [discriminate|]. destruct (Utf8.cont b1) eqn:C1; [|discriminate]. destruct q; [|discriminate].
    right. left. exists b0, b1. auto. }
  destruct (Utf8.in_range 224 239 b0) eqn:R3.
  { destruct q as [|b1 [|b2 q]]; [discriminate..|].
    destruct (Utf8.in_range (if Byte.to_N b0 =? 224 then 160 else 128) (if Byte.to_N b0 =? 237 then 159 else 191) b1) eqn:C1; [|discriminate].
    cbn [andb] in G. destruct (Utf8.cont b2) eqn:C2; [|discriminate]. destruct q; [|discriminate].
    right. right. left. exists b0, b1, b2. auto 10. }
  destruct (Utf8.in_range 240 244 b0) eqn:R4; [|discriminate].
  destruct q as [|b1 [|b2 [|b3 q]]]; [discriminate..|].
  destruct (Utf8.in_range (if Byte.to_N b0 =? 240 then 144 else 128) (if Byte.to_N b0 =? 244 then 143 else 191) b1) eqn:C1; [|discriminate].
  cbn [andb] in G. destruct (Utf8.cont b2) eqn:C2; [|discriminate]. cbn [andb] in G. destruct (Utf8.cont b3) eqn:C3; [|discriminate]. destruct q; [|discriminate].
  right. right. right. exists b0, b1, b2, b3. auto 12.
Qed.
Lemma is_char l c : utf8_decode_fuel 1 l = Some [c] -> scalar c /\ utf8_char c = l.
Proof.
  intros H. apply utf8_decode_fuel_sound in H as [-> Hf]. inversion Hf; subst. split; [assumption|].
  cbn [utf8_encode flat_map]. symmetry. apply app_nil_r.
Qed.
Lemma begins_of p q c : utf8_decode_fuel 1 (p ++ q) = Some [c] -> begins_char p.
Proof. intros H. apply is_char in H as [Hs He]. exists c, q. auto. Qed.
Lemma lossy_nil fuel : lossy_fuel fuel [] = [].
Proof. destruct fuel; reflexivity. Qed.

Ltac shapes H := destruct (char_shape _ H) as [(?b&?E&?)|[(?b&?b&?E&?&?&?)|[(?b&?b&?b&?E&?&?&?&?&?)|(?b&?b&?b&?b&?E&?&?&?&?&?&?&?)]]].
Ltac clash := subst; cbn [andb] in *; congruence.
Ltac no_char := let c := fresh "c" in let q := fresh "q" in let Hs := fresh "Hs" in let He := fresh "He" in
  intros c q Hs He; shapes Hs; match goal with X : utf8_char c = _ |- _ => rewrite X in He end; cbn [app] in He;
  first [discriminate He | injection He as ?; clash].
Ltac longest := let p' := fresh "p'" in let q := fresh "q" in let He := fresh "He" in let c := fresh "c" in let q' := fresh "q'" in
  let Hs := fresh "Hs" in let Hc := fresh "Hc" in
  intros p' q He (c&q'&Hs&Hc); cbn [app List.length] in *;
  destruct p' as [|?x [|?x [|?x [|?x p']]]]; cbn [List.length]; try lia; exfalso;
  shapes Hs; match goal with X : utf8_char c = _ |- _ => rewrite X in Hc end; cbn [app] in Hc, He;
  first [discriminate Hc | discriminate He | injection Hc as ?; injection He as ?; clash].
Lemma lossy_step b0 r :
  (exists c r', scalar c /\ b0 :: r = utf8_char c ++ r' /\ forall fuel, lossy_fuel (S fuel) (b0 :: r) = c :: lossy_fuel fuel r') \/
  (exists p r', b0 :: r = p ++ r' /\ broken p r' /\ forall fuel, lossy_fuel (S fuel) (b0 :: r) = 65533 :: lossy_fuel fuel r').
Proof.
  assert (Good : forall l c r', utf8_decode_fuel 1 l = Some [c] -> b0 :: r = l ++ r' ->
     exists c r', scalar c /\ b0 :: r = utf8_char c ++ r' /\ forall fuel, lossy_fuel (S fuel) (b0 :: r) = c :: lossy_fuel fuel r').
  { intros l c r' H He. apply is_char in H as [Hs Hc]. exists c, r'. split; [exact Hs|]. rewrite He, <- Hc. split; [reflexivity|].
    intros fuel. apply lossy_char. exact Hs. }
  assert (One : (forall c q, scalar c -> [b0] ++ r <> utf8_char c ++ q) ->
     (forall p' q, [b0] ++ r = p' ++ q -> begins_char p' -> (List.length p' <= 1)%nat) -> broken [b0] r).
  { intros H1 H2. split; [discriminate|]. split; [exact H1|]. split; [left; reflexivity|exact H2]. }
  destruct (Utf8.in_range 0 127 b0) eqn:R1.
  { left. apply (Good [b0] (Byte.to_N b0) r); [|reflexivity]. cbn [utf8_decode_fuel]. rewrite R1. reflexivity. }
  destruct (Utf8.in_range 194 223 b0) eqn:R2.
  { destruct r as [|b1 r]; [right; exists [b0], []|destruct (Utf8.cont b1) eqn:C1; [left|right; exists [b0], (b1 :: r)]].
    - split; [reflexivity|]. split; [apply One; [no_char|longest]|]. intros fuel. cbn [lossy_fuel]. rewrite R1, R2, lossy_nil. reflexivity.
    - eapply (Good [b0; b1] _ r); [|reflexivity]. cbn [utf8_decode_fuel]. rewrite R1, R2, C1. reflexivity.
    - split; [reflexivity|]. split; [apply One; [no_char|longest]|]. intros fuel. cbn [lossy_fuel]. rewrite R1, R2, C1. reflexivity. }
  destruct (Utf8.in_range 224 239 b0) eqn:R3.
  { destruct r as [|b1 r].
    { right. exists [b0], []. split; [reflexivity|]. split; [apply One; [no_char|longest]|]. intros fuel. cbn [lossy_fuel]. rewrite R1, R2, R3, lossy_nil. reflexivity. }
    destruct (Utf8.in_range (if Byte.to_N b0 =? 224 then 160 else 128) (if Byte.to_N b0 =? 237 then 159 else 191) b1) eqn:C1.
    2:{ right. exists [b0], (b1 :: r). split; [reflexivity|]. split; [apply One; [no_char|longest]|]. intros fuel. cbn [lossy_fuel]. rewrite R1, R2, R3, C1. reflexivity. }
    assert (Hb : begins_char [b0; b1]).
    { eapply (begins_of _ [x80]). cbn [app utf8_decode_fuel]. rewrite R1, R2, R3, C1. reflexivity. }
    destruct r as [|b2 r]; [right; exists [b0; b1], []|destruct (Utf8.cont b2) eqn:C2; [left|right; exists [b0; b1], (b2 :: r)]].
    - split; [reflexivity|]. split; [split; [discriminate|]; split; [no_char|]; split; [right; exact Hb|longest]|].
      intros fuel. cbn [lossy_fuel]. rewrite R1, R2, R3, C1, lossy_nil. reflexivity.
    - eapply (Good [b0; b1; b2] _ r); [|reflexivity]. cbn [utf8_decode_fuel]. rewrite R1, R2, R3, C1, C2. reflexivity.
    - split; [reflexivity|]. split; [split; [discriminate|]; split; [no_char|]; split; [right; exact Hb|longest]|].
      intros fuel. cbn [lossy_fuel]. rewrite R1, R2, R3, C1, C2. reflexivity. }
  destruct (Utf8.in_range 240 244 b0) eqn:R4.
  2:{ right. exists [b0], r. split; [reflexivity|]. split; [apply One; [no_char|longest]|]. intros fuel. cbn [lossy_fuel]. rewrite R1, R2, R3, R4. reflexivity. }
  destruct r as [|b1 r].
  { right. exists [b0], []. split; [reflexivity|]. split; [apply One; [no_char|longest]|]. intros fuel. cbn [lossy_fuel]. rewrite R1, R2, R3, R4, lossy_nil. reflexivity. }
  destruct (Utf8.in_range (if Byte.to_N b0 =? 240 then 144 else 128) (if Byte.to_N b0 =? 244 then 143 else 191) b1) eqn:C1.
  2:{ right. exists [b0], (b1 :: r). split; [reflexivity|]. split; [apply One; [no_char|longest]|]. intros fuel. cbn [lossy_fuel]. rewrite R1, R2, R3, R4, C1. reflexivity. }
  assert (Hb : begins_char [b0; b1]).
  { eapply (begins_of _ [x80; x80]). cbn [app utf8_decode_fuel]. rewrite R1, R2, R3, R4, C1. reflexivity. }
  destruct r as [|b2 r].
  { right. exists [b0; b1], []. split; [reflexivity|]. split; [split; [discriminate|]; split; [no_char|]; split; [right; exact Hb|longest]|].
    intros fuel. cbn [lossy_fuel]. rewrite R1, R2, R3, R4, C1, lossy_nil. reflexivity. }
  destruct (Utf8.cont b2) eqn:C2.
  2:{ right. exists [b0; b1], (b2 :: r). split; [reflexivity|]. split; [split; [discriminate|]; split; [no_char|]; split; [right; exact Hb|longest]|].
    intros fuel. cbn [lossy_fuel]. rewrite R1, R2, R3, R4, C1, C2. reflexivity. }
  assert (Hb2 : begins_char [b0; b1; b2]).
  { eapply (begins_of _ [x80]). cbn [app utf8_decode_fuel]. rewrite R1, R2, R3, R4, C1, C2. reflexivity. }
  destruct r as [|b3 r]; [right; exists [b0; b1; b2], []|destruct (Utf8.cont b3) eqn:C3; [left|right; exists [b0; b1; b2], (b3 :: r)]].
  - split; [reflexivity|]. split; [split; [discriminate|]; split; [no_char|]; split; [right; exact Hb2|longest]|].
    intros fuel. cbn [lossy_fuel]. rewrite R1, R2, R3, R4, C1, C2, lossy_nil. reflexivity.
  - eapply (Good [b0; b1; b2; b3] _ r); [|reflexivity]. cbn [utf8_decode_fuel]. rewrite R1, R2, R3, R4, C1, C2, C3. reflexivity.
  - split; [reflexivity|]. split; [split; [discriminate|]; split; [no_char|]; split; [right; exact Hb2|longest]|].
    intros fuel. cbn [lossy_fuel]. rewrite R1, R2, R3, R4, C1, C2, C3. reflexivity.
Qed.

Lemma skip_over (x y : list byte) n : n = List.length x -> skipn n (x ++ y) = y.
Proof. intros ->. rewrite skipn_app, skipn_all, Nat.sub_diag. reflexivity. Qed.
Lemma lossy_fuel_shown fuel : forall b, (List.length b <= fuel)%nat -> shown_as b (lossy_fuel fuel b).
Proof.
  induction fuel as [|fuel IH]; intros [|b0 r] Hl; [constructor|cbn in Hl; lia|rewrite lossy_nil; constructor|].
  destruct (lossy_step b0 r) as [(c&r'&Hs&He&Hf)|(p&r'&He&Hb&Hf)]; rewrite Hf.
  - rewrite He in Hl |- *. rewrite app_length in Hl. pose proof (utf8_char_length c). constructor; [exact Hs|]. apply IH. lia.
  - rewrite He in Hl |- *. rewrite app_length in Hl. constructor; [exact Hb|]. apply IH.
    destruct Hb as (Hn&_). destruct p; [destruct (Hn eq_refl)|]. cbn [List.length] in Hl. lia.
Qed.
Lemma shown_lossy b t : shown_as b t -> forall fuel, (List.length b <= fuel)%nat -> lossy_fuel fuel b = t.
Proof.
  induction 1 as [|c b t Hs _ IH|p b t Hb _ IH]; intros fuel Hl; [apply lossy_nil| |].
  - rewrite app_length in Hl. pose proof (utf8_char_length c). destruct fuel as [|fuel]; [lia|].
    rewrite lossy_char by exact Hs. f_equal. apply IH. lia.
  - rewrite app_length in Hl. destruct p as [|b0 p]; [destruct (proj1 Hb eq_refl)|]. cbn [List.length] in Hl. destruct fuel as [|fuel]; [lia|].
    cbn [app]. destruct (lossy_step b0 (p ++ b)) as [(c&r'&Hs&He&Hf)|(p2&r'&He&Hb2&Hf)]; rewrite Hf.
    + destruct Hb as (_&Hno&_). destruct (Hno c r' Hs He).
    + f_equal. assert (Hlen : List.length p2 = List.length (b0 :: p)).
      { destruct Hb as (Hn&_&H1&H2), Hb2 as (Hn2&_&H3&H4). change (b0 :: p ++ b) with ((b0 :: p) ++ b) in He.
        assert (L1 : (List.length p2 <= List.length (b0 :: p))%nat).
        { destruct H3 as [->|H3]; [cbn [List.length]; lia|]. exact (H2 _ _ He H3). }
        assert (L2 : (List.length (b0 :: p) <= List.length p2)%nat).
        { destruct H1 as [->|H1]; [destruct p2; [destruct (Hn2 eq_refl)|cbn [List.length]; lia]|]. exact (H4 _ _ (eq_sym He) H1). }
        lia. }
      change (b0 :: p ++ b) with ((b0 :: p) ++ b) in He.
      assert (r' = b).
      { apply (f_equal (skipn (List.length p2))) in He. rewrite (skip_over p2), (skip_over (b0 :: p)) in He by auto. symmetry. exact He. }
      subst r'. apply IH. lia.
Qed.

(** The beginning of a character that is not one ASCII character holds none. *)
Lemma begins_not_ascii p x y : begins_char (x :: p) -> In y p -> 128 <= Byte.to_N y.
Proof.
  intros (c&q&Hs&Hc) Hi.
  assert (K : forall b, Utf8.cont b = true -> 128 <= Byte.to_N b) by (intros b H; apply Utf8.in_range_iff in H; lia).
  assert (K2 : forall b (w1 w2 : bool), Utf8.in_range (if w1 then 160 else 128) (if w2 then 159 else 191) b = true -> 128 <= Byte.to_N b).
  { intros b [|] [|] H; apply Utf8.in_range_iff in H; lia. }
  assert (K3 : forall b (w1 w2 : bool), Utf8.in_range (if w1 then 144 else 128) (if w2 then 143 else 191) b = true -> 128 <= Byte.to_N b).
  { intros b [|] [|] H; apply Utf8.in_range_iff in H; lia. }
  assert (Hall : Forall (fun b => 128 <= Byte.to_N b) (tl (utf8_char c))).
  { destruct (char_shape c Hs) as [(b0&E&_)|[(b0&b1&E&_&_&H1)|[(b0&b1&b2&E&_&_&_&H1&H2)|(b0&b1&b2&b3&E&_&_&_&_&H1&H2&H3)]]];
      rewrite E; cbn [tl]; repeat constructor; eauto. }
  rewrite Hc in Hall. cbn [tl app] in Hall. rewrite Forall_forall in Hall. apply Hall. apply in_app_iff. left. exact Hi.
Qed.
(** So such a piece ends before the next ASCII character, unless it begins there. *)
Lemma before_ascii (l : list byte) a r p q : Byte.to_N a < 128 -> l ++ a :: r = p ++ q -> begins_char p -> p <> [] -> l <> [] ->
  exists rest, l = p ++ rest.
Proof.
  intros Ha He Hb Hp Hl. destruct p as [|x p]; [destruct (Hp eq_refl)|]. destruct l as [|x' l]; [destruct (Hl eq_refl)|].
  injection He as <- He. assert (G : exists rest, l = p ++ rest); [|destruct G as [rest ->]; exists rest; reflexivity].
  assert (Hno : forall y, In y p -> 128 <= Byte.to_N y) by (intros y; apply (begins_not_ascii p x' y Hb)). clear Hb Hp Hl.
  revert p He Hno. induction l as [|z l IH]; intros [|y p] He Hno; [exists []; reflexivity| |eexists; reflexivity|].
  - injection He as <- _. specialize (Hno a (or_introl eq_refl)). lia.
  - injection He as <- He. destruct (IH p He) as [rest ->]; [intros y Hy; apply Hno; right; exact Hy|]. exists rest. reflexivity.
Qed.

(** decrypt shows the embedded bytes as the Unicode standard recommends: every encoded character as it is,
    every broken piece as one U+FFFD, and there is one way only to do so. *)
Theorem C87_shown_public_input :
  forall b t, from_utf8_lossy b = t <-> shown_as b t.
Proof.
  intros b t. split; [intros <-; apply lossy_fuel_shown; reflexivity|]. intros H. apply (shown_lossy b t H). reflexivity.
Qed.
Print Assumptions C87_shown_public_input.

(** So the screen tells whether they are UTF-8, and hides no ASCII character: whatever stands around it,
    each is shown in its place. *)
Theorem C87_broken_text_is_visible :
  (forall b, utf8_decode b = None -> In 65533 (from_utf8_lossy b)) /\
  (forall b t, utf8_decode b = Some t -> from_utf8_lossy b = t) /\
  (forall b, Forall scalar (from_utf8_lossy b)) /\
  (forall b1 a b2, Byte.to_N a < 128 -> from_utf8_lossy (b1 ++ a :: b2) = from_utf8_lossy b1 ++ Byte.to_N a :: from_utf8_lossy b2).
Proof.
  assert (Hval : forall b t, utf8_decode b = Some t -> from_utf8_lossy b = t).
  { intros b t H. apply utf8_decode_fuel_sound in H as [-> Hs]. apply lossy_encode. exact Hs. }
  split; [|split; [exact Hval|split]].
  - intros b Hn. destruct (in_dec N.eq_dec 65533 (from_utf8_lossy b)) as [H|H]; [exact H|exfalso].
    assert (Hs : shown_as b (from_utf8_lossy b)) by (apply C87_shown_public_input; reflexivity).
    assert (G : forall b t, shown_as b t -> ~ In 65533 t -> b = utf8_encode t /\ Forall scalar t).
    { clear. induction 1 as [|c b t Hc _ IH|p b t Hb _ _]; intros H; [split; constructor| |destruct H; left; reflexivity].
      destruct IH as [-> Hf]; [intros Hi; apply H; right; exact Hi|]. split; [reflexivity|constructor; assumption]. }
    destruct (G _ _ Hs H) as [G1 Hf]. rewrite G1, utf8_decode_encode in Hn by exact Hf. discriminate.
  - intros b. assert (Hs : shown_as b (from_utf8_lossy b)) by (apply C87_shown_public_input; reflexivity).
    induction Hs as [|c b t Hc _ IH|p b t Hb _ IH]; constructor; try assumption. right. lia.
  - intros b1 a b2 Ha. apply C87_shown_public_input.
    assert (Hs : shown_as b1 (from_utf8_lossy b1)) by (apply C87_shown_public_input; reflexivity).
    assert (Htl : shown_as (a :: b2) (Byte.to_N a :: from_utf8_lossy b2)).
    { assert (Hc : utf8_char (Byte.to_N a) = [a]).
      { unfold utf8_char. rewrite (proj2 (N.ltb_lt _ _) Ha), byte_of_to_N. reflexivity. }
      change (a :: b2) with ([a] ++ b2). rewrite <- Hc. constructor; [left; lia|]. apply C87_shown_public_input. reflexivity. }
    induction Hs as [|c b t Hc _ IH|p b t Hb _ IH]; [exact Htl| |]; rewrite <- app_assoc; cbn [app].
    + constructor; assumption.
    + constructor; [|exact IH]. clear - Hb Ha. destruct Hb as (Hn&Hno&H1&H2). split; [exact Hn|]. split; [|split; [exact H1|]].
      * intros c q Hs He. apply (Hno c (skipn (List.length (utf8_char c)) (p ++ b)) Hs).
        assert (Hr : exists rest, p ++ b = utf8_char c ++ rest).
        { apply (before_ascii (p ++ b) a b2 (utf8_char c) q Ha); [rewrite <- app_assoc; exact He| | |].
          - exists c, []. rewrite app_nil_r. auto.
          - intros H. pose proof (utf8_char_length c) as Hl. rewrite H in Hl. cbn in Hl. lia.
          - destruct p; [destruct (Hn eq_refl)|discriminate]. }
        destruct Hr as [rest Hr].
        rewrite Hr. rewrite skip_over by reflexivity. reflexivity.
      * intros p' q He Hb. destruct p' as [|x p'].
        { cbn [List.length]. lia. }
        assert (Hr : exists rest, p ++ b = (x :: p') ++ rest).
        { apply (before_ascii (p ++ b) a b2 (x :: p') q Ha); [rewrite <- app_assoc; exact He|exact Hb|discriminate|].
          destruct p; [destruct (Hn eq_refl)|discriminate]. }
        destruct Hr as [rest Hr].
        exact (H2 _ _ Hr Hb).
Qed.
Print Assumptions C87_broken_text_is_visible.

(** A cut-off character, a stray byte, an overlong form and a surrogate, between ASCII characters. *)
Example C87_lossy_nonvacuous :
  from_utf8_lossy [x61; xe2; x82; x62; x80; x63; xc0; xaf; xed; xa0; x80; x64; xe2; x82; xac] =
    [97; 65533; 98; 65533; 99; 65533; 65533; 65533; 65533; 65533; 100; 8364] /\ utf8_decode [x61; xe2; x82; x62] = None.
Proof. split; vm_compute; reflexivity. Qed.
