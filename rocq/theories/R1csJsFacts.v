(** Round trip, agreement with the CLI reader, and panics of the WASM r1cs reader. *)
From Coq Require Import List Bool Arith NArith ZArith Lia.
From Coq Require Import Strings.Byte.
From Verif Require Import Res Bytes Reader R1cs SpecR1cs R1csFacts R1csMore R1csJs.
Import ListNotations.
Local Open Scope N_scope.
Local Open Scope rd_scope.

Section Facts.
  Variable W : N.
  Variable f : list byte.
  Hypothesis HW : blen f < W.

  Definition jyields {A} (m : J A) (a : A) (enc : list byte) : Prop :=
    forall p, occurs f p enc -> m p = (Ok a, p + blen enc).

  Lemma jyields_bind {A B} (m : J A) (k : A -> J B) a b e1 e2 :
    jyields m a e1 -> jyields (k a) b e2 -> jyields (mbind m k) b (e1 ++ e2).
  Proof.
    intros H1 H2 p H. apply occurs_app in H. destruct H as [Ha Hb].
    unfold mbind. rewrite (H1 p Ha), (H2 _ Hb), blen_app, N.add_assoc. reflexivity.
  Qed.

  Lemma jyields_index bs k e : blen bs = k -> jyields (js_index W f k e) bs bs.
  Proof.
    intros <- p H. unfold js_index, wadd. pose proof (occurs_le _ _ _ H) as Hl.
    rewrite (N.mod_small (p + blen bs) W) by lia.
    replace (blen f <? p + blen bs) with false by (symmetry; apply N.ltb_ge; lia).
    apply occurs_slice in H. rewrite H. reflexivity.
  Qed.

  Lemma jyields_map {A B} (m : J A) (g : A -> B) a e :
    jyields m a e -> jyields (mbind m (fun x => ret (g x))) (g a) e.
  Proof. intros H p Hp. unfold mbind. rewrite (H p Hp). reflexivity. Qed.

  Lemma jyields_u32 v : v < 2 ^ 32 -> jyields (js_u32 W f) v (u32 v).
  Proof.
    intros H. unfold js_u32. rewrite <- (u32_val v H) at 1. apply jyields_map.
    apply jyields_index. apply blen_u32.
  Qed.
  Lemma jyields_u64 v : v < 2 ^ 64 -> jyields (js_u64 W f) v (u64 v).
  Proof.
    intros H. unfold js_u64. rewrite <- (u64_val v H) at 1. apply jyields_map.
    apply jyields_index. apply blen_u64.
  Qed.

  Lemma jyields_mmany {A} (m : J A) (enc : A -> list byte) l n :
    N.of_nat (length l) = n -> Forall (fun a => jyields m a (enc a)) l ->
    jyields (mmany n m) l (flat_map enc l).
  Proof.
    intros Hn H p. rewrite mmany_spec, <- Hn, Nat2N.id. clear Hn. revert p.
    induction H as [|a l Ha Hl IH]; intros p Hp; cbn [length mlist flat_map] in *.
    - rewrite blen_nil, N.add_0_r. reflexivity.
    - apply occurs_app in Hp. destruct Hp as [H1 H2]. unfold mbind.
      rewrite (Ha p H1), (IH _ H2), blen_app, N.add_assoc. reflexivity.
  Qed.

  Lemma jyields_factor fs x : fst x < 2 ^ 32 -> blen (snd x) = fs ->
    jyields (js_factor W f fs) x (factor_bytes x).
  Proof.
    intros H1 H2. destruct x as [w v]. unfold js_factor, factor_bytes. cbn [fst snd] in *.
    apply jyields_bind with (a := w); [apply jyields_u32; exact H1|].
    apply (jyields_map _ (fun v => (w, v))). apply jyields_index. exact H2.
  Qed.

  Lemma jyields_lc fs l : lc_ok fs l -> jyields (js_lc W f fs) l (lc_bytes l).
  Proof.
    intros [H1 H2]. unfold js_lc, lc_bytes.
    apply jyields_bind with (a := N.of_nat (length l)); [apply jyields_u32; exact H1|].
    apply jyields_mmany; [reflexivity|].
    eapply Forall_impl; [|exact H2]. intros x [Hx Hy]. apply jyields_factor; assumption.
  Qed.

  Lemma jyields_constraint fs c : constraint_ok fs c -> jyields (js_constraint W f fs) c (constraint_bytes c).
  Proof.
    intros (H1&H2&H3). destruct c as [a b c]. unfold js_constraint, constraint_bytes. cbn [c_a c_b c_c] in *.
    apply jyields_bind with (a := a); [apply jyields_lc; exact H1|].
    apply jyields_bind with (a := b); [apply jyields_lc; exact H2|].
    apply (jyields_map _ (fun c => Constraint a b c)). apply jyields_lc; exact H3.
  Qed.

  Definition js_header_of (r : r1cs_file) : js_header :=
    JsHeader (r_field_size r) (r_n_wires r) (r_n_pub_out r) (r_n_pub_in r) (r_n_constraints r).

  Lemma jyields_header r : r1cs_ok r -> jyields (js_parse_header W f) (js_header_of r) (header_payload r).
  Proof.
    intros [? ? ? ? ? ? ? ? _ _ _ _] p Hp. unfold js_parse_header, header_payload in *.
    apply occurs_app in Hp. destruct Hp as [H1' Hp].
    unfold mbind at 1. rewrite (jyields_u32 (r_field_size r)) by assumption.
    unfold mbind at 1, js_get.
    apply occurs_app in Hp. destruct Hp as [H2' Hp].
    pose proof (occurs_le _ _ _ H2') as Hle. rewrite ok_prime in *.
    unfold wadd. rewrite (N.mod_small _ W) by lia.
    replace (blen f <? p + blen (u32 (r_field_size r)) + r_field_size r) with false
      by (symmetry; apply N.ltb_ge; exact Hle).
    cbn [negb]. unfold mbind at 1, js_goto.
    set (q := p + blen (u32 (r_field_size r)) + r_field_size r) in *.
    assert (Hend : p + blen (u32 (r_field_size r) ++ r_prime r ++ u32 (r_n_wires r) ++ u32 (r_n_pub_out r)
        ++ u32 (r_n_pub_in r) ++ u32 (r_n_prv_in r) ++ u64 (r_n_labels r) ++ u32 (r_n_constraints r))
      = q + blen (u32 (r_n_wires r) ++ u32 (r_n_pub_out r)
        ++ u32 (r_n_pub_in r) ++ u32 (r_n_prv_in r) ++ u64 (r_n_labels r) ++ u32 (r_n_constraints r))).
    { unfold q. rewrite (blen_app (u32 (r_field_size r))), (blen_app (r_prime r)), ok_prime. lia. }
    rewrite Hend. clear Hend. clear Hle. clear H2'. clearbody q. revert q Hp.
    match goal with |- forall q, occurs f q ?e -> ?m q = (Ok ?a, q + blen ?e) =>
      change (jyields m a e) end.
    unfold js_header_of.
    do 4 (eapply jyields_bind; [apply jyields_u32; assumption|]).
    eapply jyields_bind; [apply jyields_u64; assumption|].
    apply (jyields_map _ (fun c => JsHeader _ _ _ _ c)). apply jyields_u32; assumption.
  Qed.

  Lemma jyields_section s p :
    fst s < 2 ^ 32 -> blen f < 2 ^ 64 -> occurs f p (section_bytes s) ->
    js_section W f p = (Ok (fst s, blen (snd s), p + 12), p + blen (section_bytes s)).
  Proof.
    intros Ht H64 H. pose proof (occurs_le _ _ _ H) as Hlen. rewrite blen_section in Hlen.
    unfold section_bytes in H. apply occurs_app in H. destruct H as [H1 H].
    apply occurs_app in H. destruct H as [H2 _].
    assert (Hb : blen (snd s) < 2 ^ 64) by (clear - Hlen H64; lia).
    unfold js_section. unfold mbind at 1. rewrite (jyields_u32 (fst s) Ht p H1).
    unfold mbind at 1. rewrite (jyields_u64 _ Hb _ H2). rewrite blen_u32, blen_u64.
    unfold mbind at 1, js_get. unfold mbind at 1, js_goto. unfold ret, wadd.
    rewrite (N.mod_small (blen (snd s)) W) by lia. rewrite blen_section.
    f_equal; [f_equal; f_equal; lia|]. rewrite N.mod_small by lia. lia.
  Qed.

  Lemma jyields_sections secs p :
    Forall (fun s => fst s < 2 ^ 32) secs -> blen f < 2 ^ 64 ->
    occurs f p (flat_map section_bytes secs) ->
    mlist (length secs) (js_section W f) p = (Ok (table p secs), p + blen (flat_map section_bytes secs)).
  Proof.
    intros H H64. revert p. induction H as [|s secs Hs Hl IH]; intros p Ho.
    - cbn. rewrite N.add_0_r. reflexivity.
    - cbn [length mlist flat_map table] in *. apply occurs_app in Ho. destruct Ho as [Ho1 Ho2].
      unfold mbind. rewrite (jyields_section s p Hs H64 Ho1), (IH _ Ho2).
      unfold ret. rewrite blen_app, N.add_assoc. reflexivity.
  Qed.
End Facts.

Theorem js_r1cs_roundtrip W secs r :
  r1cs_ok r -> carries secs r ->
  N.of_nat (length secs) < 2 ^ 32 -> Forall (fun s => fst s < 2 ^ 32) secs ->
  blen (r1cs_bytes secs) < W -> W <= 2 ^ 64 ->
  js_parse_r1cs W (r1cs_bytes secs) =
  Ok (JsHeader (r_field_size r) (r_n_wires r) (r_n_pub_out r) (r_n_pub_in r) (r_n_constraints r),
      r_constraints r).
Proof.
  intros Hr (Hc1&Hc2&_) Hn Ht HW HW64. set (f := r1cs_bytes secs) in *.
  assert (H64 : blen f < 2 ^ 64) by (eapply N.lt_le_trans; eassumption).
  assert (Ho0 : occurs f 0 (r1cs_bytes secs)).
  { exists [], []. rewrite app_nil_r. split; reflexivity. }
  unfold r1cs_bytes in Ho0. apply occurs_app in Ho0. destruct Ho0 as [H1 Ho].
  apply occurs_app in Ho. destruct Ho as [H2 Ho]. apply occurs_app in Ho. destruct Ho as [H3 Ho].
  rewrite !blen_u32 in *. change (blen ascii_r1cs) with 4 in *. cbn [N.add Pos.add] in *.
  destruct Hc1 as (p1&Hp1&Hs1). destruct Hc2 as (p2&Hp2&Hs2).
  pose proof (find_table f 1 12 secs Ho) as F1. rewrite Hp1 in F1. destruct F1 as (q1&F1&O1).
  pose proof (find_table f 2 12 secs Ho) as F2. rewrite Hp2 in F2. destruct F2 as (q2&F2&O2).
  apply (occurs_starts _ _ _ _ Hs1) in O1. apply (occurs_starts _ _ _ _ Hs2) in O2.
  unfold js_parse_r1cs, js_parse_r1cs_m. unfold mbind at 1.
  assert (E0 : exists p', js_sections W f 0 = (Ok (table 12 secs), p')).
  { unfold js_sections. unfold mbind at 1.
    rewrite (jyields_index W f HW ascii_r1cs 4 JsWrongMagic eq_refl 0 H1).
    replace (bytes_eqb ascii_r1cs magic_r1cs) with true by reflexivity.
    change (0 + blen ascii_r1cs) with 4. unfold mbind at 1.
    rewrite (jyields_u32 W f HW 1 ltac:(reflexivity) 4 H2). rewrite blen_u32.
    change (1 =? 1) with true. cbv iota. unfold mbind at 1. change (4 + 4) with 8.
    rewrite (jyields_u32 W f HW _ Hn 8 H3). rewrite blen_u32. change (8 + 4) with 12.
    rewrite mmany_spec, Nat2N.id, (jyields_sections W f HW secs 12 Ht H64 Ho). eauto. }
  destruct E0 as [p' E0]. rewrite E0, F1. unfold mbind at 1, js_goto. unfold mbind at 1.
  rewrite (jyields_header W f HW r Hr q1 O1), F2. unfold mbind at 1. unfold mbind at 1.
  cbn [js_header_of j_n_constraints j_field_size].
  assert (Hcs : jyields f (mmany (r_n_constraints r) (js_constraint W f (r_field_size r)))
                  (r_constraints r) (constraints_payload r)).
  { unfold constraints_payload. apply jyields_mmany; [apply (ok_cs_len r Hr)|].
    eapply Forall_impl; [|apply (ok_cs r Hr)]. intros c. apply jyields_constraint. exact HW. }
  rewrite (Hcs q2 O2). reflexivity.
Qed.

(** ** Panics *)
(** Some 4-byte little-endian integer in the data is so large that adding the length of the
    data and 8 reaches 2^32. *)
Definition has_huge_integer (data : list byte) : Prop :=
  exists p b, occurs data p b /\ blen b = 4 /\ 2 ^ 32 <= le_val b + blen data + 8.

Section NoPanic.
  Variable f : list byte.
  Hypothesis Hlen : blen f + 8 < 2 ^ 32.
  Hypothesis Hno : ~ has_huge_integer f.
  Let W := 2 ^ 32.

  Definition okpos (p : N) : Prop := p + 8 < W.
  Definition indata (p : N) : Prop := p <= blen f.
  Definition small (v : N) : Prop := v + blen f + 8 < W.

  (** Hoare triple: from [pre], no panic, and [post] on success. *)
  Definition triple {A} (pre : N -> Prop) (m : J A) (post : A -> N -> Prop) : Prop :=
    forall p, pre p -> match m p with (Panic, _) => False | (Err _, _) => True | (Ok a, q) => post a q end.

  Lemma t_bind {A B} pre (m : J A) mid (k : A -> J B) post :
    triple pre m mid -> (forall a, triple (mid a) (k a) post) -> triple pre (mbind m k) post.
  Proof.
    intros H1 H2 p Hp. specialize (H1 p Hp). unfold mbind.
    destruct (m p) as [[a|e|] q]; auto. exact (H2 a q H1).
  Qed.
  Lemma t_ret {A} (a : A) (pre : N -> Prop) (post : A -> N -> Prop) :
    (forall p, pre p -> post a p) -> triple pre (ret a) post.
  Proof. intros H p Hp. cbn. auto. Qed.
  Lemma t_fail {A} pre e (post : A -> N -> Prop) : triple pre (fail e) post.
  Proof. intros p Hp. exact I. Qed.
  Lemma t_pre {A} (pre pre' : N -> Prop) (m : J A) post :
    (forall p, pre p -> pre' p) -> triple pre' m post -> triple pre m post.
  Proof. intros H H1 p Hp. apply H1. auto. Qed.
  Lemma t_post {A} pre (m : J A) (post post' : A -> N -> Prop) :
    (forall a q, post a q -> post' a q) -> triple pre m post -> triple pre m post'.
  Proof. intros H H1 p Hp. specialize (H1 p Hp). destruct (m p) as [[a|e|] q]; auto. Qed.

  Lemma indata_okpos p : indata p -> okpos p.
  Proof. unfold indata, okpos. intros. change W with (2 ^ 32). clear - H Hlen. lia. Qed.

  (** Reading [k] bytes where the sum cannot wrap. *)
  Lemma t_index k e (pre : N -> Prop) : (forall p, pre p -> p + k < W) ->
    triple pre (js_index W f k e) (fun b q => indata q /\ blen b = k /\ exists p, occurs f p b).
  Proof.
    intros Hk p Hp. specialize (Hk p Hp). unfold js_index, wadd. rewrite N.mod_small by exact Hk.
    destruct (N.ltb_spec (blen f) (p + k)) as [Hl|Hl]; [exact I|].
    destruct (slice f p k) as [b|] eqn:E.
    - apply slice_some in E. destruct E as (pre'&rest&Hf&Hpre&Hb). split; [exact Hl|]. split; [exact Hb|].
      exists p, pre', rest. auto.
    - apply slice_none in E. clear - E Hl. lia.
  Qed.

  Lemma t_u32 : triple okpos (js_u32 W f) (fun v q => indata q /\ small v).
  Proof.
    eapply t_bind; [apply t_index; unfold okpos; intros; clear - H; lia|].
    intros b. apply t_ret. intros q (Hq&Hb&p&Ho). split; [exact Hq|].
    unfold small. destruct (N.lt_ge_cases (le_val b + blen f + 8) W) as [H|H]; [exact H|].
    exfalso. apply Hno. exists p, b. auto.
  Qed.
  (** A u64 truncated to 32 bits is its low half, which is a 4-byte integer of the data. *)
  Lemma t_u64 : triple okpos (js_u64 W f) (fun v q => indata q /\ small (v mod W)).
  Proof.
    eapply t_bind; [apply t_index; unfold okpos; intros; clear - H; lia|].
    intros b. apply t_ret. intros q (Hq&Hb&p&Ho). split; [exact Hq|].
    rewrite <- (firstn_skipn 4 b) in Ho |- *. apply occurs_app in Ho. destruct Ho as [Ho _].
    assert (Hl : length (firstn 4 b) = 4%nat).
    { rewrite firstn_length. unfold blen in Hb. lia. }
    rewrite le_val_app, Hl. change (256 ^ N.of_nat 4) with W. rewrite N.mul_comm, N.mod_add by discriminate.
    pose proof (le_val_bound (firstn 4 b)) as Hbd. rewrite Hl in Hbd. change (256 ^ N.of_nat 4) with W in Hbd.
    rewrite N.mod_small by exact Hbd.
    unfold small. destruct (N.lt_ge_cases (le_val (firstn 4 b) + blen f + 8) W) as [H|H]; [exact H|].
    exfalso. apply Hno. exists p, (firstn 4 b). repeat split; auto. unfold blen. rewrite Hl. reflexivity.
  Qed.

  Lemma t_get (pre : N -> Prop) : triple pre js_get (fun v q => v = q /\ pre q).
  Proof. intros p Hp. cbn. auto. Qed.
  Lemma t_goto (pre : N -> Prop) v : triple pre (js_goto v) (fun _ q => q = v).
  Proof. intros p Hp. cbn. auto. Qed.

  Lemma t_mlist {A} (Inv : N -> Prop) (m : J A) (P : A -> Prop) :
    triple Inv m (fun a q => P a /\ Inv q) -> forall n, triple Inv (mlist n m) (fun l q => Forall P l /\ Inv q).
  Proof.
    intros H n. induction n; cbn [mlist].
    - apply t_ret. auto.
    - eapply t_bind; [exact H|]. intros a p (Ha&Hp). 
      pose proof (IHn p Hp) as H1. unfold mbind. destruct (mlist n m p) as [[l|e|] q]; auto.
      cbn. destruct H1. auto.
  Qed.
  Lemma t_mmany {A} (Inv : N -> Prop) (m : J A) (P : A -> Prop) n :
    triple Inv m (fun a q => P a /\ Inv q) -> triple Inv (mmany n m) (fun l q => Forall P l /\ Inv q).
  Proof. intros H p Hp. rewrite mmany_spec. apply t_mlist; assumption. Qed.

  Lemma t_section : triple okpos (js_section W f) (fun x q => indata (snd x) /\ okpos q).
  Proof.
    unfold js_section. eapply t_bind; [apply t_u32|]. intros t.
    eapply t_bind; [eapply t_pre; [|apply t_u64]; intros p [H _]; apply indata_okpos; exact H|]. intros l.
    eapply t_bind; [apply t_get|]. intros st.
    intros p (Hst&Hp&Hs). subst st. unfold mbind, js_goto, ret. cbn [snd]. split; [exact Hp|].
    unfold okpos, wadd, small, indata in *. rewrite N.mod_small; clear - Hp Hs; lia.
  Qed.

  Lemma t_header : triple indata (js_parse_header W f) (fun h q => small (j_field_size h)).
  Proof.
    unfold js_parse_header.
    eapply t_bind; [eapply t_pre; [apply indata_okpos|apply t_u32]|]. intros fs.
    eapply t_bind; [apply t_get|]. intros p0.
    intros p (->&Hp&Hs).
    destruct (negb (blen f <? wadd W p fs)) eqn:Eb; [|exact I].
    unfold mbind at 1, js_goto.
    assert (Hq : okpos (wadd W p fs)).
    { unfold okpos, wadd, small, indata in *. rewrite N.mod_small; clear - Hp Hs; lia. }
    revert Hq. generalize (wadd W p fs). clear Eb p Hp.
    match goal with |- forall n, okpos n -> match ?m n with _ => _ end =>
      change (triple okpos m (fun h _ => small (j_field_size h))) end.
    assert (Hu : triple okpos (js_u32 W f) (fun v q => okpos q)).
    { eapply t_post; [|apply t_u32]. cbn. intros a q [H _]. apply indata_okpos; exact H. }
    assert (Hu8 : triple okpos (js_u64 W f) (fun v q => okpos q)).
    { eapply t_post; [|apply t_u64]. cbn. intros a q [H _]. apply indata_okpos; exact H. }
    do 4 (eapply t_bind; [apply Hu|intros]). eapply t_bind; [apply Hu8|intros].
    eapply t_bind; [apply Hu|intros]. apply t_ret. intros. exact Hs.
  Qed.

  Lemma t_factor fs : small fs -> triple okpos (js_factor W f fs) (fun x q => True /\ okpos q).
  Proof.
    intros Hs. unfold js_factor. eapply t_bind; [apply t_u32|]. intros w.
    eapply t_bind.
    - apply t_index. intros p [Hp _]. unfold indata, small in *. clear - Hp Hs. lia.
    - intros v. apply t_ret. intros p [Hp _]. split; [exact I|]. apply indata_okpos. exact Hp.
  Qed.
  Lemma t_lc fs : small fs -> triple okpos (js_lc W f fs) (fun x q => okpos q).
  Proof.
    intros Hs. unfold js_lc. eapply t_bind; [apply t_u32|]. intros n.
    eapply t_pre; [intros p [Hp _]; apply indata_okpos; exact Hp|].
    eapply t_post; [|apply t_mmany with (P := fun _ => True); apply t_factor; exact Hs].
    cbn. intros a q [_ Hq]. exact Hq.
  Qed.

  Theorem js_r1cs_no_panic_aux : js_parse_r1cs W f <> Panic.
  Proof.
    assert (H : triple (fun p => p = 0) (js_parse_r1cs_m W f) (fun _ _ => True)).
    { unfold js_parse_r1cs_m. eapply t_bind.
      { unfold js_sections. eapply t_bind; [apply t_index; intros p ->; reflexivity|]. intros m.
        destruct (bytes_eqb m magic_r1cs); [|apply t_fail].
        eapply t_bind; [eapply t_pre; [|apply t_u32]; intros p [Hp _]; apply indata_okpos; exact Hp|].
        intros v. destruct (v =? 1); [|apply t_fail].
        eapply t_bind; [eapply t_pre; [|apply t_u32]; intros p [Hp _]; apply indata_okpos; exact Hp|].
        intros n. eapply t_pre; [intros p [Hp _]; apply indata_okpos; exact Hp|].
        apply t_mmany. exact t_section. }
      intros secs. destruct (find_section 1 secs) as [p1|] eqn:F1; [|apply t_fail].
      intros p [Hall _].
      assert (Hin : forall ty q, find_section ty secs = Some q -> indata q).
      { intros ty q Hf. apply find_section_in in Hf. destruct Hf as [sz Hi].
        rewrite Forall_forall in Hall. apply (Hall _ Hi). }
      unfold mbind at 1, js_goto. unfold mbind at 1.
      pose proof (t_header p1 (Hin _ _ F1)) as Hh.
      destruct (js_parse_header W f p1) as [[h|e|] q]; auto.
      destruct (find_section 2 secs) as [p2|] eqn:F2; [|exact I].
      unfold mbind at 1. unfold mbind at 1.
      assert (Hc : triple okpos (mmany (j_n_constraints h) (js_constraint W f (j_field_size h)))
                     (fun l q => Forall (fun _ => True) l /\ okpos q)).
      { apply t_mmany. unfold js_constraint.
        do 3 (eapply t_bind; [apply t_lc; exact Hh|intros]). apply t_ret. auto. }
      specialize (Hc p2 (indata_okpos _ (Hin _ _ F2))).
      destruct (mmany _ _ p2) as [[l|e|] q']; auto. cbn. exact I. }
    specialize (H 0 eq_refl). unfold js_parse_r1cs.
    destruct (js_parse_r1cs_m W f 0) as [[a|e|] q]; cbn; try discriminate. contradiction.
  Qed.
End NoPanic.

Lemma huge_dec data : has_huge_integer data \/ ~ has_huge_integer data.
Proof.
  set (test := fun p => match slice data (N.of_nat p) 4 with
                        | Some b => 2 ^ 32 <=? le_val b + blen data + 8 | None => false end).
  destruct (existsb test (seq 0 (S (length data)))) eqn:E.
  - left. apply existsb_exists in E. destruct E as (p&_&H). unfold test in H.
    destruct (slice data (N.of_nat p) 4) as [b|] eqn:Es; [|discriminate]. apply N.leb_le in H.
    apply slice_some in Es. destruct Es as (pre&rest&Hd&Hp&Hb).
    exists (N.of_nat p), b. repeat split; auto. exists pre, rest. auto.
  - right. intros (p&b&Ho&Hb&Hv).
    enough (existsb test (seq 0 (S (length data))) = true) by congruence.
    apply existsb_exists. exists (N.to_nat p). split.
    + apply in_seq. apply occurs_le in Ho. unfold blen in Ho. lia.
    + unfold test. rewrite N2Nat.id. apply occurs_slice in Ho. rewrite Hb in Ho. rewrite Ho.
      apply N.leb_le. exact Hv.
Qed.

Theorem js_r1cs_no_panic data :
  blen data + 8 < 2 ^ 32 -> js_parse_r1cs (2 ^ 32) data = Panic -> has_huge_integer data.
Proof.
  intros Hl Hp. destruct (huge_dec data) as [H|H]; [exact H|].
  exfalso. exact (js_r1cs_no_panic_aux data Hl H Hp).
Qed.

(** Two panicking files: a section length that makes the position wrap, and a field size that
    makes the end of a coefficient wrap. *)
Definition js_crash_section : list byte :=
  ascii_r1cs ++ u32 1 ++ u32 2 ++ u32 9 ++ u64 (2 ^ 32 - 26).
Definition js_crash_field : list byte :=
  r1cs_bytes [(1, u32 (2 ^ 32 - 4) ++ u32 0 ++ u32 0 ++ u32 0 ++ u64 0 ++ u32 1); (2, u32 1 ++ u32 0)].
