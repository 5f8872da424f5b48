(** Exactly which files make the WASM r1cs reader panic on 32-bit addresses. *)
From Coq Require Import List Bool Arith NArith ZArith Lia.
From Coq Require Import Strings.Byte.
From Verif Require Import Res Bytes Reader R1cs SpecR1cs R1csFacts R1csMore R1csJs R1csJsFacts.
Import ListNotations.
Local Open Scope N_scope.
Local Open Scope rd_scope.

(** ** Specification *)
(** The file starts with the magic, version 1 and [n] announced sections. *)
Definition announces (data : list byte) (n : N) : Prop :=
  n < 2 ^ 32 /\ occurs data 0 (ascii_r1cs ++ u32 1 ++ u32 n).
(** Walking over section headers from position [p] to [q], each section ending where its length
    says, modulo 2^32; the sections passed, as (type, start of payload). *)
Inductive walks (data : list byte) : N -> list (N * N) -> N -> Prop :=
| walks_nil p : walks data p [] p
| walks_cons p t len l q :
    t < 2 ^ 32 -> len < 2 ^ 64 -> occurs data p (u32 t ++ u64 len) ->
    walks data ((p + 12 + len) mod 2 ^ 32) l q ->
    walks data p ((t, p + 12) :: l) q.
(** The first section of type [ty] starts at [p]. *)
Definition first_of (ty : N) (l : list (N * N)) (p : N) : Prop :=
  exists l1 l2, l = l1 ++ (ty, p) :: l2 /\ ~ In ty (map fst l1).
(** At [p]: field size [fs] and, after a prime of that size (position modulo 2^32) and 24 bytes
    of counts, [nc] constraints. *)
Definition header_at (data : list byte) (p fs nc : N) : Prop :=
  fs < 2 ^ 32 /\ nc < 2 ^ 32 /\ occurs data p (u32 fs) /\
  exists counts, blen counts = 24 /\ occurs data ((p + 4 + fs) mod 2 ^ 32) (counts ++ u32 nc).

(** ** Generic *)
Lemma mbind_panic {S E A B} (m : M S E A) (k : A -> M S E B) s s' :
  mbind m k s = (Panic, s') -> m s = (Panic, s') \/ exists a s1, m s = (Ok a, s1) /\ k a s1 = (Panic, s').
Proof. unfold mbind. destruct (m s) as [[a|e|] s1]; intros H; [right; eauto|discriminate|left; injection H as <-; reflexivity]. Qed.
Lemma mlist_panic {S E A} (m : M S E A) n s s' :
  mlist n m s = (Panic, s') -> exists j l s1, (j < n)%nat /\ mlist j m s = (Ok l, s1) /\ m s1 = (Panic, s').
Proof.
  revert s. induction n as [|n IH]; intros s H; [discriminate|]. cbn [mlist] in H.
  apply mbind_panic in H as [H|(a&s1&H1&H)].
  - exists 0%nat, [], s. split; [lia|]. split; [reflexivity|exact H].
  - apply mbind_panic in H as [H|(l&s2&_&H)]; [|discriminate].
    destruct (IH s1 H) as (j&l&s2&Hj&Hl&Hp). exists (Datatypes.S j), (a :: l), s2. split; [lia|]. split; [|exact Hp].
    cbn [mlist]. unfold mbind. rewrite H1, Hl. reflexivity.
Qed.
Lemma mlist_panic_intro {S E A} (m : M S E A) j n s l s1 s' :
  (j < n)%nat -> mlist j m s = (Ok l, s1) -> m s1 = (Panic, s') -> mlist n m s = (Panic, s').
Proof.
  revert j s l. induction n as [|n IH]; intros j s l Hj Hl Hp; [lia|]. cbn [mlist]. unfold mbind. destruct j as [|j].
  - injection Hl as <- <-. rewrite Hp. reflexivity.
  - cbn [mlist] in Hl. apply mbind_ok in Hl as (a&s2&H1&Hl). apply mbind_ok in Hl as (l2&s3&H2&Hl). injection Hl as _ <-.
    rewrite H1, (IH j s2 l2 ltac:(lia) H2 Hp). reflexivity.
Qed.

Section Panics.
  Variable f : list byte.
  Hypothesis Hlen : blen f < 2 ^ 31.
  Local Notation W := (2 ^ 32).

  Lemma len32 : blen f + 2147483648 < 2 ^ 32.
  Proof. change (2 ^ 32) with 4294967296. change (2 ^ 31) with 2147483648 in Hlen. lia. Qed.

  (** Where the sum does not wrap: the bytes there, or an error. *)
  Lemma index_ok k e p b q : p + k < W -> js_index W f k e p = (Ok b, q) -> occurs f p b /\ blen b = k /\ q = p + k.
  Proof.
    intros Hk. unfold js_index, wadd. rewrite N.mod_small by exact Hk. destruct (blen f <? p + k); [discriminate|].
    destruct (slice f p k) as [b'|] eqn:E; [|discriminate]. intros H. injection H as <- <-. pose proof (slice_some _ _ _ _ E) as (pre&rest&Hf&Hp&Hb).
    split; [exists pre, rest; auto|]. auto.
  Qed.
  Lemma index_no_panic k e p q : p + k < W -> js_index W f k e p <> (Panic, q).
  Proof.
    intros Hk. unfold js_index, wadd. rewrite N.mod_small by exact Hk. destruct (N.ltb_spec (blen f) (p + k)) as [H|H]; [discriminate|].
    destruct (slice f p k) as [b|] eqn:E; [discriminate|]. apply slice_none in E. lia.
  Qed.
  (** Where it wraps to a position inside the data: a panic. *)
  Lemma index_panic k e p : p < W -> k < W -> W <= p + k -> p + k - W <= blen f -> js_index W f k e p = (Panic, p).
  Proof.
    intros Hp Hk Hs Hl. unfold js_index, wadd.
    replace ((p + k) mod W) with (p + k - W).
    2: { apply N.mod_unique with 1; lia. }
    replace (blen f <? p + k - W) with false by (symmetry; apply N.ltb_ge; exact Hl).
    destruct (slice f p k) as [b|] eqn:E; [|reflexivity]. exfalso.
    apply slice_some in E as (pre&rest&Hf&Hpre&Hb). assert (blen f = p + k + blen rest) by (rewrite Hf, !blen_app; lia).
    pose proof len32. lia.
  Qed.

  Lemma u32_ok p v q : p + 4 < W -> js_u32 W f p = (Ok v, q) -> v < 2 ^ 32 /\ occurs f p (u32 v) /\ q = p + 4.
  Proof.
    intros Hp H. apply mbind_ok in H as (b&s1&H1&H). injection H as <- <-. apply index_ok in H1; [|exact Hp].
    destruct H1 as (Ho&Hl&->). unfold u32. unfold blen in Hl.
    replace 4%nat with (List.length b) by lia. rewrite le_bytes_le_val. split; [|auto].
    pose proof (le_val_bound b) as Hv. rewrite Hl in Hv. exact Hv.
  Qed.
  Lemma u64_ok p v q : p + 8 < W -> js_u64 W f p = (Ok v, q) -> v < 2 ^ 64 /\ occurs f p (u64 v) /\ q = p + 8.
  Proof.
    intros Hp H. apply mbind_ok in H as (b&s1&H1&H). injection H as <- <-. apply index_ok in H1; [|exact Hp].
    destruct H1 as (Ho&Hl&->). unfold u64. unfold blen in Hl.
    replace 8%nat with (List.length b) by lia. rewrite le_bytes_le_val. split; [|auto].
    pose proof (le_val_bound b) as Hv. rewrite Hl in Hv. exact Hv.
  Qed.
  Lemma u32_no_panic p q : p + 4 < W -> js_u32 W f p <> (Panic, q).
  Proof. intros Hp H. apply mbind_panic in H as [H|(?&?&_&H)]; [|discriminate]. exact (index_no_panic _ _ _ _ Hp H). Qed.
  Lemma u64_no_panic p q : p + 8 < W -> js_u64 W f p <> (Panic, q).
  Proof. intros Hp H. apply mbind_panic in H as [H|(?&?&_&H)]; [|discriminate]. exact (index_no_panic _ _ _ _ Hp H). Qed.

  Lemma HWf : blen f < W. Proof. pose proof len32. lia. Qed.
  Lemma u32_at p v : v < 2 ^ 32 -> occurs f p (u32 v) -> js_u32 W f p = (Ok v, p + 4).
  Proof. intros Hv Ho. rewrite (jyields_u32 W f HWf v Hv p Ho), blen_u32. reflexivity. Qed.
  Lemma u64_at p v : v < 2 ^ 64 -> occurs f p (u64 v) -> js_u64 W f p = (Ok v, p + 8).
  Proof. intros Hv Ho. rewrite (jyields_u64 W f HWf v Hv p Ho), blen_u64. reflexivity. Qed.

  (** ** Sections *)
  Lemma occ_end p b : occurs f p b -> p + blen b <= blen f.
  Proof. apply occurs_le. Qed.

  Lemma section_ok p x q : p < W -> p + 4 < W -> js_section W f p = (Ok x, q) ->
    exists t len, t < 2 ^ 32 /\ len < 2 ^ 64 /\ occurs f p (u32 t ++ u64 len) /\
      fst (fst x) = t /\ snd x = p + 12 /\ q = (p + 12 + len) mod W.
  Proof.
    intros _ Hp H. unfold js_section in H. apply mbind_ok in H as (t&s1&H1&H). apply u32_ok in H1 as (Ht&Ho1&->); [|exact Hp].
    pose proof (occ_end _ _ Ho1) as Hl. rewrite blen_u32 in Hl. pose proof len32 as H32.
    apply mbind_ok in H as (len&s2&H2&H). apply u64_ok in H2 as (Hn&Ho2&->); [|lia].
    unfold mbind, js_get, js_goto, ret in H. injection H as <- <-. exists t, len.
    split; [exact Ht|]. split; [exact Hn|]. split; [apply occurs_app; rewrite blen_u32; auto|].
    split; [reflexivity|]. split; [cbn [snd]; lia|]. unfold wadd. rewrite N.add_mod_idemp_r by discriminate. f_equal. lia.
  Qed.
  Lemma section_at p t len : t < 2 ^ 32 -> len < 2 ^ 64 -> occurs f p (u32 t ++ u64 len) ->
    js_section W f p = (Ok (t, len mod W, p + 12), (p + 12 + len) mod W).
  Proof.
    intros Ht Hn Ho. apply occurs_app in Ho as [H1 H2]. rewrite blen_u32 in H2.
    unfold js_section. unfold mbind at 1. rewrite (u32_at p t Ht H1). unfold mbind at 1. rewrite (u64_at _ len Hn H2).
    unfold mbind, js_get, js_goto, ret, wadd. rewrite N.add_mod_idemp_r by discriminate. replace (p + 4 + 8) with (p + 12) by lia. reflexivity.
  Qed.
  Lemma section_panic p : p < W -> 12 <= blen f -> ((exists q, js_section W f p = (Panic, q)) <-> W - 4 <= p).
  Proof.
    intros Hp H12. pose proof len32 as H32. split.
    - intros [q H]. destruct (N.lt_ge_cases p (W - 4)) as [Hs|Hs]; [exfalso|exact Hs].
      unfold js_section in H. apply mbind_panic in H as [H|(t&s1&H1&H)]; [apply u32_no_panic in H; [exact H|lia]|].
      apply u32_ok in H1 as (Ht&Ho1&->); [|lia]. pose proof (occ_end _ _ Ho1) as Hl. rewrite blen_u32 in Hl.
      apply mbind_panic in H as [H|(len&s2&H2&H)]; [apply u64_no_panic in H; [exact H|lia]|].
      unfold mbind, js_get, js_goto, ret in H. discriminate.
    - intros Hs. exists p. unfold js_section, js_u32. unfold mbind at 1 2. rewrite (index_panic 4 JsEof p Hp); [reflexivity|reflexivity|lia..].
  Qed.

  Definition entry (x : N * N * N) : N * N := (fst (fst x), snd x).

  Lemma walks_app p l l' q r : walks f p l q -> walks f q l' r -> walks f p (l ++ l') r.
  Proof. induction 1; intros H'; [exact H'|]. cbn [app]. econstructor; eauto. Qed.

  Lemma sections_ok n : forall p l q, p < W -> mlist n (js_section W f) p = (Ok l, q) ->
    walks f p (map entry l) q /\ List.length l = n /\ q < W.
  Proof.
    induction n as [|n IH]; intros p l q Hp H.
    - injection H as <- <-. split; [constructor|]. auto.
    - cbn [mlist] in H. apply mbind_ok in H as (x&s1&H1&H). apply mbind_ok in H as (l1&s2&H2&H). injection H as <- <-.
      assert (Hq : s1 < W /\ walks f p [entry x] s1).
      { destruct (N.lt_ge_cases (p + 4) W) as [Hs|Hs].
        - apply section_ok in H1 as (t&len&Ht&Hn&Ho&E1&E2&->); [|exact Hp|exact Hs].
          split; [apply N.mod_lt; discriminate|]. unfold entry. rewrite E1, E2.
          econstructor; [exact Ht|exact Hn|exact Ho|]. constructor.
        - exfalso. unfold js_section, js_u32 in H1. apply mbind_ok in H1 as (a&s3&H1&_).
          apply mbind_ok in H1 as (b&s4&H1&_). unfold js_index in H1.
          destruct (_ <? _); [discriminate|]. destruct (slice f p 4) as [b'|] eqn:E; [|discriminate].
          apply slice_some in E as (pre&rest&Hf&Hpre&Hb). assert (blen f = p + 4 + blen rest) by (rewrite Hf, !blen_app; lia).
          pose proof len32. lia. }
      destruct Hq as [Hq Hw]. destruct (IH s1 l1 s2 Hq H2) as (IH1&IH2&IH3). split; [|split; [cbn; congruence|exact IH3]].
      exact (walks_app p [entry x] (map entry l1) s1 s2 Hw IH1).
  Qed.
  Lemma sections_at l p q : walks f p l q ->
    exists l', mlist (List.length l) (js_section W f) p = (Ok l', q) /\ map entry l' = l.
  Proof.
    induction 1 as [p|p t len l q Ht Hn Ho Hw (l'&IH1&IH2)].
    - exists []. split; reflexivity.
    - exists ((t, len mod W, p + 12) :: l'). cbn [List.length mlist map]. split.
      + unfold mbind. rewrite (section_at p t len Ht Hn Ho), IH1. reflexivity.
      + rewrite IH2. reflexivity.
  Qed.

  Lemma find_first ty l p : find_section ty l = Some p <-> first_of ty (map entry l) p.
  Proof.
    unfold find_section. split.
    - intros H. destruct (find (fun x => fst (fst x) =? ty) l) as [[[t n] p']|] eqn:E; [|discriminate]. injection H as ->.
      induction l as [|x l IH]; [discriminate|]. cbn [find] in E. destruct (N.eqb_spec (fst (fst x)) ty) as [Ex|Ex].
      + injection E as ->. cbn [fst] in Ex. subst. exists [], (map entry l). split; [reflexivity|intros []].
      + destruct (IH E) as (l1&l2&El&Hn). exists (entry x :: l1), l2. cbn [map app]. rewrite El. split; [reflexivity|].
        intros [H|H]; [exact (Ex H)|exact (Hn H)].
    - intros (l1&l2&El&Hn). revert l El Hn. induction l1 as [|y l1 IH]; intros l El Hn; (destruct l as [|x l]; [discriminate|]);
        cbn [map app find] in *.
      + destruct x as [[t n] p']. unfold entry in El. cbn [fst snd] in *. injection El as -> -> _. rewrite N.eqb_refl. reflexivity.
      + injection El as Ex El. destruct (N.eqb_spec (fst (fst x)) ty) as [E|E].
        * exfalso. apply Hn. left. rewrite <- Ex. exact E.
        * apply IH; [exact El|]. intros H. apply Hn. right. exact H.
  Qed.

  Lemma walks_start l : forall p q, walks f p l q -> forall ty s, In (ty, s) l -> s <= blen f.
  Proof.
    intros p q H. induction H as [p|p t len l q Ht Hn Ho Hw IH]; intros ty s Hi; [destruct Hi|].
    destruct Hi as [Hi|Hi]; [|eapply IH; exact Hi]. injection Hi as <- <-. apply occ_end in Ho. rewrite blen_app, blen_u32, blen_u64 in Ho. lia.
  Qed.
  Lemma first_start ty l p q s : walks f p l q -> first_of ty l s -> s <= blen f.
  Proof. intros Hw (l1&l2&->&_). apply (walks_start _ _ _ Hw ty). apply in_or_app. right. left. reflexivity. Qed.

  (** ** Header *)
  Lemma occurs_slice_len p k : p + k <= blen f -> exists b, occurs f p b /\ blen b = k.
  Proof.
    intros H. destruct (slice f p k) as [b|] eqn:E; [|apply slice_none in E; lia].
    apply slice_some in E as (pre&rest&Hf&Hp&Hb). exists b. split; [exists pre, rest; auto|exact Hb].
  Qed.

  Lemma header_no_panic p q : p <= blen f -> js_parse_header W f p <> (Panic, q).
  Proof.
    intros Hp H. pose proof len32 as H32. unfold js_parse_header in H.
    apply mbind_panic in H as [H|(fs&s1&H1&H)]; [apply u32_no_panic in H; [exact H|lia]|].
    apply u32_ok in H1 as (Hf&Ho&->); [|lia]. apply occ_end in Ho. rewrite blen_u32 in Ho.
    unfold mbind at 1 in H. cbn [js_get] in H. destruct (N.ltb_spec (blen f) (wadd W (p + 4) fs)) as [Hl|Hl]; cbn [negb] in H; [discriminate|].
    unfold mbind at 1 in H. cbn [js_goto] in H. set (s2 := wadd W (p + 4) fs) in *. clearbody s2. clear p Hp Ho.
    do 4 (apply mbind_panic in H as [H|(?&?&Hx&H)]; [apply u32_no_panic in H; [exact H|lia]|];
      apply u32_ok in Hx as (_&Hl'&->); [|lia]; apply occ_end in Hl'; rewrite blen_u32 in Hl'; clear Hl; rename Hl' into Hl).
    apply mbind_panic in H as [H|(?&?&Hx&H)]; [apply u64_no_panic in H; [exact H|lia]|].
    apply u64_ok in Hx as (_&Hl'&->); [|lia]. apply occ_end in Hl'. rewrite blen_u64 in Hl'.
    apply mbind_panic in H as [H|(?&?&_&H)]; [apply u32_no_panic in H; [exact H|lia]|]. discriminate.
  Qed.

  Lemma header_ok p h q : p <= blen f -> js_parse_header W f p = (Ok h, q) ->
    header_at f p (j_field_size h) (j_n_constraints h).
  Proof.
    intros Hp H. pose proof len32 as H32. unfold js_parse_header in H.
    apply mbind_ok in H as (fs&s1&H1&H). apply u32_ok in H1 as (Hf&Ho&->); [|lia].
    pose proof (occ_end _ _ Ho) as Hl0. rewrite blen_u32 in Hl0.
    unfold mbind at 1 in H. cbn [js_get] in H. destruct (N.ltb_spec (blen f) (wadd W (p + 4) fs)) as [Hl|Hl]; cbn [negb] in H; [discriminate|].
    unfold mbind at 1 in H. cbn [js_goto] in H. change (wadd W (p + 4) fs) with ((p + 4 + fs) mod W) in *.
    set (s2 := (p + 4 + fs) mod W) in *.
    assert (Hgo : j_field_size h = fs /\ j_n_constraints h < 2 ^ 32 /\ exists counts, blen counts = 24 /\ occurs f s2 (counts ++ u32 (j_n_constraints h))).
    2: { destruct Hgo as (->&Hn&Hc). split; [exact Hf|]. split; [exact Hn|]. split; [exact Ho|exact Hc]. }
    clearbody s2. clear Ho Hl0 p Hp.
    apply mbind_ok in H as (v1&s3&H1&H). apply u32_ok in H1 as (_&O1&->); [|lia]. pose proof (occ_end _ _ O1) as L1. rewrite blen_u32 in L1.
    apply mbind_ok in H as (v2&s3&H1&H). apply u32_ok in H1 as (_&O2&->); [|lia]. pose proof (occ_end _ _ O2) as L2. rewrite blen_u32 in L2.
    apply mbind_ok in H as (v3&s3&H1&H). apply u32_ok in H1 as (_&O3&->); [|lia]. pose proof (occ_end _ _ O3) as L3. rewrite blen_u32 in L3.
    apply mbind_ok in H as (v4&s3&H1&H). apply u32_ok in H1 as (_&O4&->); [|lia]. pose proof (occ_end _ _ O4) as L4. rewrite blen_u32 in L4.
    apply mbind_ok in H as (v5&s3&H1&H). apply u64_ok in H1 as (_&O5&->); [|lia]. pose proof (occ_end _ _ O5) as L5. rewrite blen_u64 in L5.
    apply mbind_ok in H as (v6&s3&H1&H). apply u32_ok in H1 as (H6&O6&->); [|lia]. injection H as <- _. cbn [j_field_size j_n_constraints].
    split; [reflexivity|]. split; [exact H6|]. exists (u32 v1 ++ u32 v2 ++ u32 v3 ++ u32 v4 ++ u64 v5).
    split; [rewrite !blen_app, !blen_u32, blen_u64; reflexivity|].
    apply occurs_app. split.
    - apply occurs_app. split; [exact O1|]. rewrite blen_u32. apply occurs_app. split; [exact O2|]. rewrite blen_u32.
      apply occurs_app. split; [exact O3|]. rewrite blen_u32. apply occurs_app. split; [exact O4|]. rewrite blen_u32. exact O5.
    - rewrite !blen_app, !blen_u32, blen_u64. replace (s2 + (4 + (4 + (4 + (4 + 8))))) with (s2 + 4 + 4 + 4 + 4 + 8) by lia. exact O6.
  Qed.

  Lemma split_bytes n : forall b : list byte, n <= blen b -> exists b1 b2, b = b1 ++ b2 /\ blen b1 = n.
  Proof.
    intros b Hb. exists (firstn (N.to_nat n) b), (skipn (N.to_nat n) b). split; [symmetry; apply firstn_skipn|].
    unfold blen in *. rewrite firstn_length. lia.
  Qed.
  Lemma bytes_u32 b : blen b = 4 -> u32 (le_val b) = b /\ le_val b < 2 ^ 32.
  Proof.
    intros Hb. unfold blen in Hb. split.
    - unfold u32. replace 4%nat with (List.length b) by lia. apply le_bytes_le_val.
    - pose proof (le_val_bound b) as Hv. rewrite Hb in Hv. exact Hv.
  Qed.
  Lemma bytes_u64 b : blen b = 8 -> u64 (le_val b) = b /\ le_val b < 2 ^ 64.
  Proof.
    intros Hb. unfold blen in Hb. split.
    - unfold u64. replace 8%nat with (List.length b) by lia. apply le_bytes_le_val.
    - pose proof (le_val_bound b) as Hv. rewrite Hb in Hv. exact Hv.
  Qed.

  Lemma header_found p fs nc : header_at f p fs nc ->
    exists h q, js_parse_header W f p = (Ok h, q) /\ j_field_size h = fs /\ j_n_constraints h = nc.
  Proof.
    intros (Hf&Hn&Ho&counts&Hc&Hoc).
    destruct (split_bytes 4 counts ltac:(lia)) as (b1&c1&->&B1). rewrite blen_app in Hc.
    destruct (split_bytes 4 c1 ltac:(lia)) as (b2&c2&->&B2). rewrite blen_app in Hc.
    destruct (split_bytes 4 c2 ltac:(lia)) as (b3&c3&->&B3). rewrite blen_app in Hc.
    destruct (split_bytes 4 c3 ltac:(lia)) as (b4&b5&->&B4). rewrite blen_app in Hc.
    assert (B5 : blen b5 = 8) by lia. clear Hc.
    repeat rewrite <- app_assoc in Hoc.
    set (s2 := (p + 4 + fs) mod W) in *.
    apply occurs_app in Hoc as [O1 Hoc]. apply occurs_app in Hoc as [O2 Hoc]. apply occurs_app in Hoc as [O3 Hoc].
    apply occurs_app in Hoc as [O4 Hoc]. apply occurs_app in Hoc as [O5 O6]. rewrite B1, B2, B3, B4, B5 in *.
    pose proof (occ_end _ _ O6) as L6. rewrite blen_u32 in L6.
    destruct (bytes_u32 b1 B1) as [U1 V1], (bytes_u32 b2 B2) as [U2 V2], (bytes_u32 b3 B3) as [U3 V3], (bytes_u32 b4 B4) as [U4 V4], (bytes_u64 b5 B5) as [U5 V5].
    rewrite <- U1 in O1. rewrite <- U2 in O2. rewrite <- U3 in O3. rewrite <- U4 in O4. rewrite <- U5 in O5.
    eexists _, _. split.
    - unfold js_parse_header. unfold mbind at 1. rewrite (u32_at _ _ Hf Ho). unfold mbind at 1. cbn [js_get].
      change (wadd W (p + 4) fs) with s2.
      replace (blen f <? s2) with false by (symmetry; apply N.ltb_ge; lia). cbn [negb]. unfold mbind at 1. cbn [js_goto].
      unfold mbind at 1. rewrite (u32_at _ _ V1 O1). unfold mbind at 1. rewrite (u32_at _ _ V2 O2).
      unfold mbind at 1. rewrite (u32_at _ _ V3 O3). unfold mbind at 1. rewrite (u32_at _ _ V4 O4).
      unfold mbind at 1. rewrite (u64_at _ _ V5 O5). unfold mbind at 1. rewrite (u32_at _ _ Hn O6). reflexivity.
    - split; reflexivity.
  Qed.

  (** ** Constraints *)
  Definition zeros (k : nat) : list byte := List.concat (repeat (u32 0) k).
  Lemma blen_zeros k : blen (zeros k) = 4 * N.of_nat k.
  Proof. induction k; [reflexivity|]. unfold zeros in *. cbn [repeat List.concat]. rewrite blen_app, IHk, blen_u32. lia. Qed.
  Lemma zeros_app j k : zeros (j + k) = zeros j ++ zeros k.
  Proof. unfold zeros. rewrite repeat_app. apply concat_app. Qed.

  Variable fs : N.
  Hypothesis Hfs : fs < 2 ^ 32.

  (** What makes linear combination number [k] of the section at [p] panic. *)
  Definition lc_trap (p : N) : Prop :=
    exists m w, m < 2 ^ 32 /\ m <> 0 /\ blen w = 4 /\ occurs f p (u32 m ++ w) /\ W <= p + 8 + fs.

  Lemma factor_panic p q : p <= blen f -> js_factor W f fs p = (Panic, q) ->
    W <= p + 4 + fs /\ exists w, blen w = 4 /\ occurs f p w.
  Proof.
    intros Hp H. pose proof len32 as H32. unfold js_factor in H. apply mbind_panic in H as [H|(w&s1&H1&H)]; [apply u32_no_panic in H; [destruct H|lia]|].
    apply u32_ok in H1 as (Hw&Ho&->); [|lia]. apply mbind_panic in H as [H|(?&?&_&H)]; [|discriminate]. split.
    - destruct (N.lt_ge_cases (p + 4 + fs) W) as [Hs|Hs]; [|exact Hs]. exfalso. exact (index_no_panic _ _ _ _ Hs H).
    - exists (u32 w). rewrite blen_u32. auto.
  Qed.
  Lemma factor_ok p x q : p <= blen f -> js_factor W f fs p = (Ok x, q) -> fs <= blen f /\ q <= blen f.
  Proof.
    intros Hp H. pose proof len32 as H32. unfold js_factor in H. apply mbind_ok in H as (w&s1&H1&H).
    apply u32_ok in H1 as (Hw&Ho&->); [|lia]. apply occ_end in Ho. rewrite blen_u32 in Ho. apply mbind_ok in H as (b&s2&H2&H). injection H as _ <-.
    destruct (N.lt_ge_cases (p + 4 + fs) W) as [Hs|Hs].
    - apply index_ok in H2 as (Hb&Hl&->); [|exact Hs]. apply occ_end in Hb. lia.
    - rewrite index_panic in H2; [discriminate|lia|exact Hfs|exact Hs|]. clear - Hfs Ho. lia.
  Qed.
  Lemma factors_ok n : forall p l q, p <= blen f -> mlist n (js_factor W f fs) p = (Ok l, q) -> (n = 0%nat /\ q = p) \/ fs <= blen f /\ q <= blen f.
  Proof.
    induction n as [|n IH]; intros p l q Hp H; [injection H as _ <-; auto|]. cbn [mlist] in H. apply mbind_ok in H as (x&s1&H1&H).
    apply factor_ok in H1 as [H1 H2]; [|exact Hp]. apply mbind_ok in H as (l1&s2&H3&H). injection H as _ <-.
    destruct (IH s1 l1 s2 H2 H3) as [[_ ->]|[_ Hq]]; auto.
  Qed.

  Lemma lc_ok_cases p l q : p <= blen f -> js_lc W f fs p = (Ok l, q) ->
    q <= blen f /\ (blen f < fs -> occurs f p (u32 0) /\ q = p + 4).
  Proof.
    intros Hp H. pose proof len32 as H32. unfold js_lc in H. apply mbind_ok in H as (n&s1&H1&H). apply u32_ok in H1 as (Hn&Ho&->); [|lia].
    pose proof (occ_end _ _ Ho) as Hl. rewrite blen_u32 in Hl. rewrite mmany_spec in H. apply factors_ok in H; [|exact Hl].
    destruct H as [[H ->]|[H H']]; split; try lia. intros _. replace 0 with n by lia. auto.
  Qed.
  Lemma lc_panic p : p <= blen f -> ((exists q, js_lc W f fs p = (Panic, q)) <-> lc_trap p).
  Proof.
    intros Hp. pose proof len32 as H32. split.
    - intros [q H]. unfold js_lc in H. apply mbind_panic in H as [H|(n&s1&H1&H)]; [apply u32_no_panic in H; [destruct H|lia]|].
      apply u32_ok in H1 as (Hn&Ho&->); [|lia]. pose proof (occ_end _ _ Ho) as Hl. rewrite blen_u32 in Hl. rewrite mmany_spec in H.
      apply mlist_panic in H as (j&l&s1&Hj&H1&H). pose proof (factors_ok j _ _ _ Hl H1) as [[-> ->]|[Hc Hs]].
      + apply factor_panic in H as [Hw (w&Hwl&How)]; [|exact Hl]. exists n, w. split; [exact Hn|]. split; [lia|]. split; [exact Hwl|].
        split; [apply occurs_app; rewrite blen_u32; auto|lia].
      + exfalso. apply factor_panic in H as [Hw (w&Hwl&How)]; [|exact Hs]. apply occ_end in How. rewrite Hwl in How.
        clear - Hw How Hc H32. lia.
    - intros (m&w&Hm&Hm0&Hw&Ho&Hs). apply occurs_app in Ho as [Ho1 Ho2]. rewrite blen_u32 in Ho2.
      pose proof (occ_end _ _ Ho2) as Hl. rewrite Hw in Hl. destruct (bytes_u32 w Hw) as [U V]. rewrite <- U in Ho2.
      exists (p + 8). unfold js_lc. unfold mbind at 1. rewrite (u32_at _ _ Hm Ho1), mmany_spec.
      replace (N.to_nat m) with (Datatypes.S (N.to_nat m - 1)) by lia. cbn [mlist]. unfold mbind at 1. unfold js_factor at 1.
      unfold mbind at 1. rewrite (u32_at _ _ V Ho2). unfold mbind at 1.
      replace (p + 4 + 4) with (p + 8) by lia.
      rewrite index_panic; [reflexivity|lia|exact Hfs|exact Hs|clear - Hfs Hl; lia].
  Qed.

  Lemma trap_big p : lc_trap p -> blen f < fs.
  Proof.
    intros (m&w&_&_&Hw&Ho&Hs). apply occ_end in Ho. rewrite blen_app, blen_u32, Hw in Ho. pose proof len32. lia.
  Qed.

  Lemma lc_zero p : occurs f p (u32 0) -> js_lc W f fs p = (Ok [], p + 4).
  Proof. intros Ho. unfold js_lc. unfold mbind at 1. rewrite (u32_at p 0 eq_refl Ho), mmany_spec. reflexivity. Qed.

  (** Linear combinations number 0 to 2 of the constraint at [p]. *)
  Lemma constraint_cases p : p <= blen f ->
    (forall x q, js_constraint W f fs p = (Ok x, q) -> q <= blen f /\ (blen f < fs -> occurs f p (zeros 3) /\ q = p + 12)) /\
    ((exists q, js_constraint W f fs p = (Panic, q)) <->
     exists i, (i < 3)%nat /\ occurs f p (zeros i) /\ lc_trap (p + 4 * N.of_nat i)).
  Proof.
    intros Hp. split; [|split].
    - intros x q H. unfold js_constraint in H.
      apply mbind_ok in H as (a&s1&H1&H). apply lc_ok_cases in H1 as [L1 H1]; [|exact Hp].
      apply mbind_ok in H as (b&s2&H2&H). apply lc_ok_cases in H2 as [L2 H2]; [|exact L1].
      apply mbind_ok in H as (c&s3&H3&H). apply lc_ok_cases in H3 as [L3 H3]; [|exact L2]. injection H as _ <-.
      split; [exact L3|]. intros Hb. destruct (H1 Hb) as [O1 ->], (H2 Hb) as [O2 ->], (H3 Hb) as [O3 ->].
      split; [|lia]. unfold zeros. cbn [repeat List.concat]. rewrite app_nil_r.
      apply occurs_app. split; [exact O1|]. rewrite blen_u32. apply occurs_app. split; [exact O2|]. rewrite blen_u32. exact O3.
    - intros [q H]. unfold js_constraint in H.
      apply mbind_panic in H as [H|(a&s1&H1&H)].
      { exists 0%nat. split; [lia|]. change (zeros 0) with (@nil byte). rewrite N.mul_0_r, N.add_0_r. split.
        - destruct (occurs_slice_len p 0) as (b&Hb&Hl); [lia|]. destruct b; [exact Hb|unfold blen in Hl; cbn in Hl; lia].
        - apply lc_panic; [exact Hp|]. exists q. exact H. }
      apply lc_ok_cases in H1 as [L1 H1]; [|exact Hp]. apply mbind_panic in H as [H|(b&s2&H2&H)].
      { assert (Ht : lc_trap s1) by (apply lc_panic; [exact L1|exists q; exact H]).
        destruct (H1 (trap_big _ Ht)) as [O1 ->]. exists 1%nat. split; [lia|]. split; [unfold zeros; cbn [repeat List.concat]; rewrite app_nil_r; exact O1|exact Ht]. }
      apply lc_ok_cases in H2 as [L2 H2]; [|exact L1]. apply mbind_panic in H as [H|(c&s3&_&H)]; [|discriminate].
      assert (Ht : lc_trap s2) by (apply lc_panic; [exact L2|exists q; exact H]).
      destruct (H1 (trap_big _ Ht)) as [O1 ->], (H2 (trap_big _ Ht)) as [O2 ->]. exists 2%nat. split; [lia|]. split.
      + unfold zeros; cbn [repeat List.concat]; rewrite app_nil_r. apply occurs_app. rewrite blen_u32. auto.
      + replace (p + 4 * N.of_nat 2) with (p + 4 + 4) by lia. exact Ht.
    - intros (i&Hi&Ho&Ht). assert (Hl : p + 4 * N.of_nat i <= blen f) by (pose proof (occ_end _ _ Ho) as Hl; rewrite blen_zeros in Hl; exact Hl).
      apply lc_panic in Ht as [q Ht]; [|exact Hl]. exists q. unfold js_constraint.
      destruct i as [|[|[|i]]]; [..|lia].
      + rewrite N.mul_0_r, N.add_0_r in Ht. unfold mbind. rewrite Ht. reflexivity.
      + unfold zeros in Ho. cbn [repeat List.concat] in Ho. rewrite app_nil_r in Ho. unfold mbind. rewrite (lc_zero p Ho).
        change (p + 4 * N.of_nat 1) with (p + 4) in Ht. rewrite Ht. reflexivity.
      + unfold zeros in Ho. cbn [repeat List.concat] in Ho. rewrite app_nil_r in Ho. apply occurs_app in Ho as [O1 O2]. rewrite blen_u32 in O2.
        unfold mbind. rewrite (lc_zero p O1), (lc_zero _ O2). replace (p + 4 * N.of_nat 2) with (p + 4 + 4) in Ht by lia. rewrite Ht. reflexivity.
  Qed.

  Lemma constraint_zero p : occurs f p (zeros 3) -> js_constraint W f fs p = (Ok (Constraint [] [] []), p + 12).
  Proof.
    unfold zeros. cbn [repeat List.concat]. rewrite app_nil_r. intros Ho. apply occurs_app in Ho as [O1 Ho]. rewrite blen_u32 in Ho.
    apply occurs_app in Ho as [O2 O3]. rewrite blen_u32 in O3. unfold js_constraint, mbind.
    rewrite (lc_zero _ O1), (lc_zero _ O2), (lc_zero _ O3). unfold ret. f_equal. lia.
  Qed.

  Lemma occurs_nil p : p <= blen f -> occurs f p [].
  Proof.
    intros Hp. destruct (occurs_slice_len p 0) as (b&Hb&Hl); [lia|]. destruct b; [exact Hb|unfold blen in Hl; cbn in Hl; lia].
  Qed.
  Lemma constraints_prefix j : forall p l q, p <= blen f -> mlist j (js_constraint W f fs) p = (Ok l, q) ->
    q <= blen f /\ (blen f < fs -> occurs f p (zeros (3 * j)) /\ q = p + 12 * N.of_nat j).
  Proof.
    induction j as [|j IH]; intros p l q Hp H.
    - injection H as _ <-. split; [exact Hp|]. intros _. split; [apply occurs_nil, Hp|lia].
    - cbn [mlist] in H. apply mbind_ok in H as (x&s1&H1&H). apply mbind_ok in H as (l1&s2&H2&H). injection H as _ <-.
      apply constraint_cases in H1 as [L1 H1]; [|exact Hp]. destruct (IH _ _ _ L1 H2) as [L2 IH2]. split; [exact L2|]. intros Hb.
      destruct (H1 Hb) as [O1 ->], (IH2 Hb) as [O2 ->]. split; [|lia].
      replace (3 * Datatypes.S j)%nat with (3 + 3 * j)%nat by lia. rewrite zeros_app. apply occurs_app. split; [exact O1|].
      rewrite blen_zeros. exact O2.
  Qed.
  Lemma constraints_zero j : forall p, occurs f p (zeros (3 * j)) -> exists l, mlist j (js_constraint W f fs) p = (Ok l, p + 12 * N.of_nat j).
  Proof.
    induction j as [|j IH]; intros p Ho.
    - exists []. cbn. rewrite N.add_0_r. reflexivity.
    - replace (3 * Datatypes.S j)%nat with (3 + 3 * j)%nat in Ho by lia. rewrite zeros_app in Ho. apply occurs_app in Ho as [O1 O2].
      rewrite blen_zeros in O2. destruct (IH _ O2) as [l Hl]. eexists. cbn [mlist]. unfold mbind. rewrite (constraint_zero _ O1).
      change (4 * N.of_nat 3) with 12 in Hl. rewrite Hl. unfold ret. f_equal. lia.
  Qed.

  Lemma constraints_panic nc p : p <= blen f ->
    ((exists q, mmany nc (js_constraint W f fs) p = (Panic, q)) <->
     exists k, N.of_nat k < 3 * nc /\ occurs f p (zeros k) /\ lc_trap (p + 4 * N.of_nat k)).
  Proof.
    intros Hp. split.
    - intros [q H]. rewrite mmany_spec in H. apply mlist_panic in H as (j&l&s1&Hj&H1&H).
      destruct (constraints_prefix _ _ _ _ Hp H1) as [L1 H2].
      destruct (proj1 (proj2 (constraint_cases s1 L1)) (ex_intro _ q H)) as (i&Hi&Ho&Ht).
      destruct (H2 (trap_big _ Ht)) as [Oz ->]. exists (3 * j + i)%nat. split; [lia|]. split.
      + rewrite zeros_app. apply occurs_app. split; [exact Oz|]. rewrite blen_zeros. replace (p + 4 * N.of_nat (3 * j)) with (p + 12 * N.of_nat j) by lia. exact Ho.
      + replace (p + 4 * N.of_nat (3 * j + i)) with (p + 12 * N.of_nat j + 4 * N.of_nat i) by lia. exact Ht.
    - intros (k&Hk&Ho&Ht). pose proof (Nat.div_mod k 3 ltac:(lia)) as Hd. pose proof (Nat.mod_upper_bound k 3 ltac:(lia)) as Hm.
      set (j := (k / 3)%nat) in *. set (i := (k mod 3)%nat) in *. clearbody i j. subst k.
      rewrite zeros_app in Ho. apply occurs_app in Ho as [O1 O2]. rewrite blen_zeros in O2.
      pose proof (occ_end _ _ O1) as Hl. rewrite blen_zeros in Hl.
      destruct (constraints_zero j p O1) as [l Hj]. replace (p + 4 * N.of_nat (3 * j)) with (p + 12 * N.of_nat j) in O2, Hl by lia.
      replace (p + 4 * N.of_nat (3 * j + i)) with (p + 12 * N.of_nat j + 4 * N.of_nat i) in Ht by lia.
      destruct (proj2 (proj2 (constraint_cases _ Hl))) as [q Hq]; [exists i; auto|].
      exists q. rewrite mmany_spec. eapply mlist_panic_intro; [|exact Hj|exact Hq]. lia.
  Qed.
End Panics.

(** ** The whole reader *)
Lemma announces_ok f p : blen f < 2 ^ 31 ->
  forall s1, (do m <- js_index (2 ^ 32) f 4 JsWrongMagic ; check bytes_eqb m magic_r1cs else JsWrongMagic ;
     do v <- js_u32 (2 ^ 32) f ; check v =? 1 else JsWrongVersion ; js_u32 (2 ^ 32) f) 0 = (Ok p, s1) -> announces f p /\ s1 = 12.
Proof.
  intros Hlen s1 H. apply mbind_ok in H as (m&s2&H1&H). apply (index_ok f) in H1 as (Ho&Hl&->); [|reflexivity].
  unfold bytes_eqb in H. destruct (list_eq_dec _ m magic_r1cs) as [->|]; [|discriminate].
  apply mbind_ok in H as (v&s3&H2&H). apply (u32_ok f Hlen) in H2 as (Hv&Ho2&->); [|reflexivity].
  destruct (N.eqb_spec v 1) as [->|]; [|discriminate]. apply (u32_ok f Hlen) in H as (Hn&Ho3&->); [|reflexivity].
  split; [|reflexivity]. split; [exact Hn|]. apply occurs_app. split; [exact Ho|]. apply occurs_app. split; [exact Ho2|exact Ho3].
Qed.

Theorem js_r1cs_panic_iff f : blen f < 2 ^ 31 ->
  (js_parse_r1cs (2 ^ 32) f = Panic <->
   exists n, announces f n /\
     ((exists l q, walks f 12 l q /\ N.of_nat (List.length l) < n /\ 2 ^ 32 - 4 <= q) \/
      (exists l q p1 p2 fs nc k m w,
         walks f 12 l q /\ N.of_nat (List.length l) = n /\ first_of 1 l p1 /\ first_of 2 l p2 /\
         header_at f p1 fs nc /\ N.of_nat k < 3 * nc /\ m < 2 ^ 32 /\ m <> 0 /\ blen w = 4 /\
         occurs f p2 (List.concat (repeat (u32 0) k) ++ u32 m ++ w) /\ 2 ^ 32 <= p2 + 4 * N.of_nat k + 8 + fs))).
Proof.
  intros Hlen. unfold js_parse_r1cs. split.
  - intros H. destruct (js_parse_r1cs_m (2 ^ 32) f 0) as [o s] eqn:E. cbn [fst] in H. subst o.
    unfold js_parse_r1cs_m in E. apply mbind_panic in E as [E|(secs&s1&E1&E)].
    + unfold js_sections in E.
      assert (Hd : (do n <- (do m <- js_index (2 ^ 32) f 4 JsWrongMagic ; check bytes_eqb m magic_r1cs else JsWrongMagic ;
         do v <- js_u32 (2 ^ 32) f ; check v =? 1 else JsWrongVersion ; js_u32 (2 ^ 32) f) ; mmany n (js_section (2 ^ 32) f)) 0 = (Panic, s)).
      { rewrite <- E. clear. unfold mbind. destruct (js_index _ _ _ _ _) as [[m|e|] s1]; try reflexivity.
        destruct (bytes_eqb m magic_r1cs); [|reflexivity]. destruct (js_u32 _ _ s1) as [[v|e|] s2]; try reflexivity.
        destruct (v =? 1); [|reflexivity]. reflexivity. }
      clear E. apply mbind_panic in Hd as [Hd|(n&s1&Hn&Hd)].
      * exfalso. apply mbind_panic in Hd as [Hd|(m&s2&H1&Hd)]; [apply (index_no_panic f Hlen) in Hd; [exact Hd|reflexivity]|].
        apply (index_ok f) in H1 as (_&_&->); [|reflexivity]. destruct bytes_eqb; [|discriminate].
        apply mbind_panic in Hd as [Hd|(v&s3&H2&Hd)]; [apply (u32_no_panic f Hlen) in Hd; [exact Hd|reflexivity]|].
        apply (u32_ok f Hlen) in H2 as (_&_&->); [|reflexivity]. destruct (v =? 1); [|discriminate]. apply (u32_no_panic f Hlen) in Hd; [exact Hd|reflexivity].
      * apply announces_ok in Hn as [Ha ->]; [|exact Hlen]. exists n. split; [exact Ha|]. left.
        assert (H12 : 12 <= blen f) by (destruct Ha as [_ Ha]; apply occurs_le in Ha; rewrite !blen_app, !blen_u32 in Ha; exact Ha).
        rewrite mmany_spec in Hd. apply mlist_panic in Hd as (j&l&q&Hj&Hl&Hp).
        apply (sections_ok f Hlen) in Hl as (Hw&Hll&Hq); [|reflexivity].
        apply (ex_intro (fun q' => js_section (2 ^ 32) f q = (Panic, q'))) in Hp. apply (section_panic f Hlen) in Hp; [|exact Hq|exact H12].
        exists (map entry l), q. rewrite map_length. split; [exact Hw|]. split; [lia|exact Hp].
    + unfold js_sections in E1.
      assert (Hd : (do n <- (do m <- js_index (2 ^ 32) f 4 JsWrongMagic ; check bytes_eqb m magic_r1cs else JsWrongMagic ;
         do v <- js_u32 (2 ^ 32) f ; check v =? 1 else JsWrongVersion ; js_u32 (2 ^ 32) f) ; mmany n (js_section (2 ^ 32) f)) 0 = (Ok secs, s1)).
      { rewrite <- E1. clear. unfold mbind. destruct (js_index _ _ _ _ _) as [[m|e|] s1]; try reflexivity.
        destruct (bytes_eqb m magic_r1cs); [|reflexivity]. destruct (js_u32 _ _ s1) as [[v|e|] s2]; try reflexivity.
        destruct (v =? 1); [|reflexivity]. reflexivity. }
      clear E1. apply mbind_ok in Hd as (n&s2&Hn&Hd). apply announces_ok in Hn as [Ha ->]; [|exact Hlen].
      rewrite mmany_spec in Hd. apply (sections_ok f Hlen) in Hd as (Hw&Hll&Hq); [|reflexivity].
      exists n. split; [exact Ha|]. right.
      destruct (find_section 1 secs) as [p1|] eqn:F1; [|discriminate]. apply find_first in F1.
      pose proof (first_start f Hlen _ _ _ _ _ Hw F1) as L1.
      apply mbind_panic in E as [E|(u&s3&E0&E)]; [discriminate|]. injection E0 as _ <-.
      apply mbind_panic in E as [E|(h&s4&Eh&E)]; [exfalso; exact (header_no_panic f Hlen _ _ L1 E)|].
      apply (header_ok f Hlen) in Eh; [|exact L1].
      destruct (find_section 2 secs) as [p2|] eqn:F2; [|discriminate]. apply find_first in F2.
      pose proof (first_start f Hlen _ _ _ _ _ Hw F2) as L2.
      apply mbind_panic in E as [E|(u'&s5&E0&E)]; [discriminate|]. injection E0 as _ <-.
      apply mbind_panic in E as [E|(cs&s6&_&E)]; [|discriminate].
      apply (ex_intro (fun q' => mmany (j_n_constraints h) (js_constraint (2 ^ 32) f (j_field_size h)) p2 = (Panic, q'))) in E.
      apply (constraints_panic f Hlen (j_field_size h) (proj1 Eh)) in E as (k&Hk&Ho&m&w&Hm&Hm0&Hwl&Ho2&Hs); [|exact L2].
      exists (map entry secs), s1, p1, p2, (j_field_size h), (j_n_constraints h), k, m, w. rewrite map_length.
      split; [exact Hw|]. split; [lia|]. split; [exact F1|]. split; [exact F2|]. split; [exact Eh|]. split; [exact Hk|].
      split; [exact Hm|]. split; [exact Hm0|]. split; [exact Hwl|]. split; [|exact Hs].
      apply occurs_app. split; [exact Ho|]. fold (zeros k). rewrite (blen_zeros f Hlen). exact Ho2.
  - intros (n&(Hn&Ha)&H).
    assert (H12 : 12 <= blen f) by (apply occurs_le in Ha; rewrite !blen_app, !blen_u32 in Ha; exact Ha).
    assert (Hs : forall s, js_sections (2 ^ 32) f 0 = s <-> mlist (N.to_nat n) (js_section (2 ^ 32) f) 12 = s).
    { intros s. enough (js_sections (2 ^ 32) f 0 = mlist (N.to_nat n) (js_section (2 ^ 32) f) 12) as -> by reflexivity.
      apply occurs_app in Ha as [A1 Ha]. apply occurs_app in Ha as [A2 A3]. rewrite blen_u32 in A3.
      unfold js_sections. unfold mbind at 1. rewrite (jyields_index (2 ^ 32) f (HWf f Hlen) ascii_r1cs 4 _ eq_refl 0 A1).
      change (bytes_eqb ascii_r1cs magic_r1cs) with true. cbv iota.
      unfold mbind at 1. rewrite (u32_at f Hlen _ 1 eq_refl A2). change (1 =? 1) with true. cbv iota.
      unfold mbind at 1. rewrite (u32_at f Hlen _ n Hn A3), mmany_spec. reflexivity. }
    unfold js_parse_r1cs_m. destruct H as [(l&q&Hw&Hl&Hq)|(l&q&p1&p2&fs&nc&k&m&w&Hw&Hl&F1&F2&Hh&Hk&Hm&Hm0&Hwl&Ho&Hbig)].
    + destruct (sections_at f Hlen l 12 q Hw) as (l'&Hl'&_).
      pose proof (sections_ok f Hlen (List.length l) 12 l' q eq_refl Hl') as (_&_&Hq2).
      destruct (proj2 (section_panic f Hlen q Hq2 H12) Hq) as [s Hp].
      assert (Hpan : mlist (N.to_nat n) (js_section (2 ^ 32) f) 12 = (Panic, s)) by (eapply mlist_panic_intro; [|exact Hl'|exact Hp]; lia).
      apply Hs in Hpan. unfold mbind. rewrite Hpan. reflexivity.
    + destruct (sections_at f Hlen l 12 q Hw) as (l'&Hl'&El). replace (List.length l) with (N.to_nat n) in Hl' by lia.
      apply Hs in Hl'. unfold mbind at 1. rewrite Hl'. rewrite <- El in F1, F2, Hw.
      pose proof (first_start f Hlen _ _ _ _ _ Hw F2) as L2.
      apply find_first in F1. apply find_first in F2. rewrite F1. unfold mbind at 1. cbn [js_goto].
      destruct (header_found f Hlen p1 fs nc Hh) as (h&s&Eh&Efs&Enc). unfold mbind at 1. rewrite Eh, F2. unfold mbind at 1. cbn [js_goto].
      rewrite Efs, Enc. apply occurs_app in Ho as [O1 O2]. fold (zeros k) in O1, O2. rewrite (blen_zeros f Hlen) in O2.
      destruct (proj2 (constraints_panic f Hlen fs (proj1 Hh) nc p2 L2)) as [s' Hp].
      { exists k. split; [exact Hk|]. split; [exact O1|]. exists m, w. auto 10. }
      unfold mbind at 1. rewrite Hp. reflexivity.
Qed.
