(** Facts about the BLAKE3 model: the recursion computes the tree of SpecBlake3.v, and the result has
    32 bytes. *)
From Coq Require Import List Bool Arith NArith Lia.
From Coq Require Import Strings.Byte.
From Verif Require Import Bytes Blake3 SpecBlake3.
Import ListNotations.
Local Open Scope nat_scope.

Lemma flat_map_len4 (l : list N) : length (flat_map (le_bytes 4) l) = 4 * length l.
Proof. induction l as [|a l IH]; [reflexivity|]. cbn [flat_map length]. rewrite app_length, le_bytes_length, IH. lia. Qed.
Lemma blake3_length b : length (blake3 b) = 32.
Proof. unfold blake3, root_bytes. rewrite flat_map_len4. unfold compress3. rewrite map_length, seq_length. reflexivity. Qed.

(** *** Chunks *)
Lemma chunk_loop_sound counter : forall fuel f cv b, (f = chunk_start \/ f = 0%N) ->
  length b <= 64 * fuel -> length b <> 0 \/ f = chunk_start ->
  exists bs last f' cv', b = concat bs ++ last /\ length last <= 64 /\ (last = [] -> bs = []) /\
    chain counter f cv bs f' cv' /\ 
    chunk_loop fuel cv counter f b = Node3 cv' (words3 last) counter (N.of_nat (length last)) (f' + chunk_end).
Proof.
  assert (Hor : forall f, (f = chunk_start \/ f = 0%N) -> N.lor f chunk_end = (f + chunk_end)%N) by (intros f [->| ->]; reflexivity).
  induction fuel as [|fuel IH]; intros f cv b Hf Hl Hne.
  - exists [], b, f, cv. split; [reflexivity|]. split; [lia|]. split; [reflexivity|]. split; [constructor|].
    cbn [chunk_loop]. rewrite Hor by exact Hf. reflexivity.
  - cbn [chunk_loop]. destruct (Nat.ltb_spec 64 (length b)) as [Hb|Hb].
    + destruct (IH 0%N (compress3 cv (words3 (firstn 64 b)) counter 64 f) (skipn 64 b)) as (bs&last&f'&cv'&E1&E2&E3&E4&E5).
      { right; reflexivity. } { rewrite skipn_length. lia. } { left. rewrite skipn_length. lia. }
      exists (firstn 64 b :: bs), last, f', cv'. split; [|split; [exact E2|split; [|split; [|exact E5]]]].
      * cbn [concat]. rewrite <- app_assoc, <- E1. symmetry. apply firstn_skipn.
      * intros ->. specialize (E3 eq_refl). subst bs. exfalso. apply (f_equal (@length byte)) in E1. rewrite skipn_length in E1. cbn in E1. lia.
      * constructor; [|exact E4]. rewrite firstn_length. lia.
    + exists [], b, f, cv. split; [reflexivity|]. split; [lia|]. split; [reflexivity|]. split; [constructor|].
      rewrite Hor by exact Hf. reflexivity.
Qed.
Lemma chunk_node_sound counter b : length b <= 1024 -> chunk counter b (chunk_node counter b).
Proof.
  intros Hl. destruct (chunk_loop_sound counter 16 chunk_start iv3 b) as (bs&last&f'&cv'&E1&E2&E3&E4&E5).
  - left; reflexivity. - lia. - right; reflexivity.
  - unfold chunk_node. rewrite E5. apply (chunk_intro counter b bs last f' cv' Hl E1 E2 E3 E4).
Qed.

(** The cut into blocks is unique. *)
Lemma chain_cut counter f cv bs f' cv' : chain counter f cv bs f' cv' -> Forall (fun b => length b = 64) bs.
Proof. induction 1; constructor; assumption. Qed.
Lemma cut_unique : forall bs bs' (last last' : list byte),
  Forall (fun b => length b = 64) bs -> Forall (fun b => length b = 64) bs' ->
  length last <= 64 -> length last' <= 64 -> (last = [] -> bs = []) -> (last' = [] -> bs' = []) ->
  concat bs ++ last = concat bs' ++ last' -> bs = bs' /\ last = last'.
Proof.
  induction bs as [|b bs IH]; intros bs' last last' H1 H2 L1 L2 N1 N2 E.
  - destruct bs' as [|b' bs']; [split; [reflexivity|exact E]|]. exfalso.
    inversion H2 as [|? ? Hb' _]; subst. cbn [concat app] in E. apply (f_equal (@length byte)) in E.
    rewrite !app_length in E. destruct last'; [discriminate (N2 eq_refl)|]. cbn [length] in *. lia.
  - inversion H1 as [|? ? Hb Hbs]; subst. destruct bs' as [|b' bs'].
    + exfalso. cbn [concat app] in E. apply (f_equal (@length byte)) in E. rewrite !app_length in E.
      destruct last; [discriminate (N1 eq_refl)|]. cbn [length] in *. lia.
    + inversion H2 as [|? ? Hb' Hbs']; subst. cbn [concat] in E. rewrite <- !app_assoc in E.
      assert (b = b' /\ concat bs ++ last = concat bs' ++ last') as [-> E'].
      { apply (f_equal (firstn 64)) in E as Ea. apply (f_equal (skipn 64)) in E as Eb.
        rewrite <- Hb in Ea at 1. rewrite <- Hb' in Ea. rewrite <- Hb in Eb at 1. rewrite <- Hb' in Eb.
        rewrite !firstn_app, !skipn_app, !firstn_all, !skipn_all, !Nat.sub_diag in *.
        cbn [firstn skipn] in *. rewrite !app_nil_r in Ea. cbn [app] in Eb. split; assumption. }
      destruct (IH bs' last last' Hbs Hbs' L1 L2) as [-> ->]; auto.
      * intros H. specialize (N1 H). discriminate.
      * intros H. specialize (N2 H). discriminate.
Qed.
Lemma chain_fun counter f cv bs f1 cv1 : chain counter f cv bs f1 cv1 -> forall f2 cv2, chain counter f cv bs f2 cv2 -> f1 = f2 /\ cv1 = cv2.
Proof.
  induction 1 as [f cv|f cv b bs f' cv' Hb _ IH]; intros f2 cv2 H; inversion H; subst; [split; reflexivity|]. apply IH. assumption.
Qed.
Lemma chunk_fun counter b n1 n2 : chunk counter b n1 -> chunk counter b n2 -> n1 = n2.
Proof.
  intros [bs last f cv L1 E1 K1 N1 C1] [bs' last' f' cv' L2 E2 K2 N2 C2].
  destruct (cut_unique bs bs' last last') as [-> ->]; try assumption.
  - apply chain_cut in C1. exact C1. - apply chain_cut in C2. exact C2. - congruence.
  - destruct (chain_fun _ _ _ _ _ _ C1 _ _ C2) as [-> ->]. reflexivity.
Qed.

(** *** The tree *)
Lemma left_len_bounds n : 1024 < n -> let k := Nat.log2 ((n - 1) / 1024) in 1024 * 2 ^ k < n /\ n <= 2 * (1024 * 2 ^ k).
Proof.
  intros Hn k. pose proof (Nat.div_mod (n - 1) 1024 ltac:(discriminate)) as Hd.
  pose proof (Nat.mod_upper_bound (n - 1) 1024 ltac:(discriminate)) as Hm.
  set (q := (n - 1) / 1024) in *. assert (Hq : 0 < q) by lia.
  destruct (Nat.log2_spec q Hq) as [Ha Hb]. fold k in Ha, Hb. cbn [Nat.pow] in Hb. lia.
Qed.
Lemma left_len_unique n k : 1024 * 2 ^ k < n -> n <= 2 * (1024 * 2 ^ k) -> k = Nat.log2 ((n - 1) / 1024).
Proof.
  intros H1 H2. symmetry. apply Nat.log2_unique; [lia|]. cbn [Nat.pow]. split.
  - apply Nat.div_le_lower_bound; lia.
  - apply Nat.div_lt_upper_bound; lia.
Qed.
Lemma tree_sound : forall fuel counter b, length b <= fuel -> subtree counter b (tree3 fuel counter b).
Proof.
  induction fuel as [|fuel IH]; intros counter b Hl; cbn [tree3].
  - constructor. apply chunk_node_sound. lia.
  - destruct (Nat.ltb_spec 1024 (length b)) as [Hb|Hb].
    + cbv zeta. unfold left_len. pose proof (left_len_bounds (length b) Hb) as Hk. cbv zeta in Hk.
      set (k := Nat.log2 ((length b - 1) / 1024)) in *. destruct Hk as [Hk1 Hk2].
      assert (Hp : 1 <= 2 ^ k) by (pose proof (Nat.pow_nonzero 2 k ltac:(discriminate)); lia).
      replace (1024 * 2 ^ k / 1024) with (2 ^ k) by (rewrite Nat.mul_comm, Nat.div_mul; [reflexivity|discriminate]).
      rewrite <- (firstn_skipn (1024 * 2 ^ k) b) at 1.
      replace (N.of_nat (2 ^ k)) with (2 ^ N.of_nat k)%N by (rewrite Nnat.Nat2N.inj_pow; reflexivity).
      apply subtree_parent with (k := k).
      * rewrite firstn_length. lia.
      * intros E. apply (f_equal (@length byte)) in E. rewrite skipn_length in E. cbn [length] in E. lia.
      * rewrite firstn_length, skipn_length. lia.
      * apply IH. rewrite firstn_length. lia.
      * apply IH. rewrite skipn_length. lia.
    + constructor. apply chunk_node_sound. exact Hb.
Qed.
Lemma subtree_fun counter b n1 : subtree counter b n1 -> forall n2, subtree counter b n2 -> n1 = n2.
Proof.
  induction 1 as [counter b n Hc|counter l r k nl nr Hl Hr Hlr S1 IH1 S2 IH2]; intros n2 H.
  - inversion H as [? ? ? Hc'|? l r k nl nr Hl Hr Hlr S1 S2]; subst; [eapply chunk_fun; eassumption|].
    exfalso. destruct Hc as [bs last f cv L1 _ _ _ _]. rewrite app_length in L1.
    assert (length r <> 0) by (destruct r; [congruence|discriminate]).
    pose proof (Nat.pow_nonzero 2 k ltac:(discriminate)). lia.
  - remember (l ++ r) as b eqn:Eb. destruct H as [counter b n Hc|counter l' r' k' nl' nr' Hl' Hr' Hlr' S1' S2'].
    + exfalso. destruct Hc as [bs last f cv L1 _ _ _ _]. rewrite Eb, app_length in L1.
      assert (length r <> 0) by (destruct r; [congruence|discriminate]).
      pose proof (Nat.pow_nonzero 2 k ltac:(discriminate)). lia.
    + assert (Nr : length r <> 0) by (destruct r; [congruence|discriminate]).
      assert (Nr' : length r' <> 0) by (destruct r'; [congruence|discriminate]).
      assert (El : length l' + length r' = length l + length r) by (rewrite <- !app_length, Eb; reflexivity).
      assert (Hk : k' = k).
      { rewrite (left_len_unique (length l + length r) k'), (left_len_unique (length l + length r) k); lia. }
      subst k'. assert (l' = l /\ r' = r) as [-> ->].
      { apply (f_equal (firstn (1024 * 2 ^ k))) in Eb as Ea. apply (f_equal (skipn (1024 * 2 ^ k))) in Eb.
        rewrite <- Hl' in Ea at 1. rewrite <- Hl in Ea. rewrite <- Hl' in Eb at 1. rewrite <- Hl in Eb.
        rewrite !firstn_app, !firstn_all, !Nat.sub_diag in Ea. rewrite !skipn_app, !skipn_all, !Nat.sub_diag in Eb.
        cbn [firstn skipn app] in *. rewrite !app_nil_r in Ea. split; assumption. }
      rewrite (IH1 nl' S1'), (IH2 nr' S2'). reflexivity.
Qed.
Lemma blake3_spec b h : blake3 b = h <-> is_blake3 b h.
Proof.
  unfold blake3, is_blake3. split.
  - intros <-. exists (tree3 (length b) 0 b). split; [apply tree_sound; apply le_n|reflexivity].
  - intros (n&Hn&->). rewrite (subtree_fun 0%N b n Hn (tree3 (length b) 0 b)); [reflexivity|apply tree_sound; apply le_n].
Qed.
