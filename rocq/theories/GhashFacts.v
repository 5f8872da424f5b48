(** Facts about GHASH as a polynomial over GF(2^128). *)
From Coq Require Import List Bool Arith NArith Lia Field.
From Coq Require Import Strings.Byte.
From Verif Require Import Res Bytes Fld Poly Gcm SpecGcm GcmFacts Gf128 SpecGhash.
Import ListNotations.
Local Open Scope N_scope.
Local Opaque gf_mul.

(** ** Polynomials modulo gcm_poly *)
Lemma xor_all_app a b : xor_all (a ++ b) = xor_all a (+) xor_all b.
Proof. induction a as [|x a IH]; cbn [xor_all app fold_right]; [rewrite N.lxor_0_l; reflexivity|]. fold (xor_all (a ++ b)). fold (xor_all a). rewrite IH, N.lxor_assoc. reflexivity. Qed.
Lemma xor_all_add {A} (f g : A -> N) l : xor_all (map (fun i => f i (+) g i) l) = xor_all (map f l) (+) xor_all (map g l).
Proof.
  induction l as [|x l IH]; [reflexivity|]. cbn [map xor_all fold_right].
  fold (xor_all (map (fun i => f i (+) g i) l)) (xor_all (map f l)) (xor_all (map g l)). rewrite IH. apply swap4.
Qed.
Lemma multiple_0 p : poly_multiple p 0. Proof. exists []. reflexivity. Qed.
Lemma multiple_add p a b : poly_multiple p a -> poly_multiple p b -> poly_multiple p (a (+) b).
Proof. intros [l ->] [l' ->]. exists (l ++ l'). rewrite map_app, xor_all_app. reflexivity. Qed.
Lemma multiple_shift p a i : poly_multiple p a -> poly_multiple p (N.shiftl a i).
Proof.
  intros [l ->]. exists (map (fun j => j + i) l). rewrite map_map. induction l as [|j l IH]; [apply N.shiftl_0_l|].
  cbn [map xor_all fold_right]. fold (xor_all (map (N.shiftl p) l)). rewrite N.shiftl_lxor, IH, N.shiftl_shiftl. reflexivity.
Qed.
Lemma multiple_self p : poly_multiple p p.
Proof. exists [0]. cbn [map xor_all fold_right]. rewrite N.lxor_0_r, N.shiftl_0_r. reflexivity. Qed.
Lemma multiple_all {A} p (f : A -> N) l : (forall x, In x l -> poly_multiple p (f x)) -> poly_multiple p (xor_all (map f l)).
Proof.
  induction l as [|x l IH]; intros H; [apply multiple_0|]. cbn [map xor_all fold_right]. apply multiple_add.
  - apply H. left. reflexivity.
  - apply IH. intros y Hy. apply H. right. exact Hy.
Qed.

Lemma pick_add (c : N) x y : (if xorb x y then c else 0) = (if x then c else 0) (+) (if y then c else 0).
Proof. destruct x, y; cbn [xorb]; rewrite ?N.lxor_nilpotent, ?N.lxor_0_r, ?N.lxor_0_l; reflexivity. Qed.
Lemma block_poly_add a b : block_poly (a (+) b) = block_poly a (+) block_poly b.
Proof.
  unfold block_poly. rewrite <- xor_all_add. f_equal. apply map_ext. intros i. rewrite N.lxor_spec. apply pick_add.
Qed.
Lemma xor_all_bit {A} (f : A -> N) l j : N.testbit (xor_all (map f l)) j = fold_right xorb false (map (fun x => N.testbit (f x) j) l).
Proof.
  induction l as [|x l IH]; [apply N.bits_0|]. cbn [map xor_all fold_right]. fold (xor_all (map f l)).
  rewrite N.lxor_spec, IH. reflexivity.
Qed.
Lemma xor_pick (b : nat -> bool) j l : NoDup l ->
  fold_right xorb false (map (fun i => if Nat.eqb i j then b i else false) l) = if in_dec Nat.eq_dec j l then b j else false.
Proof.
  induction 1 as [|i l Hi Hl IH]; [reflexivity|]. cbn [map fold_right]. rewrite IH.
  destruct (Nat.eqb_spec i j) as [->|Hne].
  - destruct (in_dec Nat.eq_dec j l) as [|_]; [contradiction|].
    destruct (in_dec Nat.eq_dec j (j :: l)) as [_|Hn]; [apply xorb_false_r|exfalso; apply Hn; left; reflexivity].
  - rewrite xorb_false_l.
    destruct (in_dec Nat.eq_dec j l) as [Hj|Hj], (in_dec Nat.eq_dec j (i :: l)) as [Hk|Hk]; try reflexivity.
    + exfalso. apply Hk. right. exact Hj.
    + destruct Hk as [Hk|Hk]; [|contradiction]. congruence.
Qed.
Lemma block_poly_bit a j : a < 2 ^ 128 -> (j < 128)%nat -> N.testbit (block_poly a) (N.of_nat j) = N.testbit a (N.of_nat (127 - j)).
Proof.
  intros _ Hj. unfold block_poly. rewrite xor_all_bit.
  rewrite (map_ext _ (fun i => if Nat.eqb i j then N.testbit a (N.of_nat (127 - i)) else false)).
  - rewrite xor_pick by apply seq_NoDup. destruct (in_dec Nat.eq_dec j (seq 0 128)) as [_|Hn]; [reflexivity|].
    exfalso. apply Hn. apply in_seq. lia.
  - intros i. destruct (N.testbit a (N.of_nat (127 - i))); [|rewrite N.bits_0; destruct (Nat.eqb i j); reflexivity].
    rewrite N.pow2_bits_eqb. destruct (Nat.eqb_spec i j) as [->|Hne]; [apply N.eqb_refl|].
    apply N.eqb_neq. lia.
Qed.
Lemma basis_vstep : on_basis (fun v => block_poly (vstep v)) (fun v => N.shiftl (block_poly v) 1 (+) (if N.testbit v 0 then gcm_poly else 0)) = true.
Proof. vm_compute. reflexivity. Qed.
Lemma block_poly_vstep v : v < 2 ^ 128 -> block_poly (vstep v) = N.shiftl (block_poly v) 1 (+) (if N.testbit v 0 then gcm_poly else 0).
Proof.
  apply (additive_basis (fun v => block_poly (vstep v)) (fun v => N.shiftl (block_poly v) 1 (+) (if N.testbit v 0 then gcm_poly else 0))); [| |exact basis_vstep].
  - intros x y _ _. rewrite vstep_add. apply block_poly_add.
  - intros x y _ _. rewrite block_poly_add, N.shiftl_lxor, N.lxor_spec, pick_add. apply swap4.
Qed.

Fixpoint vpow (n : nat) (v : N) : N := match n with O => v | S n => vstep (vpow n v) end.
Lemma vpow_vstep n v : vpow n (vstep v) = vstep (vpow n v).
Proof. induction n as [|n IH]; [reflexivity|]. cbn [vpow]. rewrite IH. reflexivity. Qed.
Lemma vpow_lt n v : v < 2 ^ 128 -> vpow n v < 2 ^ 128.
Proof. intros H. induction n; [exact H|]. apply vstep_lt. assumption. Qed.
Lemma vpow_poly n v : v < 2 ^ 128 -> poly_multiple gcm_poly (N.shiftl (block_poly v) (N.of_nat n) (+) block_poly (vpow n v)).
Proof.
  intros Hv. induction n as [|n IH].
  - cbn [vpow]. change (N.of_nat 0) with 0. rewrite N.shiftl_0_r, N.lxor_nilpotent. apply multiple_0.
  - cbn [vpow]. rewrite block_poly_vstep by (apply vpow_lt; exact Hv).
    rewrite Nat2N.inj_succ, <- N.add_1_r, <- N.shiftl_shiftl. rewrite <- N.lxor_assoc, <- N.shiftl_lxor.
    apply multiple_add; [apply multiple_shift; exact IH|].
    destruct (N.testbit (vpow n v) 0); [apply multiple_self|apply multiple_0].
Qed.
Lemma loop_sum n x z v : gf_mul_loop n x z v
  = z (+) xor_all (map (fun j => if N.testbit x (N.of_nat (n - 1 - j)) then vpow j v else 0) (seq 0 n)).
Proof.
  revert z v. induction n as [|n IH]; intros z v; [cbn; rewrite N.lxor_0_r; reflexivity|].
  rewrite loop_S, IH. rewrite <- cons_seq, <- seq_shift. rewrite map_cons, map_map. cbn [xor_all fold_right].
  change (fold_right N.lxor 0 ?l) with (xor_all l).
  replace (S n - 1 - 0)%nat with n by lia. cbn [vpow]. rewrite <- N.lxor_assoc. f_equal.
  - destruct (N.testbit x (N.of_nat n)); [reflexivity|]. rewrite N.lxor_0_r. reflexivity.
  - f_equal. apply map_ext. intros j. rewrite vpow_vstep. replace (S n - 1 - S j)%nat with (n - 1 - j)%nat by lia. reflexivity.
Qed.
Lemma block_poly_sum {A} (f : A -> N) l : block_poly (xor_all (map f l)) = xor_all (map (fun x => block_poly (f x)) l).
Proof.
  induction l as [|x l IH]; [vm_compute; reflexivity|]. cbn [map xor_all fold_right].
  fold (xor_all (map f l)) (xor_all (map (fun x => block_poly (f x)) l)). rewrite block_poly_add, IH. reflexivity.
Qed.
Lemma block_poly_0 : block_poly 0 = 0. Proof. vm_compute. reflexivity. Qed.
Lemma gf_mul_poly a b : a < 2 ^ 128 -> b < 2 ^ 128 ->
  poly_multiple gcm_poly (poly_times (block_poly a) (block_poly b) (+) block_poly (gf_mul a b)).
Proof.
  intros Ha Hb. rewrite gf_mul_unfold, loop_sum, N.lxor_0_l, block_poly_sum. unfold poly_times.
  rewrite <- xor_all_add. apply multiple_all. intros j Hj. apply in_seq in Hj.
  rewrite block_poly_bit by (auto; lia). replace (128 - 1 - j)%nat with (127 - j)%nat by lia.
  destruct (N.testbit a (N.of_nat (127 - j))).
  - apply vpow_poly. exact Hb.
  - rewrite block_poly_0, N.lxor_0_r. apply multiple_0.
Qed.

(** ** GHASH is a polynomial in the hash key *)
Section Hash.
  Local Open Scope fld_scope.
  Add Field gffld : (f_th Gf128).

  Definition gf_red (n : N) : Gf128 := gf_of (n mod 2 ^ 128) (N.mod_lt n (2 ^ 128) ltac:(discriminate)).
  Lemma gf_red_val n : (n < 2 ^ 128)%N -> gf_val (gf_red n) = n.
  Proof. intros H. cbn. apply N.mod_small. exact H. Qed.

  Lemma horner_poly (l : list Gf128) (h : Gf128) :
    fold_left (fun a b => (a + b) * h) l f0 = peval (f0 :: rev l) h.
  Proof.
    induction l as [|b l IH] using rev_ind; [cbn [fold_left rev peval]; ring|].
    rewrite fold_left_app, rev_app_distr. cbn [fold_left rev app]. rewrite IH. cbn [peval]. ring.
  Qed.

  Lemma fold_gf (l : list N) (h : N) (a : N) :
    (h < 2 ^ 128)%N -> (a < 2 ^ 128)%N -> (forall b, In b l -> (b < 2 ^ 128)%N) ->
    fold_left (fun a b => gf_mul (a (+) b) h) l a
    = gf_val (fold_left (fun a b => (a + b) * gf_red h) (map gf_red l) (gf_red a)).
  Proof.
    intros Hh. revert a. induction l as [|b l IH]; intros a Ha Hl; [symmetry; apply gf_red_val; exact Ha|].
    cbn [map]. rewrite !fold_left_cons.
    assert (Hb : (b < 2 ^ 128)%N) by (apply Hl; left; reflexivity).
    rewrite IH; [|apply gf_lt; exact Hh|intros; apply Hl; right; assumption].
    f_equal. f_equal. apply gf_val_inj. rewrite gf_red_val by (apply gf_lt; exact Hh).
    change (gf_val ((gf_red a + gf_red b) * gf_red h)) with (gf_mul (gf_val (gf_red a) (+) gf_val (gf_red b)) (gf_val (gf_red h))).
    rewrite !gf_red_val by assumption. reflexivity.
  Qed.

  Lemma block_of_lt c i : (block_of c i < 2 ^ 128)%N.
  Proof.
    unfold block_of. eapply N.lt_le_trans; [apply be_val_bound|]. rewrite map_length, seq_length. vm_compute. discriminate.
  Qed.
  Lemma ghash_blocks_lt c : (blen c <= gcm_limit)%N -> forall b, In b (ghash_blocks c) -> (b < 2 ^ 128)%N.
  Proof.
    intros Hc b Hb. unfold ghash_blocks in Hb. apply in_app_iff in Hb. destruct Hb as [Hb|[<-|[]]].
    - apply in_map_iff in Hb. destruct Hb as (i&<-&_). apply block_of_lt.
    - revert Hc. change gcm_limit with 68719476704%N. change (2 ^ 128)%N with 340282366920938463463374607431768211456%N. lia.
  Qed.
  Definition hash_poly (c : list byte) : list Gf128 := f0 :: rev (map gf_red (ghash_blocks c)).
  Definition spec_ghash (h : N) (c : list byte) : N := fold_left (fun acc b => gf_mul (acc (+) b) h) (ghash_blocks c) 0%N.
  Lemma spec_ghash_poly h c : (h < 2 ^ 128)%N -> (blen c <= gcm_limit)%N ->
    spec_ghash h c = gf_val (peval (hash_poly c) (gf_red h)).
  Proof.
    intros Hh Hc. unfold spec_ghash. rewrite fold_gf; [|exact Hh|reflexivity|apply ghash_blocks_lt; exact Hc].
    f_equal. replace (gf_red 0) with (f0 : Gf128) by (apply gf_val_inj; reflexivity). apply horner_poly.
  Qed.
  Lemma spec_ghash_lt h c : (h < 2 ^ 128)%N -> (blen c <= gcm_limit)%N -> (spec_ghash h c < 2 ^ 128)%N.
  Proof. intros Hh Hc. rewrite spec_ghash_poly by assumption. apply gf_val_lt. Qed.
  Lemma ghash_blocks_length c : length (ghash_blocks c) = S (block_count c).
  Proof. unfold ghash_blocks. rewrite app_length, map_length, seq_length. cbn. lia. Qed.
  Lemma hash_poly_length c : length (hash_poly c) = (block_count c + 2)%nat.
  Proof. unfold hash_poly. cbn [length]. rewrite rev_length, map_length, ghash_blocks_length. lia. Qed.

  (** Blocks determine the data. *)
  Lemma block_of_nth c c' i k : (k < 16)%nat -> block_of c i = block_of c' i -> nth (16 * i + k) c x00 = nth (16 * i + k) c' x00.
  Proof.
    intros Hk H. unfold block_of in H.
    assert (E : map (fun k => nth (16 * i + k) c x00) (seq 0 16) = map (fun k => nth (16 * i + k) c' x00) (seq 0 16)).
    { unfold be_val in H. apply le_val_inj in H; [|rewrite !rev_length, !map_length; reflexivity].
      apply (f_equal (@rev byte)) in H. rewrite !rev_involutive in H. exact H. }
    apply (f_equal (fun l => nth k l x00)) in E.
    rewrite (nth_indep _ x00 (nth (16 * i + 0) c x00)) in E by (rewrite map_length, seq_length; exact Hk).
    rewrite (map_nth (fun k => nth (16 * i + k) c x00)) in E.
    rewrite (nth_indep (map (fun k => nth (16 * i + k) c' x00) (seq 0 16)) x00 (nth (16 * i + 0) c' x00)) in E
      by (rewrite map_length, seq_length; exact Hk).
    rewrite (map_nth (fun k => nth (16 * i + k) c' x00)) in E.
    rewrite seq_nth in E by exact Hk. exact E.
  Qed.
  Lemma block_count_bound c i : (i < length c)%nat -> (i / 16 < block_count c)%nat.
  Proof.
    intros H. unfold block_count. apply Nat.div_le_lower_bound; [lia|].
    pose proof (Nat.mul_div_le i 16 ltac:(lia)). lia.
  Qed.
  Lemma blocks_inj c c' : ghash_blocks c = ghash_blocks c' -> c = c'.
  Proof.
    intros H. unfold ghash_blocks in H. apply app_inj_tail in H. destruct H as [Hb Hl].
    assert (E : length c = length c') by (unfold blen in Hl; lia).
    apply (nth_ext _ _ x00 x00); [exact E|]. intros n Hn.
    pose proof (Nat.div_mod n 16 ltac:(lia)) as Hd. rewrite Hd.
    apply block_of_nth; [apply Nat.mod_upper_bound; lia|].
    assert (Ec : block_count c = block_count c') by (unfold block_count; rewrite E; reflexivity).
    rewrite <- Ec in Hb. pose proof (block_count_bound c n Hn) as Hi.
    set (i := (n / 16)%nat) in *. clearbody i.
    apply (f_equal (fun l => nth i l 0%N)) in Hb.
    rewrite (nth_indep _ 0%N (block_of c 0)) in Hb by (rewrite map_length, seq_length; exact Hi).
    rewrite (nth_indep (map (block_of c') _) 0%N (block_of c' 0)) in Hb by (rewrite map_length, seq_length; exact Hi).
    rewrite !map_nth, !seq_nth in Hb by exact Hi. exact Hb.
  Qed.
  Lemma map_red_inj l l' : (forall b, In b l -> (b < 2 ^ 128)%N) -> (forall b, In b l' -> (b < 2 ^ 128)%N) ->
    map gf_red l = map gf_red l' -> l = l'.
  Proof.
    revert l'. induction l as [|a l IH]; intros [|b l'] H H' E; cbn [map] in E; try discriminate; [reflexivity|].
    assert (Ea : gf_red a = gf_red b) by congruence. assert (El : map gf_red l = map gf_red l') by congruence.
    f_equal.
    - rewrite <- (gf_red_val a), <- (gf_red_val b), Ea; [reflexivity|apply H'; left; reflexivity|apply H; left; reflexivity].
    - apply IH; [intros; apply H; right; assumption|intros; apply H'; right; assumption|exact El].
  Qed.

  (** Equal hash polynomials: equal data. *)
  Lemma hash_poly_inj c c' (d : Gf128) : (blen c <= gcm_limit)%N -> (blen c' <= gcm_limit)%N ->
    peq (padd (psub (hash_poly c) (hash_poly c')) [d]) [] -> c = c'.
  Proof.
    intros Hc Hc' [H].
    assert (K : forall n, pcoef (S n) (hash_poly c) = pcoef (S n) (hash_poly c')).
    { intros n. specialize (H (S n)). unfold psub in H. rewrite !pcoef_padd, pcoef_pscale, pcoef_nil in H.
      rewrite (pcoef_cons_S _ n d), pcoef_nil in H.
      replace (pcoef (S n) (hash_poly c)) with (pcoef (S n) (hash_poly c) + - (1) * pcoef (S n) (hash_poly c') + 0 + pcoef (S n) (hash_poly c')) by ring.
      rewrite H. ring. }
    assert (K0 : (8 * blen c = 8 * blen c')%N).
    { specialize (K 0%nat). unfold hash_poly, ghash_blocks in K. rewrite !map_app, !rev_app_distr in K.
      cbn [map rev app] in K. rewrite !pcoef_cons_S, !pcoef_cons_0 in K.
      rewrite <- (gf_red_val (8 * blen c)), <- (gf_red_val (8 * blen c')); [rewrite K; reflexivity| |];
        [apply (ghash_blocks_lt c' Hc')|apply (ghash_blocks_lt c Hc)]; unfold ghash_blocks; apply in_app_iff; right; left; reflexivity. }
    apply blocks_inj. apply map_red_inj; [apply ghash_blocks_lt; exact Hc|apply ghash_blocks_lt; exact Hc'|].
    assert (Hr : rev (map gf_red (ghash_blocks c)) = rev (map gf_red (ghash_blocks c'))).
    { apply (nth_ext _ _ (f0 : Gf128) (f0 : Gf128)).
      - rewrite !rev_length, !map_length, !ghash_blocks_length. unfold block_count.
        assert (El : length c = length c') by (unfold blen in K0; lia). rewrite El. reflexivity.
      - intros n _. specialize (K n). unfold hash_poly in K. rewrite !pcoef_cons_S in K. exact K. }
    apply (f_equal (@rev _)) in Hr. rewrite !rev_involutive in Hr. exact Hr.
  Qed.

  (** GHASH is almost xor-universal. *)
  Lemma ghash_universal c c' (delta : N) (hs : list N) :
    (blen c <= gcm_limit)%N -> (blen c' <= gcm_limit)%N -> c <> c' ->
    NoDup hs -> (forall h, In h hs -> (h < 2 ^ 128)%N /\ spec_ghash h c (+) spec_ghash h c' = delta) ->
    (length hs <= Nat.max (block_count c) (block_count c') + 1)%nat.
  Proof.
    intros Hc Hc' Hne Hnd Hall.
    destruct (Nat.le_gt_cases (length hs) (Nat.max (block_count c) (block_count c') + 1)) as [|Hgt]; [assumption|exfalso].
    apply Hne. apply (hash_poly_inj c c' (gf_red delta) Hc Hc').
    apply (proots_zero Gf128 (map gf_red hs)).
    - assert (Hlt : forall h, In h hs -> (h < 2 ^ 128)%N) by (intros h Hh; apply Hall; exact Hh).
      clear - Hnd Hlt. induction hs as [|h hs IH]; [constructor|]. inversion Hnd as [|? ? Hni Hnd']; subst. constructor.
      + intros Hin. apply in_map_iff in Hin. destruct Hin as (h'&E&Hin). apply Hni.
        apply (f_equal gf_val) in E. rewrite !gf_red_val in E by (apply Hlt; cbn; auto). rewrite <- E. exact Hin.
      + apply IH; [exact Hnd'|]. intros; apply Hlt; right; assumption.
    - rewrite padd_length, map_length. unfold psub. rewrite padd_length, pscale_length, !hash_poly_length. cbn [length]. lia.
    - intros d Hd. apply in_map_iff in Hd. destruct Hd as (h&<-&Hh). destruct (Hall h Hh) as [Hlt E].
      rewrite peval_padd, peval_psub. cbn [peval]. apply gf_val_inj.
      assert (Hdl : (delta < 2 ^ 128)%N). { rewrite <- E. apply lxor_lt; apply spec_ghash_lt; assumption. }
      rewrite !spec_ghash_poly in E by assumption.
      transitivity ((gf_val (peval (hash_poly c) (gf_red h)) (+) gf_val (peval (hash_poly c') (gf_red h))) (+) gf_val (gf_red delta)).
      + transitivity (gf_val ((peval (hash_poly c) (gf_red h) - peval (hash_poly c') (gf_red h)) + gf_red delta)); [|reflexivity].
        f_equal. ring.
      + rewrite E, gf_red_val by exact Hdl. apply N.lxor_nilpotent.
  Qed.

  (** One changed block: the hashes differ by (difference) times a power of the hash key. *)
  Lemma fold_change (l1 l2 : list N) (h b b' a : N) :
    (h < 2 ^ 128)%N -> h <> 0%N -> (b < 2 ^ 128)%N -> (b' < 2 ^ 128)%N -> b <> b' ->
    fold_left (fun acc b => gf_mul (acc (+) b) h) (l1 ++ b :: l2) a
    <> fold_left (fun acc b => gf_mul (acc (+) b) h) (l1 ++ b' :: l2) a.
  Proof.
    intros Hh Hz Hb Hb' Hne. rewrite !fold_left_app, !fold_left_cons. set (s := fold_left _ l1 a). clearbody s.
    assert (Hd : forall x y, gf_mul x h = gf_mul y h -> (x (+) y < 2 ^ 128)%N -> x = y).
    { intros x y E Hlt. apply N.lxor_eq. assert (Em : gf_mul (x (+) y) h = 0%N) by (rewrite gf_add_l, E; apply N.lxor_nilpotent).
      destruct (gf_integral _ _ Hlt Hh Em) as [Ez|Ez]; [exact Ez|contradiction]. }
    assert (H0 : gf_mul (s (+) b) h <> gf_mul (s (+) b') h).
    { intros E. assert (X : (s (+) b) (+) (s (+) b') = b (+) b') by (rewrite swap4, N.lxor_nilpotent, N.lxor_0_l; reflexivity).
      apply Hd in E.
      - rewrite E, N.lxor_nilpotent in X. symmetry in X. apply N.lxor_eq in X. contradiction.
      - rewrite X. apply lxor_lt; assumption. }
    assert (L : (gf_mul (s (+) b) h < 2 ^ 128)%N) by (apply gf_lt; exact Hh).
    assert (L' : (gf_mul (s (+) b') h < 2 ^ 128)%N) by (apply gf_lt; exact Hh).
    revert H0 L L'. generalize (gf_mul (s (+) b) h) (gf_mul (s (+) b') h). clear s b b' Hb Hb' Hne.
    induction l2 as [|d l2 IH]; intros x y Hxy Hx Hy; [exact Hxy|]. rewrite !fold_left_cons.
    apply IH; try (apply gf_lt; exact Hh). intros E. apply Hxy.
    assert (X : (x (+) d) (+) (y (+) d) = x (+) y) by (rewrite swap4, N.lxor_nilpotent, N.lxor_0_r; reflexivity).
    apply Hd in E.
    - rewrite E, N.lxor_nilpotent in X. symmetry in X. apply N.lxor_eq in X. exact X.
    - rewrite X. apply lxor_lt; assumption.
  Qed.
End Hash.
