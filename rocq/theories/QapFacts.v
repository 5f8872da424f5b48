(** Proofs about the QAP evaluation. *)
From Coq Require Import List Bool Arith Lia Ring Field.
From Verif Require Import Fld CS CSFacts Poly Qap SpecQap.
Import ListNotations.
Local Open Scope fld_scope.

Section QapFacts.
  Context (F : fieldT).
  Add Field FfldQ : (f_th F).
  Implicit Types (ds l ev lags ins wits ys : list F) (s : csys F) (lag x y : F)
    (mrow : list (F * nat)) (mat : list (list (F * nat))) (p q : poly F) (sel : row F -> lc F).

  (* ---------- the accumulation loop ---------- *)
  Lemma add_at_length l i y : length (add_at l i y) = length l.
  Proof. revert i; induction l as [|a l IH]; intros [|i]; simpl; auto. Qed.

  Lemma add_at_nth l i y k :
    i < length l -> nth k (add_at l i y) 0 = nth k l 0 + (if i =? k then y else 0).
  Proof.
    revert i k; induction l as [|a l IH]; intros [|i] [|k]; simpl; intros H; try lia; try ring.
    rewrite IH by lia. reflexivity.
  Qed.

  (** Σ of the coefficients at index k of a matrix row. *)
  Definition mrow_coeff (k : nat) (mrow : list (F * nat)) : F :=
    fsum (map (fun ci => if snd ci =? k then fst ci else 0) mrow).

  Lemma acc_row_length m lag mrow ev : length (acc_row m lag mrow ev) = length ev.
  Proof.
    revert ev; induction mrow as [|[c i] r IH]; intros ev; simpl; [reflexivity|].
    unfold acc_row in *; simpl. rewrite IH. destruct (i <? m); auto using add_at_length.
  Qed.

  Lemma acc_row_nth m lag mrow ev k :
    length ev = m -> k < m ->
    nth k (acc_row m lag mrow ev) 0 = nth k ev 0 + lag * mrow_coeff k mrow.
  Proof.
    revert ev; induction mrow as [|[c i] r IH]; intros ev Hl Hk.
    - unfold acc_row, mrow_coeff; simpl. ring.
    - unfold acc_row in *; cbn [fold_left fst snd].
      rewrite IH; [| destruct (i <? m); rewrite ?add_at_length; assumption | assumption].
      unfold mrow_coeff; simpl. destruct (Nat.ltb_spec i m) as [Him|Him].
      + rewrite add_at_nth by lia. destruct (i =? k); ring.
      + destruct (Nat.eqb_spec i k); [lia|ring].
  Qed.

  Lemma acc_matrix_aux m lags mat ev k :
    length ev = m -> k < m ->
    length (fold_left (fun ev lr => acc_row m (fst lr) (snd lr) ev) (combine lags mat) ev) = m /\
    nth k (fold_left (fun ev lr => acc_row m (fst lr) (snd lr) ev) (combine lags mat) ev) 0
    = nth k ev 0 + dot lags (map (mrow_coeff k) mat).
  Proof.
    revert lags ev; induction mat as [|r mat IH]; intros [|lg lags] ev Hl Hk; simpl;
      try (split; [assumption|ring]).
    destruct (IH lags (acc_row m lg r ev)) as [H1 H2]; [rewrite acc_row_length; assumption|assumption|].
    split; [exact H1|]. rewrite H2, acc_row_nth by assumption. ring.
  Qed.

  Lemma acc_matrix_length m lags mat : length (acc_matrix m lags mat) = m.
  Proof.
    unfold acc_matrix. generalize (repeat_length (0:F) m). generalize (repeat (0:F) m).
    revert lags; induction mat as [|r mat IH]; intros [|lg lags] ev Hl; simpl; auto.
    apply IH. rewrite acc_row_length. exact Hl.
  Qed.

  Lemma nth_repeat_0 k m : nth k (repeat (0 : F) m) 0 = 0.
  Proof. revert k; induction m as [|m IH]; intros [|k]; simpl; auto. Qed.

  Lemma acc_matrix_nth m lags mat k :
    k < m -> nth k (acc_matrix m lags mat) 0 = dot lags (map (mrow_coeff k) mat).
  Proof.
    intros Hk. unfold acc_matrix.
    destruct (acc_matrix_aux m lags mat (repeat 0 m) k (repeat_length _ _) Hk) as [_ H].
    rewrite H, nth_repeat_0. ring.
  Qed.

  Lemma make_row_coeff s (l : lc F) k : mrow_coeff k (make_row s l) = coeff_of (n_inst s) k l.
  Proof.
    unfold make_row, mrow_coeff, coeff_of. induction l as [|[c v] l IH]; simpl; [reflexivity|].
    destruct (feqb_spec c 0) as [Hc|Hc]; simpl.
    - rewrite IH. destruct (_ =? k); [rewrite Hc|]; ring.
    - rewrite IH. destruct v; reflexivity.
  Qed.

  (* ---------- Lagrange basis ---------- *)
  Lemma others_in j ds e :
    NoDup ds -> j < length ds -> In e (others j ds) <-> In e ds /\ e <> nth j ds 0.
  Proof.
    intros Hnd Hj. unfold others.
    revert j Hj; induction ds as [|d ds IH]; intros j Hj; [simpl in Hj; lia|].
    inversion Hnd as [|? ? Hni Hnd']; subst. destruct j as [|j].
    - cbn [firstn skipn nth app]. split.
      + intros H. split; [right; exact H|]. intros ->. contradiction.
      + intros [[->|H] Hne]; [contradiction|exact H].
    - cbn [firstn skipn nth app]. simpl in Hj. specialize (IH Hnd' j ltac:(lia)).
      split.
      + intros [->|H].
        * split; [left; reflexivity|]. intros ->. apply Hni. apply nth_In. lia.
        * apply IH in H. destruct H. split; [right|]; assumption.
      + intros [[->|H] Hne]; [left; reflexivity|]. right. apply IH. split; assumption.
  Qed.

  Lemma others_length j ds : j < length ds -> length (others j ds) = (length ds - 1)%nat.
  Proof.
    intros H. unfold others. rewrite app_length, firstn_length, skipn_length. lia.
  Qed.

  Lemma fprod_zero (l : list F) : In 0 l -> fold_right fmul 1 l = 0.
  Proof. induction l as [|a l IH]; intros []; simpl; [subst|rewrite IH by assumption]; ring. Qed.
  Lemma fprod_one (l : list F) : (forall a, In a l -> a = 1) -> fold_right fmul 1 l = 1.
  Proof.
    induction l as [|a l IH]; intros H; simpl; [reflexivity|].
    rewrite (H a (or_introl eq_refl)), IH; [ring|]. intros b Hb. apply H. right; exact Hb.
  Qed.

  Lemma lagrange_at_point ds j k :
    NoDup ds -> j < length ds -> k < length ds ->
    lagrange_at ds j (nth k ds 0) = if j =? k then 1 else 0.
  Proof.
    intros Hnd Hj Hk. unfold lagrange_at. destruct (Nat.eqb_spec j k) as [->|Hjk].
    - apply fprod_one. intros a Ha. apply in_map_iff in Ha. destruct Ha as (e&<-&He).
      apply (others_in k ds e Hnd Hk) in He. destruct He as [_ He].
      field. intros H. apply (proj1 (fsub_eq_0 F _ _)) in H. congruence.
    - apply fprod_zero. apply in_map_iff. exists (nth k ds 0). split.
      + assert (Hne : nth j ds 0 - nth k ds 0 <> 0).
        { intros H. apply (proj1 (fsub_eq_0 F _ _)) in H.
          apply Hjk. eapply (proj1 (NoDup_nth ds 0)); eauto. }
        field. exact Hne.
      + apply (others_in j ds _ Hnd Hj). split; [apply nth_In; exact Hk|].
        intros H. apply Hjk. symmetry. eapply (proj1 (NoDup_nth ds 0)); eauto.
  Qed.

  (** The Lagrange basis polynomial. *)
  Definition lag_poly ds j : poly F :=
    pscale (fold_right fmul 1 (map (fun e => 1 / (nth j ds 0 - e)) (others j ds))) (pvanish (others j ds)).

  Lemma pvanish_length l : length (pvanish l) = S (length l).
  Proof.
    induction l as [|a l IH]; [reflexivity|]. cbn [pvanish plin pmul].
    rewrite !padd_length. cbn [length]. rewrite !padd_length. cbn [length].
    unfold pscale; rewrite !map_length, IH. simpl. lia.
  Qed.

  Lemma lag_poly_length ds j : j < length ds -> length (lag_poly ds j) = length ds.
  Proof.
    intros H. unfold lag_poly. rewrite pscale_length, pvanish_length, others_length; lia.
  Qed.

  Lemma lag_poly_eval ds j x :
    NoDup ds -> j < length ds -> peval (lag_poly ds j) x = lagrange_at ds j x.
  Proof.
    intros Hnd Hj. unfold lag_poly, lagrange_at. rewrite peval_pscale, peval_pvanish.
    assert (H : forall e, In e (others j ds) -> nth j ds 0 - e <> 0).
    { intros e He. apply (others_in j ds e Hnd Hj) in He. destruct He as [_ He] .
      intros H. apply (proj1 (fsub_eq_0 F _ _)) in H. congruence. }
    induction (others j ds) as [|e l IH]; simpl; [ring|].
    rewrite <- IH; [|intros; apply H; right; assumption].
    field. apply H. left; reflexivity.
  Qed.

  Fixpoint interp_from (ds ys : list F) (j : nat) : poly F :=
    match ys with [] => [] | y :: ys' => padd (pscale y (lag_poly ds j)) (interp_from ds ys' (S j)) end.
  Definition interp ds ys : poly F := interp_from ds ys 0.

  Lemma interp_from_length ds ys j :
    (j + length ys <= length ds)%nat -> length (interp_from ds ys j) <= length ds.
  Proof.
    revert j; induction ys as [|y ys IH]; intros j H; simpl in *; [lia|].
    rewrite padd_length, pscale_length, lag_poly_length by lia.
    specialize (IH (S j) ltac:(lia)). lia.
  Qed.

  Lemma interp_from_eval ds ys j x :
    NoDup ds -> (j + length ys <= length ds)%nat ->
    peval (interp_from ds ys j) x =
    dot (map (fun k => lagrange_at ds k x) (seq j (length ys))) ys.
  Proof.
    intros Hnd. revert j; induction ys as [|y ys IH]; intros j H; simpl in *; [reflexivity|].
    rewrite peval_padd, peval_pscale, lag_poly_eval, IH by (auto; lia). ring.
  Qed.

  Lemma dot_delta ys j k (b : list F) :
    b = map (fun i => if i =? k then 1 else 0 : F) (seq j (length ys)) ->
    dot b ys = if (j <=? k)%nat then nth (k - j) ys 0 else 0.
  Proof.
    revert j b; induction ys as [|y ys IH]; intros j b ->; simpl.
    - destruct (j <=? k)%nat; [destruct (k - j)%nat|]; reflexivity.
    - rewrite (IH (S j) _ eq_refl).
      destruct (Nat.eqb_spec j k) as [->|Hne].
      + rewrite Nat.leb_refl, Nat.sub_diag.
        destruct (Nat.leb_spec (S k) k); [lia|]. ring.
      + destruct (Nat.leb_spec j k) as [Hle|Hgt].
        * destruct (Nat.leb_spec (S j) k); [|lia].
          replace (k - j)%nat with (S (k - S j)) by lia. simpl. ring.
        * destruct (Nat.leb_spec (S j) k); [lia|]. ring.
  Qed.

  Lemma interp_interpolates ds ys :
    NoDup ds -> length ys <= length ds -> interpolates ds ys (interp ds ys).
  Proof.
    intros Hnd Hl. split; [apply interp_from_length; simpl; lia|].
    intros k Hk. unfold interp. rewrite interp_from_eval by (auto; lia).
    rewrite (dot_delta ys 0 k).
    - simpl. rewrite Nat.sub_0_r. reflexivity.
    - apply map_ext_in. intros i Hi. apply in_seq in Hi. apply lagrange_at_point; auto; lia.
  Qed.

  Lemma interpolates_unique ds ys p q :
    NoDup ds -> interpolates ds ys p -> interpolates ds ys q -> peq p q.
  Proof.
    intros Hnd [Hp1 Hp2] [Hq1 Hq2]. apply (pinterp_unique F ds); auto.
    intros d Hd. destruct (In_nth ds d 0 Hd) as (j&Hj&<-). rewrite Hp2, Hq2 by assumption.
    reflexivity.
  Qed.

  Lemma interpolates_eval ds ys p x :
    NoDup ds -> length ys <= length ds -> interpolates ds ys p ->
    peval p x = dot (firstn (length ys) (lagrange_all ds x)) ys.
  Proof.
    intros Hnd Hl Hp.
    rewrite (peq_eval F _ _ (interpolates_unique _ _ _ _ Hnd Hp (interp_interpolates ds ys Hnd Hl))).
    unfold interp. rewrite interp_from_eval by (auto; simpl; lia).
    f_equal. unfold lagrange_all. rewrite firstn_map. f_equal.
    rewrite <- (firstn_all (seq 0 (length ys))). rewrite seq_length.
    revert Hl. generalize (length ys) (length ds). clear.
    intros a b Hl. replace b with (a + (b - a))%nat by lia.
    rewrite seq_app, firstn_app, seq_length, Nat.sub_diag. simpl. rewrite app_nil_r. reflexivity.
  Qed.

  (* ---------- the evaluation code computes the interpolated columns ---------- *)
  Definition sel_evals (D : domainT F) (s : csys F) (x : F) (sel : row F -> lc F) : list F :=
    match dom_new D (num_constraints s + num_public_inputs s) with
    | None => repeat 0 (num_variables s)
    | Some ds => acc_matrix (num_variables s) (firstn (num_constraints s) (lagrange_all ds x))
                   (map (fun r => make_row s (sel r)) (rows s))
    end.

  Lemma evaluate_qap_sel D s x :
    evaluate_qap D s x = (sel_evals D s x rA, sel_evals D s x rB, sel_evals D s x rC).
  Proof. unfold evaluate_qap, sel_evals. destruct (dom_new D _); reflexivity. Qed.

  Lemma sel_evals_length D s x sel : length (sel_evals D s x sel) = num_variables s.
  Proof.
    unfold sel_evals. destruct (dom_new D _); [apply acc_matrix_length|apply repeat_length].
  Qed.

  Lemma sel_evals_nth D s x sel ds i :
    domain_ok D -> dom_new D (num_constraints s + num_public_inputs s) = Some ds ->
    i < num_variables s ->
    nth i (sel_evals D s x sel) 0 =
    dot (firstn (length (rows s)) (lagrange_all ds x)) (column s sel i).
  Proof.
    intros HD Hds Hi. unfold sel_evals. rewrite Hds, acc_matrix_nth by assumption.
    f_equal. unfold column. rewrite map_map. apply map_ext. intros r. apply make_row_coeff.
  Qed.

  (** C09 for one matrix. *)
  Lemma sel_evals_correct D s x sel ds i p :
    domain_ok D -> dom_new D (num_constraints s + num_public_inputs s) = Some ds ->
    i < num_variables s -> interpolates ds (column s sel i) p ->
    nth i (sel_evals D s x sel) 0 = peval p x.
  Proof.
    intros HD Hds Hi Hp. destruct (HD _ _ Hds) as [Hn Hnd].
    rewrite (sel_evals_nth D s x sel ds i HD Hds Hi).
    assert (Hl : length (column s sel i) = length (rows s)) by apply map_length.
    rewrite (interpolates_eval ds (column s sel i) p x Hnd); [rewrite Hl; reflexivity| |exact Hp].
    rewrite Hl. unfold num_constraints in Hn. lia.
  Qed.

  Lemma columns_interpolable D s sel ds i :
    domain_ok D -> dom_new D (num_constraints s + num_public_inputs s) = Some ds ->
    exists p, interpolates ds (column s sel i) p.
  Proof.
    intros HD Hds. destruct (HD _ _ Hds) as [Hn Hnd].
    exists (interp ds (column s sel i)). apply interp_interpolates; auto.
    unfold column. rewrite map_length. unfold num_constraints in Hn. lia.
  Qed.

  Lemma sel_evals_no_rows D s x sel : rows s = [] -> sel_evals D s x sel = repeat 0 (num_variables s).
  Proof.
    intros H. unfold sel_evals. destruct (dom_new D _) as [ds|]; [|reflexivity].
    rewrite H. simpl. unfold acc_matrix. destruct (firstn _ _); reflexivity.
  Qed.

  (* ---------- satisfaction and divisibility ---------- *)
  (** Weighted column sum of a linear combination equals its value, when the assignment
      vector is laid out as the matrices expect. *)
  Lemma nth_map_seq (f : nat -> F) m i : i < m -> nth i (map f (seq 0 m)) 0 = f i.
  Proof.
    intros H. rewrite (nth_indep _ 0 (f 0%nat)) by (rewrite map_length, seq_length; exact H).
    rewrite map_nth, seq_nth by exact H. reflexivity.
  Qed.

  Lemma fsum_map_add {A} (f g : A -> F) (l : list A) :
    fsum (map (fun i => f i + g i) l) = fsum (map f l) + fsum (map g l).
  Proof. induction l as [|a l IH]; simpl; [ring|rewrite IH; ring]. Qed.

  Lemma fsum_map_0 {A} (l : list A) : fsum (map (fun _ => 0 : F) l) = 0.
  Proof. induction l as [|a l IH]; simpl; [ring|rewrite IH; ring]. Qed.

  Lemma fsum_map_all0 {A} (f : A -> F) (l : list A) :
    (forall a, In a l -> f a = 0) -> fsum (map f l) = 0.
  Proof.
    induction l as [|a l IH]; intros H; simpl; [reflexivity|].
    rewrite (H a (or_introl eq_refl)), IH; [ring|]. intros; apply H; right; assumption.
  Qed.

  Lemma fsum_map_scale {A} (c : F) (f : A -> F) (l : list A) :
    fsum (map (fun i => c * f i) l) = c * fsum (map f l).
  Proof. induction l as [|a l IH]; simpl; [ring|rewrite IH; ring]. Qed.

  Lemma fsum_select (f : nat -> F) (c : F) k n a :
    (a <= k < a + n)%nat ->
    fsum (map (fun i => f i * (if k =? i then c else 0)) (seq a n)) = f k * c.
  Proof.
    revert a; induction n as [|n IH]; intros a H; [lia|]. simpl.
    destruct (Nat.eqb_spec k a) as [->|Hne].
    - assert (Hz : fsum (map (fun i => f i * (if a =? i then c else 0)) (seq (S a) n)) = 0).
      { apply fsum_map_all0. intros i Hi.
        apply in_seq in Hi. destruct (Nat.eqb_spec a i); [lia|ring]. }
      rewrite Hz. ring.
    - rewrite IH by lia. ring.
  Qed.

  Lemma weighted_coeffs ins wits (lcx : lc F) :
    lc_ok (S (length ins)) (length wits) lcx ->
    fsum (map (fun i => nth i ((1 :: ins) ++ wits) 0 * coeff_of (S (length ins)) i lcx)
              (seq 0 (S (length ins) + length wits)))
    = lc_value (assignment_val ins wits) lcx.
  Proof.
    intros Hok. induction lcx as [|[c v] l IH].
    - apply fsum_map_all0. intros i _. unfold coeff_of; cbn [map fsum]. ring.
    - inversion Hok as [|? ? Hv Hl]; subst. specialize (IH Hl).
      unfold lc_value in *. cbn [map fsum]. rewrite <- IH. cbn [fst snd].
      rewrite (map_ext _ (fun i => nth i ((1 :: ins) ++ wits) 0 *
                 (if index_of (S (length ins)) v =? i then c else 0)
                 + nth i ((1 :: ins) ++ wits) 0 * coeff_of (S (length ins)) i l)).
      2:{ intros i. unfold coeff_of; cbn [map fsum fst snd]. ring. }
      rewrite fsum_map_add. f_equal.
      assert (Hi : index_of (S (length ins)) v < S (length ins) + length wits /\
                   nth (index_of (S (length ins)) v) ((1 :: ins) ++ wits) 0 = assignment_val ins wits v).
      { destruct v as [|k|k]; simpl in Hv.
        - split; [simpl; lia|reflexivity].
        - unfold index_of. split; [lia|]. rewrite app_nth1 by (simpl; lia). reflexivity.
        - unfold index_of. split; [lia|]. rewrite app_nth2 by (simpl; lia).
          simpl length. replace (S (length ins) + k - S (length ins))%nat with k by lia. reflexivity. }
      destruct Hi as [Hi1 Hi2].
      rewrite (fsum_select (fun i => nth i ((1 :: ins) ++ wits) 0) c) by lia.
      rewrite Hi2. ring.
  Qed.

  (** Value at a domain point of an assignment-weighted sum of column polynomials. *)
  Lemma weighted_poly_at s ins wits sel ds (u : nat -> poly F) j :
    n_inst s = S (length ins) -> n_wit s = length wits ->
    Forall (fun r => lc_ok (S (length ins)) (length wits) (sel r)) (rows s) ->
    (forall i, i < num_variables s -> interpolates ds (column s sel i) (u i)) ->
    j < length ds ->
    peval (psum (map (fun i => pscale (nth i ((1 :: ins) ++ wits) 0) (u i)) (seq 0 (num_variables s))))
          (nth j ds 0)
    = match nth_error (rows s) j with
      | Some r => lc_value (assignment_val ins wits) (sel r)
      | None => 0
      end.
  Proof.
    intros Hni Hnw Hok Hu Hj. rewrite peval_psum, map_map.
    rewrite (map_ext_in _ (fun i => nth i ((1 :: ins) ++ wits) 0 *
               match nth_error (rows s) j with
               | Some r => coeff_of (S (length ins)) i (sel r) | None => 0 end)).
    - unfold num_variables, num_public_inputs. rewrite Hni, Hnw.
      destruct (nth_error (rows s) j) as [r|] eqn:Er.
      + apply weighted_coeffs. rewrite Forall_forall in Hok. apply Hok.
        eapply nth_error_In; eassumption.
      + apply fsum_map_all0. intros i _. ring.
    - intros i Hi. apply in_seq in Hi. rewrite peval_pscale.
      destruct (Hu i ltac:(lia)) as [_ Hv]. rewrite (Hv j Hj). f_equal.
      unfold column. destruct (nth_error (rows s) j) as [r|] eqn:Er.
      + rewrite (nth_indep _ 0 (coeff_of (n_inst s) i (sel r))).
        2:{ rewrite map_length. apply nth_error_Some. rewrite Er. discriminate. }
        rewrite (map_nth (fun r0 => coeff_of (n_inst s) i (sel r0))).
        rewrite (nth_error_nth _ _ r Er), Hni. reflexivity.
      + apply nth_overflow. rewrite map_length. apply nth_error_None. exact Er.
  Qed.

  Lemma satisfied_iff_divides s ins wits ds (u v w : nat -> poly F) :
    n_inst s = S (length ins) -> n_wit s = length wits ->
    Forall (row_ok F (S (length ins)) (length wits)) (rows s) ->
    NoDup ds -> length (rows s) <= length ds ->
    (forall i, i < num_variables s -> interpolates ds (column s rA i) (u i)) ->
    (forall i, i < num_variables s -> interpolates ds (column s rB i) (v i)) ->
    (forall i, i < num_variables s -> interpolates ds (column s rC i) (w i)) ->
    let wsum (q : nat -> poly F) :=
      psum (map (fun i => pscale (nth i ((1 :: ins) ++ wits) 0) (q i)) (seq 0 (num_variables s))) in
    Forall (row_holds (assignment_val ins wits)) (rows s)
    <-> pdivides (pvanish ds) (psub (pmul (wsum u) (wsum v)) (wsum w)).
  Proof.
    intros Hni Hnw Hok Hnd Hlen Hu Hv Hw wsum.
    assert (Hat : forall j, j < length ds ->
      peval (psub (pmul (wsum u) (wsum v)) (wsum w)) (nth j ds 0)
      = match nth_error (rows s) j with
        | Some r => lc_value (assignment_val ins wits) (rA r) * lc_value (assignment_val ins wits) (rB r)
                    - lc_value (assignment_val ins wits) (rC r)
        | None => 0 end).
    { intros j Hj. rewrite peval_psub, peval_pmul. unfold wsum.
      rewrite (weighted_poly_at s ins wits rA ds u j), (weighted_poly_at s ins wits rB ds v j),
        (weighted_poly_at s ins wits rC ds w j); auto;
        try (eapply Forall_impl; [|exact Hok]; intros r (?&?&?); assumption).
      destruct (nth_error (rows s) j); ring. }
    split.
    - intros Hsat. apply pvanish_divides; [exact Hnd|]. intros d Hd.
      destruct (In_nth ds d 0 Hd) as (j&Hj&<-). rewrite Hat by exact Hj.
      destruct (nth_error (rows s) j) as [r|] eqn:Er; [|reflexivity].
      rewrite Forall_forall in Hsat. specialize (Hsat r (nth_error_In _ _ Er)).
      unfold row_holds in Hsat. rewrite Hsat. ring.
    - intros Hdiv. apply Forall_forall. intros r Hr. destruct (In_nth_error _ _ Hr) as (j&Er).
      assert (Hj : j < length ds).
      { assert (j < length (rows s)) by (apply nth_error_Some; rewrite Er; discriminate). lia. }
      pose proof (pdivides_roots F ds _ Hdiv (nth j ds 0) (nth_In _ _ Hj)) as H0.
      rewrite Hat, Er in H0 by exact Hj. apply (proj1 (fsub_eq_0 F _ _)) in H0. exact H0.
  Qed.
End QapFacts.
