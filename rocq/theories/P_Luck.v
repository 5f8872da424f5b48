(** Property theorems C02 (continued) and C55: what makes the keys of encap and decap agree when encap
    synthesises the whole circuit, for every such circuit. *)
From Coq Require Import List Bool Arith ZArith Lia Field.
From Verif Require Import Res Fld Zp Groups CS CSFacts Poly Qap SpecQap QapFacts Core CoreFacts SpecSecrets Secrets SpecCore CoreMore P_Core.
Import ListNotations.
Local Open Scope fld_scope.

Section Luck.
  Context (F : fieldT).
  Add Field LuckF : (f_th F).

  (** A linear combination with the private variables left out. *)
  Definition public_part (c : prog F) (l : lc F) : F := lc_value (assignment_val (public_values c) []) l.

  Lemma assignment_zeros (ins : list F) n v : assignment_val ins (repeat 0 n) v = assignment_val ins [] v.
  Proof. destruct v as [|i|i]; cbn [assignment_val]; [reflexivity..|]. rewrite nth_repeat_0. destruct i; reflexivity. Qed.
  Lemma public_part_zeros ins n (l : lc F) : lc_value (assignment_val ins (repeat 0 n)) l = lc_value (assignment_val ins []) l.
  Proof.
    unfold lc_value. f_equal. apply map_ext. intros [a v]. cbn [fst snd]. rewrite assignment_zeros. reflexivity.
  Qed.

  Lemma psum_length (l : list (poly F)) n : Forall (fun p => List.length p <= n)%nat l -> (List.length (psum l) <= n)%nat.
  Proof. induction 1 as [|p l Hp Hl IH]; cbn [psum]; [cbn; lia|]. rewrite padd_length. lia. Qed.
  Lemma dot_sum (a b : list F) n : List.length a = n -> List.length b = n ->
    dot a b = fsum (map (fun i => nth i a 0 * nth i b 0) (seq 0 n)).
  Proof.
    revert b n. induction a as [|x a IH]; intros b n Ha Hb.
    - cbn [List.length] in Ha. subst n. reflexivity.
    - destruct n as [|n]; [discriminate|]. destruct b as [|y b]; [discriminate|]. cbn [List.length] in Ha, Hb.
      cbn [dot seq map fsum nth]. rewrite (IH b n) by lia. f_equal. rewrite <- seq_shift, map_map. reflexivity.
  Qed.
  Lemma dot_zeros (a b : list F) n : dot (a ++ repeat 0 n) b = dot a b.
  Proof.
    revert b. induction a as [|x a IH]; intros [|y b]; cbn [app dot]; try reflexivity.
    - destruct n; reflexivity.
    - revert b y. induction n as [|n IHn]; intros b y; cbn [repeat dot]; [reflexivity|]. destruct b as [|z b]; [destruct n; cbn; ring|].
      rewrite IHn. ring.
    - rewrite IH. reflexivity.
  Qed.

  Context (E : pairingT F) (D : domainT F).

  Lemma public_poly (c : prog F) ds (sel : row F -> lc F) :
    (forall ni nw r, row_ok F ni nw r -> CS.lc_ok ni nw (sel r)) ->
    well_formed c -> completes c -> domain_ok D ->
    dom_new D (List.length (constraints_stated c) + (1 + List.length (public_values c))) = Some ds ->
    exists P, (List.length P <= List.length ds)%nat /\
      (forall x, peval P x = dot (1 :: public_values c) (sel_evals F D (fst (synth c cs_new)) x sel)) /\
      (forall j, (j < List.length ds)%nat ->
         peval P (nth j ds 0) = match nth_error (constraints_stated c) j with Some r => public_part c (sel r) | None => 0 end).
  Proof.
    intros Hsel Hwf Hco HD Hds.
    set (s := fst (synth c cs_new)).
    assert (Hs : s = CSys (S (List.length (public_values c))) (List.length (private_values c)) (1 :: public_values c) (private_values c) (constraints_stated c)).
    { unfold s. rewrite synth_new. cbn [fst]. unfold completes, stops_with in Hco. rewrite (extra_no_error F 1 0 c Hco). cbn [fst snd].
      rewrite !Nat.add_0_r. reflexivity. }
    set (zs := repeat (0 : F) (List.length (private_values c))).
    assert (Hzs : List.length zs = List.length (private_values c)) by apply repeat_length.
    assert (Hni : n_inst s = S (List.length (public_values c))) by (rewrite Hs; reflexivity).
    assert (Hnw : n_wit s = List.length zs) by (rewrite Hs, Hzs; reflexivity).
    assert (Hrows : rows s = constraints_stated c) by (rewrite Hs; reflexivity).
    assert (Hds' : dom_new D (num_constraints s + num_public_inputs s) = Some ds).
    { unfold num_constraints, num_public_inputs. rewrite Hrows, Hni. exact Hds. }
    assert (Hnv : num_variables s = (S (List.length (public_values c)) + List.length zs)%nat).
    { unfold num_variables, num_public_inputs. rewrite Hni, Hnw. reflexivity. }
    set (u := fun i => interp F ds (column s sel i)).
    assert (Hu : forall i, interpolates ds (column s sel i) (u i)).
    { intros i. destruct (HD _ _ Hds') as [Hn Hnd]. apply interp_interpolates; [exact Hnd|].
      unfold column. rewrite map_length. unfold num_constraints in Hn. lia. }
    exists (psum (map (fun i => pscale (nth i ((1 :: public_values c) ++ zs) 0) (u i)) (seq 0 (num_variables s)))).
    split; [|split].
    - apply psum_length. apply Forall_forall. intros p Hp. apply in_map_iff in Hp as (i&<-&_). rewrite pscale_length. apply Hu.
    - intros x. rewrite peval_psum, map_map.
      rewrite (map_ext_in _ (fun i => nth i ((1 :: public_values c) ++ zs) 0 * nth i (sel_evals F D s x sel) 0)).
      + rewrite <- (dot_sum ((1 :: public_values c) ++ zs) (sel_evals F D s x sel) (num_variables s)).
        * unfold zs. apply dot_zeros.
        * rewrite app_length, Hnv. reflexivity.
        * apply sel_evals_length.
      + intros i Hi. apply in_seq in Hi. rewrite peval_pscale. f_equal. symmetry. apply (sel_evals_correct F D s x sel ds i (u i) HD Hds'); [lia|apply Hu].
    - intros j Hj. rewrite (weighted_poly_at F s (public_values c) zs sel ds u j Hni Hnw); [|rewrite Hrows, Hzs|intros; apply Hu|exact Hj].
      + rewrite Hrows. destruct (nth_error (constraints_stated c) j) as [r|]; [|reflexivity].
        unfold zs. rewrite public_part_zeros. reflexivity.
      + pose proof (rows_of_ok F 1 0 c Hwf) as Hok. eapply Forall_impl; [|exact Hok]. intros r Hr. apply Hsel in Hr. exact Hr.
  Qed.

  Lemma few_roots (c : prog F) ds (sel : row F -> lc F) xs :
    (forall ni nw r, row_ok F ni nw r -> CS.lc_ok ni nw (sel r)) ->
    well_formed c -> completes c -> domain_ok D ->
    dom_new D (List.length (constraints_stated c) + (1 + List.length (public_values c))) = Some ds ->
    (exists r, In r (constraints_stated c) /\ public_part c (sel r) <> 0) ->
    NoDup xs -> (forall x, In x xs -> dot (1 :: public_values c) (sel_evals F D (fst (synth c cs_new)) x sel) = 0) ->
    (List.length xs < List.length ds)%nat.
  Proof.
    intros Hsel Hwf Hco HD Hds (r&Hr&Hne) Hnd Hx.
    destruct (public_poly c ds sel Hsel Hwf Hco HD Hds) as (P&HP1&HP2&HP3).
    destruct (le_lt_dec (List.length ds) (List.length xs)) as [Hle|]; [|assumption]. exfalso.
    assert (HP : peq P []).
    { apply (proots_zero F xs P Hnd); [lia|]. intros d Hd. rewrite HP2. apply Hx. exact Hd. }
    destruct (In_nth_error _ _ Hr) as (j&Ej).
    assert (Hj : (j < List.length ds)%nat).
    { assert (j < List.length (constraints_stated c))%nat by (apply nth_error_Some; congruence). destruct (HD _ _ Hds) as [Hn _]. lia. }
    specialize (HP3 j Hj). rewrite Ej, (peq_eval F _ _ HP) in HP3. cbn [peval] in HP3. congruence.
  Qed.
  Lemma all_roots (c : prog F) (sel : row F -> lc F) x :
    (forall ni nw r, row_ok F ni nw r -> CS.lc_ok ni nw (sel r)) ->
    well_formed c -> completes c -> domain_ok D ->
    Forall (fun r => public_part c (sel r) = 0) (constraints_stated c) ->
    dot (1 :: public_values c) (sel_evals F D (fst (synth c cs_new)) x sel) = 0.
  Proof.
    intros Hsel Hwf Hco HD Hz.
    destruct (dom_new D (List.length (constraints_stated c) + (1 + List.length (public_values c)))) as [ds|] eqn:Hds.
    - destruct (public_poly c ds sel Hsel Hwf Hco HD Hds) as (P&HP1&HP2&HP3). rewrite <- HP2.
      assert (HP : peq P []).
      { destruct (HD _ _ Hds) as [_ Hnd]. apply (proots_zero F ds P Hnd HP1). intros d Hd. destruct (In_nth ds d 0 Hd) as (j&Hj&<-).
        rewrite (HP3 j Hj). destruct (nth_error (constraints_stated c) j) as [r|] eqn:Er; [|reflexivity].
        rewrite Forall_forall in Hz. apply Hz. eapply nth_error_In. exact Er. }
      rewrite (peq_eval F _ _ HP). reflexivity.
    - assert (Hse : sel_evals F D (fst (synth c cs_new)) x sel = repeat 0 (num_variables (fst (synth c cs_new)))).
      { unfold sel_evals, num_constraints, num_public_inputs.
        rewrite synth_new. cbn [fst rows n_inst]. unfold completes, stops_with in Hco. rewrite (extra_no_error F 1 0 c Hco). cbn [fst].
        rewrite Nat.add_0_r. unfold constraints_stated, public_values in Hds. rewrite Hds. reflexivity. }
      rewrite Hse. apply Fld.dot_zeros.
  Qed.

  Lemma sel_A ni nw r : row_ok F ni nw r -> CS.lc_ok ni nw (rA r). Proof. intros (?&?&?). assumption. Qed.
  Lemma sel_B ni nw r : row_ok F ni nw r -> CS.lc_ok ni nw (rB r). Proof. intros (?&?&?). assumption. Qed.
  Lemma sel_C ni nw r : row_ok F ni nw r -> CS.lc_ok ni nw (rC r). Proof. intros (?&?&?). assumption. Qed.

  Lemma luck_beta c alpha delta r ds xs :
    nondegenerate E -> satisfied c -> delta <> 0 -> r <> 0 ->
    domain_ok D -> dom_new D (List.length (constraints_stated c) + (1 + List.length (public_values c))) = Some ds ->
    (exists row, In row (constraints_stated c) /\ public_part c (rA row) <> 0) ->
    NoDup xs -> (forall x, In x xs -> ~ exists beta0, forall beta, equal_exactly_if E D c c alpha beta delta r x (beta = beta0)) ->
    (List.length xs < List.length ds)%nat.
  Proof.
    intros Hnd (Hwf&Hco&Hho) Hd Hr HD Hds Hrow Hxs Hx. apply (few_roots c ds rA xs sel_A Hwf Hco HD Hds Hrow Hxs).
    intros x Hin. destruct (f_eq_dec F (dot (1 :: public_values c) (sel_evals F D (fst (synth c cs_new)) x rA)) 0) as [Hz|Hnz]; [exact Hz|].
    exfalso. apply (Hx x Hin). exact (agreement_unique_beta F E D c alpha delta r x Hnd Hwf Hco Hho Hd Hr Hnz).
  Qed.

  (** The agreement condition when there are no private variables and the A sides are all zero. *)
  Lemma public_condition c alpha beta delta r x :
    nondegenerate E -> satisfied c -> delta <> 0 -> r <> 0 ->
    domain_ok D -> private_values c = [] ->
    Forall (fun row => public_part c (rA row) = 0) (constraints_stated c) ->
    equal_exactly_if E D c c alpha beta delta r x (alpha * dot (1 :: public_values c) (sel_evals F D (fst (synth c cs_new)) x rB) = 0).
  Proof.
    intros Hnd (Hwf&Hco&Hho) Hd Hr HD Hpriv HA.
    assert (HC : Forall (fun row => public_part c (rC row) = 0) (constraints_stated c)).
    { apply Forall_forall. intros row Hin. rewrite Forall_forall in HA. specialize (HA row Hin). unfold constraints_hold in Hho.
      rewrite Forall_forall in Hho. specialize (Hho row Hin). unfold row_holds in Hho. rewrite Hpriv in Hho. unfold public_part in *.
      rewrite HA in Hho. rewrite <- Hho. ring. }
    eapply exactly_if_iff; [|exact (agreement_condition F E D c alpha beta delta r x Hnd Hwf Hco Hho Hd)].
    unfold full_of, pubdot. fold (public_values c) (private_values c). rewrite Hpriv, app_nil_r.
    change (enc_u F D c x) with (sel_evals F D (fst (synth c cs_new)) x rA).
    change (enc_v F D c x) with (sel_evals F D (fst (synth c cs_new)) x rB).
    change (enc_w F D c x) with (sel_evals F D (fst (synth c cs_new)) x rC).
    rewrite (all_roots c rA x sel_A Hwf Hco HD HA), (all_roots c rC x sel_C Hwf Hco HD HC).
    generalize (dot (1 :: public_values c) (sel_evals F D (fst (synth c cs_new)) x rB)). intros V. split; intros H.
    - apply (fmul_cancel_l F r); [exact Hr|]. transitivity (r * beta * 0 + r * alpha * V + r * r * 0); [ring|]. rewrite <- H. ring.
    - transitivity (r * (alpha * V)); [rewrite H|]; ring.
  Qed.
End Luck.

(** C02: with a non-degenerate pairing, when some constraint's A side is not zero on its public
    variables, exactly one beta makes the two secrets equal - for all x except fewer than the
    evaluation domain has elements. *)
Theorem C02_one_beta_only :
  forall (F : fieldT) (E : pairingT F) (D : domainT F) (c : prog F) (alpha delta r : F) ds,
    nondegenerate E -> satisfied c -> delta <> 0 -> r <> 0 ->
    domain_ok D -> dom_new D (List.length (constraints_stated c) + (1 + List.length (public_values c))) = Some ds ->
    (exists row, In row (constraints_stated c) /\ public_part F c (rA row) <> 0) ->
    forall xs, NoDup xs -> (forall x, In x xs -> ~ exists beta0, forall beta, equal_exactly_if E D c c alpha beta delta r x (beta = beta0)) ->
    (List.length xs < List.length ds)%nat.
Proof.
  intros F E D c alpha delta r ds H1 H3 H4 H5 H6 H7 H8 xs H9 H10.
  exact (luck_beta F E D c alpha delta r ds xs H1 H3 H4 H5 H6 H7 H8 H9 H10).
Qed.
Print Assumptions C02_one_beta_only.

(** Without private variables the remaining cases: all A sides zero but some B side not - the secrets
    are equal exactly when alpha is drawn zero, for all but few x; all A and B sides zero - always. *)
Theorem C02_no_private_variables :
  forall (F : fieldT) (E : pairingT F) (D : domainT F) (c : prog F) (delta r : F),
    nondegenerate E -> satisfied c -> delta <> 0 -> r <> 0 ->
    domain_ok D -> private_values c = [] ->
    Forall (fun row => public_part F c (rA row) = 0) (constraints_stated c) ->
    (forall ds xs,
       dom_new D (List.length (constraints_stated c) + (1 + List.length (public_values c))) = Some ds ->
       (exists row, In row (constraints_stated c) /\ public_part F c (rB row) <> 0) -> NoDup xs ->
       (forall x, In x xs -> ~ forall alpha beta, equal_exactly_if E D c c alpha beta delta r x (alpha = 0)) ->
       (List.length xs < List.length ds)%nat) /\
    (Forall (fun row => public_part F c (rB row) = 0) (constraints_stated c) ->
     forall alpha beta x, equal_exactly_if E D c c alpha beta delta r x True).
Proof.
  intros F E D c delta r Hnd Hs Hd Hr HD Hpriv HA. pose proof Hs as (Hwf&Hco&_). split.
  - intros ds xs Hds Hrow Hxs Hx. apply (few_roots F D c ds rB xs (sel_B F) Hwf Hco HD Hds Hrow Hxs).
    intros x Hin. destruct (f_eq_dec F (dot (1 :: public_values c) (sel_evals F D (fst (synth c cs_new)) x rB)) 0) as [Hz|Hnz]; [exact Hz|].
    exfalso. apply (Hx x Hin). intros alpha beta. eapply exactly_if_iff; [|exact (public_condition F E D c alpha beta delta r x Hnd Hs Hd Hr HD Hpriv HA)]. split.
    + intros H. destruct (fmul_eq_0 F _ _ H); [assumption|contradiction].
    + intros ->. apply fmul_0_l.
  - intros HB alpha beta x. eapply exactly_if_iff; [|exact (public_condition F E D c alpha beta delta r x Hnd Hs Hd Hr HD Hpriv HA)].
    rewrite (all_roots F D c rB x (sel_B F) Hwf Hco HD HB). split; [reflexivity|]. intros _. apply fmul_0_r.
Qed.
Print Assumptions C02_no_private_variables.

(** Over F_17: public a = 3, private b = 9, a * a = b.  For all but at most three of the x, one beta only. *)
Example C02_one_beta_instance :
  forall xs, NoDup xs ->
    (forall x, In x xs -> ~ exists beta0, forall beta,
       let c := public_square_circuit (f17 3) (fmul (f17 3) (f17 3)) in
       equal_exactly_if ex_pairing ex_domain c c (f17 5) beta (f17 7) (f17 2) x (beta = beta0)) ->
    (List.length xs < 4)%nat.
Proof.
  intros xs Hnd Hx.
  assert (Hlen : exists ds, dom_new ex_domain (List.length (constraints_stated (public_square_circuit (f17 3) (fmul (f17 3) (f17 3)))) +
     (1 + List.length (public_values (public_square_circuit (f17 3) (fmul (f17 3) (f17 3)))))) = Some ds /\ List.length ds = 4%nat).
  { eexists. split; [reflexivity|]. vm_compute. reflexivity. }
  destruct Hlen as (ds&Hds&Hl). rewrite <- Hl.
  apply (C02_one_beta_only F17 ex_pairing ex_domain (public_square_circuit (f17 3) (fmul (f17 3) (f17 3))) (f17 5) (f17 7) (f17 2) ds); try assumption.
  - apply selfPairing_nondegenerate.
  - apply public_square_satisfied.
  - apply (proj1 (feqb_false F17 _ _)). vm_compute. reflexivity.
  - apply (proj1 (feqb_false F17 _ _)). vm_compute. reflexivity.
  - exact ex_domain_ok.
  - eexists. split; [left; reflexivity|]. apply (proj1 (feqb_false F17 _ _)). vm_compute. reflexivity.
Qed.
(** Public a = 0, a * 1 = 0, no private variable: agreement exactly for alpha = 0. *)
Example C02_no_private_instance :
  let c : prog F17 := AllocInput (inl (f17 0)) (fun v => Enforce [(f1, v)] [(f1, VOne)] [] Done) in
  forall xs, NoDup xs ->
    (forall x, In x xs -> ~ forall alpha beta, equal_exactly_if ex_pairing ex_domain c c alpha beta (f17 7) (f17 2) x (alpha = 0)) ->
    (List.length xs < 4)%nat.
Proof.
  intros c xs Hnd Hx.
  assert (Hlen : exists ds, dom_new ex_domain (List.length (constraints_stated c) + (1 + List.length (public_values c))) = Some ds /\ List.length ds = 4%nat).
  { eexists. split; [reflexivity|]. vm_compute. reflexivity. }
  destruct Hlen as (ds&Hds&Hl). rewrite <- Hl.
  assert (Hsat : satisfied c).
  { split; [|split].
    - unfold well_formed, wf_prog, c; cbn [prog_ok]. repeat split; repeat constructor.
    - reflexivity.
    - constructor; [|constructor]. apply (proj1 (feqb_true F17 _ _)). vm_compute. reflexivity. }
  refine (proj1 (C02_no_private_variables F17 ex_pairing ex_domain c (f17 7) (f17 2) _ Hsat _ _ _ _ _) ds xs Hds _ Hnd Hx).
  - apply selfPairing_nondegenerate.
  - apply (proj1 (feqb_false F17 _ _)). vm_compute. reflexivity.
  - apply (proj1 (feqb_false F17 _ _)). vm_compute. reflexivity.
  - exact ex_domain_ok.
  - reflexivity.
  - constructor; [|constructor]. apply (proj1 (feqb_true F17 _ _)). vm_compute. reflexivity.
  - eexists. split; [left; reflexivity|]. apply (proj1 (feqb_false F17 _ _)). vm_compute. reflexivity.
Qed.
