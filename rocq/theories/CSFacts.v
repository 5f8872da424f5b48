(** Facts about the constraint-system model. *)
From Coq Require Import List Bool Arith Lia Ring.
From Verif Require Import Fld CS.
Import ListNotations.
Local Open Scope fld_scope.

Section CSFacts.
  Context (F : fieldT).
  Add Field FfldCS : (f_th F).
  Implicit Types (p : prog F) (s : csys F) (ins wits : list F).

  (** The final state of a synthesis in terms of the program's text. *)
  Lemma synth_spec p s :
    synth p s =
    (CSys (n_inst s + length (inputs_of (n_inst s) (n_wit s) p) + fst (extra_of (n_inst s) (n_wit s) p))
          (n_wit s + length (witnesses_of (n_inst s) (n_wit s) p) + snd (extra_of (n_inst s) (n_wit s) p))
          (inst s ++ inputs_of (n_inst s) (n_wit s) p)
          (wit s ++ witnesses_of (n_inst s) (n_wit s) p)
          (rows s ++ rows_of (n_inst s) (n_wit s) p),
     error_of (n_inst s) (n_wit s) p).
  Proof.
    revert s; induction p as [|e|[x|e] k IH|[x|e] k IH|a b c k IH]; intros s; simpl;
      rewrite ?app_nil_r, ?Nat.add_0_r; try (destruct s; reflexivity).
    - rewrite IH; simpl. rewrite <- !app_assoc; simpl. f_equal. f_equal; lia.
    - f_equal. unfold cs_count_input. f_equal; lia.
    - rewrite IH; simpl. rewrite <- !app_assoc; simpl. f_equal. f_equal; lia.
    - f_equal. unfold cs_count_wit. f_equal; lia.
    - rewrite IH; simpl. rewrite <- !app_assoc; simpl. reflexivity.
  Qed.

  Lemma synth_new p :
    synth p cs_new =
    (CSys (1 + length (inputs_of 1 0 p) + fst (extra_of 1 0 p))
          (length (witnesses_of 1 0 p) + snd (extra_of 1 0 p))
          (f1 :: inputs_of 1 0 p) (witnesses_of 1 0 p) (rows_of 1 0 p),
     error_of 1 0 p).
  Proof. rewrite synth_spec. reflexivity. Qed.

  Lemma extra_no_error ni nw p : error_of ni nw p = None -> extra_of ni nw p = (0, 0)%nat.
  Proof.
    revert ni nw; induction p as [|e|[x|e] k IH|[x|e] k IH|a b c k IH];
      intros ni nw; simpl; intros H; try discriminate; auto.
  Qed.

  Lemma lc_ok_mono ni nw ni' nw' (l : lc F) :
    ni <= ni' -> nw <= nw' -> lc_ok ni nw l -> lc_ok ni' nw' l.
  Proof.
    intros H1 H2 H. eapply Forall_impl; [|exact H].
    intros [c []]; simpl; auto; lia.
  Qed.

  Definition row_ok (ni nw : nat) (r : row F) : Prop :=
    lc_ok ni nw (rA r) /\ lc_ok ni nw (rB r) /\ lc_ok ni nw (rC r).

  Lemma row_ok_mono ni nw ni' nw' r :
    ni <= ni' -> nw <= nw' -> row_ok ni nw r -> row_ok ni' nw' r.
  Proof. intros ? ? (?&?&?). split; [|split]; eapply lc_ok_mono; eauto. Qed.

  (** All rows of a well-formed program mention only variables that received a value. *)
  Lemma rows_of_ok ni nw p :
    prog_ok ni nw p ->
    Forall (row_ok (ni + length (inputs_of ni nw p)) (nw + length (witnesses_of ni nw p)))
           (rows_of ni nw p).
  Proof.
    revert ni nw; induction p as [|e|[x|e] k IH|[x|e] k IH|a b c k IH];
      intros ni nw; simpl; intros H; try constructor.
    - specialize (IH _ _ _ H). eapply Forall_impl; [|exact IH].
      intros r. apply row_ok_mono; simpl; lia.
    - specialize (IH _ _ _ H). eapply Forall_impl; [|exact IH].
      intros r. apply row_ok_mono; simpl; lia.
    - destruct H as (Ha&Hb&Hc&_). split; [|split]; simpl;
        (eapply lc_ok_mono; [| |eassumption]); lia.
    - apply IH. tauto.
  Qed.

  Lemma var_val_some ins wits ni nw rws v :
    var_ok (length (f1 :: ins)) (length wits) v ->
    var_val (CSys ni nw (f1 :: ins) wits rws) v = Some (assignment_val ins wits v).
  Proof.
    destruct v as [|i|i]; simpl; intros H; [reflexivity| |].
    - destruct i as [|i]; [reflexivity|]. simpl. rewrite (nth_error_nth' _ 0); [reflexivity|lia].
    - rewrite (nth_error_nth' _ 0); [reflexivity|lia].
  Qed.

  Lemma lc_val_some ins wits ni nw rws l :
    lc_ok (length (f1 :: ins)) (length wits) l ->
    lc_val (CSys ni nw (f1 :: ins) wits rws) l = Some (lc_value (assignment_val ins wits) l).
  Proof.
    induction l as [|[c v] l IH]; intros H; [reflexivity|].
    inversion H as [|? ? Hv Hl]; subst. cbn [lc_val]. simpl snd in Hv.
    rewrite (var_val_some _ _ _ _ _ _ Hv), (IH Hl). reflexivity.
  Qed.

  Lemma rows_sat_some ins wits ni nw rws rws' :
    Forall (row_ok (length (f1 :: ins)) (length wits)) rws ->
    exists b, rows_sat (CSys ni nw (f1 :: ins) wits rws') rws = Some b /\
      (b = true <-> Forall (row_holds (assignment_val ins wits)) rws).
  Proof.
    induction rws as [|r rws IH]; intros H.
    - exists true. split; [reflexivity|]. split; [constructor|reflexivity].
    - inversion H as [|? ? (Ha&Hb&Hc) Hr]; subst. destruct (IH Hr) as (b&Eb&Hbt).
      cbn [rows_sat]. unfold row_sat.
      rewrite (lc_val_some _ _ _ _ _ _ Ha), (lc_val_some _ _ _ _ _ _ Hb), (lc_val_some _ _ _ _ _ _ Hc).
      destruct (feqb_spec (lc_value (assignment_val ins wits) (rA r) *
                           lc_value (assignment_val ins wits) (rB r))
                          (lc_value (assignment_val ins wits) (rC r))) as [Heq|Hne].
      + exists b. split; [exact Eb|]. rewrite Hbt. split; intros HF.
        * constructor; assumption.
        * inversion HF; assumption.
      + exists false. split; [reflexivity|]. split; [discriminate|].
        intros HF. inversion HF; contradiction.
  Qed.

  (** is_satisfied on the synthesised system decides satisfaction of the program. *)
  Lemma is_satisfied_synth p :
    wf_prog p -> error_of 1 0 p = None ->
    exists b, is_satisfied (fst (synth p cs_new)) = Some b /\ (b = true <-> prog_satisfied p).
  Proof.
    intros Hwf He. rewrite synth_new; simpl.
    unfold is_satisfied, prog_satisfied. simpl. apply rows_sat_some.
    exact (rows_of_ok 1 0 p Hwf).
  Qed.

End CSFacts.
