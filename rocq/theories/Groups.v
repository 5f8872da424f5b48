(** Bilinear groups (arkworks [Pairing]): three modules over the scalar field, with
    generators of the two source groups and a bilinear map. *)
From Coq Require Import List Bool Ring Field.
From Verif Require Import Fld.
Import ListNotations.
Local Open Scope fld_scope.

Record modT (F : fieldT) := ModT {
  mcar :> Type;
  mzero : mcar;
  madd : mcar -> mcar -> mcar;
  mopp : mcar -> mcar;
  smul : F -> mcar -> mcar;
  madd_assoc : forall x y z, madd x (madd y z) = madd (madd x y) z;
  madd_comm : forall x y, madd x y = madd y x;
  madd_0_l : forall x, madd mzero x = x;
  madd_opp_r : forall x, madd x (mopp x) = mzero;
  smul_1 : forall x, smul f1 x = x;
  smul_mul : forall a b x, smul (a * b) x = smul a (smul b x);
  smul_add_l : forall a b x, smul (a + b) x = madd (smul a x) (smul b x);
  smul_add_r : forall a x y, smul a (madd x y) = madd (smul a x) (smul a y)
}.
Arguments mzero {F m}. Arguments madd {F m} _ _. Arguments mopp {F m} _.
Arguments smul {F m} _ _.

Record pairingT (F : fieldT) := PairingT {
  G1 : modT F; G2 : modT F; GT : modT F;
  g1 : G1; g2 : G2;                         (* E::G1::generator(), E::G2::generator() *)
  pair : G1 -> G2 -> GT;                    (* E::pairing *)
  pair_add_l : forall p p' q, pair (madd p p') q = madd (pair p q) (pair p' q);
  pair_add_r : forall p q q', pair p (madd q q') = madd (pair p q) (pair p q');
  pair_smul_l : forall a p q, pair (smul a p) q = smul a (pair p q);
  pair_smul_r : forall a p q, pair p (smul a q) = smul a (pair p q)
}.
Arguments G1 {F} _. Arguments G2 {F} _. Arguments GT {F} _.
Arguments g1 {F} _. Arguments g2 {F} _. Arguments pair {F} _ _ _.

(** The pairing of the two generators has full order (true of BN254). *)
Definition nondegenerate {F} (E : pairingT F) : Prop :=
  forall a b : F, smul a (pair E (g1 E) (g2 E)) = smul b (pair E (g1 E) (g2 E)) -> a = b.

Section ModFacts.
  Context {F : fieldT} {M : modT F}.
  Add Field Ffld2 : (f_th F).
  Implicit Types x y z : M.

  Lemma madd_0_r x : madd x mzero = x.
  Proof. rewrite (madd_comm F M). apply madd_0_l. Qed.

  Lemma madd_opp_l x : madd (mopp x) x = mzero.
  Proof. rewrite (madd_comm F M). apply madd_opp_r. Qed.

  Lemma madd_cancel_l x y z : madd x y = madd x z -> y = z.
  Proof.
    intros H.
    rewrite <- (madd_0_l F M y), <- (madd_0_l F M z), <- (madd_opp_l x).
    rewrite <- !(madd_assoc F M). rewrite H. reflexivity.
  Qed.

  Lemma smul_0 x : smul (0 : F) x = mzero.
  Proof.
    apply (madd_cancel_l (smul (0:F) x)).
    rewrite <- (smul_add_l F M), madd_0_r. f_equal. ring.
  Qed.

  Lemma smul_zero (a : F) : smul a (mzero : M) = mzero.
  Proof.
    rewrite <- (smul_0 mzero), <- (smul_mul F M). f_equal. ring.
  Qed.

  Lemma smul_opp (a : F) x : smul (- a) x = mopp (smul a x).
  Proof.
    apply (madd_cancel_l (smul a x)). rewrite (madd_opp_r F M).
    rewrite <- (smul_add_l F M). replace (a + - a) with (0 : F) by ring. apply smul_0.
  Qed.

  Lemma smul_sub (a b : F) x : smul (a - b) x = madd (smul a x) (mopp (smul b x)).
  Proof.
    rewrite <- smul_opp, <- (smul_add_l F M). f_equal. ring.
  Qed.

  (** Σ s_i · P_i over the common length. *)
  Fixpoint msum (bases : list M) (scalars : list F) : M :=
    match bases, scalars with
    | p :: ps, s :: ss => madd (smul s p) (msum ps ss)
    | _, _ => mzero
    end.

  (** ark_ec [VariableBaseMSM::msm(bases, scalars)]: an error when the lengths differ. *)
  Definition msm (bases : list M) (scalars : list F) : option M :=
    if Nat.eqb (length bases) (length scalars) then Some (msum bases scalars) else None.

  Lemma msum_smul_map (g : M) (cs ss : list F) :
    msum (map (fun c => smul c g) cs) ss = smul (dot ss cs) g.
  Proof.
    revert ss; induction cs as [|c cs IH]; intros [|s ss]; simpl; try (symmetry; apply smul_0).
    rewrite IH, <- (smul_mul F M), <- (smul_add_l F M). reflexivity.
  Qed.
End ModFacts.

Section PairFacts.
  Context {F : fieldT} (E : pairingT F).
  Lemma pair_zero_l q : pair E mzero q = mzero.
  Proof. rewrite <- (smul_0 (mzero : G1 E)), (pair_smul_l F E), smul_0. reflexivity. Qed.
  Lemma pair_gen (a b : F) :
    pair E (smul a (g1 E)) (smul b (g2 E)) = smul (a * b) (pair E (g1 E) (g2 E)).
  Proof. rewrite (pair_smul_l F E), (pair_smul_r F E), (smul_mul F (GT E)). reflexivity. Qed.
End PairFacts.

(** A field as a module over itself, and the multiplication pairing: a concrete
    (insecure, but law-abiding) instance used only in examples. *)
Section SelfInstance.
  Context (F : fieldT).
  Add Field Ffld3 : (f_th F).
  Definition selfMod : modT F.
  Proof.
    refine (ModT F F 0 fadd fopp fmul _ _ _ _ _ _ _ _); intros; ring.
  Defined.
  Definition selfPairing : pairingT F.
  Proof.
    refine (PairingT F selfMod selfMod selfMod (1 : F) (1 : F) (@fmul F) _ _ _ _);
      simpl; intros; ring.
  Defined.
  Lemma selfPairing_nondegenerate : nondegenerate selfPairing.
  Proof.
    intros a b; simpl; intros H.
    replace a with (a * (1 * 1)) by ring. replace b with (b * (1 * 1)) by ring. exact H.
  Qed.
End SelfInstance.
