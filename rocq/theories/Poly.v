(** Univariate polynomials over a field as coefficient lists (constant term first):
    specification vocabulary for the QAP properties. *)
From Coq Require Import List Bool Arith Lia Ring Field Setoid Morphisms.
From Verif Require Import Fld.
Import ListNotations.
Local Open Scope fld_scope.

Section Poly.
  Context (F : fieldT).
  Add Field FfldP : (f_th F).

  Definition poly := list F.
  Definition pcoef (n : nat) (p : poly) : F := nth n p 0.
  (** Equality of polynomials: equality of all coefficients. *)
  Record peq (p q : poly) : Prop := Peq { peq_coef : forall n, pcoef n p = pcoef n q }.
  Fixpoint peval (p : poly) (x : F) : F :=
    match p with [] => 0 | c :: p' => c + x * peval p' x end.
  Fixpoint padd (p q : poly) : poly :=
    match p, q with
    | [], _ => q
    | _, [] => p
    | a :: p', b :: q' => (a + b) :: padd p' q'
    end.
  Definition pscale (c : F) (p : poly) : poly := map (fun a => c * a) p.
  Definition psub (p q : poly) : poly := padd p (pscale (- (1)) q).
  Fixpoint pmul (p q : poly) : poly :=
    match p with [] => [] | c :: p' => padd (pscale c q) (0 :: pmul p' q) end.
  Fixpoint psum (l : list poly) : poly :=
    match l with [] => [] | p :: r => padd p (psum r) end.
  (** X - a, and the monic polynomial with the given roots. *)
  Definition plin (a : F) : poly := [- a; 1].
  Fixpoint pvanish (ds : list F) : poly :=
    match ds with [] => [1] | d :: r => pmul (plin d) (pvanish r) end.
  Definition pdivides (t p : poly) : Prop := exists h, peq p (pmul h t).

  (** evaluation is a ring morphism *)
  Lemma peval_padd p q x : peval (padd p q) x = peval p x + peval q x.
  Proof.
    revert q; induction p as [|a p IH]; intros [|b q]; simpl; try ring. rewrite IH; ring.
  Qed.
  Lemma peval_pscale c p x : peval (pscale c p) x = c * peval p x.
  Proof. unfold pscale; induction p as [|a p IH]; simpl; [ring|]. rewrite IH; ring. Qed.
  Lemma peval_psub p q x : peval (psub p q) x = peval p x - peval q x.
  Proof. unfold psub. rewrite peval_padd, peval_pscale. ring. Qed.
  Lemma peval_pmul p q x : peval (pmul p q) x = peval p x * peval q x.
  Proof.
    induction p as [|a p IH]; simpl; [ring|].
    rewrite peval_padd, peval_pscale; simpl. rewrite IH. ring.
  Qed.
  Lemma peval_psum l x : peval (psum l) x = fsum (map (fun p => peval p x) l).
  Proof. induction l as [|p l IH]; simpl; [reflexivity|]. rewrite peval_padd, IH. reflexivity. Qed.
  Lemma peval_plin a x : peval (plin a) x = x - a.
  Proof. unfold plin; simpl. ring. Qed.
  Lemma peval_pvanish ds x : peval (pvanish ds) x = fold_right fmul 1 (map (fun d => x - d) ds).
  Proof.
    induction ds as [|d ds IH]; cbn [pvanish map fold_right]; [simpl; ring|].
    rewrite peval_pmul, peval_plin, IH. reflexivity.
  Qed.
  Lemma peval_pvanish_root ds x : In x ds -> peval (pvanish ds) x = 0.
  Proof.
    intros H. rewrite peval_pvanish. induction ds as [|d ds IH]; [destruct H|].
    simpl. destruct H as [->|H]; [|rewrite (IH H)]; ring.
  Qed.

  (** coefficients *)
  Lemma pcoef_padd n p q : pcoef n (padd p q) = pcoef n p + pcoef n q.
  Proof.
    unfold pcoef. revert n q; induction p as [|a p IH]; intros n [|b q]; simpl;
      try (destruct n; simpl; ring).
    destruct n as [|n]; [reflexivity|]. apply IH.
  Qed.
  Lemma pcoef_pscale n c p : pcoef n (pscale c p) = c * pcoef n p.
  Proof.
    unfold pcoef, pscale. revert n; induction p as [|a p IH]; intros [|n]; simpl; try ring. apply IH.
  Qed.
  Lemma pcoef_cons_S n a p : pcoef (S n) (a :: p) = pcoef n p.
  Proof. reflexivity. Qed.
  Lemma pcoef_cons_0 a p : pcoef 0 (a :: p) = a.
  Proof. reflexivity. Qed.
  Lemma pcoef_nil n : pcoef n [] = 0.
  Proof. destruct n; reflexivity. Qed.

  Global Instance peq_equiv : Equivalence peq.
  Proof.
    split; red.
    - intros; constructor; reflexivity.
    - intros x y [H]; constructor; intros; symmetry; auto.
    - intros x y z [H] [H']; constructor; intros; rewrite H; auto.
  Qed.

  Lemma peq_eval p q : peq p q -> forall x, peval p x = peval q x.
  Proof.
    revert q; induction p as [|a p IH]; intros q [H] x.
    - assert (Hz : forall q, (forall n, pcoef n q = 0) -> peval q x = 0).
      { clear. induction q as [|b q IH]; intros H; simpl; [reflexivity|].
        rewrite IH; [|intros n; exact (H (S n))]. pose proof (H 0%nat) as H0; simpl in H0.
        unfold pcoef in H0; simpl in H0. rewrite H0. ring. }
      simpl. symmetry. apply Hz. intros n. rewrite <- H. apply pcoef_nil.
    - destruct q as [|b q].
      + assert (Hz : forall q, (forall n, pcoef n q = 0) -> peval q x = 0).
        { clear. induction q as [|b q IH]; intros H; simpl; [reflexivity|].
          rewrite IH; [|intros n; exact (H (S n))]. pose proof (H 0%nat) as H0; simpl in H0.
          unfold pcoef in H0; simpl in H0. rewrite H0. ring. }
        rewrite (Hz (a :: p)); [reflexivity|]. intros n. rewrite H. apply pcoef_nil.
      + simpl. pose proof (H 0%nat) as H0. unfold pcoef in H0; simpl in H0. rewrite H0.
        rewrite (IH q); [reflexivity|]. constructor; intros n. exact (H (S n)).
  Qed.

  Global Instance padd_proper : Proper (peq ==> peq ==> peq) padd.
  Proof. intros p p' [Hp] q q' [Hq]; constructor; intros n. rewrite !pcoef_padd, Hp, Hq. reflexivity. Qed.
  Global Instance pscale_proper c : Proper (peq ==> peq) (pscale c).
  Proof. intros p p' [Hp]; constructor; intros n. rewrite !pcoef_pscale, Hp. reflexivity. Qed.
  Global Instance pcons_proper a : Proper (peq ==> peq) (cons a).
  Proof. intros p p' [Hp]; constructor; intros [|n]; [reflexivity|]. apply Hp. Qed.
  Global Instance pmul_proper_r p : Proper (peq ==> peq) (pmul p).
  Proof.
    induction p as [|a p IH]; intros q q' Hq; simpl; [reflexivity|].
    apply padd_proper; [rewrite Hq; reflexivity|]. apply pcons_proper, IH, Hq.
  Qed.

  Lemma pmul_nil_r p : peq (pmul p []) [].
  Proof.
    induction p as [|a p IH]; simpl; [reflexivity|]. rewrite IH.
    constructor; intros [|[|n]]; reflexivity.
  Qed.
  Lemma pmul_cons_r p b q : peq (pmul p (b :: q)) (padd (pscale b p) (0 :: pmul p q)).
  Proof.
    induction p as [|a p IH]; simpl.
    - constructor; intros [|[|n]]; reflexivity.
    - constructor; intros [|n].
      + unfold pcoef; simpl. ring.
      + rewrite !pcoef_cons_S. rewrite !pcoef_padd, !pcoef_pscale.
        rewrite (peq_coef _ _ IH n), pcoef_padd, pcoef_pscale.
        destruct n as [|n]; rewrite ?pcoef_cons_0, ?pcoef_cons_S; ring.
  Qed.
  Lemma pmul_comm p q : peq (pmul p q) (pmul q p).
  Proof.
    induction p as [|a p IH]; simpl.
    - rewrite pmul_nil_r. reflexivity.
    - rewrite pmul_cons_r, IH. reflexivity.
  Qed.
  Global Instance pmul_proper : Proper (peq ==> peq ==> peq) pmul.
  Proof.
    intros p p' Hp q q' Hq. rewrite Hq, (pmul_comm p), Hp, pmul_comm. reflexivity.
  Qed.
  Lemma pscale_pmul c p q : peq (pscale c (pmul p q)) (pmul (pscale c p) q).
  Proof.
    induction p as [|a p IH]; simpl; [reflexivity|].
    rewrite <- IH. constructor; intros [|n]; rewrite pcoef_pscale, !pcoef_padd, !pcoef_pscale;
      rewrite ?pcoef_cons_0, ?pcoef_cons_S, ?pcoef_pscale; ring.
  Qed.
  Lemma pmul_padd_r p q r : peq (pmul p (padd q r)) (padd (pmul p q) (pmul p r)).
  Proof.
    induction p as [|a p IH]; simpl; [reflexivity|].
    rewrite IH. constructor; intros [|n]; rewrite !pcoef_padd, !pcoef_pscale, ?pcoef_cons_0, ?pcoef_cons_S,
      ?pcoef_padd; ring.
  Qed.
  Lemma pmul_0cons_l p q : peq (pmul (0 :: p) q) (0 :: pmul p q).
  Proof.
    simpl. constructor; intros [|n]; rewrite pcoef_padd, pcoef_pscale, ?pcoef_cons_0, ?pcoef_cons_S; ring.
  Qed.
  Lemma pmul_assoc p q r : peq (pmul p (pmul q r)) (pmul (pmul p q) r).
  Proof.
    induction p as [|a p IH]; cbn [pmul]; [reflexivity|].
    rewrite (pmul_comm (padd _ _) r), pmul_padd_r.
    rewrite (pmul_comm r (pscale a q)), <- pscale_pmul.
    rewrite (pmul_comm r (0 :: pmul p q)), pmul_0cons_l, IH. reflexivity.
  Qed.

  (** Synthetic division by X - a. *)
  Fixpoint pdivlin (a : F) (p : poly) : poly * F :=
    match p with
    | [] => ([], 0)
    | [c] => ([], c)
    | c :: p' => let (q, r) := pdivlin a p' in (r :: q, c + a * r)
    end.

  Lemma pdivlin_rem a p : snd (pdivlin a p) = peval p a.
  Proof.
    induction p as [|c [|c' p] IH]; [reflexivity|simpl; ring|].
    cbn [pdivlin] in IH |- *. destruct (match p with [] => _ | _ => _ end) as [q r]. simpl in *.
    rewrite IH. ring.
  Qed.
  Lemma pdivlin_length a p : length (fst (pdivlin a p)) = (length p - 1)%nat.
  Proof.
    induction p as [|c [|c' p] IH]; [reflexivity|reflexivity|].
    cbn [pdivlin] in IH |- *. destruct (match p with [] => _ | _ => _ end) as [q r]. simpl in *. lia.
  Qed.
  Lemma pdivlin_spec a p :
    peq p (padd (pmul (plin a) (fst (pdivlin a p))) [snd (pdivlin a p)]).
  Proof.
    induction p as [|c [|c' p] IH].
    - constructor; intros [|[|[|n]]]; unfold pcoef; simpl; ring.
    - constructor; intros [|[|[|n]]]; unfold pcoef; simpl; ring.
    - cbn [pdivlin] in IH |- *. destruct (match p with [] => _ | _ => _ end) as [q r]. simpl fst in *. simpl snd in *.
      set (p1 := c' :: p) in *.
      constructor; intros [|n].
      + unfold pcoef, plin; simpl. ring.
      + rewrite pcoef_cons_S, (peq_coef _ _ IH n).
        unfold plin. cbn [pmul].
        rewrite !pcoef_padd, !pcoef_pscale.
        destruct n as [|n]; rewrite ?pcoef_cons_S, ?pcoef_cons_0, ?pcoef_padd, ?pcoef_pscale,
          ?pcoef_cons_S, ?pcoef_cons_0, ?pcoef_nil; try ring.
        destruct n as [|n]; rewrite ?pcoef_cons_S, ?pcoef_cons_0, ?pcoef_nil; ring.
  Qed.

  (** Factor theorem. *)
  Lemma pfactor a p : peval p a = 0 -> exists q, peq p (pmul (plin a) q) /\ length q = (length p - 1)%nat.
  Proof.
    intros H. exists (fst (pdivlin a p)). split; [|apply pdivlin_length].
    constructor; intros n. rewrite (peq_coef _ _ (pdivlin_spec a p) n) at 1. rewrite pcoef_padd, pdivlin_rem, H.
    replace (pcoef n [0]) with (0 : F) by (destruct n as [|[|n]]; reflexivity). ring.
  Qed.

  (** Polynomials vanishing on distinct points are multiples of the vanishing polynomial. *)
  Lemma pvanish_divides ds p :
    NoDup ds -> (forall d, In d ds -> peval p d = 0) -> pdivides (pvanish ds) p.
  Proof.
    revert p; induction ds as [|a ds IH]; intros p Hnd H.
    - exists p. constructor; intros n. cbn [pvanish]. rewrite (peq_coef _ _ (pmul_comm p [1]) n). simpl.
      rewrite pcoef_padd, pcoef_pscale. destruct n as [|[|n]]; unfold pcoef; simpl; ring.
    - inversion Hnd as [|? ? Hni Hnd']; subst.
      destruct (pfactor a p (H a (or_introl eq_refl))) as (q&Hq&_).
      destruct (IH q Hnd') as (h&Hh).
      { intros d Hd. pose proof (H d (or_intror Hd)) as Hp.
        rewrite (peq_eval _ _ Hq), peval_pmul, peval_plin in Hp.
        destruct (fmul_eq_0 F _ _ Hp) as [Hz|]; [|assumption].
        apply (proj1 (fsub_eq_0 F _ _)) in Hz. rewrite Hz in Hd. contradiction. }
      exists h. rewrite Hq, Hh. cbn [pvanish].
      rewrite !pmul_assoc. rewrite (pmul_comm (plin a) h). reflexivity.
  Qed.

  Lemma pdivides_roots ds p :
    pdivides (pvanish ds) p -> forall d, In d ds -> peval p d = 0.
  Proof.
    intros (h&Hh) d Hd. rewrite (peq_eval _ _ Hh), peval_pmul, (peval_pvanish_root _ _ Hd). ring.
  Qed.

  (** A polynomial with fewer coefficients than distinct roots is zero. *)
  Lemma proots_zero ds p :
    NoDup ds -> length p <= length ds -> (forall d, In d ds -> peval p d = 0) -> peq p [].
  Proof.
    revert p; induction ds as [|a ds IH]; intros p Hnd Hlen H.
    - destruct p; [reflexivity|simpl in Hlen; lia].
    - inversion Hnd as [|? ? Hni Hnd']; subst.
      destruct (pfactor a p (H a (or_introl eq_refl))) as (q&Hq&Hlq).
      rewrite Hq. rewrite (IH q Hnd').
      + apply pmul_nil_r.
      + simpl in Hlen. lia.
      + intros d Hd. pose proof (H d (or_intror Hd)) as Hp.
        rewrite (peq_eval _ _ Hq), peval_pmul, peval_plin in Hp.
        destruct (fmul_eq_0 F _ _ Hp) as [Hz|]; [|assumption].
        apply (proj1 (fsub_eq_0 F _ _)) in Hz. rewrite Hz in Hd. contradiction.
  Qed.

  Lemma psub_peq_nil p q : peq (psub p q) [] -> peq p q.
  Proof.
    intros [H]; constructor; intros n. pose proof (H n) as Hn. unfold psub in Hn.
    rewrite pcoef_padd, pcoef_pscale, pcoef_nil in Hn.
    replace (pcoef n p) with (pcoef n p + - (1) * pcoef n q + pcoef n q) by ring.
    rewrite Hn. ring.
  Qed.
  Lemma padd_length p q : length (padd p q) = Nat.max (length p) (length q).
  Proof. revert q; induction p as [|a p IH]; intros [|b q]; simpl; auto. Qed.
  Lemma pscale_length c p : length (pscale c p) = length p.
  Proof. apply map_length. Qed.

  (** Two polynomials of degree < N agreeing on N distinct points are equal. *)
  Lemma pinterp_unique ds p q :
    NoDup ds -> length p <= length ds -> length q <= length ds ->
    (forall d, In d ds -> peval p d = peval q d) -> peq p q.
  Proof.
    intros Hnd Hp Hq H. apply psub_peq_nil. apply (proots_zero ds); auto.
    - unfold psub. rewrite padd_length, pscale_length. lia.
    - intros d Hd. rewrite peval_psub, (H d Hd). ring.
  Qed.
End Poly.

Arguments pcoef {F}. Arguments peq {F}. Arguments peval {F}. Arguments padd {F}.
Arguments pscale {F}. Arguments psub {F}. Arguments pmul {F}. Arguments psum {F}.
Arguments plin {F}. Arguments pvanish {F}. Arguments pdivides {F}.
