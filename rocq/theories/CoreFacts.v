(** Proofs about encap, decap and verify_ciphertext. *)
From Coq Require Import List Bool Arith Lia Ring Field.
From Verif Require Import Res Fld Groups CS CSFacts Poly Qap SpecQap QapFacts Core.
Import ListNotations.
Local Open Scope fld_scope.

Section CoreFacts.
  Context (F : fieldT) (E : pairingT F) (D : domainT F) (kdf : GT E -> key).
  Add Field FfldC : (f_th F).
  Implicit Types (c : prog F) (u v w l full : list F) (alpha beta delta r x : F).

  (* ---------- collect ---------- *)
  Lemma collect_length {A} (q : list A) i l :
    length (fst (collect q i l)) = length (snd (collect q i l)).
  Proof.
    revert i; induction l as [|a l IH]; intros i; [reflexivity|]. simpl.
    specialize (IH (S i)). destruct (collect q (S i) l) as [bs ss]. simpl in IH.
    destruct (nth_error q i); simpl; lia.
  Qed.

  Lemma collect_nil {A} (q : list A) i l : nth_error q i = None -> collect q i l = ([], []).
  Proof.
    revert i; induction l as [|a l IH]; intros i H; [reflexivity|]. simpl.
    rewrite IH, H; [reflexivity|]. apply nth_error_None. apply nth_error_None in H. lia.
  Qed.

  Lemma skipn_nth_error {A} (q : list A) i b : nth_error q i = Some b -> skipn i q = b :: skipn (S i) q.
  Proof.
    revert i; induction q as [|a q IH]; intros [|i] H; simpl in *; try discriminate.
    - injection H as ->. reflexivity.
    - apply IH. exact H.
  Qed.

  Lemma collect_msum {M : modT F} (q : list M) i l :
    msum (fst (collect q i l)) (snd (collect q i l)) = msum (skipn i q) l.
  Proof.
    revert i; induction l as [|a l IH]; intros i.
    - simpl. destruct (skipn i q); reflexivity.
    - cbn [collect]. destruct (nth_error q i) as [b|] eqn:Hb.
      + rewrite (skipn_nth_error _ _ _ Hb). specialize (IH (S i)).
        destruct (collect q (S i) l) as [bs ss]. cbn [fst snd msum] in *. rewrite IH. reflexivity.
      + rewrite (collect_nil q (S i) l).
        2:{ apply nth_error_None. apply nth_error_None in Hb. lia. }
        rewrite skipn_all2; [reflexivity|]. apply nth_error_None in Hb. exact Hb.
  Qed.

  Lemma collect_empty {A} (q : list A) l : fst (collect q 0 l) = [] <-> q = [] \/ l = [].
  Proof.
    destruct q as [|b q].
    - rewrite collect_nil by reflexivity. simpl. tauto.
    - destruct l as [|a l]; simpl; [tauto|].
      destruct (collect (b :: q) 1 l) as [bs ss]; simpl.
      split; [discriminate|]. intros [H|H]; discriminate.
  Qed.

  Lemma msm_collect {M : modT F} (q : list M) i l :
    msm (fst (collect q i l)) (snd (collect q i l)) = Some (msum (skipn i q) l).
  Proof.
    unfold msm. rewrite collect_length, Nat.eqb_refl, collect_msum. reflexivity.
  Qed.

  (* ---------- the CRS loop ---------- *)
  Definition phi_evals alpha beta r u v w : list F :=
    map (fun i => r * beta * nth i u 0 + r * alpha * nth i v 0 + r * r * nth i w 0)
        (seq 0 (length u)).

  Lemma phi_evals_length alpha beta r u v w : length (phi_evals alpha beta r u v w) = length u.
  Proof. unfold phi_evals. rewrite map_length, seq_length. reflexivity. Qed.

  Lemma crs_loop_aux is alpha beta delta r u v w :
    delta <> 0 -> length v = length u -> length w = length u ->
    Forall (fun i => i < length u) is ->
    crs_loop E is alpha beta delta r u v w =
    Ok (map (fun i => smul (r * nth i u 0) (g1 E)) is,
        map (fun i => smul (r * nth i v 0) (g2 E)) is,
        map (fun i => smul ((r * beta * nth i u 0 + r * alpha * nth i v 0 + r * r * nth i w 0) * finv delta)
                           (g1 E)) is).
  Proof.
    intros Hd Hv Hw. induction is as [|i is IH]; intros HF; [reflexivity|].
    inversion HF as [|? ? Hi HF']; subst. cbn [crs_loop].
    rewrite (nth_error_nth' u 0 Hi), (nth_error_nth' v 0) by lia.
    rewrite (nth_error_nth' w 0) by lia.
    rewrite (proj2 (feqb_false F delta 0) Hd), (IH HF'). reflexivity.
  Qed.

  Lemma map_nth_seq (u : list F) {B} (f : F -> B) :
    map (fun i => f (nth i u 0)) (seq 0 (length u)) = map f u.
  Proof.
    rewrite <- (map_map (fun i => nth i u 0) f). f_equal.
    induction u as [|a u IH]; [reflexivity|]. simpl. f_equal.
    rewrite <- seq_shift, map_map. exact IH.
  Qed.

  Lemma map_nth_seq' (u : list F) n {B} (f : F -> B) :
    n = length u -> map (fun i => f (nth i u 0)) (seq 0 n) = map f u.
  Proof. intros ->. apply map_nth_seq. Qed.

  Lemma crs_loop_ok alpha beta delta r u v w m :
    delta <> 0 -> length u = m -> length v = m -> length w = m ->
    crs_loop E (seq 0 m) alpha beta delta r u v w =
    Ok (map (fun a => smul (r * a) (g1 E)) u,
        map (fun a => smul (r * a) (g2 E)) v,
        map (fun a => smul (a * finv delta) (g1 E)) (phi_evals alpha beta r u v w)).
  Proof.
    intros Hd Hu Hv Hw. rewrite crs_loop_aux; try congruence.
    - f_equal. f_equal; [f_equal|].
      + apply (map_nth_seq' u m (fun a => smul (r * a) (g1 E))). lia.
      + apply (map_nth_seq' v m (fun a => smul (r * a) (g2 E))). lia.
      + unfold phi_evals. rewrite map_map, Hu. reflexivity.
    - apply Forall_forall. intros i Hi. apply in_seq in Hi. lia.
  Qed.

  Lemma crs_loop_panic is alpha beta r u v w :
    is <> [] -> length v = length u -> length w = length u ->
    Forall (fun i => i < length u) is ->
    crs_loop E is alpha beta 0 r u v w = Panic.
  Proof.
    intros Hne Hv Hw HF. destruct is as [|i is]; [congruence|].
    inversion HF as [|? ? Hi HF']; subst. cbn [crs_loop].
    rewrite (nth_error_nth' u 0 Hi), (nth_error_nth' v 0) by lia.
    rewrite (nth_error_nth' w 0) by lia.
    rewrite feqb_refl. reflexivity.
  Qed.

  (* ---------- encap ---------- *)
  (** The evaluations used by an encap of [c] at [x]. *)
  Definition enc_u c x : list F := sel_evals F D (fst (synth c cs_new)) x rA.
  Definition enc_v c x : list F := sel_evals F D (fst (synth c cs_new)) x rB.
  Definition enc_w c x : list F := sel_evals F D (fst (synth c cs_new)) x rC.
  Definition nvars c : nat := num_variables (fst (synth c cs_new)).

  Lemma nvars_eq c :
    nvars c = (1 + length (inputs_of 1 0 c) + length (witnesses_of 1 0 c)
               + fst (extra_of 1 0 c) + snd (extra_of 1 0 c))%nat.
  Proof.
    unfold nvars, num_variables, num_public_inputs. rewrite synth_new. cbn [fst n_inst n_wit]. lia.
  Qed.
  Lemma nvars_pos c : 0 < nvars c.
  Proof. rewrite nvars_eq. lia. Qed.

  Lemma enc_u_length c x : length (enc_u c x) = nvars c. Proof. apply sel_evals_length. Qed.
  Lemma enc_v_length c x : length (enc_v c x) = nvars c. Proof. apply sel_evals_length. Qed.
  Lemma enc_w_length c x : length (enc_w c x) = nvars c. Proof. apply sel_evals_length. Qed.

  Definition enc_phi c alpha beta r x : list F :=
    phi_evals alpha beta r (enc_u c x) (enc_v c x) (enc_w c x).

  Definition enc_ct c alpha beta delta r x : ciphertext F E :=
    Ciphertext
      (EncapKey (smul alpha (g1 E)) (smul beta (g2 E)) (smul delta (g2 E))
         (map (fun a => smul (r * a) (g1 E)) (enc_u c x))
         (map (fun a => smul (r * a) (g2 E)) (enc_v c x))
         (map (fun a => smul (a * finv delta) (g1 E)) (enc_phi c alpha beta r x)) [])
      (inputs_of 1 0 c).

  Definition enc_exponent c alpha beta delta r x : F :=
    alpha * beta + dot (1 :: inputs_of 1 0 c) (enc_phi c alpha beta r x) * finv delta.

  Lemma dot_map_scale_r l1 l2 (k : F) : dot l1 (map (fun a => a * k) l2) = dot l1 l2 * k.
  Proof.
    revert l2; induction l1 as [|a l1 IH]; intros [|b l2]; simpl; try ring. rewrite IH. ring.
  Qed.

  Lemma encap_with_ok c alpha beta delta r x :
    delta <> 0 ->
    encap_with D kdf c alpha beta delta r x =
    Ok (enc_ct c alpha beta delta r x,
        kdf (smul (enc_exponent c alpha beta delta r x) (pair E (g1 E) (g2 E)))).
  Proof.
    intros Hd. unfold encap_with.
    pose proof (synth_new F c) as Hs.
    assert (Hinst : inst (fst (synth c cs_new)) = 1 :: inputs_of 1 0 c) by (rewrite Hs; reflexivity).
    rewrite Hinst. rewrite evaluate_qap_sel.
    fold (enc_u c x) (enc_v c x) (enc_w c x) (nvars c).
    rewrite crs_loop_ok; auto using enc_u_length, enc_v_length, enc_w_length.
    fold (enc_phi c alpha beta r x).
    set (qp := map (fun a => smul (a * finv delta) (g1 E)) (enc_phi c alpha beta r x)).
    assert (Hne : exists p0 qr, qp = p0 :: qr).
    { assert (Hl : length qp = nvars c).
      { unfold qp, enc_phi. rewrite map_length, phi_evals_length. apply enc_u_length. }
      pose proof (nvars_pos c). destruct qp as [|p0 qr]; [simpl in Hl; lia|eauto]. }
    destruct Hne as (p0&qr&Hqp).
    pose proof (msm_collect qp 1 (inputs_of 1 0 c)) as Hm.
    pose proof (collect_length qp 1 (inputs_of 1 0 c)) as Hcl.
    pose proof (collect_msum qp 1 (inputs_of 1 0 c)) as Hcm.
    destruct (collect qp 1 (inputs_of 1 0 c)) as [bs ss]. cbn [fst snd] in Hm, Hcl, Hcm.
    assert (Hm2 : (match qp with [] => (bs, ss) | p0' :: _ => (p0' :: bs, 1 :: ss) end) = (p0 :: bs, 1 :: ss))
      by (rewrite Hqp; reflexivity).
    rewrite Hm2.
    unfold msm. cbn [length]. rewrite Hcl, Nat.eqb_refl.
    f_equal. f_equal. f_equal.
    cbn [alpha_g1 beta_g2 msum].
    rewrite Hcm, Hqp. cbn [skipn].
    assert (Hsum : madd (smul 1 p0) (msum qr (inputs_of 1 0 c)) = msum qp (1 :: inputs_of 1 0 c)).
    { rewrite Hqp. reflexivity. }
    rewrite Hsum. unfold qp.
    rewrite <- (map_map (fun a => a * finv delta) (fun a => smul a (g1 E))).
    rewrite msum_smul_map, dot_map_scale_r.
    rewrite pair_gen, (pair_smul_l F E), <- (smul_add_l F (GT E)). reflexivity.
  Qed.

  Lemma encap_with_panic c alpha beta r x :
    encap_with D kdf c alpha beta 0 r x = Panic.
  Proof.
    unfold encap_with. rewrite evaluate_qap_sel.
    assert (Hinst : inst (fst (synth c cs_new)) = 1 :: inputs_of 1 0 c) by (rewrite synth_new; reflexivity).
    rewrite Hinst. fold (enc_u c x) (enc_v c x) (enc_w c x) (nvars c).
    rewrite crs_loop_panic; [reflexivity| | | |].
    - pose proof (nvars_pos c). destruct (nvars c); [lia|discriminate].
    - rewrite enc_v_length, enc_u_length. reflexivity.
    - rewrite enc_w_length, enc_u_length. reflexivity.
    - apply Forall_forall. intros i Hi. apply in_seq in Hi. rewrite enc_u_length. lia.
  Qed.

  Lemma encap_with_inv c alpha beta delta r x res :
    encap_with D kdf c alpha beta delta r x = Ok res ->
    delta <> 0 /\ res = (enc_ct c alpha beta delta r x,
        kdf (smul (enc_exponent c alpha beta delta r x) (pair E (g1 E) (g2 E)))).
  Proof.
    intros H. destruct (f_eq_dec F delta 0) as [->|Hd].
    - rewrite encap_with_panic in H. discriminate.
    - split; [exact Hd|]. rewrite encap_with_ok in H by exact Hd. injection H as <-. reflexivity.
  Qed.

  (* ---------- decap ---------- *)
  Definition prefix (a b : list F) : Prop := exists rest, b = a ++ rest.

  Fixpoint pub_match (full expected : list F) : bool :=
    match expected, full with
    | [], _ => true
    | e :: es, a :: full' => if feqb a e then pub_match full' es else false
    | _ :: _, [] => false
    end.
  Lemma pub_check_match es : forall a full i, length es + i <= length full ->
    pub_check (a :: full) i es = Some (pub_match (skipn i full) es).
  Proof.
    induction es as [|e es IH]; intros a full i H; cbn [pub_check].
    - destruct (skipn i full); reflexivity.
    - cbn [length] in H. rewrite Nat.add_comm. cbn [Nat.add nth_error].
      destruct (nth_error full i) as [y|] eqn:En; [|apply nth_error_None in En; lia].
      assert (Hs : skipn i full = y :: skipn (S i) full).
      { clear - En. revert full En. induction i as [|i IH]; intros [|z full] En; cbn in *; try discriminate; [congruence|]. apply IH. exact En. }
      rewrite Hs. cbn [pub_match]. destruct (feqb y e); [|reflexivity]. apply IH. lia.
  Qed.
  Lemma pub_match_prefix full es : pub_match full es = true <-> prefix es full.
  Proof.
    revert full; induction es as [|e es IH]; intros full; simpl.
    - split; [intros _; exists full; reflexivity|]. destruct full; reflexivity.
    - destruct full as [|a full].
      + split; [discriminate|]. intros (rest&H). discriminate.
      + cbn [pub_match]. destruct (feqb_spec a e) as [->|Hne].
        * rewrite IH. split; intros (rest&H); exists rest; simpl in *; congruence.
        * split; [discriminate|]. intros (rest&H). simpl in H. congruence.
  Qed.

  Lemma prefix_length es full : prefix es full -> length es <= length full.
  Proof. intros (rest&->). rewrite app_length. lia. Qed.

  Definition queries_nonempty (ct : ciphertext F E) : Prop :=
    r_u_query_g1 (ct_key ct) <> [] /\ r_v_query_g2 (ct_key ct) <> [] /\
    phi_delta_query_g1 (ct_key ct) <> [].

  Definition dec_secret (ct : ciphertext F E) (full : list F) : GT E :=
    madd (pair E (madd (alpha_g1 (ct_key ct)) (msum (r_u_query_g1 (ct_key ct)) full))
                 (madd (beta_g2 (ct_key ct)) (msum (r_v_query_g2 (ct_key ct)) full)))
         (mopp (pair E (msum (phi_delta_query_g1 (ct_key ct)) full) (delta_g2 (ct_key ct)))).

  Lemma decap_after_checks full ct :
    full <> [] ->
    (let ek := ct_key ct in
     let '(ab, as_) := collect (r_u_query_g1 ek) 0 full in
     match ab with
     | [] => Err InvalidWitness
     | _ =>
       match msm ab as_ with
       | None => Err SerializationError
       | Some a_sum =>
         let a_point := madd (alpha_g1 ek) a_sum in
         let '(bb, bs) := collect (r_v_query_g2 ek) 0 full in
         match bb with
         | [] => Err InvalidWitness
         | _ =>
           match msm bb bs with
           | None => Err SerializationError
           | Some b_sum =>
             let b_point := madd (beta_g2 ek) b_sum in
             let '(cb, cs_) := collect (phi_delta_query_g1 ek) 0 full in
             match cb with
             | [] => Err InvalidWitness
             | _ =>
               match msm cb cs_ with
               | None => Err SerializationError
               | Some c_point =>
                 let s := madd (pair E a_point b_point)
                               (mopp (pair E c_point (delta_g2 ek))) in
                 Ok (kdf s)
               end
             end
           end
         end
       end
     end : res core_error key) =
    match r_u_query_g1 (ct_key ct), r_v_query_g2 (ct_key ct), phi_delta_query_g1 (ct_key ct) with
    | _ :: _, _ :: _, _ :: _ => Ok (kdf (dec_secret ct full))
    | _, _, _ => Err InvalidWitness
    end.
  Proof.
    intros Hne. cbv zeta.
    pose proof (collect_empty (r_u_query_g1 (ct_key ct)) full) as Ea.
    pose proof (msm_collect (r_u_query_g1 (ct_key ct)) 0 full) as Ma.
    destruct (collect (r_u_query_g1 (ct_key ct)) 0 full) as [ab as_]. cbn [fst snd] in Ea, Ma.
    pose proof (collect_empty (r_v_query_g2 (ct_key ct)) full) as Eb.
    pose proof (msm_collect (r_v_query_g2 (ct_key ct)) 0 full) as Mb.
    destruct (collect (r_v_query_g2 (ct_key ct)) 0 full) as [bb bs]. cbn [fst snd] in Eb, Mb.
    pose proof (collect_empty (phi_delta_query_g1 (ct_key ct)) full) as Ec.
    pose proof (msm_collect (phi_delta_query_g1 (ct_key ct)) 0 full) as Mc.
    destruct (collect (phi_delta_query_g1 (ct_key ct)) 0 full) as [cb cs_]. cbn [fst snd] in Ec, Mc.
    unfold dec_secret.
    destruct ab as [|ab0 ab].
    { destruct (proj1 Ea eq_refl) as [H|H]; [rewrite H; reflexivity|contradiction]. }
    rewrite Ma. destruct (r_u_query_g1 (ct_key ct)) as [|ru0 ru].
    { exfalso. assert (ab0 :: ab = []) by (apply Ea; left; reflexivity). discriminate. }
    destruct bb as [|bb0 bb].
    { destruct (proj1 Eb eq_refl) as [H|H]; [rewrite H; reflexivity|contradiction]. }
    rewrite Mb. destruct (r_v_query_g2 (ct_key ct)) as [|rv0 rv].
    { exfalso. assert (bb0 :: bb = []) by (apply Eb; left; reflexivity). discriminate. }
    destruct cb as [|cb0 cb].
    { destruct (proj1 Ec eq_refl) as [H|H]; [rewrite H; reflexivity|contradiction]. }
    rewrite Mc. destruct (phi_delta_query_g1 (ct_key ct)) as [|rp0 rp].
    { exfalso. assert (cb0 :: cb = []) by (apply Ec; left; reflexivity). discriminate. }
    reflexivity.
  Qed.

  Definition full_of c : list F := 1 :: inputs_of 1 0 c ++ witnesses_of 1 0 c.

  (** decap as a decision procedure over the program's own allocations. *)
  Lemma decap_unfold c ct :
    wf_prog c ->
    decap kdf c ct =
    match error_of 1 0 c with
    | Some e => Err (SynthesisError e)
    | None =>
        match is_satisfied (fst (synth c cs_new)) with
        | Some true =>
            if pub_match (inputs_of 1 0 c ++ witnesses_of 1 0 c) (public_inputs ct) then
              match r_u_query_g1 (ct_key ct), r_v_query_g2 (ct_key ct), phi_delta_query_g1 (ct_key ct) with
              | _ :: _, _ :: _, _ :: _ => Ok (kdf (dec_secret ct (full_of c)))
              | _, _, _ => Err InvalidWitness
              end
            else Err InvalidPublicInputs
        | Some false => Err InvalidWitness
        | None => Panic
        end
    end.
  Proof.
    intros Hwf. unfold decap. pose proof (synth_new F c) as Hs.
    destruct (synth c cs_new) as [s err] eqn:Esy. injection Hs as Hs He. rewrite He.
    destruct (error_of 1 0 c) as [e|]; [reflexivity|]. cbn [fst].
    destruct (is_satisfied s) as [[|]|]; try reflexivity.
    assert (Hfull : inst s ++ wit s = full_of c) by (rewrite Hs; reflexivity).
    rewrite Hfull. cbv zeta.
    destruct (pub_match (inputs_of 1 0 c ++ witnesses_of 1 0 c) (public_inputs ct)) eqn:Hpm.
    - assert (Hpm' := Hpm). apply pub_match_prefix in Hpm. apply prefix_length in Hpm.
      replace (Nat.ltb _ _) with false.
      2:{ symmetry. apply Nat.ltb_ge. unfold full_of. cbn [length]. lia. }
      unfold full_of at 1. rewrite pub_check_match by lia. cbn [skipn]. rewrite Hpm'. apply decap_after_checks. unfold full_of. discriminate.
    - destruct (Nat.ltb_spec (length (full_of c)) (1 + length (public_inputs ct))) as [Hlt|Hge]; [reflexivity|].
      unfold full_of in *. cbn [length] in Hge. rewrite pub_check_match by lia. cbn [skipn]. rewrite Hpm. reflexivity.
  Qed.

  Lemma decap_ok c ct :
    wf_prog c -> error_of 1 0 c = None -> prog_satisfied c ->
    prefix (public_inputs ct) (inputs_of 1 0 c ++ witnesses_of 1 0 c) ->
    queries_nonempty ct ->
    decap kdf c ct = Ok (kdf (dec_secret ct (full_of c))).
  Proof.
    intros Hwf He Hs Hp (Hu&Hv&Hw). rewrite decap_unfold by exact Hwf. rewrite He.
    destruct (is_satisfied_synth F c Hwf He) as (b&Hb&Hbt). rewrite Hb, (proj2 Hbt Hs).
    rewrite (proj2 (pub_match_prefix _ _) Hp).
    destruct (r_u_query_g1 (ct_key ct)); [congruence|].
    destruct (r_v_query_g2 (ct_key ct)); [congruence|].
    destruct (phi_delta_query_g1 (ct_key ct)); [congruence|]. reflexivity.
  Qed.

  (* ---------- composing encap and decap ---------- *)
  Lemma dot_phi alpha beta r u v w l :
    length v = length u -> length w = length u ->
    dot l (phi_evals alpha beta r u v w) =
    r * beta * dot l u + r * alpha * dot l v + r * r * dot l w.
  Proof.
    intros Hv Hw. unfold phi_evals.
    revert v w l Hv Hw; induction u as [|a u IH]; intros [|b v] [|d w] [|y l] Hv Hw;
      simpl in *; try discriminate; try ring.
    rewrite <- seq_shift, map_map. simpl.
    rewrite (IH v w l) by lia. ring.
  Qed.

  Lemma msum_map_smul_l {M : modT F} (g : M) (k : F) l1 l2 :
    msum (map (fun a => smul (k * a) g) l1) l2 = smul (k * dot l2 l1) g.
  Proof.
    rewrite <- (map_map (fun a => k * a) (fun a => smul a g)), msum_smul_map.
    rewrite dot_map_scale. reflexivity.
  Qed.
  Lemma msum_map_smul_r {M : modT F} (g : M) (k : F) l1 l2 :
    msum (map (fun a => smul (a * k) g) l1) l2 = smul (dot l2 l1 * k) g.
  Proof.
    rewrite <- (map_map (fun a => a * k) (fun a => smul a g)), msum_smul_map.
    rewrite dot_map_scale_r. reflexivity.
  Qed.

  Lemma dec_secret_enc_ct c alpha beta delta r x full pub :
    delta <> 0 ->
    dec_secret (Ciphertext (ct_key (enc_ct c alpha beta delta r x)) pub) full =
    smul (alpha * beta + r * r * (dot full (enc_u c x) * dot full (enc_v c x) - dot full (enc_w c x)))
         (pair E (g1 E) (g2 E)).
  Proof.
    intros Hd. unfold dec_secret, enc_ct. cbn [ct_key alpha_g1 beta_g2 delta_g2 r_u_query_g1 r_v_query_g2 phi_delta_query_g1].
    rewrite !msum_map_smul_l, msum_map_smul_r.
    rewrite <- !(smul_add_l F). rewrite !pair_gen. rewrite <- smul_sub. f_equal.
    unfold enc_phi. rewrite dot_phi by (rewrite ?enc_v_length, ?enc_w_length, ?enc_u_length; reflexivity).
    field. exact Hd.
  Qed.

  Lemma enc_ct_nonempty c alpha beta delta r x pub :
    queries_nonempty (Ciphertext (ct_key (enc_ct c alpha beta delta r x)) pub).
  Proof.
    pose proof (nvars_pos c) as Hn.
    unfold queries_nonempty, enc_ct; cbn [ct_key r_u_query_g1 r_v_query_g2 phi_delta_query_g1].
    pose proof (enc_u_length c x) as Hu. pose proof (enc_v_length c x) as Hv.
    pose proof (phi_evals_length alpha beta r (enc_u c x) (enc_v c x) (enc_w c x)) as Hp.
    unfold enc_phi.
    repeat split; intros H; apply (f_equal (@length _)) in H; rewrite map_length in H; simpl in H; lia.
  Qed.

  (** No constraint was added: all evaluations vanish. *)
  Lemma enc_evals_zero c x :
    rows_of 1 0 c = [] ->
    enc_u c x = repeat 0 (nvars c) /\ enc_v c x = repeat 0 (nvars c) /\ enc_w c x = repeat 0 (nvars c).
  Proof.
    intros H. assert (Hr : rows (fst (synth c cs_new)) = []) by (rewrite synth_new; exact H).
    unfold enc_u, enc_v, enc_w. rewrite !(sel_evals_no_rows F D _ x _ Hr). auto.
  Qed.

  Lemma enc_exponent_aborted c alpha beta delta r x :
    rows_of 1 0 c = [] -> enc_exponent c alpha beta delta r x = alpha * beta.
  Proof.
    intros H. unfold enc_exponent, enc_phi. destruct (enc_evals_zero c x H) as (Hu&Hv&Hw).
    rewrite dot_phi by (rewrite ?enc_v_length, ?enc_w_length, ?enc_u_length; reflexivity).
    rewrite Hu, Hv, Hw, !dot_zeros. ring.
  Qed.

  Lemma key_agreement_aborted c0 c alpha beta delta r x ct k pub :
    rows_of 1 0 c0 = [] ->
    encap_with D kdf c0 alpha beta delta r x = Ok (ct, k) ->
    wf_prog c -> error_of 1 0 c = None -> prog_satisfied c ->
    prefix pub (inputs_of 1 0 c ++ witnesses_of 1 0 c) ->
    decap kdf c (Ciphertext (ct_key ct) pub) = Ok k.
  Proof.
    intros Hrows Henc Hwf He Hs Hp. apply encap_with_inv in Henc. destruct Henc as [Hd Heq].
    injection Heq as -> ->. rewrite decap_ok; auto using enc_ct_nonempty.
    f_equal. f_equal. rewrite dec_secret_enc_ct by exact Hd.
    rewrite enc_exponent_aborted by exact Hrows. f_equal.
    destruct (enc_evals_zero c0 x Hrows) as (Hu&Hv&Hw). rewrite Hu, Hv, Hw, !dot_zeros. ring.
  Qed.

  (** The general relation between the two secrets. *)
  Lemma decap_of_encap c0 c alpha beta delta r x ct k :
    encap_with D kdf c0 alpha beta delta r x = Ok (ct, k) ->
    wf_prog c -> error_of 1 0 c = None -> prog_satisfied c ->
    prefix (inputs_of 1 0 c0) (inputs_of 1 0 c ++ witnesses_of 1 0 c) ->
    decap kdf c ct =
    Ok (kdf (smul (alpha * beta + r * r * (dot (full_of c) (enc_u c0 x) * dot (full_of c) (enc_v c0 x)
                                           - dot (full_of c) (enc_w c0 x)))
                  (pair E (g1 E) (g2 E)))).
  Proof.
    intros Henc Hwf He Hs Hp. apply encap_with_inv in Henc. destruct Henc as [Hd Heq].
    injection Heq as -> ->.
    assert (Hct : enc_ct c0 alpha beta delta r x =
      Ciphertext (ct_key (enc_ct c0 alpha beta delta r x)) (inputs_of 1 0 c0)) by reflexivity.
    rewrite Hct. rewrite decap_ok; auto using enc_ct_nonempty.
    rewrite dec_secret_enc_ct by exact Hd. reflexivity.
  Qed.

  (** Public part of a dot product: over the constant and the recorded public inputs. *)
  Definition pubdot c l : F := dot (1 :: inputs_of 1 0 c) l.

  Lemma enc_exponent_eq c alpha beta delta r x :
    enc_exponent c alpha beta delta r x =
    alpha * beta + (r * beta * pubdot c (enc_u c x) + r * alpha * pubdot c (enc_v c x)
                    + r * r * pubdot c (enc_w c x)) * finv delta.
  Proof.
    unfold enc_exponent, enc_phi, pubdot.
    rewrite dot_phi by (rewrite ?enc_v_length, ?enc_w_length, ?enc_u_length; reflexivity).
    reflexivity.
  Qed.

  (** Extractor: the key from the ciphertext alone. *)
  Definition extract (ct : ciphertext F E) : key :=
    kdf (madd (pair E (alpha_g1 (ct_key ct)) (beta_g2 (ct_key ct)))
              (pair E (msum (phi_delta_query_g1 (ct_key ct)) (1 :: public_inputs ct)) (g2 E))).

  Lemma extract_correct c alpha beta delta r x ct k :
    encap_with D kdf c alpha beta delta r x = Ok (ct, k) -> extract ct = k.
  Proof.
    intros H. apply encap_with_inv in H. destruct H as [Hd Heq]. injection Heq as -> ->.
    unfold extract, enc_ct; cbn [ct_key public_inputs alpha_g1 beta_g2 phi_delta_query_g1].
    rewrite msum_map_smul_r, pair_gen, (pair_smul_l F E), <- (smul_add_l F (GT E)). reflexivity.
  Qed.

  (* ---------- verify_ciphertext ---------- *)
  Lemma verify_iff (ct : ciphertext F E) expected :
    verify_ciphertext ct expected = true <-> public_inputs ct = expected.
  Proof.
    unfold verify_ciphertext. generalize (public_inputs ct) as l. intros l.
    destruct (Nat.eqb_spec (length l) (length expected)) as [Hl|Hl]; simpl.
    - revert expected Hl; induction l as [|a l IH]; intros [|b ex] Hl; simpl in *; try discriminate.
      + tauto.
      + rewrite andb_true_iff, feqb_true, IH by lia. split; [intros [-> ->]; reflexivity|].
        intros H; injection H; auto.
    - split; [discriminate|]. intros ->. contradiction.
  Qed.
End CoreFacts.
