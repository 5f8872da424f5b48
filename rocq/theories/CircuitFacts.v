(** Facts about CircomCircuit synthesis. *)
From Coq Require Import List Bool Arith NArith ZArith Lia Ring.
From Coq Require Import Strings.Byte.
From Verif Require Import Res Bytes Fld Bn254 CS CSFacts SpecCore R1cs R1csJs Wtns SpecWtns WtnsFacts Circuit SpecCircuit.
Import ListNotations.
Local Open Scope N_scope.

Lemma range_in lo hi i : In i (range lo hi) <-> lo <= i < hi.
Proof.
  unfold range. rewrite in_map_iff. split.
  - intros (n&<-&H). apply in_seq in H. lia.
  - intros H. exists (N.to_nat i). split; [lia|]. apply in_seq. lia.
Qed.
Lemma range_length lo hi : length (range lo hi) = N.to_nat (hi - lo).
Proof. unfold range. rewrite map_length, seq_length. reflexivity. Qed.
Lemma range_nth lo hi j : (j < N.to_nat (hi - lo))%nat -> nth_error (range lo hi) j = Some (lo + N.of_nat j).
Proof.
  intros H. unfold range. rewrite nth_error_map.
  rewrite (nth_error_nth' _ 0%nat) by (rewrite seq_length; exact H). rewrite seq_nth by exact H.
  cbn. f_equal. lia.
Qed.
Lemma range_split lo mid hi : lo <= mid -> mid <= hi -> range lo hi = range lo mid ++ range mid hi.
Proof.
  intros H1 H2. unfold range. rewrite <- map_app. f_equal.
  replace (N.to_nat (hi - lo)) with (N.to_nat (mid - lo) + N.to_nat (hi - mid))%nat by lia.
  rewrite seq_app. replace (N.to_nat lo + N.to_nat (mid - lo))%nat with (N.to_nat mid) by lia. reflexivity.
Qed.
Lemma range_cons lo hi : lo < hi -> range lo hi = lo :: range (lo + 1) hi.
Proof.
  intros H. rewrite (range_split lo (lo + 1) hi) by lia.
  replace (range lo (lo + 1)) with [lo]; [reflexivity|]. unfold range.
  replace (lo + 1 - lo) with 1 by lia. change (N.to_nat 1) with 1%nat. cbn [seq map]. rewrite N2Nat.id. reflexivity.
Qed.

(** The variables bound to the wires [ids], numbered from [n]. *)
Fixpoint bind_wires (mk : nat -> var) (n : nat) (ids : list N) (vars : vmap) : vmap :=
  match ids with
  | [] => vars
  | id :: ids => bind_wires mk (S n) ids (vmap_insert id (mk n) vars)
  end.

Section Alloc.
  Variable w : N -> option Fr.
  Definition known (ids : list N) : Prop := Forall (fun i => w i <> None) ids.
  Definition value (i : N) : Fr := match w i with Some x => x | None => f0 end.

  Lemma source_known i : w i <> None -> wire_source w i = inl (value i).
  Proof. unfold wire_source, value. destruct (w i); [reflexivity|congruence]. Qed.

  Lemma inputs_alloc ids : known ids -> forall ni nw vars k,
    let p := alloc_inputs w ids vars k in
    let q := k (bind_wires VInst ni ids vars) in
    let m := (ni + length ids)%nat in
    inputs_of ni nw p = map value ids ++ inputs_of m nw q /\
    witnesses_of ni nw p = witnesses_of m nw q /\
    rows_of ni nw p = rows_of m nw q /\ error_of ni nw p = error_of m nw q /\
    extra_of ni nw p = extra_of m nw q /\ (prog_ok ni nw p <-> prog_ok m nw q).
  Proof.
    induction 1 as [|id ids Hid Hids IH]; intros ni nw vars k; cbn [alloc_inputs bind_wires length map].
    - rewrite Nat.add_0_r. repeat split; auto.
    - rewrite (source_known id Hid). specialize (IH (S ni) nw (vmap_insert id (VInst ni) vars) k).
      cbn zeta in *. replace (ni + S (length ids))%nat with (S ni + length ids)%nat by lia.
      cbn [inputs_of witnesses_of rows_of error_of extra_of prog_ok].
      destruct IH as (H1&H2&H3&H4&H5&H6). rewrite H1, H2, H3, H4, H5. cbn. repeat split; apply H6.
  Qed.
  Lemma witnesses_alloc ids : known ids -> forall ni nw vars k,
    let p := alloc_witnesses w ids vars k in
    let q := k (bind_wires VWit nw ids vars) in
    let m := (nw + length ids)%nat in
    inputs_of ni nw p = inputs_of ni m q /\
    witnesses_of ni nw p = map value ids ++ witnesses_of ni m q /\
    rows_of ni nw p = rows_of ni m q /\ error_of ni nw p = error_of ni m q /\
    extra_of ni nw p = extra_of ni m q /\ (prog_ok ni nw p <-> prog_ok ni m q).
  Proof.
    induction 1 as [|id ids Hid Hids IH]; intros ni nw vars k; cbn [alloc_witnesses bind_wires length map].
    - rewrite Nat.add_0_r. repeat split; auto.
    - rewrite (source_known id Hid). specialize (IH ni (S nw) (vmap_insert id (VWit nw) vars) k).
      cbn zeta in *. replace (nw + S (length ids))%nat with (S nw + length ids)%nat by lia.
      cbn [inputs_of witnesses_of rows_of error_of extra_of prog_ok].
      destruct IH as (H1&H2&H3&H4&H5&H6). rewrite H1, H2, H3, H4, H5. cbn. repeat split; apply H6.
  Qed.

  (** A missing wire. *)
  Lemma inputs_stop ids i post : known ids -> w i = None -> forall ni nw vars k,
    let p := alloc_inputs w (ids ++ i :: post) vars k in
    inputs_of ni nw p = map value ids /\ witnesses_of ni nw p = [] /\ rows_of ni nw p = [] /\
    error_of ni nw p = Some AssignmentMissing /\ extra_of ni nw p = (1, 0)%nat /\ prog_ok ni nw p.
  Proof.
    intros Hk Hi. induction Hk as [|id ids Hid Hids IH]; intros ni nw vars k; cbn [alloc_inputs app map].
    - unfold wire_source. rewrite Hi. cbn. repeat split.
    - rewrite (source_known id Hid). specialize (IH (S ni) nw (vmap_insert id (VInst ni) vars) k).
      cbn zeta in *. cbn [inputs_of witnesses_of rows_of error_of extra_of prog_ok].
      destruct IH as (H1&H2&H3&H4&H5&H6). rewrite H1, H2, H3, H4, H5. repeat split; exact H6.
  Qed.
  Lemma witnesses_stop ids i post : known ids -> w i = None -> forall ni nw vars k,
    let p := alloc_witnesses w (ids ++ i :: post) vars k in
    inputs_of ni nw p = [] /\ witnesses_of ni nw p = map value ids /\ rows_of ni nw p = [] /\
    error_of ni nw p = Some AssignmentMissing /\ extra_of ni nw p = (0, 1)%nat /\ prog_ok ni nw p.
  Proof.
    intros Hk Hi. induction Hk as [|id ids Hid Hids IH]; intros ni nw vars k; cbn [alloc_witnesses app map].
    - unfold wire_source. rewrite Hi. cbn. repeat split.
    - rewrite (source_known id Hid). specialize (IH ni (S nw) (vmap_insert id (VWit nw) vars) k).
      cbn zeta in *. cbn [inputs_of witnesses_of rows_of error_of extra_of prog_ok].
      destruct IH as (H1&H2&H3&H4&H5&H6). rewrite H1, H2, H3, H4, H5. repeat split; exact H6.
  Qed.
End Alloc.

Lemma enforce_facts vars cs ni nw :
  inputs_of ni nw (enforce_all vars cs) = [] /\ witnesses_of ni nw (enforce_all vars cs) = [] /\
  rows_of ni nw (enforce_all vars cs) =
    map (fun c => Row (build_lc vars (c_a c)) (build_lc vars (c_b c)) (build_lc vars (c_c c))) cs /\
  error_of ni nw (enforce_all vars cs) = None /\ extra_of ni nw (enforce_all vars cs) = (0, 0)%nat.
Proof.
  induction cs as [|c cs IH]; cbn; [repeat split|]. destruct IH as (H1&H2&H3&H4&H5).
  rewrite H1, H2, H3, H4, H5. repeat split.
Qed.

(** What the variables mean. *)
Lemma bind_wires_inv (P : N -> var -> Prop) mk ids : forall n vars,
  (forall i v, vars i = Some v -> P i v) ->
  (forall j id, nth_error ids j = Some id -> P id (mk (n + j)%nat)) ->
  forall i v, bind_wires mk n ids vars i = Some v -> P i v.
Proof.
  induction ids as [|id ids IH]; intros n vars Hv Hids i v H; [exact (Hv i v H)|].
  cbn [bind_wires] in H. revert i v H. apply IH.
  - intros i v. unfold vmap_insert. destruct (N.eqb_spec i id) as [->|].
    + intros H. injection H as <-. specialize (Hids 0%nat id eq_refl). rewrite Nat.add_0_r in Hids. exact Hids.
    + apply Hv.
  - intros j id' Hj. specialize (Hids (S j) id' Hj). replace (n + S j)%nat with (S n + j)%nat in Hids by lia. exact Hids.
Qed.
Lemma bind_wires_dom mk ids : forall n vars i,
  bind_wires mk n ids vars i <> None <-> In i ids \/ vars i <> None.
Proof.
  induction ids as [|id ids IH]; intros n vars i; [cbn; tauto|].
  cbn [bind_wires]. rewrite IH. unfold vmap_insert. destruct (N.eqb_spec i id) as [->|Hne].
  - cbn [In]. split; intros _; [left; left; reflexivity|right; discriminate].
  - cbn [In]. split; [tauto|]. intros [[H|H]|H]; [exfalso; congruence|auto|auto].
Qed.

Section Sat.
  Variable c : circom.
  Let w := cc_witness c.
  Let np := cc_n_public c.
  Let nw := cc_n_wires c.
  (** Number of wires that get a variable. *)
  Definition n_alloc : N := N.max nw (np + 1).
  Hypothesis Hnp : np + 1 < 2 ^ 32.

  Let pubs := range 1 (np + 1).
  Let privs := range (np + 1) nw.
  Let vf := bind_wires VWit 0 privs (bind_wires VInst 1 pubs vmap_init).

  Lemma prog_eq : circom_prog c = alloc_inputs w pubs vmap_init (fun vars =>
    alloc_witnesses w privs vars (fun vars => enforce_all vars (cc_constraints c))).
  Proof. unfold circom_prog. rewrite N.mod_small by exact Hnp. reflexivity. Qed.

  Lemma vf_dom i : vf i <> None <-> i < n_alloc.
  Proof.
    unfold vf. rewrite !bind_wires_dom. unfold pubs, privs. rewrite !range_in. unfold vmap_init, n_alloc.
    destruct (N.eqb_spec i 0) as [->|]; split; intros H.
    - lia.
    - right. right. discriminate.
    - destruct H as [H|[H|H]]; [lia|lia|congruence].
    - lia.
  Qed.

  Hypothesis Hw : forall i, 1 <= i < n_alloc -> w i <> None.

  Lemma known_pubs : known w pubs.
  Proof. apply Forall_forall. intros i Hi. apply range_in in Hi. apply Hw. unfold n_alloc. lia. Qed.
  Lemma known_privs : known w privs.
  Proof. apply Forall_forall. intros i Hi. apply range_in in Hi. apply Hw. unfold n_alloc. lia. Qed.

  Let ins := map (value w) pubs.
  Let wits := map (value w) privs.

  Lemma prog_facts :
    public_values (circom_prog c) = ins /\ private_values (circom_prog c) = wits /\
    completes (circom_prog c) /\
    constraints_stated (circom_prog c) =
      map (fun c => Row (build_lc vf (c_a c)) (build_lc vf (c_b c)) (build_lc vf (c_c c))) (cc_constraints c).
  Proof.
    unfold public_values, private_values, completes, stops_with, constraints_stated. rewrite prog_eq.
    destruct (inputs_alloc w pubs known_pubs 1 0 vmap_init (fun vars =>
      alloc_witnesses w privs vars (fun vars => enforce_all vars (cc_constraints c)))) as (H1&H2&H3&H4&_&_).
    rewrite H1, H2, H3, H4. cbn beta.
    destruct (witnesses_alloc w privs known_privs (1 + length pubs) 0 (bind_wires VInst 1 pubs vmap_init)
      (fun vars => enforce_all vars (cc_constraints c))) as (G1&G2&G3&G4&_&_).
    rewrite G1, G2, G3, G4. cbn beta. fold vf.
    destruct (enforce_facts vf (cc_constraints c) (1 + length pubs) (0 + length privs)) as (E1&E2&E3&E4&_).
    rewrite E1, E2, E3, E4, !app_nil_r. repeat split.
  Qed.

  Lemma vf_meaning i v : vf i = Some v ->
    assignment_val ins wits v = wires w i /\ var_ok (1 + length pubs) (length privs) v.
  Proof.
    unfold vf. revert i v.
    assert (Hval : forall i, 1 <= i -> wires w i = value w i).
    { intros i Hi. unfold wires, value. destruct (N.eqb_spec i 0); [lia|reflexivity]. }
    apply bind_wires_inv; [apply bind_wires_inv|].
    - intros i v. unfold vmap_init. destruct (N.eqb_spec i 0) as [->|]; [|discriminate].
      intros H. injection H as <-. cbn. split; [reflexivity|exact I].
    - intros j id Hj. assert (Hl : (j < length pubs)%nat) by (apply nth_error_Some; congruence).
      cbn [assignment_val var_ok]. split; [|cbn; lia]. cbn [Nat.add nth]. unfold ins.
      rewrite Hval by (apply nth_error_In, range_in in Hj; lia).
      rewrite (nth_indep _ _ (value w 0)) by (rewrite map_length; exact Hl). rewrite map_nth.
      f_equal. apply nth_error_nth. exact Hj.
    - intros j id Hj. assert (Hl : (j < length privs)%nat) by (apply nth_error_Some; congruence).
      cbn [assignment_val var_ok Nat.add]. split; [|lia]. unfold wits.
      rewrite Hval by (apply nth_error_In, range_in in Hj; lia).
      rewrite (nth_indep _ _ (value w 0)) by (rewrite map_length; exact Hl). rewrite map_nth.
      f_equal. apply nth_error_nth. exact Hj.
  Qed.

  Lemma lc_meaning l :
    lc_value (assignment_val ins wits) (build_lc vf l) = combination (wires w) (keep_wires n_alloc l).
  Proof.
    induction l as [|[i b] l IH]; [reflexivity|].
    unfold build_lc, lc_value in *. cbn [flat_map fst snd keep_wires filter].
    destruct (N.ltb_spec i n_alloc) as [Hlt|Hge].
    - apply vf_dom in Hlt. destruct (vf i) as [v|] eqn:E; [|congruence].
      rewrite map_app. cbn [map app fsum fst snd]. cbn [combination]. fold (keep_wires n_alloc l).
      rewrite <- IH. destruct (vf_meaning i v E) as [-> _]. rewrite bytes_to_fr_value. reflexivity.
    - destruct (vf i) as [v|] eqn:E; [|exact IH]. exfalso.
      assert (Hx : i < n_alloc) by (apply vf_dom; congruence). lia.
  Qed.
  Lemma lc_wf l : lc_ok (1 + length pubs) (length privs) (build_lc vf l).
  Proof.
    unfold build_lc, lc_ok. apply Forall_forall. intros [k v] Hin. apply in_flat_map in Hin.
    destruct Hin as ([i b]&_&Hin). cbn [fst snd] in *. destruct (vf i) as [v'|] eqn:E; [|contradiction].
    destruct Hin as [Hin|[]]. injection Hin as _ <-. apply (vf_meaning i v' E).
  Qed.

  Lemma enforce_ok cs : prog_ok (1 + length pubs) (length privs) (enforce_all vf cs).
  Proof. induction cs as [|d cs IH]; cbn; [exact I|]. repeat split; try apply lc_wf. exact IH. Qed.

  Theorem circom_synthesis :
    well_formed (circom_prog c) /\ completes (circom_prog c) /\
    public_values (circom_prog c) = map (wires w) pubs /\
    private_values (circom_prog c) = map (wires w) privs /\
    (constraints_hold (circom_prog c) <-> satisfies (wires w) (map (drop_unknown n_alloc) (cc_constraints c))).
  Proof.
    destruct prog_facts as (H1&H2&H3&H4).
    assert (Hval : forall i, 1 <= i -> value w i = wires w i).
    { intros i Hi. unfold wires, value. destruct (N.eqb_spec i 0); [lia|reflexivity]. }
    split; [|split; [exact H3|split; [|split]]].
    - unfold well_formed, wf_prog. rewrite prog_eq.
      destruct (inputs_alloc w pubs known_pubs 1 0 vmap_init (fun vars =>
        alloc_witnesses w privs vars (fun vars => enforce_all vars (cc_constraints c)))) as (_&_&_&_&_&E).
      apply E. cbn beta.
      destruct (witnesses_alloc w privs known_privs (1 + length pubs) 0 (bind_wires VInst 1 pubs vmap_init)
        (fun vars => enforce_all vars (cc_constraints c))) as (_&_&_&_&_&E').
      apply E'. cbn beta. fold vf. apply enforce_ok.
    - rewrite H1. apply map_ext_in. intros i Hi. apply Hval. apply range_in in Hi. lia.
    - rewrite H2. apply map_ext_in. intros i Hi. apply Hval. apply range_in in Hi. lia.
    - unfold constraints_hold. rewrite H1, H2, H4. unfold satisfies. rewrite !Forall_map.
      split; intros H; (eapply Forall_impl; [|exact H]); intros d Hd; unfold row_holds, row_true, drop_unknown in *;
        cbn [rA rB rC c_a c_b c_c] in *; rewrite !lc_meaning in *; exact Hd.
  Qed.
End Sat.

Lemma drop_unknown_id n cs : factors_below n cs -> map (drop_unknown n) cs = cs.
Proof.
  intros H. rewrite <- (map_id cs) at 2. apply map_ext_in. intros [a b d] Hin.
  unfold factors_below in H. rewrite Forall_forall in H. specialize (H _ Hin). cbn [c_a c_b c_c] in H.
  apply Forall_app in H. destruct H as [Ha H]. apply Forall_app in H. destruct H as [Hb Hd].
  assert (Hf : forall l : lc_t, Forall (fun f => fst f < n) l -> keep_wires n l = l).
  { unfold keep_wires. induction 1 as [|f l Hf Hl IH]; [reflexivity|]. cbn. apply N.ltb_lt in Hf. rewrite Hf, IH. reflexivity. }
  unfold drop_unknown. cbn [c_a c_b c_c]. rewrite !Hf by assumption. reflexivity.
Qed.

(** The first missing wire stops synthesis. *)
Theorem circom_stops c m :
  let w := cc_witness c in
  let np := cc_n_public c in
  np + 1 < 2 ^ 32 -> 1 <= m < n_alloc c -> w m = None -> (forall i, 1 <= i < m -> w i <> None) ->
  well_formed (circom_prog c) /\ stops_with (circom_prog c) = Some AssignmentMissing /\
  constraints_stated (circom_prog c) = [] /\
  public_values (circom_prog c) = map (wires w) (range 1 (N.min m (np + 1))) /\
  private_values (circom_prog c) = map (wires w) (range (np + 1) m) /\
  extra_of 1 0 (circom_prog c) = (if m <=? np then (1, 0)%nat else (0, 1)%nat).
Proof.
  intros w np Hnp Hm Hmiss Hbefore.
  assert (Hval : forall l, (forall i, In i l -> 1 <= i) -> map (value w) l = map (wires w) l).
  { intros l Hl. apply map_ext_in. intros i Hi. specialize (Hl i Hi). unfold wires, value.
    destruct (N.eqb_spec i 0); [lia|reflexivity]. }
  assert (Hr : forall a b i, 1 <= a -> In i (range a b) -> 1 <= i).
  { intros a b i Ha Hi. apply range_in in Hi. lia. }
  unfold well_formed, wf_prog, stops_with, constraints_stated, public_values, private_values.
  rewrite (prog_eq c Hnp). fold np w. unfold n_alloc in Hm. fold np in Hm.
  destruct (N.leb_spec m np) as [Hle|Hgt].
  - rewrite (range_split 1 m (np + 1)) by lia. rewrite (range_cons m (np + 1)) by lia.
    assert (Hk : known w (range 1 m)).
    { apply Forall_forall. intros i Hi. apply range_in in Hi. apply Hbefore. lia. }
    destruct (inputs_stop w (range 1 m) m (range (m + 1) (np + 1)) Hk Hmiss 1 0 vmap_init (fun vars =>
      alloc_witnesses w (range (np + 1) (cc_n_wires c)) vars (fun vars => enforce_all vars (cc_constraints c))))
      as (H1&H2&H3&H4&H5&H6).
    rewrite H1, H2, H3, H4, H5. split; [exact H6|]. rewrite N.min_l by lia.
    replace (range (np + 1) m) with (@nil N).
    + rewrite Hval by (intros i; apply Hr; lia). repeat split.
    + symmetry. unfold range. replace (m - (np + 1)) with 0 by lia. reflexivity.
  - rewrite (range_split (np + 1) m (cc_n_wires c)) by lia. rewrite (range_cons m (cc_n_wires c)) by lia.
    assert (Hk1 : known w (range 1 (np + 1))).
    { apply Forall_forall. intros i Hi. apply range_in in Hi. apply Hbefore. lia. }
    assert (Hk2 : known w (range (np + 1) m)).
    { apply Forall_forall. intros i Hi. apply range_in in Hi. apply Hbefore. lia. }
    destruct (inputs_alloc w (range 1 (np + 1)) Hk1 1 0 vmap_init (fun vars =>
      alloc_witnesses w (range (np + 1) m ++ m :: range (m + 1) (cc_n_wires c)) vars
        (fun vars => enforce_all vars (cc_constraints c)))) as (H1&H2&H3&H4&H5&H6).
    rewrite H1, H2, H3, H4, H5, H6. cbn beta.
    destruct (witnesses_stop w (range (np + 1) m) m (range (m + 1) (cc_n_wires c)) Hk2 Hmiss
      (1 + length (range 1 (np + 1))) 0 (bind_wires VInst 1 (range 1 (np + 1)) vmap_init)
      (fun vars => enforce_all vars (cc_constraints c))) as (G1&G2&G3&G4&G5&G6).
    rewrite G1, G2, G3, G4, G5, app_nil_r. split; [exact G6|]. rewrite N.min_r by lia.
    rewrite !Hval by (intros i; apply Hr; lia). repeat split.
Qed.
