(** Lemmas for C56. *)
From Coq Require Import List Bool Arith NArith ZArith Lia Permutation.
From Coq Require Import Strings.String Strings.Byte.
From Verif Require Import Res Bytes Text Utf8 Fld Zp Bn254 R1cs Sym Inputs SpecInputs InputsFacts P_Inputs SpecNumerals P_Numerals
  SpecCommands JsZkenc P_JsZkenc SpecJs WitnessCalc SpecWitnessCalc WitnessCalcFacts P_WitnessCalc SpecEndToEnd.
Import ListNotations.
Local Open Scope N_scope.

(** ** Shapes *)
Lemma numbers_length dims : forall v zs, shaped dims v -> numbers v zs -> N.of_nat (List.length zs) = total dims.
Proof.
  induction dims as [|d ds IH]; intros v zs Hs Hn.
  - inversion Hs as [v' Hv|]; subst. inversion Hn as [v' z Hz|l zs' Hl]; subst; [reflexivity|exfalso; eapply Hv; reflexivity].
  - inversion Hs as [|d' ds' l Hl Hf]; subst. inversion Hn as [v' z Hz|l' zs' Hn']; subst; [inversion Hz|]. cbn [total]. clear Hs Hn.
    revert zs Hn'. induction Hf as [|x l Hx Hf IHl]; intros zs Hn; inversion Hn as [|v' l' z1 z2 H1 H2]; subst; [reflexivity|].
    rewrite app_length. cbn [List.length]. specialize (IHl _ H2). specialize (IH _ _ Hx H1). lia.
Qed.
Lemma numbers_of_nth ds l : Forall (shaped ds) l -> forall zs i x, numbers_of l zs -> nth_error l i = Some x ->
  exists zx, numbers x zx /\ forall j, j < total ds -> nth_error zs (N.to_nat (N.of_nat i * total ds + j)) = nth_error zx (N.to_nat j).
Proof.
  intros Hf. induction Hf as [|y l Hy Hf IH]; intros zs i x Hn Hi; [destruct i; discriminate|].
  inversion Hn as [|v' l' z1 z2 H1 H2]; subst. assert (L := numbers_length ds y z1 Hy H1).
  destruct i as [|i]; cbn [nth_error] in Hi.
  - assert (y = x) by congruence. subst x. exists z1. split; [exact H1|]. intros j Hj. rewrite nth_error_app1 by lia. f_equal.
  - destruct (IH z2 i x H2 Hi) as (zx&Hx&Hj). exists zx. split; [exact Hx|]. intros j Hjt. rewrite <- (Hj j Hjt).
    rewrite nth_error_app2 by lia. f_equal. lia.
Qed.
Lemma leaf_element k v name x : leaf_of k v name x -> forall dims zs, shaped dims v -> numbers v zs ->
  exists j z, element dims k j name /\ j < total dims /\ nth_error zs (N.to_nat j) = Some z /\ whole_number x z.
Proof.
  induction 1 as [k v Hv|k l i x name v Hi Hl IH]; intros dims zs Hs Hn.
  - inversion Hs; subst; [|exfalso; eapply Hv; reflexivity].
    inversion Hn as [v' z Hz|]; subst; [|exfalso; eapply Hv; reflexivity]. exists 0, z. split; [constructor|]. split; [cbn; lia|].
    split; [reflexivity|exact Hz].
  - inversion Hs as [v' Hv|d ds l' Hd Hf]; subst; [exfalso; eapply Hv; reflexivity|].
    inversion Hn as [v' z Hz|l' zs' Hn']; subst; [inversion Hz|].
    destruct (numbers_of_nth ds l Hf zs i x Hn' Hi) as (zx&Hx&Hj).
    assert (Hx' : shaped ds x) by (rewrite Forall_forall in Hf; apply Hf; eapply nth_error_In; exact Hi).
    destruct (IH ds zx Hx' Hx) as (j&z&He&Hlt&Hz&Hw). exists (N.of_nat i * total ds + j), z.
    assert (Hil : N.of_nat i < N.of_nat (List.length l)) by (assert (i < List.length l)%nat by (apply nth_error_Some; congruence); lia).
    split; [constructor; [exact Hil|exact He]|]. split; [cbn [total]; nia|]. split; [rewrite Hj by exact Hlt; exact Hz|exact Hw].
Qed.

(** ** Texts *)
Lemma not95 d : ~ digit_char 95 d.
Proof. intros H. apply digit_char_range in H. lia. Qed.
Lemma no_underscore t z : bigint_text t z -> ~ In 95 t.
Proof.
  assert (B : forall p, Forall blank p -> ~ In 95 p).
  { intros p Hp Hi. rewrite Forall_forall in Hp. apply Hp in Hi. unfold blank in Hi. cbn [In] in Hi.
    destruct Hi as [Hi|[Hi|Hi]]; [lia| |lia]. repeat (destruct Hi as [Hi|Hi]; [discriminate Hi|]). exact Hi. }
  assert (D : forall r s v, spelled r s v -> ~ In 95 s).
  { intros r s v H. induction H as [c d Hd Hr|s v c d Hs IH Hd Hr]; intros Hi.
    - destruct Hi as [->|[]]. exact (not95 _ Hd).
    - apply in_app_or in Hi as [Hi|[->|[]]]; [exact (IH Hi)|]. exact (not95 _ Hd). }
  intros H Hi. inversion H as [s Hs|p l q z' Hp Hl Hq]; subst; [exact (B _ Hs Hi)|].
  apply in_app_or in Hi as [Hi|Hi]; [exact (B _ Hp Hi)|]. apply in_app_or in Hi as [Hi|Hi]; [|exact (B _ Hq Hi)].
  inversion Hl as [s v Hs|s v Hs|s v Hs|x s v Hx Hs|x s v Hx Hs|x s v Hx Hs]; subst;
    repeat (destruct Hi as [Hi|Hi]; [try discriminate Hi; try (subst x; destruct Hx; discriminate)|]); exact (D _ _ _ Hs Hi).
Qed.
(** A text both tools read as a number is the same number. *)
Lemma numeral_bigint t z z' : numeral t z -> bigint_text t z' -> z = z'.
Proof.
  intros (c&r&Hc&Hr&Ht) Hb. assert (Hu := no_underscore _ _ Hb). cbv zeta in Ht.
  assert (Hd : Forall (fun x => 48 <= x <= 57) (c :: r)).
  { constructor; [exact Hc|]. apply Forall_forall. intros x Hx. rewrite Forall_forall in Hr. destruct (Hr x Hx) as [H|H]; [exact H|].
    exfalso. apply Hu. unfold c_under in H. subst x. destruct Ht as [[-> _]|[[-> _]|[-> _]]]; cbn; auto. }
  assert (Hf : filter (fun x => negb (x =? c_under)) (c :: r) = c :: r).
  { revert Hd. clear. generalize (c :: r). intros l H. induction H as [|x l Hx _ IH]; [reflexivity|]. cbn [filter].
    destruct (N.eqb_spec x c_under) as [E|E]; [unfold c_under in E; lia|]. cbn [negb]. f_equal. exact IH. }
  rewrite Hf in Ht. assert (Hsp : spelled 10 (c :: r) (digits_value (c :: r))).
  { apply decimal_spelled. split; [discriminate|]. split; [|reflexivity]. apply forallb_forall. intros x Hx.
    rewrite Forall_forall in Hd. apply is_digit_range. apply Hd. exact Hx. }
  assert (W : forall l y, integer_literal l y -> bigint_text l y).
  { intros l y Hl. assert (H := bt_literal [] l [] y (Forall_nil _) Hl (Forall_nil _)). rewrite app_nil_r in H. exact H. }
  destruct Ht as [[-> ->]|[[-> ->]|[-> ->]]]; (eapply C57_one_reading; [apply W|exact Hb]).
  - apply il_decimal. exact Hsp.
  - apply il_plus. exact Hsp.
  - apply il_minus. exact Hsp.
Qed.
(** The text JavaScript makes of a value stands for the number BigInt makes of it. *)
Lemma string_number x t z z' : (forall f, x = JFloat f -> exact_text f) ->
  js_to_string x = Some t -> js_bigint t = Some z -> whole_number x z' -> z = z'.
Proof.
  intros Hf Ht Hz Hw. destruct x as [|b|y|f|f|l|o]; try (inversion Hw; fail).
  3: { cbn in Ht. injection Ht as <-. apply (Hf f eq_refl); [apply C57_bigint_texts; exact Hz|exact Hw]. }
  all: inversion Hw; subst; cbn in Ht; injection Ht as <-.
  - vm_compute in Hz. discriminate.
  - vm_compute in Hz. discriminate.
  - rewrite (proj1 (C57_rendering_round_trip z')) in Hz. congruence.
  - apply C57_bigint_texts in Hz. eapply C57_one_reading; eassumption.
Qed.
(** A value the CLI reads stands for the same residue, negative JSON numbers aside. *)
Lemma numeric_number x a z : numeric x a -> whole_number x z -> (forall y, x = JInt y -> (0 <= y)%Z) -> a = fr z.
Proof.
  intros Ha Hw Hn. inversion Ha as [y Hy|y Hy|t y Hy]; subst; inversion Hw as [y'|t' neg d k x' w' _ _ _ _| | |t' y' Hb]; subst.
  - reflexivity.
  - specialize (Hn z eq_refl). lia.
  - f_equal. eapply numeral_bigint; eassumption.
Qed.

(** ** The calculated witness *)
Section Witness.
  Context (m : wmodule) (r : r1cs_file) (ins : list (text * list N)) (wire_of : text -> option N) (Hc : compiled m r ins wire_of).
  Context (full : list (text * json)) (Hsh : shaped_doc ins full).

  Lemma in_range_combine {A} (zs : list A) j z : nth_error zs j = Some z -> forall s, In ((s + j)%nat, z) (combine (seq s (List.length zs)) zs).
  Proof.
    revert j. induction zs as [|y zs IH]; intros [|j] Hj s; cbn [nth_error] in Hj; try discriminate.
    - assert (y = z) by congruence. subst. cbn [List.length seq combine]. left. f_equal. lia.
    - cbn [List.length seq combine]. right. replace (s + S j)%nat with (S s + j)%nat by lia. apply IH. exact Hj.
  Qed.
  Lemma fr_mod z : fr (Z.of_N (Z.to_N (z mod bn_r))) = fr z.
  Proof.
    assert (Hb := Z.mod_pos_bound z bn_r eq_refl). rewrite Z2N.id by apply Hb. apply zp_eq_iff. apply Z.mod_mod. discriminate.
  Qed.
  Lemma given k v zs j z gs : complete_input m full gs -> In (k, v) full -> numbers v zs -> nth_error zs (N.to_nat j) = Some z ->
    In (name_hash k, j, Z.to_N (z mod bn_r)) gs.
  Proof.
    intros (per&Hper&->&_) Hi Hn Hj. clear Hsh. revert Hi. induction Hper as [|kv g kvs per Hg _ IH]; intros Hi; [contradiction|].
    cbn [List.concat]. apply in_or_app. destruct Hi as [->|Hi]; [left|right; apply IH; exact Hi]. 
    destruct Hg as (zs'&n&Hn'&_&_&->). cbn [fst snd] in *. rewrite (cp_prime _ _ _ _ Hc) in *. change (Z.of_N (Z.to_N bn_r)) with bn_r.
    rewrite (numbers_fun _ _ _ Hn' Hn). apply in_map_iff. exists (N.to_nat j, z). cbn [fst snd]. rewrite N2Nat.id.
    split; [reflexivity|]. exact (in_range_combine zs (N.to_nat j) z Hj 0).
  Qed.
  Lemma witness_carries gs w : complete_input m full gs -> md_compute m gs = Some w ->
    let vals := map (fun v => fr (Z.of_N v)) w in
    opens_circuit r vals /\
    forall k v name x wire, In (k, v) full -> leaf_of k v name x -> wire_of name = Some wire ->
      exists z zs, numbers v zs /\ In z zs /\ whole_number x z /\ nth_error vals (N.to_nat wire) = Some (fr z).
  Proof.
    intros Hci Hw. assert (Hperm : Permutation (map fst gs) (slots m)) by (destruct Hci as (per&_&_&H); exact H).
    assert (Hrange : Forall (fun g => snd g < md_prime m) gs).
    { destruct Hci as (per&Hper&->&_). clear - Hc Hper. apply Forall_concat. induction Hper as [|kv g kvs per Hg _ IH]; [constructor|].
      constructor; [|exact IH]. destruct Hg as (zs&n&_&_&_&->). apply Forall_map, Forall_forall. intros p _. cbn [snd].
      assert (Hp := proj1 (mo_prime _ (cp_module _ _ _ _ Hc))). assert (Hb := Z.mod_pos_bound (snd p) (Z.of_N (md_prime m)) ltac:(lia)). lia. }
    destruct (cp_solves _ _ _ _ Hc gs w Hperm Hrange Hw) as [Ho Hs]. split; [exact Ho|].
    intros k v name x wire Hi Hl Hwire. destruct (Hsh k v Hi) as (dims&Hd&Hv).
    assert (Hnum : exists zs, numbers v zs).
    { destruct Hci as (per&Hper&_&_). clear - Hper Hi. induction Hper as [|kv g kvs per Hg _ IH]; [contradiction|].
      destruct Hi as [->|Hi]; [|apply IH; exact Hi]. destruct Hg as (zs&n&Hn&_). exists zs. exact Hn. }
    destruct Hnum as (zs&Hn). destruct (leaf_element k v name x Hl dims zs Hv Hn) as (j&z&He&Hj&Hz&Hx).
    exists z, zs. split; [exact Hn|]. split; [eapply nth_error_In; exact Hz|]. split; [exact Hx|].
    assert (Hg := given k v zs j z gs Hci Hi Hn Hz).
    rewrite (map_nth_error _ _ _ (Hs k dims j name _ wire Hd He Hg Hwire)). f_equal. apply fr_mod.
  Qed.

  (** Values of the JavaScript encapsulation. *)
  Lemma js_agree sym pub gs w : wire_of = (fun name => hm_get (lit "main." ++ name) (js_parse_sym_file sym)) ->
    complete_input m full gs -> md_compute m gs = Some w -> incl pub full -> ordinary pub ->
    forall n_pub, js_inputs_agree sym pub n_pub (map (fun v => fr (Z.of_N v)) w).
  Proof.
    intros Hwo Hci Hw Hin Hor n_pub name t z wire (k&v&Hi&Hl) Hz Hwire _.
    destruct (witness_carries gs w Hci Hw) as [_ Hcar].
    assert (Hwire' : wire_of name = Some wire) by (rewrite Hwo; exact Hwire).
    assert (Hnum : exists zs, numbers v zs).
    { destruct Hci as (per&Hper&_&_). assert (Hi' := Hin _ Hi). clear - Hper Hi'. induction Hper as [|kv g kvs per Hg _ IH]; [contradiction|].
      destruct Hi' as [->|Hi']; [|apply IH; exact Hi']. destruct Hg as (zs&n&Hn&_). exists zs. exact Hn. }
    destruct Hnum as (zs0&Hn0).
    inversion Hl as [key v' t' Hna Hno Hstr|key l i x t' Hx Hstr|key o k' x name' t' Ho Hl']; subst.
    - destruct (Hcar name v name v wire (Hin _ Hi)) as (z'&zs&Hn&Hzs&Hx&Hv); [constructor; exact Hna|exact Hwire'|].
      assert (z = z').
      { eapply string_number; try eassumption. intros f ->. apply (proj2 Hor name f). exists name, (JFloat f). split; [exact Hi|]. constructor. discriminate. }
      subst z'. rewrite Hv, Z.mod_small; [reflexivity|]. eapply (proj1 Hor); eassumption.
    - destruct (Hsh k (JArr l) (Hin _ Hi)) as (dims&Hd&Hv). inversion Hv as [v' Hv'|d ds l' Hdl Hf]; subst; [exfalso; eapply Hv'; reflexivity|].
      assert (Hix : indexed k 1 (item k (N.of_nat i))) by (eapply ix_more; apply ix_none).
      assert (Hlen := cp_names _ _ _ _ Hc k _ 1%nat _ Hd Hix ltac:(unfold item; rewrite Hwire; discriminate)).
      destruct ds as [|d' ds]; [|discriminate Hlen].
      assert (Hxs : shaped [] x) by (rewrite Forall_forall in Hf; apply Hf; eapply nth_error_In; exact Hx).
      assert (Hna : forall l', x <> JArr l') by (inversion Hxs; assumption).
      destruct (Hcar k (JArr l) (item k (N.of_nat i)) x wire (Hin _ Hi)) as (z'&zs&Hn&Hzs&Hxz&Hvz).
      { eapply leaf_in; [exact Hx|]. apply leaf_here. exact Hna. } { exact Hwire. }
      assert (z = z').
      { eapply string_number; try eassumption. intros f ->. apply (proj2 Hor (item k (N.of_nat i)) f). exists k, (JArr l). split; [exact Hi|].
        eapply leaf_in; [exact Hx|]. apply leaf_here. discriminate. }
      subst z'. rewrite Hvz, Z.mod_small; [reflexivity|]. eapply (proj1 Hor); eassumption.
    - exfalso. inversion Hn0 as [v' z' Hz'|]; subst. inversion Hz'.
  Qed.
  (** Values of the CLI's encryption. *)
  Lemma cli_agree json_parse sb ib st syms pub gs w : 
    utf8_decode sb = Some st -> parse_sym_file st = Ok syms -> wire_of = (fun name => hm_get (lit "main." ++ name) syms) ->
    (forall it kvs, utf8_decode ib = Some it -> json_parse it = Some (JObj kvs) -> kvs = pub) ->
    complete_input m full gs -> md_compute m gs = Some w -> incl pub full -> no_negative_number pub ->
    forall n_in, inputs_agree json_parse sb ib n_in (map (fun v => fr (Z.of_N v)) w).
  Proof.
    intros Hst Hsy Hwo Hdoc Hci Hw Hin Hnn n_in st' syms' it kvs name x a wire Hst' Hsy' Hit Hj (k&v&Hi&Hl) Hna Hwire _.
    assert (st' = st) by congruence. subst st'. assert (syms' = syms) by congruence. subst syms'.
    assert (kvs = pub) by (eapply Hdoc; eassumption). subst kvs.
    destruct (witness_carries gs w Hci Hw) as [_ Hcar].
    destruct (Hcar k v name x wire (Hin _ Hi) Hl) as (z&zs&Hn&Hzs&Hx&Hv); [rewrite Hwo; exact Hwire|].
    rewrite Hv. f_equal. symmetry. eapply numeric_number; [exact Hna|exact Hx|].
    intros y ->. apply (Hnn name). exists k, v. auto.
  Qed.
  (** The file the calculator writes. *)
  Lemma calculated_file gs w : complete_input m full gs -> md_compute m gs = Some w -> md_wsize m < 2 ^ 32 ->
    exists wb, calculate_wtns m full = Ok wb /\ witness_file wb (map (fun v => fr (Z.of_N v)) w) /\
      N.of_nat (List.length (map (fun v => fr (Z.of_N v)) w)) = r_n_wires r /\ blen wb = 76 + 32 * r_n_wires r.
  Proof.
    intros Hci Hw Hlt. assert (Hm := cp_module _ _ _ _ Hc).
    assert (Hcw : calculate_witness m full = Ok (map Z.of_N w)) by (apply C48_witness_iff; eauto).
    assert (H := C48_same_witness_in_every_form m full Hm). rewrite Hcw in H. destruct H as (Hl&_&H). cbv zeta in H. destruct H as [_ Hf].
    eexists. split; [exact Hf|].
    destruct (C48_bn254_file m full _ _ Hm (cp_prime _ _ _ _ Hc) (cp_words _ _ _ _ Hc) Hlt Hcw Hf) as [F1 F2].
    rewrite map_map in F1. split; [exact F1|]. rewrite map_length in Hl. rewrite !map_length in *. rewrite (cp_size _ _ _ _ Hc) in Hl.
    split; [exact Hl|]. rewrite F2, Hl. reflexivity.
  Qed.
End Witness.
