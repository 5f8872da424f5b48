(** Text, numerals and string-keyed maps.
    Not functions of the repository: Rust's str/char/i32/HashMap and the JavaScript counterparts,
    used by sym_parser.rs, commands.rs, sym_parser.ts and zkenc.ts.  A text is the list of its
    Unicode scalar values. *)
From Coq Require Import List Bool Arith NArith ZArith Lia.
From Coq Require Import Strings.String Strings.Ascii.
Import ListNotations.
Local Open Scope N_scope.

Definition text := list N.

(** An ASCII literal. *)
Fixpoint lit (s : string) : text :=
  match s with EmptyString => [] | String a s => N_of_ascii a :: lit s end.

Fixpoint text_eqb (a b : text) : bool :=
  match a, b with
  | [], [] => true
  | x :: a, y :: b => (x =? y) && text_eqb a b
  | _, _ => false
  end.
Lemma text_eqb_eq a b : text_eqb a b = true <-> a = b.
Proof.
  revert b; induction a as [|x a IH]; intros [|y b]; cbn; split; intros H; try discriminate; try reflexivity.
  - apply andb_prop in H. destruct H as [H1 H2]. apply N.eqb_eq in H1. apply IH in H2. congruence.
  - injection H as -> ->. rewrite N.eqb_refl. apply IH. reflexivity.
Qed.
Lemma text_eqb_refl a : text_eqb a a = true. Proof. apply text_eqb_eq. reflexivity. Qed.
Lemma text_eqb_neq a b : text_eqb a b = false <-> a <> b.
Proof.
  split; intros H.
  - intros ->. rewrite text_eqb_refl in H. discriminate.
  - destruct (text_eqb a b) eqn:E; [|reflexivity]. apply text_eqb_eq in E. contradiction.
Qed.

Definition c_nl : N := 10. Definition c_cr : N := 13. Definition c_comma : N := 44.
Definition c_plus : N := 43. Definition c_minus : N := 45. Definition c_under : N := 95.

(** Rust [char::is_whitespace] (Unicode White_Space). *)
Definition rust_ws (c : N) : bool :=
  ((9 <=? c) && (c <=? 13)) || (c =? 32) || (c =? 133) || (c =? 160) || (c =? 5760) ||
  ((8192 <=? c) && (c <=? 8202)) || (c =? 8232) || (c =? 8233) || (c =? 8239) || (c =? 8287) || (c =? 12288).
(** What JavaScript's [trim] and [parseInt] skip (WhiteSpace and LineTerminator). *)
Definition js_ws (c : N) : bool :=
  ((9 <=? c) && (c <=? 13)) || (c =? 32) || (c =? 160) || (c =? 5760) ||
  ((8192 <=? c) && (c <=? 8202)) || (c =? 8232) || (c =? 8233) || (c =? 8239) || (c =? 8287) || (c =? 12288) ||
  (c =? 65279).

Section Trim.
  Context (ws : N -> bool).
  Fixpoint trim_start (t : text) : text :=
    match t with [] => [] | c :: r => if ws c then trim_start r else t end.
  Definition trim_end (t : text) : text := rev (trim_start (rev t)).
  Definition trim (t : text) : text := trim_end (trim_start t).
End Trim.

(** [s.split(c)]: always at least one piece. *)
Fixpoint split_on (c : N) (t : text) : list text :=
  match t with
  | [] => [[]]
  | x :: r =>
      if x =? c then [] :: split_on c r
      else match split_on c r with
           | [] => [[x]]
           | p :: ps => (x :: p) :: ps
           end
  end.

(** Rust [str::lines]: pieces ended by '\n' (a last piece only when non-empty), one trailing
    '\r' removed from each. *)
Definition strip_cr (t : text) : text :=
  match rev t with c :: r => if c =? c_cr then rev r else t | [] => t end.
Fixpoint drop_last_empty (ls : list text) : list text :=
  match ls with
  | [] => []
  | [l] => match l with [] => [] | _ => [l] end
  | l :: ls => l :: drop_last_empty ls
  end.
Definition rust_lines (t : text) : list text := map strip_cr (drop_last_empty (split_on c_nl t)).

Definition is_digit (c : N) : bool := (48 <=? c) && (c <=? 57).
(** Value of a string of digits. *)
Definition digits_value (t : text) : N := fold_left (fun a c => 10 * a + (c - 48)) t 0.
Definition all_digits (t : text) : bool := match t with [] => false | _ => forallb is_digit t end.

(** Rust [str::parse::<i32>]. *)
Definition parse_i32 (t : text) : option Z :=
  let '(neg, ds) := match t with
                    | c :: r => if c =? c_minus then (true, r) else if c =? c_plus then (false, r) else (false, t)
                    | [] => (false, [])
                    end in
  if all_digits ds then
    let v := Z.of_N (digits_value ds) in
    let z := if neg : bool then (- v)%Z else v in
    if ((- 2 ^ 31 <=? z) && (z <? 2 ^ 31))%Z then Some z else None
  else None.

(** JavaScript [parseInt(s, 10)]: None is NaN.  Values of 2^53 and more are doubles in JavaScript;
    here they are exact. *)
Fixpoint take_digits (t : text) : text :=
  match t with c :: r => if is_digit c then c :: take_digits r else [] | [] => [] end.
Definition js_parse_int (t : text) : option Z :=
  let t := trim_start js_ws t in
  let '(neg, t) := match t with
                   | c :: r => if c =? c_minus then (true, r) else if c =? c_plus then (false, r) else (false, t)
                   | [] => (false, [])
                   end in
  match take_digits t with
  | [] => None
  | ds => let v := Z.of_N (digits_value ds) in Some (if neg : bool then (- v)%Z else v)
  end.

(** Decimal rendering (Rust [format!("{}", n)], JavaScript [n.toString()] of an integer). *)
Fixpoint dec_rev (fuel : nat) (n : N) : text :=
  match fuel with
  | O => []
  | S fuel => (48 + n mod 10) :: (if n / 10 =? 0 then [] else dec_rev fuel (n / 10))
  end.
Definition dec_text (n : N) : text := rev (dec_rev (S (N.size_nat n)) n).
Definition dec_text_z (z : Z) : text :=
  if (z <? 0)%Z then c_minus :: dec_text (Z.to_N (- z)) else dec_text (Z.to_N z).

(** ** HashMap<String, V> / Map<string, V>: a list of entries with distinct keys. *)
Section HMap.
  Context {V : Type}.
  Definition hmap := list (text * V).
  Fixpoint hm_get (k : text) (m : hmap) : option V :=
    match m with [] => None | (k', v) :: m => if text_eqb k k' then Some v else hm_get k m end.
  (** insert / set: replaces the value of an existing key in place. *)
  Fixpoint hm_insert (k : text) (v : V) (m : hmap) : hmap :=
    match m with
    | [] => [(k, v)]
    | (k', v') :: m => if text_eqb k k' then (k', v) :: m else (k', v') :: hm_insert k v m
    end.
  Definition hm_wf (m : hmap) : Prop := NoDup (map fst m).

  Lemma hm_get_insert k v m k' : hm_get k' (hm_insert k v m) = if text_eqb k' k then Some v else hm_get k' m.
  Proof.
    induction m as [|[k1 v1] m IH]; cbn.
    - reflexivity.
    - destruct (text_eqb k k1) eqn:E1; cbn.
      + apply text_eqb_eq in E1. subst k1. destruct (text_eqb k' k); reflexivity.
      + destruct (text_eqb k' k1) eqn:E2.
        * apply text_eqb_eq in E2. subst k1. destruct (text_eqb k' k) eqn:E3; [|reflexivity].
          apply text_eqb_eq in E3. subst k'. rewrite text_eqb_refl in E1. discriminate.
        * exact IH.
  Qed.
  Lemma hm_insert_keys k v m x : In x (map fst (hm_insert k v m)) <-> x = k \/ In x (map fst m).
  Proof.
    induction m as [|[k1 v1] m IH]; cbn.
    - intuition.
    - destruct (text_eqb k k1) eqn:E1; cbn.
      + apply text_eqb_eq in E1. subst k1. intuition.
      + rewrite IH. intuition.
  Qed.
  Lemma hm_insert_wf k v m : hm_wf m -> hm_wf (hm_insert k v m).
  Proof.
    unfold hm_wf. induction m as [|[k1 v1] m IH]; cbn; intros H.
    - constructor; [auto|constructor].
    - inversion H as [|x l Hn Hd]; subst. destruct (text_eqb k k1) eqn:E1; cbn.
      + constructor; assumption.
      + constructor; [|auto]. rewrite hm_insert_keys. intros [->|Hin]; [|auto].
        rewrite text_eqb_refl in E1. discriminate.
  Qed.
  Lemma hm_get_in k v m : hm_wf m -> (hm_get k m = Some v <-> In (k, v) m).
  Proof.
    unfold hm_wf. induction m as [|[k1 v1] m IH]; cbn; intros H; [intuition discriminate|].
    inversion H as [|x l Hn Hd]; subst. destruct (text_eqb k k1) eqn:E1.
    - apply text_eqb_eq in E1. subst k1. split.
      + intros Hv. injection Hv as ->. auto.
      + intros [Hv|Hv]; [congruence|]. exfalso. apply Hn. apply in_map_iff. exists (k, v). auto.
    - rewrite (IH Hd). split; [auto|]. intros [Hv|Hv]; [|exact Hv]. injection Hv as -> ->.
      rewrite text_eqb_refl in E1. discriminate.
  Qed.
  Lemma hm_get_none k m : hm_get k m = None <-> ~ In k (map fst m).
  Proof.
    induction m as [|[k1 v1] m IH]; cbn; [intuition|].
    destruct (text_eqb k k1) eqn:E1.
    - apply text_eqb_eq in E1. subst k1. split; [discriminate|]. intros H. exfalso. auto.
    - apply text_eqb_neq in E1. rewrite IH. split; intros H; [intros [H'|H']; congruence|auto].
  Qed.
End HMap.
Arguments hmap : clear implicits.

(** ** Facts about trimming, splitting and numerals *)
Definition all_ws (ws : N -> bool) (t : text) : Prop := Forall (fun c => ws c = true) t.
(** A text that neither starts nor ends with white space. *)
Definition tight (ws : N -> bool) (t : text) : Prop :=
  (forall c r, t = c :: r -> ws c = false) /\ (forall c r, t = r ++ [c] -> ws c = false).

Section TrimFacts.
  Context (ws : N -> bool).
  Lemma trim_start_pad p t : all_ws ws p -> trim_start ws (p ++ t) = trim_start ws t.
  Proof. induction 1 as [|c p Hc Hp IH]; cbn; [reflexivity|]. rewrite Hc. exact IH. Qed.
  Lemma trim_start_tight t : (forall c r, t = c :: r -> ws c = false) -> trim_start ws t = t.
  Proof. destruct t as [|c t]; intros H; [reflexivity|]. cbn. rewrite (H c t eq_refl). reflexivity. Qed.
  Lemma trim_start_split t : exists p, all_ws ws p /\ t = p ++ trim_start ws t /\
    (forall c r, trim_start ws t = c :: r -> ws c = false).
  Proof.
    induction t as [|c t IH]; cbn.
    - exists []. repeat split; [constructor|discriminate].
    - destruct (ws c) eqn:E.
      + destruct IH as (p&Hp&Ht&Hf). exists (c :: p). repeat split; [constructor; assumption| |exact Hf].
        cbn. rewrite <- Ht. reflexivity.
      + exists []. repeat split; [constructor|]. intros c' r Heq. injection Heq as -> ->. exact E.
  Qed.
  Lemma all_ws_rev p : all_ws ws p -> all_ws ws (rev p).
  Proof. unfold all_ws. rewrite !Forall_forall. intros H x Hx. apply H. apply in_rev. exact Hx. Qed.
  Lemma trim_end_pad t q : all_ws ws q -> trim_end ws (t ++ q) = trim_end ws t.
  Proof. intros Hq. unfold trim_end. rewrite rev_app_distr, trim_start_pad; [reflexivity|]. apply all_ws_rev, Hq. Qed.
  Lemma trim_end_tight t : (forall c r, t = r ++ [c] -> ws c = false) -> trim_end ws t = t.
  Proof.
    intros H. unfold trim_end. rewrite trim_start_tight; [apply rev_involutive|].
    intros c r Heq. apply (H c (rev r)). rewrite <- (rev_involutive t), Heq. reflexivity.
  Qed.
  Lemma trim_end_split t : exists q, all_ws ws q /\ t = trim_end ws t ++ q /\
    (forall c r, trim_end ws t = r ++ [c] -> ws c = false).
  Proof.
    destruct (trim_start_split (rev t)) as (p&Hp&Ht&Hf). exists (rev p). split; [apply all_ws_rev, Hp|]. split.
    - unfold trim_end. rewrite <- rev_app_distr, <- Ht, rev_involutive. reflexivity.
    - intros c r Heq. unfold trim_end in Heq. apply (Hf c (rev r)).
      rewrite <- (rev_involutive (trim_start ws (rev t))), Heq, rev_app_distr. reflexivity.
  Qed.
  Lemma trim_tight_pad p t q : all_ws ws p -> all_ws ws q -> tight ws t -> trim ws (p ++ t ++ q) = t.
  Proof.
    intros Hp Hq [H1 H2]. unfold trim. rewrite trim_start_pad by exact Hp.
    destruct t as [|c t].
    - cbn [app]. replace (trim_start ws q) with (@nil N); [reflexivity|].
      pose proof (trim_start_pad q [] Hq) as H. rewrite app_nil_r in H. exact (eq_sym H).
    - rewrite trim_start_tight.
      + rewrite trim_end_pad by exact Hq. apply trim_end_tight. exact H2.
      + intros c' r Heq. cbn in Heq. injection Heq as -> _. exact (H1 c' t eq_refl).
  Qed.
  Lemma trim_split t : exists p q, all_ws ws p /\ all_ws ws q /\ t = p ++ trim ws t ++ q /\ tight ws (trim ws t).
  Proof.
    destruct (trim_start_split t) as (p&Hp&Ht&Hf).
    destruct (trim_end_split (trim_start ws t)) as (q&Hq&Ht'&Hf').
    exists p, q. split; [exact Hp|]. split; [exact Hq|]. split.
    - unfold trim. rewrite <- Ht'. exact Ht.
    - split; [|exact Hf']. intros c r Heq. apply (Hf c (r ++ q)). unfold trim in Heq. rewrite Ht', Heq. reflexivity.
  Qed.
  Lemma trim_empty t : trim ws t = [] <-> all_ws ws t.
  Proof.
    split; intros H.
    - destruct (trim_split t) as (p&q&Hp&Hq&Ht&_). rewrite H in Ht. rewrite Ht. apply Forall_app. auto.
    - pose proof (trim_tight_pad t [] [] H) as E. rewrite app_nil_r in E. apply E; [constructor|].
      split; intros c r Heq; [discriminate|]. destruct r; discriminate.
  Qed.
End TrimFacts.

Definition free_of (c : N) (t : text) : Prop := Forall (fun x => x <> c) t.
Fixpoint join (c : N) (ps : list text) : text :=
  match ps with [] => [] | [p] => p | p :: ps => p ++ c :: join c ps end.

Lemma split_free c t : free_of c t -> split_on c t = [t].
Proof.
  induction 1 as [|x t Hx Ht IH]; [reflexivity|]. cbn. destruct (N.eqb_spec x c); [contradiction|].
  rewrite IH. reflexivity.
Qed.
Lemma split_cons_free c p t : free_of c p -> split_on c (p ++ c :: t) = p :: split_on c t.
Proof.
  induction 1 as [|x p Hx Hp IH]; cbn.
  - rewrite N.eqb_refl. reflexivity.
  - destruct (N.eqb_spec x c); [contradiction|]. rewrite IH. reflexivity.
Qed.
Lemma split_join c ps : ps <> [] -> Forall (free_of c) ps -> split_on c (join c ps) = ps.
Proof.
  intros Hne Hf. induction Hf as [|p ps Hp Hps IH]; [contradiction|].
  destruct ps as [|p' ps]; [apply split_free; exact Hp|].
  cbn [join]. rewrite split_cons_free by exact Hp. f_equal. apply IH. discriminate.
Qed.
Lemma split_spec c t : split_on c t <> [] /\ Forall (free_of c) (split_on c t) /\ join c (split_on c t) = t.
Proof.
  induction t as [|x t (IH1&IH2&IH3)]; cbn.
  - split; [discriminate|]. split; [repeat constructor|reflexivity].
  - destruct (N.eqb_spec x c) as [->|Hx].
    + split; [discriminate|]. split; [constructor; [constructor|exact IH2]|].
      cbn [join]. destruct (split_on c t) as [|p ps] eqn:E; [contradiction|]. cbn [app]. rewrite IH3. reflexivity.
    + destruct (split_on c t) as [|p ps] eqn:E; [contradiction|].
      split; [discriminate|]. apply Forall_cons_iff in IH2. destruct IH2 as [Hp Hps]. split.
      * constructor; [constructor; assumption|exact Hps].
      * cbn in *. destruct ps; cbn; rewrite <- IH3; reflexivity.
Qed.

Lemma is_digit_range c : is_digit c = true <-> 48 <= c <= 57.
Proof. unfold is_digit. rewrite andb_true_iff, !N.leb_le. reflexivity. Qed.

Lemma digits_value_app a b : digits_value (a ++ b) = fold_left (fun a c => 10 * a + (c - 48)) b (digits_value a).
Proof. unfold digits_value. apply fold_left_app. Qed.

Lemma dec_rev_spec fuel : forall n, n < 2 ^ N.of_nat fuel -> (0 < fuel)%nat ->
  dec_rev fuel n <> [] /\ forallb is_digit (dec_rev fuel n) = true /\ digits_value (rev (dec_rev fuel n)) = n.
Proof.
  induction fuel as [|fuel IH]; intros n Hn Hf; [inversion Hf|]. cbn [dec_rev].
  assert (Hm : n mod 10 < 10) by (apply N.mod_lt; discriminate).
  assert (Hd : is_digit (48 + n mod 10) = true) by (apply is_digit_range; revert Hm; generalize (n mod 10); clear; intros; lia).
  pose proof (N.div_mod' n 10) as Hdm.
  destruct (N.eqb_spec (n / 10) 0) as [Hz|Hz].
  - split; [discriminate|]. cbn [forallb rev app]. rewrite Hd. split; [reflexivity|]. rewrite Hz in Hdm.
    unfold digits_value; cbn [fold_left]. revert Hdm; generalize (n mod 10); clear; intros; lia.
  - assert (Hlt : n / 10 < 2 ^ N.of_nat fuel).
    { rewrite Nat2N.inj_succ, N.pow_succ_r' in Hn. apply N.div_lt_upper_bound; [discriminate|].
      eapply N.lt_le_trans; [exact Hn|]. apply N.mul_le_mono_r. discriminate. }
    assert (Hf' : (0 < fuel)%nat).
    { destruct fuel; [|apply Nat.lt_0_succ]. exfalso. change (n / 10 < 1) in Hlt. apply N.lt_1_r in Hlt. contradiction. }
    destruct (IH (n / 10) Hlt Hf') as (H1&H2&H3). split; [discriminate|]. split; [cbn [forallb]; rewrite Hd; exact H2|].
    cbn [rev]. rewrite digits_value_app, H3. cbn [fold_left]. revert Hdm; generalize (n mod 10) (n / 10); clear; intros; lia.
Qed.
Lemma dec_text_spec n : dec_text n <> [] /\ forallb is_digit (dec_text n) = true /\ digits_value (dec_text n) = n.
Proof.
  assert (Hs : n < 2 ^ N.of_nat (S (N.size_nat n))).
  { rewrite Nat2N.inj_succ, N.pow_succ_r'. pose proof (N.size_gt n) as H.
    assert (E : N.of_nat (N.size_nat n) = N.size n).
    { clear H. destruct n as [|p]; [reflexivity|]. cbn [N.size_nat N.size]. induction p; cbn [Pos.size_nat Pos.size];
        [rewrite Nat2N.inj_succ, IHp; reflexivity|rewrite Nat2N.inj_succ, IHp; reflexivity|reflexivity]. }
    rewrite E. clear E. set (m := 2 ^ N.size n) in *. clearbody m. lia. }
  destruct (dec_rev_spec _ n Hs ltac:(lia)) as (H1&H2&H3). unfold dec_text. split; [|split; [|exact H3]].
  - intros H. apply H1. rewrite <- (rev_involutive (dec_rev _ _)), H. reflexivity.
  - apply forallb_forall. intros x Hx. apply in_rev in Hx. rewrite forallb_forall in H2. apply H2. exact Hx.
Qed.
Lemma dec_text_inj n m : dec_text n = dec_text m -> n = m.
Proof.
  intros H. destruct (dec_text_spec n) as (_&_&Hn), (dec_text_spec m) as (_&_&Hm). congruence.
Qed.
