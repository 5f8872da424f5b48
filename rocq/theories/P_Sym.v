(** Property theorems C27 and C28.  What a .sym line says: SpecSym.v. *)
From Coq Require Import List Bool Arith NArith ZArith Lia Permutation.
From Coq Require Import Strings.String.
From Verif Require Import Res Text Sym SpecSym SymFacts.
Import ListNotations.
Local Open Scope N_scope.

(** ** C27 *)
(** Any text, seen as lines separated by line feeds, each of which says something. *)
Theorem C27_symbol_file :
  forall (ls : list text) (ss : list said),
    ls <> [] -> Forall (free_of c_nl) ls -> Forall2 (says rust_ws) ls ss ->
    (~ In Bad ss ->
       exists m, parse_sym_file (join c_nl ls) = Ok m /\ forall name, hm_get name m = wire_of name ss) /\
    (In Bad ss -> parse_sym_file (join c_nl ls) = Err SymBadWire).
Proof.
  intros ls ss Hne Hf H2. destruct (parse_sym_spec _ ls ss Hne Hf eq_refl H2) as [H1 H3]. split; [|exact H3].
  intros Hb. destruct (H1 Hb) as (m&E&_&Hg). eauto.
Qed.
Print Assumptions C27_symbol_file.

(** Every text can be seen that way. *)
Theorem C27_covers_every_text :
  forall t : text, exists ls ss,
    ls <> [] /\ Forall (free_of c_nl) ls /\ join c_nl ls = t /\ Forall2 (says rust_ws) ls ss.
Proof.
  intros t. destruct (split_spec c_nl t) as (H1&H2&H3). exists (split_on c_nl t).
  assert (Hs : exists ss, Forall2 (says rust_ws) (split_on c_nl t) ss).
  { clear. induction (split_on c_nl t) as [|l ls (ss&IH)]; [exists []; constructor|].
    destruct (says_total rust_ws l) as (s&Hs). exists (s :: ss). constructor; assumption. }
  destruct Hs as (ss&Hs). exists ss. auto.
Qed.
Print Assumptions C27_covers_every_text.

(** The written form of records is read back: the last non-negative wire of each name. *)
Definition record_line (label comp : text) (wire : Z) (name : text) : text :=
  label ++ c_comma :: dec_text_z wire ++ c_comma :: comp ++ c_comma :: name.
Record sym_record := SymRecord { sr_label : text; sr_comp : text; sr_wire : Z; sr_name : text }.
Definition record_ok (r : sym_record) : Prop :=
  free_of c_comma (sr_label r) /\ free_of c_comma (sr_comp r) /\ free_of c_comma (sr_name r) /\
  free_of c_nl (sr_label r) /\ free_of c_nl (sr_comp r) /\ free_of c_nl (sr_name r) /\
  tight rust_ws (sr_name r) /\ (- 2 ^ 31 <= sr_wire r < 2 ^ 31)%Z.
Definition record_text (r : sym_record) : text := record_line (sr_label r) (sr_comp r) (sr_wire r) (sr_name r).
(** The wire of the last record for [name] with a non-negative wire. *)
Definition last_wire (name : text) (rs : list sym_record) : option N :=
  fold_left (fun acc r => if text_eqb name (sr_name r) && (0 <=? sr_wire r)%Z then Some (Z.to_N (sr_wire r)) else acc) rs None.

Lemma dec_digits z : Forall (fun c => 48 <= c <= 57) (dec_text z).
Proof. destruct (dec_text_spec z) as (_&H&_). apply forallb_digits. exact H. Qed.
Lemma digit_not_ws c : 48 <= c <= 57 -> rust_ws c = false.
Proof.
  intros Hc. unfold rust_ws.
  repeat match goal with
  | |- context [?a <=? ?b] => destruct (N.leb_spec a b); try lia
  | |- context [?a =? ?b] => destruct (N.eqb_spec a b); try lia
  end; reflexivity.
Qed.
Lemma numeral_tight t : t <> [] -> Forall (fun c => rust_ws c = false) t -> tight rust_ws t.
Proof.
  intros _ H. split; intros c r ->.
  - apply Forall_inv in H. exact H.
  - apply Forall_app in H. destruct H as [_ H]. apply Forall_inv in H. exact H.
Qed.
Lemma dec_z_numeral z : (- 2 ^ 31 <= z < 2 ^ 31)%Z -> wire_field rust_ws (dec_text_z z) z.
Proof.
  intros Hz. split; [|exact Hz]. exists (dec_text_z z).
  assert (Hd : forall n, Forall (fun c => rust_ws c = false) (dec_text n)).
  { intros n. eapply Forall_impl; [|apply dec_digits]. exact digit_not_ws. }
  assert (Hne : forall n, dec_text n <> []) by (intros n; apply dec_text_spec).
  split.
  - exists [], []. rewrite app_nil_r. split; [reflexivity|]. split; [constructor|]. split; [constructor|].
    unfold dec_text_z. destruct (Z.ltb_spec z 0).
    + apply numeral_tight; [discriminate|]. constructor; [reflexivity|apply Hd].
    + apply numeral_tight; [apply Hne|apply Hd].
  - unfold dec_text_z. destruct (Z.ltb_spec z 0).
    + exists (dec_text (Z.to_N (- z))). split; [apply Hne|]. split; [apply dec_digits|]. right. right.
      split; [reflexivity|]. destruct (dec_text_spec (Z.to_N (- z))) as (_&_&->). clear - H. lia.
    + exists (dec_text (Z.to_N z)). split; [apply Hne|]. split; [apply dec_digits|]. left.
      split; [reflexivity|]. destruct (dec_text_spec (Z.to_N z)) as (_&_&->). clear - H. lia.
Qed.
Lemma dec_z_chars z c : (c < 45 \/ 57 < c) -> free_of c (dec_text_z z).
Proof.
  intros Hc. unfold dec_text_z. destruct (z <? 0)%Z; [constructor; [unfold c_minus; lia|]|];
    (eapply Forall_impl; [|apply dec_digits]; intros x Hx; cbn in Hx; lia).
Qed.
Lemma record_says r : record_ok r -> says rust_ws (record_text r) (Record (sr_wire r) (sr_name r)).
Proof.
  intros (H1&H2&H3&_&_&_&Ht&Hw). eapply says_record; [split; [reflexivity|]|apply dec_z_numeral; exact Hw|].
  - repeat constructor; auto. apply dec_z_chars. left. reflexivity.
  - exists [], []. rewrite app_nil_r. repeat split; try constructor; apply Ht.
Qed.
Lemma last_wire_wire_of name rs :
  last_wire name rs = wire_of name (map (fun r => Record (sr_wire r) (sr_name r)) rs).
Proof.
  unfold last_wire. assert (G : forall acc, fold_left (fun acc r => if text_eqb name (sr_name r) && (0 <=? sr_wire r)%Z then Some (Z.to_N (sr_wire r)) else acc) rs acc =
    match wire_of name (map (fun r => Record (sr_wire r) (sr_name r)) rs) with Some w => Some w | None => acc end).
  { induction rs as [|r rs IH]; intros acc; [reflexivity|]. cbn [fold_left map wire_of]. rewrite IH.
    destruct (wire_of name (map _ rs)); [reflexivity|]. destruct (_ && _); reflexivity. }
  rewrite G. destruct (wire_of _ _); reflexivity.
Qed.

Theorem C27_records_round_trip :
  forall rs : list sym_record, Forall record_ok rs ->
    exists m, parse_sym_file (join c_nl (map record_text rs ++ [[]])) = Ok m /\
      forall name, hm_get name m = last_wire name rs.
Proof.
  intros rs Hr. assert (Hne : map record_text rs ++ [[]] <> []) by (destruct rs; discriminate).
  assert (Hf : Forall (free_of c_nl) (map record_text rs ++ [[]])).
  { apply Forall_app. split; [|repeat constructor]. apply Forall_map. eapply Forall_impl; [|exact Hr].
    intros r (_&_&_&H1&H2&H3&_). unfold record_text, record_line.
    apply Forall_app; split; [exact H1|]. constructor; [discriminate|].
    apply Forall_app; split; [apply dec_z_chars; left; reflexivity|]. constructor; [discriminate|].
    apply Forall_app; split; [exact H2|]. constructor; [discriminate|exact H3]. }
  assert (H2 : Forall2 (says rust_ws) (map record_text rs ++ [[]]) (map (fun r => Record (sr_wire r) (sr_name r)) rs ++ [Nothing])).
  { apply Forall2_app.
    - clear - Hr. induction Hr; cbn; constructor; auto using record_says.
    - constructor; [|constructor]. constructor. intros f0 f1 f2 f3 [E _]. destruct f0; discriminate. }
  destruct (C27_symbol_file _ _ Hne Hf H2) as [H _]. destruct H as (m&E&Hg).
  { intros Hi. apply in_app_iff in Hi. destruct Hi as [Hi|[Hi|[]]]; [|discriminate].
    apply in_map_iff in Hi. destruct Hi as (r&Hi&_). discriminate. }
  exists m. split; [exact E|]. intros name. rewrite Hg, last_wire_wire_of.
  clear. induction (map (fun r => Record (sr_wire r) (sr_name r)) rs) as [|s ss IH]; [reflexivity|].
  cbn [app wire_of]. rewrite IH. reflexivity.
Qed.
Print Assumptions C27_records_round_trip.

Example C27_nonvacuous :
  Forall record_ok [SymRecord (lit "1") (lit "172") 1 (lit "main.root"); SymRecord (lit "2") (lit "172") (-1) (lit "main.tmp");
                    SymRecord (lit "3") (lit "172") 2 (lit "main.root")] /\
  match parse_sym_file (lit "1,1,172,main.root
2,-1,172,main.tmp
junk
3,2,172, main.root ") with
  | Ok m => hm_get (lit "main.root") m = Some 2 /\ hm_get (lit "main.tmp") m = None
  | _ => False
  end /\
  parse_sym_file (lit "1,x,172,main.root") = Err SymBadWire.
Proof.
  split; [|split; [vm_compute; auto|reflexivity]].
  assert (T : forall t, forallb (fun c => negb (rust_ws c)) t = true -> t <> [] -> tight rust_ws t).
  { intros t Ht Hne. apply numeral_tight; [exact Hne|]. apply Forall_forall. intros c Hc. rewrite forallb_forall in Ht.
    specialize (Ht c Hc). destruct (rust_ws c); [discriminate|reflexivity]. }
  repeat (constructor; [unfold record_ok; cbn [sr_label sr_comp sr_wire sr_name]; repeat split; try (repeat constructor; discriminate);
    try (apply T; [reflexivity|discriminate]); try discriminate; try reflexivity|]).
  constructor.
Qed.

(** The JavaScript parser gives the same map on every text that the CLI parser accepts, as long as
    the text has no U+0085 and no U+FEFF (on which the two notions of white space differ). *)
Theorem C27_js_agrees_on_accepted_files :
  forall (t : text) (m : hmap N),
    Forall plain_char t -> parse_sym_file t = Ok m ->
    forall name, hm_get name (js_parse_sym_file t) = hm_get name m.
Proof.
  intros t m Hp Hm name. destruct (C27_covers_every_text t) as (ls&ss&Hne&Hf&Ht&H2).
  destruct (parse_sym_spec t ls ss Hne Hf (eq_sym Ht) H2) as [H1 H3].
  assert (Hb : ~ In Bad ss). { intros Hi. rewrite (H3 Hi) in Hm. discriminate. }
  destruct (H1 Hb) as (m'&E&_&Hg). rewrite E in Hm. injection Hm as <-. rewrite Hg.
  apply (js_parse_sym_spec t ls ss Hne Hf (eq_sym Ht) Hp H2 Hb).
Qed.
Print Assumptions C27_js_agrees_on_accepted_files.

(** Where the CLI rejects, JavaScript reads a prefix of the field or skips the line. *)
Theorem C27_tools_agree_refuted :
  parse_sym_file (lit "1,5x,3,main.a") = Err SymBadWire /\
  hm_get (lit "main.a") (js_parse_sym_file (lit "1,5x,3,main.a")) = Some 5 /\
  parse_sym_file (lit "1,4294967295,3,main.a") = Err SymBadWire /\
  hm_get (lit "main.a") (js_parse_sym_file (lit "1,4294967295,3,main.a")) = Some 4294967295.
Proof. vm_compute. auto. Qed.
Print Assumptions C27_tools_agree_refuted.

(** ** C28 *)
(** For every iteration order [entries] of the map. *)
Theorem C28_input_signals :
  forall (m entries : hmap N) (bound : option N),
    hm_wf m -> Permutation m entries ->
    forall name w,
      hm_get name (get_input_signals entries bound) = Some w <->
      hm_get (lit "main." ++ name) m = Some w /\ (forall b, bound = Some b -> w <= b).
Proof.
  intros m entries bound Hm Hp name w.
  assert (Hd : NoDup (map fst entries)) by (eapply Permutation_NoDup; [apply Permutation_map; exact Hp|exact Hm]).
  destruct (input_signals_spec entries bound Hd) as [_ H]. rewrite H.
  rewrite (hm_get_in _ _ m Hm). fold main_dot.
  split; intros [H1 H2]; (split; [|exact H2]); eapply Permutation_in; [|exact H1| |exact H1];
    [apply Permutation_sym|]; exact Hp.
Qed.
Print Assumptions C28_input_signals.

Example C28_nonvacuous :
  let m := [(lit "main.a", 1); (lit "b", 2); (lit "main.main.a", 3); (lit "main.c", 9)] in
  hm_wf m /\ hm_get (lit "a") (get_input_signals (rev m) (Some 4)) = Some 1 /\
  hm_get (lit "main.a") (get_input_signals (rev m) (Some 4)) = Some 3 /\
  hm_get (lit "c") (get_input_signals (rev m) (Some 4)) = None /\
  hm_get (lit "c") (get_input_signals (rev m) None) = Some 9.
Proof.
  cbn zeta. split; [|vm_compute; auto]. unfold hm_wf. cbn [map fst].
  repeat (constructor; [intros H; cbn [In] in H; repeat (destruct H as [H|H]; [discriminate|]); exact H|]). constructor.
Qed.
