(** C45, C62: what loading a saved circuit, witness or test case from a file gives, for every file. *)
From Coq Require Import List Bool Arith NArith Lia.
From Coq Require Import Strings.Byte Strings.String.
From Verif Require Import Res Bytes Text Utf8 Inputs FileSys Serial SpecSerial SerialFacts SpecBincode BincodeIff P_Serial P_Bincode
  JsonText SpecJson SerialJson SpecSerialJson SerialJsonIff P_SerialJson.
Import ListNotations.
Local Open Scope N_scope.

(** load_bincode: a file that cannot be read is that error; a file that begins with an encoding of a
    circuit gives that circuit; every other file is an error, and none a panic. *)
Theorem C45_load_bincode :
  forall s p,
    (s p = None <-> load_bincode s p = Err LoadUnreadable) /\
    (forall c, load_bincode s p = Ok c -> exists x rest, s p = Some (x ++ rest) /\ bin_circuit x c) /\
    (forall x c rest, s p = Some (x ++ rest) -> bin_circuit x c ->
       exists c', load_bincode s p = Ok c' /\ same_circuit c c') /\
    load_bincode s p <> Panic.
Proof.
  intros s p. unfold load_bincode. destruct C45_what_loads as (A&B&_). split; [|split; [|split]].
  - destruct (s p) as [b|]; [|tauto]. split; [discriminate|]. destruct (from_bincode b); discriminate.
  - intros c H. destruct (s p) as [b|]; [|discriminate]. destruct (from_bincode b) as [c'|e|] eqn:E; try discriminate.
    cbn [rmap_err] in H. injection H as <-. destruct (A b c' E) as (x&rest&->&Hx). eauto.
  - intros x c rest -> Hx. destruct (B x c rest Hx) as (c'&E&Hs). rewrite E. cbn [rmap_err]. exists c'. split; [reflexivity|exact Hs].
  - destruct (s p) as [b|]; [|discriminate]. pose proof (C45_never_panics b) as H. destruct (from_bincode b); [discriminate|discriminate|congruence].
Qed.
Print Assumptions C45_load_bincode.

(** load_json of the three types: the file's bytes are the UTF-8 form of a text whose document says it. *)
Theorem C62_load_files :
  forall huge s p,
    (forall c, load_json huge s p = Some c -> exists b t v, s p = Some b /\ utf8_decode b = Some t /\ holds huge t v /\ says_circuit v c) /\
    (forall b t v c, s p = Some b -> utf8_decode b = Some t -> holds huge t v -> says_circuit v c ->
       exists c', load_json huge s p = Some c' /\ same_circuit c c') /\
    (forall w, load_witness_json huge s p = Some w -> exists b t v, s p = Some b /\ utf8_decode b = Some t /\ holds huge t v /\ says_witness v w) /\
    (forall b t v w, s p = Some b -> utf8_decode b = Some t -> holds huge t v -> says_witness v w ->
       exists w', load_witness_json huge s p = Some w' /\ same_map (s_assignments w) (s_assignments w')) /\
    (forall x, load_test_case_json huge s p = Some x -> exists b t v, s p = Some b /\ utf8_decode b = Some t /\ holds huge t v /\ says_test_case v x) /\
    (forall b t v x, s p = Some b -> utf8_decode b = Some t -> holds huge t v -> says_test_case v x ->
       exists x', load_test_case_json huge s p = Some x' /\ same_test_case x x').
Proof.
  intros huge s p.
  assert (G : forall (A : Type) (parse : text -> option A) (Q : text -> A -> Prop),
    (forall t a, parse t = Some a -> Q t a) ->
    forall a, load_text parse s p = Some a -> exists b t, s p = Some b /\ utf8_decode b = Some t /\ Q t a).
  { intros A parse Q HQ a H. unfold load_text in H. destruct (s p) as [b|]; [|discriminate]. cbn [obind] in H.
    destruct (utf8_decode b) as [t|] eqn:Et; [|discriminate]. cbn [obind] in H. exists b, t. auto. }
  assert (G' : forall (A : Type) (parse : text -> option A) b t, s p = Some b -> utf8_decode b = Some t -> load_text parse s p = parse t).
  { intros A parse b t H1 H2. unfold load_text. rewrite H1. cbn [obind]. rewrite H2. reflexivity. }
  split; [|split; [|split; [|split; [|split]]]].
  - intros c H. destruct (G _ (from_json huge) (fun t c => exists v, holds huge t v /\ says_circuit v c)) with (a := c) as (b&t&H1&H2&v&H3); [|exact H|].
    + intros t a Ha. apply (C62_what_loads huge t). exact Ha.
    + exists b, t, v. tauto.
  - intros b t v c H1 H2 H3 H4. unfold load_json. rewrite (G' _ _ b t H1 H2). destruct (C62_what_loads huge t) as (_&X&_). exact (X v c H3 H4).
  - intros w H. destruct (G _ (witness_from_json huge) (fun t c => exists v, holds huge t v /\ says_witness v c)) with (a := w) as (b&t&H1&H2&v&H3); [|exact H|].
    + intros t a Ha. apply (C62_what_loads huge t). exact Ha.
    + exists b, t, v. tauto.
  - intros b t v w H1 H2 H3 H4. unfold load_witness_json. rewrite (G' _ _ b t H1 H2). destruct (C62_what_loads huge t) as (_&_&_&X&_). exact (X v w H3 H4).
  - intros x H. destruct (G _ (test_case_from_json huge) (fun t c => exists v, holds huge t v /\ says_test_case v c)) with (a := x) as (b&t&H1&H2&v&H3); [|exact H|].
    + intros t a Ha. apply (C62_what_loads huge t). exact Ha.
    + exists b, t, v. tauto.
  - intros b t v x H1 H2 H3 H4. unfold load_test_case_json. rewrite (G' _ _ b t H1 H2). destruct (C62_what_loads huge t) as (_&_&_&_&_&X). exact (X v x H3 H4).
Qed.
Print Assumptions C62_load_files.

(** A missing file, and a file that loads. *)
Example C45_load_instances :
  load_bincode (fun _ => None) (lit "x") = Err LoadUnreadable /\
  load_bincode (fun _ => Some (to_bincode ex_s_circuit)) (lit "x") = Ok ex_s_circuit.
Proof. split; vm_compute; reflexivity. Qed.
