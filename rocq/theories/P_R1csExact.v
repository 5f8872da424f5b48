(** C68, C69: exactly which byte strings the r1cs readers accept. *)
From Coq Require Import List Bool Arith NArith ZArith Lia.
From Coq Require Import Strings.Byte.
From Verif Require Import Res Bytes Reader R1cs SpecR1cs R1csFacts R1csMore R1csJs R1csJsFacts R1csJsPanic SpecR1csExact R1csExact R1csErrors R1csJsExact P_R1cs.
Import ListNotations.
Local Open Scope N_scope.

(** C68: the command-line reader accepts a file with content [r] exactly when the file holds
    [r]; whatever the bytes are. *)
Theorem C68_accepts_iff :
  forall (max_off : N) (file : list byte) (r : r1cs_file),
    blen file <= max_off ->
    (r1cs_from_bytes max_off file = Ok r <-> cli_holds file max_off r).
Proof. intros max_off file r H. apply cli_accepts_iff. exact H. Qed.
Print Assumptions C68_accepts_iff.

(** C68: a file holds at most one content. *)
Theorem C68_one_content :
  forall (max_off : N) (file : list byte) (r r' : r1cs_file),
    blen file <= max_off -> cli_holds file max_off r -> cli_holds file max_off r' -> r = r'.
Proof.
  intros mx f r r' H H1 H2. apply (cli_accepts_iff f mx H) in H1. apply (cli_accepts_iff f mx H) in H2. congruence.
Qed.
Print Assumptions C68_one_content.

(** C68: each of the four named errors, exactly. *)
Theorem C68_errors_iff :
  forall (max_off : N) (file : list byte), blen file <= max_off ->
    (r1cs_from_bytes max_off file = Err WrongMagic <->
       exists b, blen b = 4 /\ occurs file 0 b /\ b <> ascii_r1cs) /\
    (r1cs_from_bytes max_off file = Err WrongVersion <->
       exists v, v < 2 ^ 32 /\ v <> 1 /\ occurs file 0 (ascii_r1cs ++ u32 v)) /\
    (r1cs_from_bytes max_off file = Err HeaderNotFound <->
       exists l, cli_table file max_off l /\ ~ In 1 (map fst l)) /\
    (r1cs_from_bytes max_off file = Err ConstraintsNotFound <->
       exists l p1, cli_table file max_off l /\ first_of 1 l p1 /\ header_fits file p1 /\ ~ In 2 (map fst l)).
Proof.
  intros mx f H. split; [apply wrong_magic_iff|]. split; [apply wrong_version_iff|].
  split; [apply no_header_iff|apply no_constraints_iff]; exact H.
Qed.
Print Assumptions C68_errors_iff.

(** C68: in every other case the reader reports that reading failed. *)
Theorem C68_otherwise_io_error :
  forall (max_off : N) (file : list byte), blen file <= max_off ->
    (forall r, ~ cli_holds file max_off r) ->
    ~ (exists b, blen b = 4 /\ occurs file 0 b /\ b <> ascii_r1cs) ->
    ~ (exists v, v < 2 ^ 32 /\ v <> 1 /\ occurs file 0 (ascii_r1cs ++ u32 v)) ->
    ~ (exists l, cli_table file max_off l /\ ~ In 1 (map fst l)) ->
    ~ (exists l p1, cli_table file max_off l /\ first_of 1 l p1 /\ header_fits file p1 /\ ~ In 2 (map fst l)) ->
    r1cs_from_bytes max_off file = Err IoError.
Proof.
  intros mx f H H0 H1 H2 H3 H4. destruct (C68_errors_iff mx f H) as (E1&E2&E3&E4).
  destruct (r1cs_from_bytes mx f) as [r|[]|] eqn:E; auto; exfalso.
  - apply (H0 r). apply (cli_accepts_iff f mx H). exact E.
  - apply H1, E1, eq_refl.
  - apply H2, E2, eq_refl.
  - apply H3, E3, eq_refl.
  - apply H4, E4, eq_refl.
  - exact (C17_never_panics mx f E).
Qed.
Print Assumptions C68_otherwise_io_error.

(** C69: the WASM reader accepts exactly the byte strings that hold the content for it. *)
Theorem C69_wasm_accepts_iff :
  forall (data : list byte) (h : js_header) (cs : list constraint_t),
    blen data < 2 ^ 31 -> (js_parse_r1cs (2 ^ 32) data = Ok (h, cs) <-> js_holds data h cs).
Proof. intros data h cs H. apply js_accepts_iff. exact H. Qed.
Print Assumptions C69_wasm_accepts_iff.

(** C69: on a file whose sections all lie inside it, whatever else it contains: what the
    command-line reader accepts the WASM reader accepts with the same content; and conversely,
    unless the announced prime is longer than the file or the wire map is too short. *)
Theorem C69_readers_agree_on_any_bytes :
  forall (max_off : N) (file : list byte) (l : list (N * N)),
    blen file < 2 ^ 31 -> blen file <= max_off -> table_inside file l ->
    (forall r, r1cs_from_bytes max_off file = Ok r ->
       js_parse_r1cs (2 ^ 32) file =
         Ok (JsHeader (r_field_size r) (r_n_wires r) (r_n_pub_out r) (r_n_pub_in r) (r_n_constraints r),
             r_constraints r)) /\
    (forall h cs, js_parse_r1cs (2 ^ 32) file = Ok (h, cs) ->
       j_field_size h <= blen file ->
       (forall p3, first_of 3 l p3 -> p3 + 8 * j_n_wires h <= blen file) ->
       exists r, r1cs_from_bytes max_off file = Ok r /\ r_constraints r = cs /\
         JsHeader (r_field_size r) (r_n_wires r) (r_n_pub_out r) (r_n_pub_in r) (r_n_constraints r) = h).
Proof.
  intros mx f l H1 H2 H3. destruct (same_files f mx l H1 H2 H3) as [A B]. split; [exact A|].
  intros h cs E Hf Hl. destruct (B h cs E Hf Hl) as (r&Er&Eh&Ec). exists r. auto.
Qed.
Print Assumptions C69_readers_agree_on_any_bytes.

(** Every standard encoding has its sections inside. *)
Theorem C69_covers_standard_files :
  forall secs, N.of_nat (length secs) < 2 ^ 32 -> Forall (fun s => fst s < 2 ^ 32) secs ->
    exists l, table_inside (r1cs_bytes secs) l.
Proof. intros secs H1 H2. eexists. apply standard_table; assumption. Qed.
Print Assumptions C69_covers_standard_files.

(** Instances: a file that holds a content for both readers, and one for each error. *)
Example C68_instances :
  cli_holds (r1cs_bytes ex_secs) (2 ^ 63 - 1) ex_r1cs /\
  js_holds (r1cs_bytes ex_secs) (js_header_of ex_r1cs) (r_constraints ex_r1cs) /\
  r1cs_from_bytes (2 ^ 63 - 1) (ascii_r1cs ++ u32 2) = Err WrongVersion /\
  r1cs_from_bytes (2 ^ 63 - 1) [x00; x00; x00; x00] = Err WrongMagic /\
  r1cs_from_bytes (2 ^ 63 - 1) (r1cs_bytes [(2, [])]) = Err HeaderNotFound /\
  r1cs_from_bytes (2 ^ 63 - 1) (r1cs_bytes [(1, header_payload ex_r1cs)]) = Err ConstraintsNotFound /\
  r1cs_from_bytes (2 ^ 63 - 1) (ascii_r1cs ++ u32 1) = Err IoError.
Proof.
  split; [apply (cli_accepts_iff _ (2 ^ 63 - 1)); [vm_compute; discriminate|vm_compute; reflexivity]|].
  split; [apply js_accepts_iff; [reflexivity|vm_compute; reflexivity]|].
  repeat split; vm_compute; reflexivity.
Qed.

(** The same without any condition on the sections does not hold: a wire map that is too short
    is refused by the command line only, and a section length of 2^32 is skipped by the WASM
    reader as if it were zero. *)
Definition short_map_secs : list (N * list byte) :=
  [(1, header_payload ex_r1cs); (2, constraints_payload ex_r1cs); (3, [])].
Definition wrap_file : list byte :=
  ascii_r1cs ++ u32 1 ++ u32 3 ++ u32 9 ++ u64 (2 ^ 32)
  ++ section_bytes (1, header_payload ex_r1cs) ++ section_bytes (2, constraints_payload ex_r1cs).
Theorem C69_readers_differ :
  (exists file, is_err (r1cs_from_bytes (2 ^ 63 - 1) file) /\ js_parse_r1cs (2 ^ 32) file = Ok (js_header_of ex_r1cs, r_constraints ex_r1cs)
     /\ exists l, table_inside file l) /\
  (exists file, is_err (r1cs_from_bytes (2 ^ 63 - 1) file) /\ js_parse_r1cs (2 ^ 32) file = Ok (js_header_of ex_r1cs, r_constraints ex_r1cs)).
Proof.
  split.
  - exists (r1cs_bytes short_map_secs). split; [vm_compute; exact I|]. split; [vm_compute; reflexivity|].
    exists (map entry (table 12 short_map_secs)). apply standard_table; [reflexivity|]. repeat constructor.
  - exists wrap_file. split; [vm_compute; exact I|vm_compute; reflexivity].
Qed.
Print Assumptions C69_readers_differ.
