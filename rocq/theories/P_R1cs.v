(** Property theorems C16-C19, C51 and the r1cs half of C23.
    The file format is specified in SpecR1cs.v. *)
From Coq Require Import List Bool Arith NArith ZArith Lia.
From Coq Require Import Strings.Byte.
From Verif Require Import Res Bytes Reader R1cs SpecR1cs R1csFacts R1csMore R1csReserve R1csJs R1csJsFacts R1csJsPanic.
Import ListNotations.
Local Open Scope N_scope.

(** A small concrete circuit: one constraint w1 * w1 = w2 over a 1-byte field. *)
Definition ex_r1cs : r1cs_file :=
  R1csFile 1 [x11] 3 0 1 1 3 1
    [Constraint [(1, [x01])] [(1, [x01])] [(2, [x01]); (0, [x00])]] [0; 1; 2].
Definition ex_secs : list (N * list byte) :=
  [(7, [x00; x01]); (2, constraints_payload ex_r1cs); (1, header_payload ex_r1cs ++ [xff])].

Example ex_r1cs_hypotheses : r1cs_ok ex_r1cs /\ carries ex_secs ex_r1cs /\
  Forall (fun s => fst s < 2 ^ 32) ex_secs.
Proof.
  split; [|split].
  - constructor; try reflexivity; cbn; repeat constructor.
  - split; [|split]; [eexists; split; [reflexivity|eexists; reflexivity]..|reflexivity].
  - repeat constructor.
Qed.

(** C16 *)
Theorem C16_reads_back_every_file :
  forall (max_off : N) (secs : list (N * list byte)) (r : r1cs_file),
    r1cs_ok r -> carries secs r ->
    N.of_nat (length secs) < 2 ^ 32 -> Forall (fun s => fst s < 2 ^ 32) secs ->
    max_off < 2 ^ 63 -> blen (r1cs_bytes secs) <= max_off ->
    r1cs_from_bytes max_off (r1cs_bytes secs) = Ok r.
Proof. exact r1cs_roundtrip. Qed.
Print Assumptions C16_reads_back_every_file.

Theorem C16_public_input_count :
  forall (checks : bool) (r : r1cs_file),
    (r_n_pub_out r + r_n_pub_in r < 2 ^ 32 -> n_public_inputs checks r = Ok (r_n_pub_out r + r_n_pub_in r)) /\
    (2 ^ 32 <= r_n_pub_out r + r_n_pub_in r ->
       n_public_inputs checks r = if checks then Panic else Ok ((r_n_pub_out r + r_n_pub_in r) mod 2 ^ 32)).
Proof.
  intros checks r. unfold n_public_inputs. split; intros H.
  - apply N.ltb_lt in H. rewrite H. reflexivity.
  - apply N.ltb_ge in H. rewrite H. reflexivity.
Qed.
Print Assumptions C16_public_input_count.

(** C17: whatever is accepted is well formed and its parts are in the file, each behind a
    section header of the right type. *)
Theorem C17_accepted_files_are_encodings :
  forall (max_off : N) (file : list byte) (r : r1cs_file),
    r1cs_from_bytes max_off file = Ok r ->
    r1cs_ok r /\ starts_with file (ascii_r1cs ++ u32 1) /\
    section_in file 1 (header_payload r) /\ section_in file 2 (constraints_payload r) /\
    (section_in file 3 (labels_payload r) \/
     r_wire2label r = map N.of_nat (seq 0 (N.to_nat (r_n_wires r)))).
Proof. exact r1cs_sound. Qed.
Print Assumptions C17_accepted_files_are_encodings.

Theorem C17_announced_counts :
  forall (max_off : N) (file : list byte) (r : r1cs_file),
    r1cs_from_bytes max_off file = Ok r ->
    N.of_nat (length (r_constraints r)) = r_n_constraints r /\
    N.of_nat (length (r_wire2label r)) = r_n_wires r /\
    blen (r_prime r) = r_field_size r.
Proof.
  intros mx f r H. apply r1cs_sound in H. destruct H as [H _].
  repeat split; [apply ok_cs_len|apply ok_wl_len|apply ok_prime]; exact H.
Qed.
Print Assumptions C17_announced_counts.

Theorem C17_wrong_magic_or_version :
  forall (max_off : N) (file : list byte),
    ~ starts_with file (ascii_r1cs ++ u32 1) -> is_err (r1cs_from_bytes max_off file).
Proof.
  intros mx f H. pose proof (r1cs_no_panic mx f) as Hp.
  destruct (r1cs_from_bytes mx f) as [r|e|] eqn:E; [|exact I|congruence].
  apply r1cs_sound in E. exfalso. apply H. tauto.
Qed.
Print Assumptions C17_wrong_magic_or_version.

Theorem C17_missing_sections :
  forall (max_off : N) (secs : list (N * list byte)),
    N.of_nat (length secs) < 2 ^ 32 -> Forall (fun s => fst s < 2 ^ 32) secs ->
    max_off < 2 ^ 63 -> blen (r1cs_bytes secs) <= max_off ->
    (payload_of 1 secs = None -> r1cs_from_bytes max_off (r1cs_bytes secs) = Err HeaderNotFound) /\
    (payload_of 2 secs = None -> is_err (r1cs_from_bytes max_off (r1cs_bytes secs))).
Proof. exact r1cs_missing_section. Qed.
Print Assumptions C17_missing_sections.

(** C17: cutting a file anywhere before the end of the header, the constraints or the wire map
    (the first section of type [ty], behind the sections [before]) gives an error. *)
Theorem C17_truncated_files :
  forall (max_off : N) (r : r1cs_file) before payload after ty content g,
    let secs := before ++ (ty, payload) :: after in
    r1cs_ok r -> carries secs r ->
    N.of_nat (length secs) < 2 ^ 32 -> Forall (fun s => fst s < 2 ^ 32) secs ->
    max_off < 2 ^ 63 -> blen (r1cs_bytes secs) <= max_off ->
    ~ In ty (map fst before) ->
    (ty = 1 /\ content = header_payload r \/ ty = 2 /\ content = constraints_payload r \/
     ty = 3 /\ content = labels_payload r) ->
    starts_with (r1cs_bytes secs) g ->
    blen g < 12 + blen (flat_map section_bytes before) + 12 + blen content ->
    is_err (r1cs_from_bytes max_off g).
Proof.
  intros mx r before payload after ty content g secs H1 H2 H3 H4 H5 H6 H7 H8 H9 H10.
  eapply (r1cs_truncated mx r before payload after ty content g); try eassumption.
  - unfold needed. destruct H8 as [[-> ->]|[[-> ->]|[-> ->]]]; reflexivity.
  - rewrite !blen_app, !blen_u32, blen_u64. change (blen ascii_r1cs) with 4. lia.
Qed.
Print Assumptions C17_truncated_files.

Theorem C17_never_panics : forall (max_off : N) (file : list byte), r1cs_from_bytes max_off file <> Panic.
Proof. exact r1cs_no_panic. Qed.
Print Assumptions C17_never_panics.

(** C18: both readers on the same file; W is 2^32 in wasm32, 2^64 natively. *)
Theorem C18_readers_agree :
  forall (W max_off : N) (secs : list (N * list byte)) (r : r1cs_file),
    r1cs_ok r -> carries secs r ->
    N.of_nat (length secs) < 2 ^ 32 -> Forall (fun s => fst s < 2 ^ 32) secs ->
    max_off < 2 ^ 63 -> blen (r1cs_bytes secs) <= max_off ->
    blen (r1cs_bytes secs) < W -> W <= 2 ^ 64 ->
    exists rc hj cj,
      r1cs_from_bytes max_off (r1cs_bytes secs) = Ok rc /\
      js_parse_r1cs W (r1cs_bytes secs) = Ok (hj, cj) /\
      r_constraints rc = cj /\ r_n_wires rc = j_n_wires hj /\ r_field_size rc = j_field_size hj /\
      n_public_inputs false rc = Ok (js_n_public hj).
Proof.
  intros W mx secs r H1 H2 H3 H4 H5 H6 H7 H8.
  exists r. do 2 eexists. split; [apply r1cs_roundtrip; assumption|].
  split; [apply js_r1cs_roundtrip; eassumption|]. cbn. repeat split.
  unfold n_public_inputs, js_n_public. cbn [j_n_pub_out j_n_pub_in].
  destruct (N.ltb_spec (r_n_pub_out r + r_n_pub_in r) (2 ^ 32)) as [H|H]; [|reflexivity].
  rewrite N.mod_small by exact H. reflexivity.
Qed.
Print Assumptions C18_readers_agree.

(** C19 refuted: 24 bytes make the WASM reader panic (the sum of position and length wraps);
    the same bytes are an ordinary error natively.  A second file does it through the field
    size. *)
Theorem C19_wasm_reader_panics_refuted :
  (exists data, blen data = 24 /\ js_parse_r1cs (2 ^ 32) data = Panic /\ is_err (js_parse_r1cs (2 ^ 64) data)) /\
  (exists data, blen data = 72 /\ js_parse_r1cs (2 ^ 32) data = Panic).
Proof.
  split.
  - exists js_crash_section. repeat split; vm_compute; auto.
  - exists js_crash_field. repeat split; vm_compute; auto.
Qed.
Print Assumptions C19_wasm_reader_panics_refuted.

(** C19, the positive part: on data of reasonable size it panics only if some 32-bit integer
    stored in the data is within (length + 8) of 2^32. *)
Theorem C19_panic_needs_a_huge_integer :
  forall data,
    blen data + 8 < 2 ^ 32 -> js_parse_r1cs (2 ^ 32) data = Panic ->
    exists p b, occurs data p b /\ blen b = 4 /\ 2 ^ 32 <= le_val b + blen data + 8.
Proof. exact js_r1cs_no_panic. Qed.
Print Assumptions C19_panic_needs_a_huge_integer.

(** Exactly when the reader panics on 32-bit addresses (a Rust slice has at most 2^31 - 1 bytes
    there): a section other than the last ends in the last four bytes of the address space, or,
    all section headers having been read, the first linear combination that is not empty has
    its first coefficient end at or beyond 2^32. *)
Theorem C19_panics_iff :
  forall data, blen data < 2 ^ 31 ->
  (js_parse_r1cs (2 ^ 32) data = Panic <->
   exists n, announces data n /\
     ((exists l q, walks data 12 l q /\ N.of_nat (length l) < n /\ 2 ^ 32 - 4 <= q) \/
      (exists l q p1 p2 fs nc k m w,
         walks data 12 l q /\ N.of_nat (length l) = n /\ first_of 1 l p1 /\ first_of 2 l p2 /\
         header_at data p1 fs nc /\ N.of_nat k < 3 * nc /\ m < 2 ^ 32 /\ m <> 0 /\ blen w = 4 /\
         occurs data p2 (concat (repeat (u32 0) k) ++ u32 m ++ w) /\ 2 ^ 32 <= p2 + 4 * N.of_nat k + 8 + fs))).
Proof. exact js_r1cs_panic_iff. Qed.
Print Assumptions C19_panics_iff.

(** C23 (r1cs half) refuted: any declared prime of any length is accepted. *)
Theorem C23_r1cs_prime_refuted :
  forall (max_off : N) (prime : list byte),
    blen prime < 2 ^ 32 -> max_off < 2 ^ 63 -> 200 + blen prime <= max_off ->
    exists file r, r1cs_from_bytes max_off file = Ok r /\ r_prime r = prime.
Proof.
  intros mx prime Hp Hm Hl.
  set (r := R1csFile (blen prime) prime 1 0 0 0 1 0 [] [0]).
  exists (r1cs_bytes [(1, header_payload r); (2, [])]), r. split; [|reflexivity].
  apply r1cs_roundtrip.
  - constructor; try reflexivity; try exact Hp; cbn; repeat constructor.
  - split; [|split]; [| |reflexivity].
    + eexists; split; [reflexivity|exists []; rewrite app_nil_r; reflexivity].
    + eexists; split; [reflexivity|exists []; reflexivity].
  - reflexivity.
  - repeat constructor.
  - exact Hm.
  - unfold r1cs_bytes. cbn [flat_map]. unfold section_bytes. cbn [fst snd].
    rewrite !blen_app, !blen_u32, !blen_u64. unfold header_payload, r.
    cbn [r_field_size r_prime r_n_wires r_n_pub_out r_n_pub_in r_n_prv_in r_n_labels r_n_constraints].
    rewrite !blen_app, !blen_u32, !blen_u64. change (blen ascii_r1cs) with 4. change (blen []) with 0. lia.
Qed.
Print Assumptions C23_r1cs_prime_refuted.

(** C51 refuted: reservations made before reading, from files of 68 and 28 bytes, and a
    24-byte file whose section table has any announced number of entries. *)
Theorem C51_reservations_refuted :
  (exists file, blen file = 68 /\ In ((2 ^ 32 - 1) * 72) (r1cs_reservations (2 ^ 63 - 1) file)) /\
  (exists file, blen file = 28 /\ In (2 ^ 32 - 1) (r1cs_reservations (2 ^ 63 - 1) file)) /\
  (forall n, n < 2 ^ 32 ->
     exists file s table, blen file = 24 /\
       read_sections file (2 ^ 63 - 1) (RState 0 []) = (Ok table, s) /\ N.of_nat (length table) = n).
Proof.
  split; [|split].
  - exists (greedy_file (2 ^ 32 - 1)). split; vm_compute; auto.
  - exists (greedy_field_file (2 ^ 32 - 1)). split; vm_compute; auto.
  - intros n Hn. destruct (looping_sections n Hn) as (H1&s&l&H2&H3).
    exists (looping_file n), s, l. auto.
Qed.
Print Assumptions C51_reservations_refuted.

(** What does hold: a read that succeeds has reserved at most nine times the file plus eight
    bytes per announced wire; any other read at most eight times the file plus a constant; and
    the section table never has more than 2^32 - 1 entries. *)
Theorem C51_total_reserved :
  forall max_off file,
    let total := fold_right N.add 0 (r1cs_reservations max_off file) in
    (forall r, r1cs_from_bytes max_off file = Ok r -> total <= 9 * blen file + 8 * r_n_wires r) /\
    total <= 8 * blen file + 114 * 2 ^ 32 /\
    (forall table s, read_sections file max_off (RState 0 []) = (Ok table, s) -> N.of_nat (length table) < 2 ^ 32).
Proof.
  intros mx file.
  assert (Hs : forall l, fold_right N.add 0 l = R1csReserve.sum l) by (induction l; cbn; congruence). cbv zeta. rewrite Hs.
  destruct (total_bounds file mx) as [H1 H2]. split; [exact H2|]. split; [exact H1|].
  intros table s H. unfold read_sections in H. apply mbind_ok in H as (m&s1&_&H).
  destruct bytes_eqb; [|discriminate]. apply mbind_ok in H as (v&s2&_&H). destruct (v =? 1); [|discriminate].
  apply mbind_ok in H as (n&s3&Hn&H). apply read_u32_lt in Hn. rewrite mmany_spec in H. apply mlist_length in H. lia.
Qed.
Print Assumptions C51_total_reserved.
Example C51_total_instance :
  exists r, r1cs_from_bytes (2 ^ 63 - 1) (r1cs_bytes ex_secs) = Ok r /\
    fold_right N.add 0 (r1cs_reservations (2 ^ 63 - 1) (r1cs_bytes ex_secs)) = 229 /\
    blen (r1cs_bytes ex_secs) = 116 /\ r_n_wires r = 3.
Proof. eexists. split; [vm_compute; reflexivity|]. vm_compute. auto. Qed.

(** Some readings of concrete malformed files, and of a truncated last unknown section, which
    is accepted. *)
Example C17_instances :
  r1cs_from_bytes (2 ^ 63 - 1) (r1cs_bytes ex_secs) = Ok ex_r1cs /\
  is_err (r1cs_from_bytes (2 ^ 63 - 1) (removelast (removelast (r1cs_bytes ex_secs)))) /\
  r1cs_from_bytes (2 ^ 63 - 1) (removelast (r1cs_bytes ex_secs)) = Ok ex_r1cs.
Proof. vm_compute. auto. Qed.
