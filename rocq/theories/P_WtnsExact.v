(** C70: the command-line witness reader, exact outcome on every byte string. *)
From Coq Require Import List Bool Arith NArith ZArith Lia.
From Coq Require Import Strings.Byte.
From Verif Require Import Res Bytes Reader R1cs SpecR1cs Fld Bn254 Wtns SpecWtns WtnsFacts SpecWtnsExact WtnsExact P_Wtns.
Import ListNotations.
Local Open Scope N_scope.

(** Accepted, with what. *)
Theorem C70_accepts_iff :
  forall (file : list byte) (w : witness_file),
    wtns_from_bytes file = Ok w <-> wtns_holds file (wf_prime w) (wf_n w) (wf_values w).
Proof. exact wtns_accepts_iff. Qed.
Print Assumptions C70_accepts_iff.

(** The field elements the commands use: the values held, each of at least 32 bytes and below
    r in its first 32. *)
Theorem C70_field_elements_iff :
  forall (file : list byte) (xs : list Fr),
    cli_read_witness file = Ok xs <->
    exists prime n vals, wtns_holds file prime n vals /\ Forall canonical vals /\ xs = map element_value vals.
Proof.
  intros file xs. unfold cli_read_witness. split.
  - intros H. destruct (wtns_from_bytes file) as [w|e|] eqn:E; cbn [rbind] in H; try discriminate.
    apply wtns_accepts_iff in E. unfold to_field_elements in H.
    exists (wf_prime w), (wf_n w), (wf_values w). split; [exact E|].
    destruct (Forall_dec canonical) with (l := wf_values w) as [Hc|Hc].
    + intros v. unfold canonical. destruct (32 <=? blen v) eqn:A; [apply N.leb_le in A|apply N.leb_gt in A].
      * destruct (Z_lt_dec (Z.of_N (le_val (firstn 32 v))) bn_r) as [B|B]; [left; auto|right; tauto].
      * right. intros [B _]. apply N.lt_nge in A. exact (A B).
    + rewrite (all_some_canonical _ Hc) in H. cbn [of_option] in H. injection H as <-. auto.
    + rewrite (all_some_none _ Hc) in H. discriminate.
  - intros (prime&n&vals&H&Hc&->).
    rewrite (proj2 (wtns_accepts_iff file (WitnessFile prime n vals)) H). cbn [rbind]. unfold to_field_elements. cbn [wf_values].
    rewrite (all_some_canonical _ Hc). reflexivity.
Qed.
Print Assumptions C70_field_elements_iff.

(** Refused, with which error; and the panic, which needs a section other than a header
    announced as 2^63 bytes or more among those reached. *)
Theorem C70_errors_iff :
  forall file : list byte,
  (wtns_from_bytes file = Err WMagic <-> exists b, blen b = 4 /\ starts_with file b /\ b <> ascii_wtns) /\
  (wtns_from_bytes file = Err WVersion <->
     exists v, v < 2 ^ 32 /\ v <> 2 /\ starts_with file (ascii_wtns ++ u32 v)) /\
  (wtns_from_bytes file = Err WNoHeader <->
     exists secs, has_sections file secs /\ fst (last_header secs) = []) /\
  (wtns_from_bytes file = Err WNoData <->
     exists secs, has_sections file secs /\ fst (last_header secs) <> [] /\ last_data secs = []) /\
  (wtns_from_bytes file = Err WSizeMismatch <->
     exists secs p n, has_sections file secs /\ last_header secs = (p, n) /\ p <> [] /\
       last_data secs <> [] /\ blen (last_data secs) <> n * blen p) /\
  (wtns_from_bytes file = Panic <->
     exists n secs ty len, N.of_nat (length secs) < n /\ ty <> 1 /\ ty < 2 ^ 32 /\
       2 ^ 63 <= len /\ len < 2 ^ 64 /\ begins_with file n secs (u32 ty ++ u64 len)).
Proof. exact wtns_errors_iff. Qed.
Print Assumptions C70_errors_iff.

(** Everything else is a reading error: the announced sections are not all there. *)
Theorem C70_otherwise_io_error :
  forall file : list byte,
    ~ (exists secs, has_sections file secs) ->
    wtns_from_bytes file = Err WIo \/ wtns_from_bytes file = Err WMagic \/
    wtns_from_bytes file = Err WVersion \/ wtns_from_bytes file = Panic.
Proof.
  intros file H. destruct (C70_errors_iff file) as (_&_&E3&E4&E5&_).
  destruct (wtns_from_bytes file) as [w|[]|] eqn:E; auto; exfalso; apply H.
  - apply wtns_accepts_iff in E as (secs&Hs&_). eauto.
  - destruct (proj1 E3 eq_refl) as (secs&Hs&_). eauto.
  - destruct (proj1 E4 eq_refl) as (secs&Hs&_). eauto.
  - destruct (proj1 E5 eq_refl) as (secs&?&?&Hs&_). eauto.
  - clear - E. exfalso. unfold wtns_from_bytes in E. rewrite whole in E.
    destruct (outcomes file) as [[acc R]|[O|[[O _]|[[O _]|[O _]]]]].
    2-5: unfold wtns_from_bytes in O; rewrite whole in O; rewrite O in E; discriminate.
    apply run_finish in R. unfold wtns_from_bytes in R. rewrite whole in R. rewrite R in E.
    destruct acc as [[p k] d]. unfold w_finish in E. destruct (negb (blen p =? 0)); [|discriminate].
    destruct (negb (blen d =? 0)); [|discriminate]. destruct (blen d =? k * blen p); discriminate.
Qed.
Print Assumptions C70_otherwise_io_error.

(** The reading error, exactly: the announced sections are not all there, and nothing of the above. *)
Theorem C70_io_error_iff :
  forall file : list byte,
    wtns_from_bytes file = Err WIo <->
    ~ (exists secs, has_sections file secs) /\
    ~ (exists b, blen b = 4 /\ starts_with file b /\ b <> ascii_wtns) /\
    ~ (exists v, v < 2 ^ 32 /\ v <> 2 /\ starts_with file (ascii_wtns ++ u32 v)) /\
    ~ (exists n secs ty len, N.of_nat (length secs) < n /\ ty <> 1 /\ ty < 2 ^ 32 /\
         2 ^ 63 <= len /\ len < 2 ^ 64 /\ begins_with file n secs (u32 ty ++ u64 len)).
Proof.
  intros file. destruct (C70_errors_iff file) as (E1&E2&_&_&_&E6). rewrite <- E1, <- E2, <- E6. split.
  - intros H. rewrite H. split; [|repeat split; discriminate]. intros (secs&Hs).
    apply (proj1 (has_sections_outcome file secs Hs)). exact H.
  - intros (H&H1&H2&H6). destruct (C70_otherwise_io_error file H) as [R|[R|[R|R]]]; [exact R|contradiction..].
Qed.
Print Assumptions C70_io_error_iff.

(** Two readings of one file give the same last header and data. *)
Theorem C70_one_content :
  forall file secs secs', has_sections file secs -> has_sections file secs' ->
    last_header secs = last_header secs' /\ last_data secs = last_data secs'.
Proof. exact has_sections_unique. Qed.
Print Assumptions C70_one_content.

(** Instances: a header section with a wrong length field is read all the same. *)
Example C70_instances :
  wtns_holds (ascii_wtns ++ u32 2 ++ u32 2 ++ (u32 1 ++ u64 77 ++ u32 1 ++ [x11] ++ u32 2) ++ (u32 2 ++ u64 2 ++ [x05; x06]) ++ [xff])
    [x11] 2 [[x05]; [x06]] /\
  wtns_from_bytes (ascii_wtns ++ u32 2 ++ u32 1) = Err WIo /\
  wtns_from_bytes (ascii_wtns ++ u32 2 ++ u32 0) = Err WNoHeader /\
  wtns_from_bytes (wtns_bytes [WHeader [x11] 2]) = Err WNoData /\
  wtns_from_bytes (wtns_bytes [WHeader [x11] 2; WData [x05]]) = Err WSizeMismatch.
Proof.
  split; [|repeat split; vm_compute; reflexivity].
  apply (wtns_accepts_iff (ascii_wtns ++ u32 2 ++ u32 2 ++ (u32 1 ++ u64 77 ++ u32 1 ++ [x11] ++ u32 2) ++ (u32 2 ++ u64 2 ++ [x05; x06]) ++ [xff]) (WitnessFile [x11] 2 [[x05]; [x06]])).
  vm_compute. reflexivity.
Qed.
