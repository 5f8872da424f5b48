(** The bincode reader and writer are inverse. *)
From Coq Require Import List Bool Arith NArith Lia Permutation.
From Coq Require Import Strings.Byte.
From Verif Require Import Res Bytes Text Utf8 R1cs Inputs InputsFacts Serial SpecSerial.
Import ListNotations.
Local Open Scope N_scope.

Definition reads {A} (enc : A -> list byte) (d : dec A) (P : A -> Prop) : Prop :=
  forall a rest, P a -> d (enc a ++ rest) = Ok (a, rest).
(** Whatever is accepted was written by [enc]; a reader depends only on what it consumes. *)
Definition sound {A} (enc : A -> list byte) (d : dec A) (P : A -> Prop) : Prop :=
  forall bs a rest, d bs = Ok (a, rest) -> bs = enc a ++ rest /\ P a.
Definition mono {A} (d : dec A) : Prop :=
  (forall bs a rest s, d bs = Ok (a, rest) -> d (bs ++ s) = Ok (a, rest ++ s)) /\ (forall bs, d bs <> Panic).

Lemma d_take_app n a rest : length a = n -> d_take n (a ++ rest) = Ok (a, rest).
Proof.
  intros <-. unfold d_take. rewrite app_length. rewrite (proj2 (Nat.leb_le _ _)) by lia.
  rewrite firstn_app, Nat.sub_diag, firstn_all, firstn_O, app_nil_r.
  rewrite skipn_app, Nat.sub_diag, skipn_all. reflexivity.
Qed.
Lemma d_take_inv n bs a rest : d_take n bs = Ok (a, rest) -> bs = a ++ rest /\ length a = n.
Proof.
  unfold d_take. destruct (Nat.leb_spec n (length bs)) as [H|H]; [|discriminate]. intros [= <- <-].
  rewrite firstn_skipn, firstn_length. split; [reflexivity|]. lia.
Qed.
Lemma d_take_mono n : mono (d_take n).
Proof.
  split.
  - intros bs a rest s H. apply d_take_inv in H as [-> H]. rewrite <- app_assoc. apply d_take_app. exact H.
  - intros bs. unfold d_take. destruct (n <=? length bs)%nat; discriminate.
Qed.
Lemma d_bind_ok {A B} (d : dec A) (f : A -> dec B) bs p : d_bind d f bs = Ok p ->
  exists a rest, d bs = Ok (a, rest) /\ f a rest = Ok p.
Proof. unfold d_bind. intros H. apply rbind_ok in H as ([a rest]&H1&H2). eauto. Qed.
Lemma d_bind_step {A B} (d : dec A) (f : A -> dec B) bs a rest : d bs = Ok (a, rest) -> d_bind d f bs = f a rest.
Proof. intros H. unfold d_bind. rewrite H. reflexivity. Qed.
Lemma d_bind_mono {A B} (d : dec A) (f : A -> dec B) : mono d -> (forall a, mono (f a)) -> mono (d_bind d f).
Proof.
  intros [H1 H2] Hf. split.
  - intros bs p rest s H. apply d_bind_ok in H as (a&r&Ha&Hp). rewrite (d_bind_step _ _ _ _ _ (H1 _ _ _ s Ha)). apply Hf. exact Hp.
  - intros bs. unfold d_bind. specialize (H2 bs). destruct (d bs) as [[a r]|e|]; cbn; [apply Hf|discriminate|contradiction].
Qed.
Lemma d_ret_mono {A} (a : A) : mono (d_ret a).
Proof. split; [|discriminate]. unfold d_ret. intros bs b rest s [= -> ->]. reflexivity. Qed.
Lemma d_err_mono {A} e : mono (fun _ => Err e : res bincode_error (A * list byte)).
Proof. split; discriminate. Qed.
Lemma d_items_mono {A} (d : dec A) n : mono d -> mono (d_items d n).
Proof.
  intros Hd. induction n as [|n IH]; [apply d_ret_mono|]. cbn [d_items].
  apply d_bind_mono; [exact Hd|]. intros a. apply d_bind_mono; [exact IH|]. intros l. apply d_ret_mono.
Qed.
Create HintDb mono.
#[export] Hint Resolve d_take_mono d_ret_mono d_err_mono d_items_mono : mono.
Ltac mono := repeat first [progress intros | solve [auto with mono] | apply d_bind_mono].
Lemma d_u8_mono : mono d_u8. Proof. unfold d_u8. mono. Qed.
Lemma d_u32_mono : mono d_u32. Proof. unfold d_u32. mono. Qed.
Lemma d_u64_mono : mono d_u64. Proof. unfold d_u64. mono. Qed.
#[export] Hint Resolve d_u8_mono d_u32_mono d_u64_mono : mono.
Lemma d_seq_mono {A} (d : dec A) : mono d -> mono (d_seq d). Proof. intros H. unfold d_seq. mono. Qed.
#[export] Hint Resolve d_seq_mono : mono.
Lemma d_byte_mono : mono d_byte. Proof. unfold d_byte. mono. Qed.
#[export] Hint Resolve d_byte_mono : mono.
Lemma d_bytes_mono : mono d_bytes. Proof. unfold d_bytes. mono. Qed.
Lemma d_str_mono : mono d_str. Proof. unfold d_str. mono. destruct (utf8_decode a0); mono. Qed.
Lemma d_opt_mono {A} (d : dec A) : mono d -> mono (d_opt d).
Proof. intros H. unfold d_opt. apply d_bind_mono; [mono|]. intros t. destruct (t =? 0); [mono|]. destruct (t =? 1); mono. Qed.
#[export] Hint Resolve d_bytes_mono d_str_mono d_opt_mono : mono.
Lemma d_factor_mono : mono d_factor. Proof. unfold d_factor. mono. Qed.
#[export] Hint Resolve d_factor_mono : mono.
Lemma d_lc_mono : mono d_lc. Proof. unfold d_lc. mono. Qed.
#[export] Hint Resolve d_lc_mono : mono.
Lemma d_constraint_mono : mono d_constraint. Proof. unfold d_constraint. mono. Qed.
Lemma d_entry_mono {V} (d : dec V) : mono d -> mono (d_entry d). Proof. intros H. unfold d_entry. mono. Qed.
#[export] Hint Resolve d_constraint_mono d_entry_mono : mono.
Lemma d_map_mono {V} (d : dec V) : mono d -> mono (d_map d). Proof. intros H. unfold d_map. mono. Qed.
#[export] Hint Resolve d_map_mono : mono.
Lemma d_circuit_mono : mono d_circuit. Proof. unfold d_circuit. mono. Qed.
Lemma d_witness_mono : mono d_witness. Proof. unfold d_witness. mono. Qed.
#[export] Hint Resolve d_circuit_mono d_witness_mono : mono.
Lemma d_test_case_mono : mono d_test_case. Proof. unfold d_test_case. mono. Qed.

(** ** Reading what was written *)
Lemma d_u32_reads : reads b_u32 d_u32 is_u32.
Proof.
  intros n rest H. unfold d_u32. rewrite (d_bind_step _ _ _ (b_u32 n) rest).
  - unfold d_ret, b_u32. rewrite le_val_small; [reflexivity|exact H].
  - apply d_take_app. apply le_bytes_length.
Qed.
Lemma d_u64_reads : reads b_u64 d_u64 (fun n => n < 2 ^ 64).
Proof.
  intros n rest H. unfold d_u64. rewrite (d_bind_step _ _ _ (b_u64 n) rest).
  - unfold d_ret, b_u64. rewrite le_val_small; [reflexivity|exact H].
  - apply d_take_app. apply le_bytes_length.
Qed.
Lemma d_byte_reads : reads (fun b => [b]) d_byte (fun _ => True).
Proof.
  intros b rest _. unfold d_byte, d_u8. rewrite (d_bind_step _ _ _ (Byte.to_N b) rest).
  - unfold d_ret. rewrite byte_of_to_N. reflexivity.
  - rewrite (d_bind_step _ _ _ [b] rest); [|apply d_take_app; reflexivity].
    unfold d_ret. cbn [le_val]. rewrite N.mul_0_r, N.add_0_r. reflexivity.
Qed.
Lemma d_items_reads {A} enc (d : dec A) P l rest : reads enc d P -> Forall P l ->
  d_items d (length l) (flat_map enc l ++ rest) = Ok (l, rest).
Proof.
  intros Hd Hl. induction Hl as [|a l Ha Hl IH]; [reflexivity|]. cbn [length d_items flat_map]. rewrite <- app_assoc.
  rewrite (d_bind_step _ _ _ a (flat_map enc l ++ rest)) by (apply Hd; exact Ha).
  rewrite (d_bind_step _ _ _ l rest) by exact IH. reflexivity.
Qed.
Lemma d_seq_reads {A} enc (d : dec A) P : reads enc d P -> reads (b_seq enc) (d_seq d) (fun l => fits64 l /\ Forall P l).
Proof.
  intros Hd l rest [Hf Hl]. unfold d_seq, b_seq. rewrite <- app_assoc.
  rewrite (d_bind_step _ _ _ (N.of_nat (length l)) (flat_map enc l ++ rest)) by (apply d_u64_reads; exact Hf).
  rewrite Nat2N.id. apply d_items_reads with (P := P); assumption.
Qed.
Lemma all_true {A} (l : list A) : Forall (fun _ => True) l. Proof. apply Forall_forall. auto. Qed.
Lemma d_bytes_reads : reads b_bytes d_bytes fits64.
Proof. intros l rest H. apply (d_seq_reads _ _ _ d_byte_reads). split; [exact H|apply all_true]. Qed.
Lemma flat_map_single {A} (l : list A) : flat_map (fun b => [b]) l = l.
Proof. induction l as [|a l IH]; [reflexivity|]. cbn. rewrite IH. reflexivity. Qed.
Lemma d_str_reads : reads b_str d_str is_string.
Proof.
  intros t rest [Hs Hf]. unfold d_str, b_str, b_bytes, b_seq. rewrite <- app_assoc.
  rewrite (d_bind_step _ _ _ (N.of_nat (length (utf8_encode t))) (flat_map (fun b => [b]) (utf8_encode t) ++ rest)) by (apply d_u64_reads; exact Hf).
  rewrite flat_map_single, Nat2N.id. rewrite (d_bind_step _ _ _ (utf8_encode t) rest) by (apply d_take_app; reflexivity).
  rewrite utf8_decode_encode by exact Hs. reflexivity.
Qed.
Lemma d_u8_of (b : byte) rest : d_u8 (b :: rest) = Ok (Byte.to_N b, rest).
Proof.
  unfold d_u8. rewrite (d_bind_step _ _ _ [b] rest) by (apply (d_take_app 1 [b]); reflexivity).
  unfold d_ret. cbn [le_val]. rewrite N.mul_0_r, N.add_0_r. reflexivity.
Qed.
Lemma d_opt_reads {A} enc (d : dec A) P : reads enc d P -> reads (b_opt enc) (d_opt d) (fun o => forall a, o = Some a -> P a).
Proof.
  intros Hd [a|] rest H; unfold d_opt, b_opt; cbn [app].
  - rewrite (d_bind_step _ _ _ 1 (enc a ++ rest)) by apply d_u8_of. cbn [N.eqb Pos.eqb].
    rewrite (d_bind_step _ _ _ a rest) by (apply Hd, H; reflexivity). reflexivity.
  - rewrite (d_bind_step _ _ _ 0 rest) by apply d_u8_of. reflexivity.
Qed.
Lemma d_factor_reads : reads b_factor d_factor (fun f => is_u32 (f_wire_id f) /\ fits64 (f_coefficient_bytes f)).
Proof.
  intros [w c] rest [H1 H2]. cbn [f_wire_id f_coefficient_bytes] in *. unfold d_factor, b_factor. cbn [f_wire_id f_coefficient_bytes].
  rewrite <- app_assoc. rewrite (d_bind_step _ _ _ _ _ (d_u32_reads w _ H1)).
  rewrite (d_bind_step _ _ _ _ _ (d_bytes_reads c rest H2)). reflexivity.
Qed.
Lemma d_lc_reads : reads b_lc d_lc is_lc.
Proof.
  intros [l] rest H. unfold d_lc, b_lc. rewrite (d_bind_step _ _ _ _ _ (d_seq_reads _ _ _ d_factor_reads l rest H)). reflexivity.
Qed.
Lemma d_constraint_reads : reads b_constraint d_constraint is_constraint.
Proof.
  intros [a b c] rest (H1&H2&H3). unfold d_constraint, b_constraint. cbn [sc_a sc_b sc_c] in *. rewrite <- !app_assoc.
  rewrite (d_bind_step _ _ _ _ _ (d_lc_reads a _ H1)). rewrite (d_bind_step _ _ _ _ _ (d_lc_reads b _ H2)).
  rewrite (d_bind_step _ _ _ _ _ (d_lc_reads c _ H3)). reflexivity.
Qed.
Lemma d_entry_reads {V} enc (d : dec V) P : reads enc d P ->
  reads (fun kv => b_u32 (fst kv) ++ enc (snd kv)) (d_entry d) (fun kv => is_u32 (fst kv) /\ P (snd kv)).
Proof.
  intros Hd [k v] rest [H1 H2]. unfold d_entry. cbn [fst snd] in *. rewrite <- app_assoc.
  rewrite (d_bind_step _ _ _ _ _ (d_u32_reads k _ H1)). rewrite (d_bind_step _ _ _ _ _ (Hd v rest H2)). reflexivity.
Qed.
Definition inserted {V} (l : nmap V) : nmap V := fold_left (fun m kv => nm_insert (fst kv) (snd kv) m) l [].
Lemma insert_new {V} k (v : V) m : ~ In k (map fst m) -> nm_insert k v m = m ++ [(k, v)].
Proof.
  induction m as [|[k' v'] m IH]; intros H; [reflexivity|]. cbn [nm_insert]. cbn [map fst In] in H.
  destruct (N.eqb_spec k k') as [->|Hne]; [exfalso; auto|]. rewrite IH by auto. reflexivity.
Qed.
Lemma inserted_nodup {V} (l : nmap V) : NoDup (map fst l) -> inserted l = l.
Proof.
  intros H. unfold inserted. enough (G : forall m, NoDup (map fst (m ++ l)) ->
    fold_left (fun m kv => nm_insert (fst kv) (snd kv) m) l m = m ++ l) by (apply (G []); exact H).
  clear H. induction l as [|[k v] l IH]; intros m Hm; [rewrite app_nil_r; reflexivity|]. cbn [fold_left fst snd].
  rewrite insert_new.
  - rewrite IH; rewrite <- app_assoc; [reflexivity|exact Hm].
  - rewrite map_app in Hm. cbn [map fst] in Hm. apply NoDup_remove_2 in Hm. intros Hi. apply Hm. apply in_or_app. auto.
Qed.
Lemma d_map_reads {V} enc (d : dec V) P : reads enc d P -> reads (b_map enc) (d_map d) (is_map P).
Proof.
  intros Hd m rest (H1&H2&H3). unfold d_map, b_map.
  rewrite (d_bind_step _ _ _ _ _ (d_seq_reads _ _ _ (d_entry_reads _ _ _ Hd) m rest (conj H2 H3))).
  unfold d_ret. fold (inserted m). rewrite inserted_nodup by exact H1. reflexivity.
Qed.
Lemma d_circuit_reads : reads to_bincode d_circuit is_circuit.
Proof.
  intros [fs pr nw po pi pv nc cs ls] rest (H1&H2&H3&H4&H5&H6&H7&H8&H9&H10).
  cbn [s_field_size s_prime_bytes s_n_wires s_n_pub_out s_n_pub_in s_n_prv_in s_n_constraints s_constraints s_wire_labels] in *.
  unfold d_circuit, to_bincode.
  cbn [s_field_size s_prime_bytes s_n_wires s_n_pub_out s_n_pub_in s_n_prv_in s_n_constraints s_constraints s_wire_labels].
  rewrite <- !app_assoc.
  rewrite (d_bind_step _ _ _ _ _ (d_u32_reads fs _ H1)). rewrite (d_bind_step _ _ _ _ _ (d_bytes_reads pr _ H2)).
  rewrite (d_bind_step _ _ _ _ _ (d_u32_reads nw _ H3)). rewrite (d_bind_step _ _ _ _ _ (d_u32_reads po _ H4)).
  rewrite (d_bind_step _ _ _ _ _ (d_u32_reads pi _ H5)). rewrite (d_bind_step _ _ _ _ _ (d_u32_reads pv _ H6)).
  rewrite (d_bind_step _ _ _ _ _ (d_u32_reads nc _ H7)).
  rewrite (d_bind_step _ _ _ _ _ (d_seq_reads _ _ _ d_constraint_reads cs _ (conj H8 H9))).
  rewrite (d_bind_step _ _ _ _ _ (d_opt_reads _ _ _ (d_map_reads _ _ _ d_str_reads) ls rest H10)). reflexivity.
Qed.
Lemma d_witness_reads : reads witness_bincode d_witness is_witness.
Proof.
  intros [m] rest H. unfold d_witness, witness_bincode. cbn [s_assignments].
  rewrite (d_bind_step _ _ _ _ _ (d_map_reads _ _ _ d_bytes_reads m rest H)). reflexivity.
Qed.
Lemma d_test_case_reads : reads test_case_bincode d_test_case is_test_case.
Proof.
  intros [c w n d] rest (H1&H2&H3&H4). unfold d_test_case, test_case_bincode. cbn [tc_circuit tc_witness tc_name tc_description] in *.
  rewrite <- !app_assoc.
  rewrite (d_bind_step _ _ _ _ _ (d_circuit_reads c _ H1)). rewrite (d_bind_step _ _ _ _ _ (d_witness_reads w _ H2)).
  rewrite (d_bind_step _ _ _ _ _ (d_str_reads n _ H3)).
  rewrite (d_bind_step _ _ _ _ _ (d_opt_reads _ _ _ d_str_reads d rest H4)). reflexivity.
Qed.

(** ** What is accepted *)
Lemma d_u32_sound : sound b_u32 d_u32 is_u32.
Proof.
  intros bs n rest H. unfold d_u32 in H. apply d_bind_ok in H as (b&r&Hb&[= <- <-]). apply d_take_inv in Hb as [-> Hl].
  unfold b_u32. rewrite <- Hl, le_bytes_le_val. split; [reflexivity|]. pose proof (le_val_bound b) as Hv. rewrite Hl in Hv. exact Hv.
Qed.
Lemma d_u64_sound : sound b_u64 d_u64 (fun n => n < 2 ^ 64).
Proof.
  intros bs n rest H. unfold d_u64 in H. apply d_bind_ok in H as (b&r&Hb&[= <- <-]). apply d_take_inv in Hb as [-> Hl].
  unfold b_u64. rewrite <- Hl, le_bytes_le_val. split; [reflexivity|]. pose proof (le_val_bound b) as Hv. rewrite Hl in Hv. exact Hv.
Qed.
Lemma d_u8_inv bs n rest : d_u8 bs = Ok (n, rest) -> bs = byte_of n :: rest /\ n < 256.
Proof.
  intros H. unfold d_u8 in H. apply d_bind_ok in H as (b&r&Hb&[= <- <-]). apply d_take_inv in Hb as [-> Hl].
  destruct b as [|b [|b' l]]; try discriminate. cbn [le_val app]. rewrite N.mul_0_r, N.add_0_r, byte_of_to_N.
  split; [reflexivity|apply to_N_lt].
Qed.
Lemma d_byte_sound : sound (fun b => [b]) d_byte (fun _ => True).
Proof. intros bs b rest H. unfold d_byte in H. apply d_bind_ok in H as (n&r&Hn&[= <- <-]). apply d_u8_inv in Hn as [-> _]. auto. Qed.
Lemma d_items_sound {A} enc (d : dec A) P n : sound enc d P -> forall bs l rest, d_items d n bs = Ok (l, rest) ->
  bs = flat_map enc l ++ rest /\ length l = n /\ Forall P l.
Proof.
  intros Hd. induction n as [|n IH]; intros bs l rest H; cbn [d_items] in H.
  - injection H as <- <-. auto.
  - apply d_bind_ok in H as (a&r&Ha&H). apply d_bind_ok in H as (l'&r'&Hl&[= <- <-]).
    apply Hd in Ha as [-> Ha]. apply IH in Hl as (->&Hn&Hl). cbn [flat_map length]. rewrite <- app_assoc. auto.
Qed.
Lemma d_seq_sound {A} enc (d : dec A) P : sound enc d P -> sound (b_seq enc) (d_seq d) (fun l => fits64 l /\ Forall P l).
Proof.
  intros Hd bs l rest H. unfold d_seq in H. apply d_bind_ok in H as (n&r&Hn&H). apply d_u64_sound in Hn as [-> Hn].
  apply (d_items_sound enc d P _ Hd) in H as (->&Hl&HP). unfold b_seq, fits64. rewrite Hl, N2Nat.id, <- app_assoc. auto.
Qed.
Lemma d_bytes_sound : sound b_bytes d_bytes fits64.
Proof. intros bs l rest H. apply (d_seq_sound _ _ _ d_byte_sound) in H as [-> [H _]]. auto. Qed.
Lemma d_str_sound : sound b_str d_str is_string.
Proof.
  intros bs t rest H. unfold d_str in H. apply d_bind_ok in H as (n&r&Hn&H). apply d_u64_sound in Hn as [-> Hn].
  apply d_bind_ok in H as (b&r'&Hb&H). apply d_take_inv in Hb as [-> Hl].
  destruct (utf8_decode b) as [t'|] eqn:Et; [|discriminate]. injection H as -> ->. apply utf8_decode_sound in Et as [-> Hs].
  unfold b_str, b_bytes, b_seq, is_string, fits64. rewrite Hl, N2Nat.id, flat_map_single, <- app_assoc. auto.
Qed.
Lemma d_opt_sound {A} enc (d : dec A) P : sound enc d P -> sound (b_opt enc) (d_opt d) (fun o => forall a, o = Some a -> P a).
Proof.
  intros Hd bs o rest H. unfold d_opt in H. apply d_bind_ok in H as (t&r&Ht&H). apply d_u8_inv in Ht as [-> _].
  destruct (N.eqb_spec t 0) as [->|H0].
  - injection H as <- <-. split; [reflexivity|]. discriminate.
  - destruct (N.eqb_spec t 1) as [->|H1]; [|discriminate]. apply d_bind_ok in H as (a&r'&Ha&[= <- <-]). apply Hd in Ha as [-> Ha].
    split; [reflexivity|]. intros a' [= <-]. exact Ha.
Qed.
Lemma d_factor_sound : sound b_factor d_factor (fun f => is_u32 (f_wire_id f) /\ fits64 (f_coefficient_bytes f)).
Proof.
  intros bs f rest H. unfold d_factor in H. apply d_bind_ok in H as (w&r&Hw&H). apply d_bind_ok in H as (c&r'&Hc&[= <- <-]).
  apply d_u32_sound in Hw as [-> Hw]. apply d_bytes_sound in Hc as [-> Hc]. unfold b_factor. cbn [f_wire_id f_coefficient_bytes].
  rewrite <- app_assoc. auto.
Qed.
Lemma d_lc_sound : sound b_lc d_lc is_lc.
Proof.
  intros bs l rest H. unfold d_lc in H. apply d_bind_ok in H as (w&r&Hw&[= <- <-]).
  apply (d_seq_sound _ _ _ d_factor_sound) in Hw as [-> Hw]. split; [reflexivity|exact Hw].
Qed.
Lemma d_constraint_sound : sound b_constraint d_constraint is_constraint.
Proof.
  intros bs l rest H. unfold d_constraint in H. apply d_bind_ok in H as (a&r&Ha&H). apply d_bind_ok in H as (b&r1&Hb&H).
  apply d_bind_ok in H as (c&r2&Hc&[= <- <-]). apply d_lc_sound in Ha as [-> Ha]. apply d_lc_sound in Hb as [-> Hb].
  apply d_lc_sound in Hc as [-> Hc]. unfold b_constraint, is_constraint. cbn [sc_a sc_b sc_c]. rewrite <- !app_assoc. auto.
Qed.
(** A map is written as some list of entries, perhaps with repeated keys. *)
Lemma d_map_sound {V} enc (d : dec V) P : sound enc d P -> forall bs m rest, d_map d bs = Ok (m, rest) ->
  exists l, bs = b_map enc l ++ rest /\ m = inserted l /\ fits64 l /\ Forall (fun kv => is_u32 (fst kv) /\ P (snd kv)) l.
Proof.
  intros Hd bs m rest H. unfold d_map in H. apply d_bind_ok in H as (l&r&Hl&[= <- <-]).
  assert (He : sound (fun kv => b_u32 (fst kv) ++ enc (snd kv)) (d_entry d) (fun kv => is_u32 (fst kv) /\ P (snd kv))).
  { clear - Hd. intros bs [k v] rest H. unfold d_entry in H. apply d_bind_ok in H as (k'&r&Hk&H). apply d_bind_ok in H as (v'&r'&Hv&[= <- <- <-]).
    apply d_u32_sound in Hk as [-> Hk]. apply Hd in Hv as [-> Hv]. cbn [fst snd]. rewrite <- app_assoc. auto. }
  apply (d_seq_sound _ _ _ He) in Hl as [-> [Hf Hl]]. exists l. auto.
Qed.
