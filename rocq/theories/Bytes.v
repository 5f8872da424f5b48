(** Bytes and fixed-width integers.
    Not a function of the repository: Rust's [u32::from_le_bytes], [to_le_bytes],
    [from_be_bytes], [to_be_bytes] and slicing, used by every reader and writer. *)
From Coq Require Import List Bool Arith NArith Lia.
From Coq Require Import Strings.Byte.
Import ListNotations.
Local Open Scope N_scope.

Definition byte_of (n : N) : byte :=
  match Byte.of_N (n mod 256) with Some b => b | None => x00 end.

(** uN::to_le_bytes / to_be_bytes with [n] bytes: the value modulo 256^n. *)
Fixpoint le_bytes (n : nat) (v : N) : list byte :=
  match n with O => [] | S n => byte_of v :: le_bytes n (v / 256) end.
Definition be_bytes (n : nat) (v : N) : list byte := rev (le_bytes n v).

(** uN::from_le_bytes / from_be_bytes. *)
Fixpoint le_val (l : list byte) : N :=
  match l with [] => 0 | b :: l => Byte.to_N b + 256 * le_val l end.
Definition be_val (l : list byte) : N := le_val (rev l).

Definition blen (l : list byte) : N := N.of_nat (length l).

(** [&data[pos..pos+len]], None where Rust panics. *)
Definition slice (l : list byte) (pos len : N) : option (list byte) :=
  if pos + len <=? blen l then Some (firstn (N.to_nat len) (skipn (N.to_nat pos) l)) else None.

Lemma to_N_lt b : Byte.to_N b < 256.
Proof. pose proof (Byte.to_N_bounded b). lia. Qed.

Lemma to_N_byte_of n : Byte.to_N (byte_of n) = n mod 256.
Proof.
  unfold byte_of. destruct (Byte.of_N (n mod 256)) eqn:E.
  - apply Byte.to_of_N in E. exact E.
  - apply Byte.of_N_None_iff in E. pose proof (N.mod_lt n 256). lia.
Qed.

Lemma byte_of_to_N b : byte_of (Byte.to_N b) = b.
Proof.
  unfold byte_of. rewrite N.mod_small by apply to_N_lt. rewrite Byte.of_to_N. reflexivity.
Qed.

Lemma byte_of_mod n : byte_of (n mod 256) = byte_of n.
Proof. unfold byte_of. rewrite N.mod_mod by lia. reflexivity. Qed.

Lemma le_bytes_length n v : length (le_bytes n v) = n.
Proof. revert v; induction n; intros; simpl; [reflexivity|rewrite IHn; reflexivity]. Qed.
Lemma be_bytes_length n v : length (be_bytes n v) = n.
Proof. unfold be_bytes. rewrite rev_length. apply le_bytes_length. Qed.

Lemma le_val_le_bytes n v : le_val (le_bytes n v) = v mod 256 ^ N.of_nat n.
Proof.
  revert v; induction n; intros v.
  - simpl. rewrite N.mod_1_r. reflexivity.
  - cbn [le_bytes le_val]. rewrite IHn, to_N_byte_of, Nat2N.inj_succ, N.pow_succ_r'.
    rewrite N.mod_mul_r by (try lia; apply N.pow_nonzero; lia). lia.
Qed.

Lemma le_val_small n v : v < 256 ^ N.of_nat n -> le_val (le_bytes n v) = v.
Proof. intros H. rewrite le_val_le_bytes. apply N.mod_small. exact H. Qed.

Lemma le_val_bound l : le_val l < 256 ^ N.of_nat (length l).
Proof.
  induction l as [|b l IH]; [reflexivity|].
  cbn [le_val length]. rewrite Nat2N.inj_succ, N.pow_succ_r'.
  pose proof (to_N_lt b). set (m := 256 ^ N.of_nat (length l)) in *. clearbody m. lia.
Qed.

Lemma le_bytes_le_val l : le_bytes (length l) (le_val l) = l.
Proof.
  induction l as [|b l IH]; [reflexivity|].
  cbn [length le_bytes le_val]. f_equal.
  - rewrite <- byte_of_mod.
    replace ((Byte.to_N b + 256 * le_val l) mod 256) with (Byte.to_N b).
    + apply byte_of_to_N.
    + rewrite N.mul_comm, N.mod_add by lia. symmetry. apply N.mod_small. apply to_N_lt.
  - replace ((Byte.to_N b + 256 * le_val l) / 256) with (le_val l); [exact IH|].
    rewrite N.mul_comm, N.div_add by lia. rewrite N.div_small by apply to_N_lt. lia.
Qed.

Lemma le_val_inj l l' : length l = length l' -> le_val l = le_val l' -> l = l'.
Proof. intros H1 H2. rewrite <- (le_bytes_le_val l), <- (le_bytes_le_val l'), H1, H2. reflexivity. Qed.

Lemma le_bytes_inj n v v' : v < 256 ^ N.of_nat n -> v' < 256 ^ N.of_nat n ->
  le_bytes n v = le_bytes n v' -> v = v'.
Proof. intros H H' E. rewrite <- (le_val_small n v H), E. apply le_val_small. exact H'. Qed.

Lemma le_bytes_mod n v : le_bytes n (v mod 256 ^ N.of_nat n) = le_bytes n v.
Proof.
  apply le_val_inj; [rewrite !le_bytes_length; reflexivity|].
  rewrite !le_val_le_bytes, N.mod_mod; [reflexivity|]. apply N.pow_nonzero. lia.
Qed.

Lemma be_val_be_bytes n v : be_val (be_bytes n v) = v mod 256 ^ N.of_nat n.
Proof. unfold be_val, be_bytes. rewrite rev_involutive. apply le_val_le_bytes. Qed.
Lemma be_val_bound l : be_val l < 256 ^ N.of_nat (length l).
Proof. unfold be_val. rewrite <- (rev_length l). apply le_val_bound. Qed.
Lemma be_bytes_be_val l : be_bytes (length l) (be_val l) = l.
Proof.
  unfold be_val, be_bytes. rewrite <- (rev_length l), le_bytes_le_val. apply rev_involutive.
Qed.

Lemma le_val_app l l' : le_val (l ++ l') = le_val l + 256 ^ N.of_nat (length l) * le_val l'.
Proof.
  induction l as [|b l IH]; [cbn [app le_val length]; rewrite N.pow_0_r; ring|].
  cbn [app le_val length]. rewrite IH, Nat2N.inj_succ, N.pow_succ_r'. ring.
Qed.

Lemma blen_app l l' : blen (l ++ l') = blen l + blen l'.
Proof. unfold blen. rewrite app_length. lia. Qed.
Lemma blen_le_bytes n v : blen (le_bytes n v) = N.of_nat n.
Proof. unfold blen. rewrite le_bytes_length. reflexivity. Qed.
Lemma blen_nil : blen [] = 0. Proof. reflexivity. Qed.
Lemma blen_cons b l : blen (b :: l) = 1 + blen l.
Proof. unfold blen. simpl length. lia. Qed.

Lemma slice_app pre mid rest : slice (pre ++ mid ++ rest) (blen pre) (blen mid) = Some mid.
Proof.
  unfold slice. rewrite !blen_app.
  replace (_ <=? _) with true by (symmetry; apply N.leb_le; lia).
  unfold blen. rewrite !Nat2N.id.
  rewrite skipn_app, skipn_all, Nat.sub_diag; cbn [skipn app]; rewrite firstn_app, firstn_all, Nat.sub_diag.
  simpl. rewrite app_nil_r. reflexivity.
Qed.

Lemma slice_some l pos len s : slice l pos len = Some s ->
  exists pre rest, l = pre ++ s ++ rest /\ blen pre = pos /\ blen s = len.
Proof.
  unfold slice. destruct (N.leb_spec (pos + len) (blen l)) as [H|H]; [|discriminate].
  intros E. injection E as <-.
  exists (firstn (N.to_nat pos) l), (skipn (N.to_nat len) (skipn (N.to_nat pos) l)).
  unfold blen in *. split.
  - rewrite firstn_skipn. symmetry. apply firstn_skipn.
  - split.
    + rewrite firstn_length. lia.
    + rewrite firstn_length, skipn_length. lia.
Qed.

Lemma slice_none l pos len : slice l pos len = None <-> blen l < pos + len.
Proof.
  unfold slice. destruct (N.leb_spec (pos + len) (blen l)); split; intros; try discriminate; auto; lia.
Qed.

Lemma slice_length l pos len s : slice l pos len = Some s -> length s = N.to_nat len.
Proof. intros H. apply slice_some in H. destruct H as (?&?&_&_&H). unfold blen in H. lia. Qed.

Lemma slice_mono l l' pos len s : slice l pos len = Some s -> slice (l ++ l') pos len = Some s.
Proof.
  intros H. apply slice_some in H. destruct H as (pre&rest&->&<-&<-).
  rewrite <- !app_assoc. apply slice_app.
Qed.

Lemma app_inj_len {A} (a b c d : list A) : length a = length b -> a ++ c = b ++ d -> a = b /\ c = d.
Proof.
  revert b; induction a as [|x a IH]; intros [|y b] Hl H; try discriminate; [auto|].
  cbn in *. injection H as -> H. injection Hl as Hl. destruct (IH b Hl H) as [-> ->]. auto.
Qed.

Lemma skipn_skipn' {A} x y (l : list A) : skipn x (skipn y l) = skipn (x + y) l.
Proof.
  revert l; induction y; intros l; [rewrite Nat.add_0_r; reflexivity|].
  rewrite Nat.add_succ_r. destruct l; [rewrite !skipn_nil; reflexivity|]. cbn. apply IHy.
Qed.
