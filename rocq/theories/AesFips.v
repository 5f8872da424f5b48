(** The rounds and the key schedule of the model are those of FIPS 197. *)
From Coq Require Import List Bool Arith NArith Lia.
From Coq Require Import Strings.Byte.
From Verif Require Import Res Bytes Gcm Aes SpecGhash SpecAes AesFacts.
Import ListNotations.
Local Open Scope N_scope.
Local Infix "(+)" := N.lxor (at level 50, left associativity).

(** ** States as lists of 16 bytes *)
Definition is16 (l : list N) : Prop := length l = 16%nat /\ forall i, nth i l 0 < 256.
Definition rep (s : state) (l : list N) : Prop := forall r c, (r < 4)%nat -> (c < 4)%nat -> s r c = nth (r + 4 * c) l 0.
Definition state_of (l : list N) : state := fun r c => nth (r + 4 * c) l 0.
Lemma rep_state_of l : rep (state_of l) l.
Proof. intros r c _ _. reflexivity. Qed.
Lemma nth_map_seq (f : nat -> N) n i : (i < n)%nat -> nth i (map f (seq 0 n)) 0 = f i.
Proof.
  intros H. rewrite (nth_indep _ 0 (f 0%nat)) by (rewrite map_length, seq_length; exact H).
  rewrite map_nth. rewrite seq_nth by exact H. reflexivity.
Qed.
Lemma is16_map_seq (f : nat -> N) : (forall i, (i < 16)%nat -> f i < 256) -> is16 (map f (seq 0 16)).
Proof.
  intros H. split; [rewrite map_length; apply seq_length|]. intros i. destruct (Nat.lt_ge_cases i 16) as [L|L].
  - rewrite nth_map_seq by exact L. apply H. exact L.
  - rewrite nth_overflow by (rewrite map_length, seq_length; exact L). reflexivity.
Qed.
Lemma cell r c : (r < 4)%nat -> (c < 4)%nat -> (r + 4 * c < 16)%nat /\ ((r + 4 * c) mod 4 = r)%nat /\ ((r + 4 * c) / 4 = c)%nat.
Proof.
  intros Hr Hc. split; [lia|]. rewrite (Nat.mul_comm 4 c). split.
  - rewrite Nat.mod_add by lia. apply Nat.mod_small. exact Hr.
  - rewrite Nat.div_add by lia. rewrite Nat.div_small by exact Hr. reflexivity.
Qed.
Lemma sub_is16 l : is16 l -> is16 (map sb l).
Proof.
  intros [L B]. split; [rewrite map_length; exact L|]. intros i. destruct (Nat.lt_ge_cases i 16) as [Hi|Hi].
  - rewrite (nth_indep _ 0 (sb 0)) by (rewrite map_length, L; exact Hi). rewrite map_nth. apply sb_lt, B.
  - rewrite nth_overflow by (rewrite map_length, L; exact Hi). reflexivity.
Qed.
Lemma sub_rep s s' l : is16 l -> rep s l -> (bytes_substituted s s' <-> rep s' (map sb l)).
Proof.
  intros [L B] R. unfold bytes_substituted, rep.
  assert (X : forall r c, (r < 4)%nat -> (c < 4)%nat -> (s_box (s r c) (s' r c) <-> s' r c = nth (r + 4 * c) (map sb l) 0)).
  { intros r c Hr Hc. destruct (cell r c Hr Hc) as (Hi&_&_). rewrite (R r c Hr Hc). rewrite s_box_iff by apply B.
    rewrite (nth_indep (map sb l) 0 (sb 0)) by (rewrite map_length, L; exact Hi). rewrite map_nth. reflexivity. }
  split; intros H r c Hr Hc; apply X; auto.
Qed.
Lemma shift_is16 l : is16 l -> is16 (shift_rows l).
Proof. intros [L B]. apply is16_map_seq. intros i _. apply B. Qed.
Lemma shift_rep s s' l : rep s l -> (rows_shifted s s' <-> rep s' (shift_rows l)).
Proof.
  intros R. unfold rows_shifted, rep.
  assert (X : forall r c, (r < 4)%nat -> (c < 4)%nat -> s r ((c + r) mod 4)%nat = nth (r + 4 * c) (shift_rows l) 0).
  { intros r c Hr Hc. destruct (cell r c Hr Hc) as (Hi&Hm&Hd). unfold shift_rows. rewrite nth_map_seq by exact Hi.
    rewrite Hm, Hd. apply R; [exact Hr|]. apply Nat.mod_upper_bound. lia. }
  split; intros H r c Hr Hc; [rewrite <- (X r c Hr Hc)|rewrite (X r c Hr Hc)]; auto.
Qed.
Lemma mix_is16 l : is16 l -> is16 (mix_columns l).
Proof.
  intros [L B]. apply is16_map_seq. intros i _. cbv zeta. apply lxor_lt; apply lxor_lt; try apply B; apply gmul_lt; reflexivity.
Qed.
Lemma mix_rep s s' l : is16 l -> rep s l -> (columns_mixed s s' <-> rep s' (mix_columns l)).
Proof.
  intros [L B] R. unfold columns_mixed, rep.
  assert (X : forall r c, (r < 4)%nat -> (c < 4)%nat ->
     (exists double triple, times (s r c) 2 double /\ times (s ((r + 1) mod 4)%nat c) 3 triple /\
       s' r c = double (+) triple (+) s ((r + 2) mod 4)%nat c (+) s ((r + 3) mod 4)%nat c) <->
     s' r c = nth (r + 4 * c) (mix_columns l) 0).
  { intros r c Hr Hc. destruct (cell r c Hr Hc) as (Hi&Hm&Hd).
    assert (A : forall k, s ((r + k) mod 4)%nat c = nth (4 * c + (r + 4 * c + k) mod 4) l 0).
    { intros k. rewrite (R _ c); [|apply Nat.mod_upper_bound; lia|exact Hc]. f_equal.
      replace (r + 4 * c + k)%nat with (r + k + c * 4)%nat by lia. rewrite Nat.mod_add by lia. lia. }
    assert (A0 : s r c = nth (4 * c + (r + 4 * c + 0) mod 4) l 0).
    { rewrite <- A. rewrite Nat.add_0_r, Nat.mod_small by exact Hr. reflexivity. }
    unfold mix_columns. rewrite nth_map_seq by exact Hi. cbv zeta. rewrite Hd. rewrite <- A0, <- !A.
    assert (Ht : forall r', (r' < 4)%nat -> s r' c < 256). { intros r' Hr'. rewrite (R r' c Hr' Hc). apply B. }
    assert (H0 := Ht r Hr). assert (H1 := Ht ((r + 1) mod 4)%nat (Nat.mod_upper_bound _ 4 ltac:(lia))).
    rewrite <- N.lxor_assoc. split.
    - intros (d&t&Hd2&Ht3&->). apply (times_iff 2 _ _ eq_refl H0) in Hd2. apply (times_iff 3 _ _ eq_refl H1) in Ht3. subst d t. reflexivity.
    - intros ->. exists (gmul 2 (s r c)), (gmul 3 (s ((r + 1) mod 4)%nat c)).
      split; [apply times_iff; [reflexivity|exact H0|reflexivity]|]. split; [apply times_iff; [reflexivity|exact H1|reflexivity]|reflexivity]. }
  split; intros H r c Hr Hc; apply X; auto.
Qed.
Definition sched (ws : list word) : nat -> nat -> N := fun i r => nth r (nth i ws []) 0.
Definition bytes_words (ws : list word) : Prop := forall i r, sched ws i r < 256.
Lemma key_is16 ws n l : bytes_words ws -> is16 l -> is16 (add_round_key ws n l).
Proof. intros W [L B]. apply is16_map_seq. intros i _. apply lxor_lt; [apply B|apply W]. Qed.
Lemma key_rep (w : nat -> nat -> N) ws n s s' l : (forall i r, (i < 60)%nat -> (r < 4)%nat -> w i r = sched ws i r) -> (n < 15)%nat -> rep s l ->
  (key_added w n s s' <-> rep s' (add_round_key ws n l)).
Proof.
  intros W Hn R. unfold key_added, rep.
  assert (X : forall r c, (r < 4)%nat -> (c < 4)%nat -> s r c (+) w (4 * n + c)%nat r = nth (r + 4 * c) (add_round_key ws n l) 0).
  { intros r c Hr Hc. destruct (cell r c Hr Hc) as (Hi&Hm&Hd). unfold add_round_key. rewrite nth_map_seq by exact Hi.
    rewrite Hm, Hd, (R r c Hr Hc), W by lia. reflexivity. }
  split; intros H r c Hr Hc; [rewrite <- (X r c Hr Hc)|rewrite (X r c Hr Hc)]; auto.
Qed.

(** ** The key schedule *)
Definition temp_of (i : nat) (t : word) : word :=
  if Nat.eqb (i mod 8) 0 then wxor (map sb [nth 1 t 0; nth 2 t 0; nth 3 t 0; nth 0 t 0]) [rcon (i / 8); 0; 0; 0]
  else if Nat.eqb (i mod 8) 4 then map sb t else t.
Local Opaque sb gmul rcon.
Lemma expand_S f i ws : expand (S f) i ws = expand f (S i) (wxor (nth 7 ws []) (temp_of i (nth 0 ws [])) :: ws).
Proof. reflexivity. Qed.
Lemma expand_length f i ws : length (expand f i ws) = (f + length ws)%nat.
Proof. revert i ws. induction f as [|f IH]; intros i ws; [reflexivity|]. rewrite expand_S, IH. cbn [length]. lia. Qed.
Lemma expand_old f i ws j : (j < length ws)%nat -> nth j (rev (expand f i ws)) [] = nth j (rev ws) [].
Proof.
  revert i ws. induction f as [|f IH]; intros i ws H; [reflexivity|]. rewrite expand_S, IH by (cbn [length]; lia).
  cbn [rev]. apply app_nth1. rewrite rev_length. exact H.
Qed.
Lemma expand_new f i ws j : length ws = i -> (8 <= i)%nat -> (i <= j < i + f)%nat ->
  let W := rev (expand f i ws) in nth j W [] = wxor (nth (j - 8) W []) (temp_of j (nth (j - 1) W [])).
Proof.
  revert i ws. induction f as [|f IH]; intros i ws HL Hi Hj; [lia|]. cbv zeta. rewrite expand_S.
  destruct (Nat.eq_dec j i) as [->|Hne].
  - set (nw := wxor _ _). rewrite !expand_old by (cbn [length]; lia). cbn [rev].
    rewrite (app_nth2 (rev ws)) by (rewrite rev_length; lia). rewrite rev_length, HL, Nat.sub_diag. cbn [nth].
    rewrite !(app_nth1 (rev ws)) by (rewrite rev_length; lia). rewrite !rev_nth by lia. rewrite HL.
    replace (i - S (i - 8))%nat with 7%nat by lia. replace (i - S (i - 1))%nat with 0%nat by lia. reflexivity.
  - apply IH; [cbn [length]; lia|lia|lia].
Qed.
Lemma wxor_nth a b r : (r < 4)%nat -> nth r (wxor a b) 0 = nth r a 0 (+) nth r b 0.
Proof. intros H. unfold wxor. rewrite nth_map_seq by exact H. reflexivity. Qed.
Definition first_words (key : list byte) : list word :=
  map (fun i => map (fun j => nth (4 * i + j) (map Byte.to_N key) 0) (seq 0 4)) (seq 0 8).
Lemma key_words_is key : key_words key = rev (expand 52 8 (rev (first_words key))).
Proof. reflexivity. Qed.
Lemma key_words_length key : length (key_words key) = 60%nat.
Proof. rewrite key_words_is, rev_length, expand_length, rev_length. reflexivity. Qed.
Lemma key_words_old key i : (i < 8)%nat -> nth i (key_words key) [] = nth i (first_words key) [].
Proof. intros H. rewrite key_words_is, expand_old by (rewrite rev_length; exact H). rewrite rev_involutive. reflexivity. Qed.
Lemma key_words_new key i : (8 <= i < 60)%nat ->
  nth i (key_words key) [] = wxor (nth (i - 8) (key_words key) []) (temp_of i (nth (i - 1) (key_words key) [])).
Proof. intros H. rewrite key_words_is. apply (expand_new 52 8); [reflexivity|lia|lia]. Qed.
Lemma to_N_nth key i : nth i (map Byte.to_N key) 0 = Byte.to_N (nth i key x00).
Proof. change 0 with (Byte.to_N x00). apply map_nth. Qed.
Lemma key_old key i r : (i < 8)%nat -> (r < 4)%nat -> sched (key_words key) i r = Byte.to_N (nth (4 * i + r) key x00).
Proof.
  intros Hi Hr. unfold sched. rewrite (key_words_old key i Hi). unfold first_words.
  set (f := fun i => map (fun j => nth (4 * i + j) (map Byte.to_N key) 0) (seq 0 4)).
  rewrite (nth_indep (map f (seq 0 8)) [] (f 0%nat)) by (rewrite map_length, seq_length; exact Hi).
  rewrite map_nth, seq_nth by exact Hi. cbn [Nat.add]. unfold f. rewrite nth_map_seq by exact Hr. apply to_N_nth.
Qed.
Local Transparent rcon.
Lemma rcon_lt j : rcon j < 256.
Proof. unfold rcon. generalize (j - 1)%nat. intros n. induction n as [|n IH]; [reflexivity|]. cbn [Nat.iter]. apply xtime_lt, IH. Qed.
Local Transparent gmul.
Lemma xtime_is : all_bytes (fun v => gmul 2 v =? xtime v) = true.
Proof. vm_compute. reflexivity. Qed.
Local Opaque gmul.
Lemma rcon_step j : (1 <= j)%nat -> rcon (S j) = gmul 2 (rcon j).
Proof.
  intros H. pose proof (all_bytes_spec _ xtime_is (rcon j) (rcon_lt j)) as X. apply N.eqb_eq in X. rewrite X.
  unfold rcon. replace (S j - 1)%nat with (S (j - 1)) by lia. reflexivity.
Qed.
Lemma rcon_iff j v : rcon_is j v <-> (1 <= j)%nat /\ v = rcon j.
Proof.
  split.
  - induction 1 as [|j v v' H [IHj ->] Ht]; [split; [lia|reflexivity]|]. split; [lia|].
    apply (times_iff 2 (rcon j)) in Ht; [|reflexivity|apply rcon_lt]. rewrite Ht, rcon_step by exact IHj. reflexivity.
  - intros [H ->]. destruct j as [|j]; [lia|]. clear H. induction j as [|j IH]; [constructor|].
    econstructor; [exact IH|]. apply times_iff; [reflexivity|apply rcon_lt|]. apply rcon_step. lia.
Qed.
Local Opaque rcon key_words.
(** One word of the schedule, in the specification's terms. *)
Definition word_step (w : nat -> nat -> N) (i : nat) : Prop :=
  exists temp : nat -> N,
    (forall r, (r < 4)%nat -> w i r = w (i - 8)%nat r (+) temp r) /\
    ((i mod 8 = 0)%nat -> exists v, rcon_is (i / 8) v /\
       forall r, (r < 4)%nat -> exists b, s_box (w (i - 1)%nat ((r + 1) mod 4)%nat) b /\
         temp r = b (+) (if Nat.eqb r 0 then v else 0)) /\
    ((i mod 8 = 4)%nat -> forall r, (r < 4)%nat -> s_box (w (i - 1)%nat r) (temp r)) /\
    ((i mod 8 <> 0)%nat -> (i mod 8 <> 4)%nat -> forall r, (r < 4)%nat -> temp r = w (i - 1)%nat r).
Definition word4 (t : word) : Prop := length t = 4%nat /\ forall r, nth r t 0 < 256.
Lemma wxor_word4 a b : (forall r, nth r a 0 < 256) -> (forall r, nth r b 0 < 256) -> word4 (wxor a b).
Proof.
  intros A B. split; [unfold wxor; rewrite map_length; apply seq_length|]. intros r. destruct (Nat.lt_ge_cases r 4) as [H|H].
  - rewrite wxor_nth by exact H. apply lxor_lt; auto.
  - rewrite nth_overflow; [reflexivity|]. unfold wxor. rewrite map_length, seq_length. exact H.
Qed.
Lemma map_sb_lt t : (forall r, nth r t 0 < 256) -> forall r, nth r (map sb t) 0 < 256.
Proof.
  intros H r. destruct (Nat.lt_ge_cases r (length t)) as [L|L].
  - rewrite (nth_indep _ 0 (sb 0)) by (rewrite map_length; exact L). rewrite map_nth. apply sb_lt, H.
  - rewrite nth_overflow by (rewrite map_length; exact L). reflexivity.
Qed.
Lemma temp_lt i t : word4 t -> forall r, nth r (temp_of i t) 0 < 256.
Proof.
  intros [L B]. unfold temp_of. destruct (Nat.eqb (i mod 8) 0); [|destruct (Nat.eqb (i mod 8) 4)].
  - apply wxor_word4.
    + apply map_sb_lt. intros [|[|[|[|r]]]]; cbn [nth]; try apply B. destruct r; reflexivity.
    + intros [|[|[|[|r]]]]; cbn [nth]; try apply rcon_lt; try reflexivity. destruct r; reflexivity.
  - apply map_sb_lt, B.
  - exact B.
Qed.
Lemma key_words_word4 key i : (i < 60)%nat -> word4 (nth i (key_words key) []).
Proof.
  induction i as [i IH] using (well_founded_induction lt_wf). intros Hi. destruct (Nat.lt_ge_cases i 8) as [L|L].
  - rewrite (key_words_old key i L). unfold first_words. set (f := fun i => map (fun j => nth (4 * i + j) (map Byte.to_N key) 0) (seq 0 4)).
    rewrite (nth_indep (map f (seq 0 8)) [] (f 0%nat)) by (rewrite map_length, seq_length; exact L).
    rewrite map_nth. unfold f. split; [rewrite map_length; apply seq_length|]. intros r. destruct (Nat.lt_ge_cases r 4) as [H|H].
    + rewrite nth_map_seq by exact H. rewrite to_N_nth. apply to_N_lt.
    + rewrite nth_overflow; [reflexivity|]. rewrite map_length, seq_length. exact H.
  - rewrite key_words_new by lia. apply wxor_word4; [apply IH; lia|]. apply temp_lt, IH; lia.
Qed.
Lemma key_words_bytes key : bytes_words (key_words key).
Proof.
  intros i r. unfold sched. destruct (Nat.lt_ge_cases i 60) as [L|L]; [apply key_words_word4; exact L|].
  rewrite (nth_overflow (key_words key)) by (rewrite key_words_length; exact L). destruct r; reflexivity.
Qed.
Lemma temp_rot i t r : word4 t -> (i mod 8 = 0)%nat -> (r < 4)%nat ->
  nth r (temp_of i t) 0 = sb (nth ((r + 1) mod 4) t 0) (+) (if Nat.eqb r 0 then rcon (i / 8) else 0).
Proof.
  intros _ E Hr. unfold temp_of. rewrite E. cbn [Nat.eqb]. rewrite wxor_nth by exact Hr.
  destruct r as [|[|[|[|r]]]]; try lia; cbn [nth map Nat.eqb]; reflexivity.
Qed.
Lemma temp_sub i t r : word4 t -> (i mod 8 = 4)%nat -> (r < 4)%nat -> nth r (temp_of i t) 0 = sb (nth r t 0).
Proof.
  intros [L _] E Hr. unfold temp_of. rewrite E. cbn [Nat.eqb]. rewrite (nth_indep _ 0 (sb 0)) by (rewrite map_length, L; exact Hr).
  apply map_nth.
Qed.
Lemma temp_same i t : (i mod 8 <> 0)%nat -> (i mod 8 <> 4)%nat -> temp_of i t = t.
Proof. intros A B. unfold temp_of. apply Nat.eqb_neq in A. apply Nat.eqb_neq in B. rewrite A, B. reflexivity. Qed.
Lemma key_words_step key i : (8 <= i < 60)%nat -> word_step (sched (key_words key)) i.
Proof.
  intros H. set (t := nth (i - 1) (key_words key) []). assert (Ht : word4 t) by (apply key_words_word4; lia).
  assert (Hs : forall r, sched (key_words key) (i - 1) r = nth r t 0) by (intros r; unfold sched, t; reflexivity).
  assert (Hn : forall r, (r < 4)%nat -> sched (key_words key) i r = sched (key_words key) (i - 8) r (+) nth r (temp_of i t) 0).
  { intros r Hr. unfold sched at 1. rewrite (key_words_new key i H), wxor_nth by exact Hr. reflexivity. }
  clearbody t. exists (fun r => nth r (temp_of i t) 0). split; [exact Hn|split; [|split]].
  - intros E. exists (rcon (i / 8)). split.
    + apply rcon_iff. split; [|reflexivity]. apply (Nat.div_le_lower_bound i 8 1); lia.
    + intros r Hr. exists (sb (nth ((r + 1) mod 4) t 0)). rewrite Hs. split; [|apply temp_rot; assumption].
      apply (proj2 (s_box_iff _ _ (proj2 Ht _))). reflexivity.
  - intros E r Hr. rewrite Hs. apply (proj2 (s_box_iff _ _ (proj2 Ht _))). apply temp_sub; assumption.
  - intros A B r _. rewrite temp_same by assumption. symmetry. apply Hs.
Qed.
Lemma schedule_holds key : length key = 32%nat -> schedule key (sched (key_words key)).
Proof.
  intros L. split; [exact L|]. split; [intros i r Hi Hr; apply key_old; assumption|]. intros i Hi. apply key_words_step, Hi.
Qed.
Lemma schedule_det key w : schedule key w -> forall i r, (i < 60)%nat -> (r < 4)%nat -> w i r = sched (key_words key) i r.
Proof.
  intros (L&Hold&Hnew) i. induction i as [i IH] using (well_founded_induction lt_wf). intros r Hi Hr.
  destruct (Nat.lt_ge_cases i 8) as [H8|H8]; [rewrite (Hold i r H8 Hr), key_old by assumption; reflexivity|].
  destruct (Hnew i (conj H8 Hi)) as (temp&H1&H2&H3&H4). rewrite (H1 r Hr). rewrite (IH (i - 8)%nat) by lia.
  set (t := nth (i - 1) (key_words key) []). assert (Ht : word4 t) by (apply key_words_word4; lia).
  assert (Hw : forall r, (r < 4)%nat -> w (i - 1)%nat r = nth r t 0). { intros r' Hr'. apply (IH (i - 1)%nat); [lia|lia|exact Hr']. }
  unfold sched at 2. rewrite (key_words_new key i) by lia. rewrite wxor_nth by exact Hr. unfold sched. fold t. f_equal.
  destruct (Nat.eq_dec (i mod 8) 0) as [E|E]; [|destruct (Nat.eq_dec (i mod 8) 4) as [E'|E']].
  - destruct (H2 E) as (v&Hv&Hb). destruct (Hb r Hr) as (b&Hsb&->). apply rcon_iff in Hv as [_ ->].
    rewrite Hw in Hsb by (apply Nat.mod_upper_bound; lia). apply s_box_iff in Hsb; [|apply Ht]. rewrite Hsb. symmetry. apply temp_rot; assumption.
  - pose proof (H3 E' r Hr) as Hsb. rewrite (Hw r Hr) in Hsb. apply s_box_iff in Hsb; [|apply Ht]. rewrite Hsb. symmetry. apply temp_sub; assumption.
  - rewrite (H4 E E' r Hr), (Hw r Hr), temp_same by assumption. reflexivity.
Qed.

(** ** The cipher *)
Lemma rep_block block s : length block = 16%nat -> (holds block s <-> rep s (map Byte.to_N block)).
Proof.
  intros L. unfold holds, rep. split.
  - intros [_ H] r c Hr Hc. rewrite (H r c Hr Hc), to_N_nth. reflexivity.
  - intros H. split; [exact L|]. intros r c Hr Hc. rewrite (H r c Hr Hc), to_N_nth. reflexivity.
Qed.
Lemma block_is16 block : length block = 16%nat -> is16 (map Byte.to_N block).
Proof. intros L. split; [rewrite map_length; exact L|]. intros i. rewrite to_N_nth. apply to_N_lt. Qed.
Lemma rep_inj s l l' : is16 l -> is16 l' -> rep s l -> rep s l' -> l = l'.
Proof.
  intros [L _] [L' _] R R'. apply nth_ext with (d := 0) (d' := 0); [congruence|]. intros i Hi. rewrite L in Hi.
  replace i with (i mod 4 + 4 * (i / 4))%nat by (pose proof (Nat.div_mod i 4); lia).
  rewrite <- R, <- R'; try reflexivity; try (apply Nat.mod_upper_bound; lia); apply Nat.div_lt_upper_bound; lia.
Qed.
Definition rounds (ws : list word) (block : list N) (n : nat) : list N := fold_left (aes_round ws) (seq 1 n) (add_round_key ws 0 block).
Lemma rounds_S ws block n : rounds ws block (S n) = aes_round ws (rounds ws block n) (S n).
Proof. unfold rounds. rewrite seq_S, fold_left_app. reflexivity. Qed.
Lemma round_is16 ws l n : bytes_words ws -> is16 l -> is16 (aes_round ws l n).
Proof. intros W H. unfold aes_round. apply key_is16; [exact W|]. apply mix_is16, shift_is16, sub_is16, H. Qed.
Lemma rounds_is16 ws block n : bytes_words ws -> is16 block -> is16 (rounds ws block n).
Proof.
  intros W H. induction n as [|n IH]; [apply key_is16; assumption|]. rewrite rounds_S. apply round_is16; assumption.
Qed.
Definition last_round (ws : list word) (l : list N) : list N := add_round_key ws 14 (shift_rows (map sb l)).
Lemma last_is16 ws l : bytes_words ws -> is16 l -> is16 (last_round ws l).
Proof. intros W H. apply key_is16; [exact W|]. apply shift_is16, sub_is16, H. Qed.
Lemma aes256_is key block : aes256_encrypt key block = map byte_of (last_round (key_words key) (rounds (key_words key) (map Byte.to_N block) 13)).
Proof. reflexivity. Qed.
Lemma to_N_map_byte_of l : is16 l -> map Byte.to_N (map byte_of l) = l.
Proof.
  intros [L B]. rewrite map_map. rewrite <- (map_id l) at 2. apply map_ext_in. intros a Ha. rewrite to_N_byte_of.
  apply N.mod_small. apply (In_nth _ _ 0) in Ha as (i&_&<-). apply B.
Qed.
Lemma aes_fips key block out : length key = 32%nat -> length block = 16%nat ->
  (aes256_encrypt key block = out <-> fips197 key block out).
Proof.
  intros Lk Lb. set (ws := key_words key). assert (W : bytes_words ws) by apply key_words_bytes.
  assert (Hb := block_is16 block Lb). set (b := map Byte.to_N block) in *.
  assert (H13 := rounds_is16 ws b 13 W Hb). assert (Hl := last_is16 ws _ W H13).
  split.
  - intros <-. exists (sched ws), (state_of b), (fun n => state_of (rounds ws b n)).
    assert (Hw : forall i r, (i < 60)%nat -> (r < 4)%nat -> sched ws i r = sched ws i r) by reflexivity.
    split; [apply schedule_holds; exact Lk|]. split; [apply rep_block; [exact Lb|apply rep_state_of]|].
    split; [apply (key_rep _ ws 0 _ _ b Hw); [lia|apply rep_state_of|apply rep_state_of]|]. split.
    + intros n Hn. destruct n as [|n]; [lia|]. replace (S n - 1)%nat with n by lia. set (l := rounds ws b n).
      assert (H0 : is16 l) by (apply rounds_is16; assumption).
      exists (state_of (map sb l)), (state_of (shift_rows (map sb l))), (state_of (mix_columns (shift_rows (map sb l)))).
      split; [apply (sub_rep _ _ l H0 (rep_state_of l)), rep_state_of|].
      split; [apply (shift_rep _ _ _ (rep_state_of (map sb l))), rep_state_of|].
      split; [apply (mix_rep _ _ _ (shift_is16 _ (sub_is16 _ H0)) (rep_state_of _)), rep_state_of|].
      apply (key_rep _ ws (S n) _ _ (mix_columns (shift_rows (map sb l))) Hw); [lia|apply rep_state_of|].
      rewrite rounds_S. apply rep_state_of.
    + set (l := rounds ws b 13) in *. exists (state_of (map sb l)), (state_of (shift_rows (map sb l))), (state_of (last_round ws l)).
      split; [apply (sub_rep _ _ l H13 (rep_state_of l)), rep_state_of|].
      split; [apply (shift_rep _ _ _ (rep_state_of (map sb l))), rep_state_of|].
      split; [apply (key_rep _ ws 14 _ _ (shift_rows (map sb l)) Hw); [lia|apply rep_state_of|apply rep_state_of]|].
      rewrite aes256_is. fold ws b l. apply rep_block; [rewrite map_length; apply Hl|].
      rewrite (to_N_map_byte_of _ Hl). apply rep_state_of.
  - intros (w&first&after&Hs&Hf&H0&Hr&sub&sh&la&E1&E2&E3&E4).
    assert (Hw := schedule_det key w Hs). fold ws in Hw. apply (rep_block block first Lb) in Hf. fold b in Hf.
    apply (key_rep w ws 0 first _ b Hw ltac:(lia) Hf) in H0.
    assert (A : forall n, (n <= 13)%nat -> rep (after n) (rounds ws b n)).
    { induction n as [|n IH]; intros Hn; [exact H0|]. destruct (Hr (S n) ltac:(lia)) as (s1&s2&s3&F1&F2&F3&F4).
      replace (S n - 1)%nat with n in F1 by lia. assert (Hi : is16 (rounds ws b n)) by (apply rounds_is16; assumption).
      apply (sub_rep _ _ _ Hi (IH ltac:(lia))) in F1. apply (shift_rep _ _ _ F1) in F2.
      apply (mix_rep _ _ _ (shift_is16 _ (sub_is16 _ Hi)) F2) in F3.
      apply (key_rep w ws (S n) _ _ _ Hw ltac:(lia) F3) in F4. rewrite rounds_S. exact F4. }
    specialize (A 13%nat ltac:(lia)). set (l := rounds ws b 13) in *.
    apply (sub_rep _ _ _ H13 A) in E1. apply (shift_rep _ _ _ E1) in E2. apply (key_rep w ws 14 _ _ _ Hw ltac:(lia) E2) in E3.
    assert (Lo : length out = 16%nat) by apply E4. apply (rep_block out la Lo) in E4.
    rewrite aes256_is. fold ws b l. rewrite (rep_inj la _ _ Hl (block_is16 out Lo) E3 E4). rewrite map_map.
    rewrite <- (map_id out) at 2. apply map_ext. intros x. apply byte_of_to_N.
Qed.
