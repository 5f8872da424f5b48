(** The field GF(2^128) of GHASH: the multiplication of Gcm.v (NIST SP 800-38D, algorithm 1) is a
    field multiplication.  Irreducibility is checked by Berlekamp's criterion: every element equals
    its 2^128-th power, and the only idempotents are 0 and 1 (certificate [berlekamp]). *)
From Coq Require Import List Bool Arith NArith Lia Field_theory Ring_theory Eqdep_dec.
From Coq Require Import Strings.Byte.
From Verif Require Import Res Bytes Fld Gcm GcmFacts.
Import ListNotations.
Local Open Scope N_scope.

Notation "a (+) b" := (N.lxor a b) (at level 50, left associativity).

(** Multiplication by x. *)
Definition vstep (v : N) : N := if N.testbit v 0 then N.lxor (N.shiftr v 1) gcm_r else N.shiftr v 1.

Lemma loop_S i x z v : gf_mul_loop (S i) x z v
  = gf_mul_loop i x (if N.testbit x (N.of_nat i) then z (+) v else z) (vstep v).
Proof. reflexivity. Qed.

Lemma swap4 a b c d : (a (+) b) (+) (c (+) d) = (a (+) c) (+) (b (+) d).
Proof. rewrite !N.lxor_assoc. f_equal. rewrite <- !N.lxor_assoc. f_equal. apply N.lxor_comm. Qed.
Lemma xor_0 a b : a (+) b = 0 -> a = b.
Proof. apply N.lxor_eq. Qed.

Lemma vstep_add a b : vstep (a (+) b) = vstep a (+) vstep b.
Proof.
  unfold vstep. rewrite N.lxor_spec, N.shiftr_lxor.
  destruct (N.testbit a 0), (N.testbit b 0); cbn [xorb].
  - rewrite swap4, N.lxor_nilpotent, N.lxor_0_r. reflexivity.
  - rewrite !N.lxor_assoc. f_equal. apply N.lxor_comm.
  - rewrite N.lxor_assoc. reflexivity.
  - reflexivity.
Qed.
Lemma vstep_lt a : a < 2 ^ 128 -> vstep a < 2 ^ 128.
Proof.
  intros H. assert (Hs : N.shiftr a 1 < 2 ^ 128).
  { rewrite N.shiftr_div_pow2. change (2 ^ 1) with 2. apply N.div_lt_upper_bound; [discriminate|].
    generalize dependent (2 ^ 128). intros. lia. }
  unfold vstep. destruct (N.testbit a 0); [apply lxor_lt; [exact Hs|reflexivity]|exact Hs].
Qed.

Lemma loop_add_x n x x' z z' v :
  gf_mul_loop n (x (+) x') (z (+) z') v = gf_mul_loop n x z v (+) gf_mul_loop n x' z' v.
Proof.
  revert z z' v. induction n as [|n IH]; intros z z' v; [reflexivity|].
  rewrite !loop_S, <- IH. f_equal. rewrite N.lxor_spec.
  destruct (N.testbit x (N.of_nat n)), (N.testbit x' (N.of_nat n)); cbn [xorb].
  - rewrite swap4, N.lxor_nilpotent, N.lxor_0_r. reflexivity.
  - rewrite !N.lxor_assoc. f_equal. apply N.lxor_comm.
  - rewrite N.lxor_assoc. reflexivity.
  - reflexivity.
Qed.
Lemma loop_add_v n x z z' v v' :
  gf_mul_loop n x (z (+) z') (v (+) v') = gf_mul_loop n x z v (+) gf_mul_loop n x z' v'.
Proof.
  revert z z' v v'. induction n as [|n IH]; intros z z' v v'; [reflexivity|].
  rewrite !loop_S, vstep_add, <- IH. f_equal.
  destruct (N.testbit x (N.of_nat n)); [apply swap4|reflexivity].
Qed.
Lemma loop_vstep n x z v : gf_mul_loop n x (vstep z) (vstep v) = vstep (gf_mul_loop n x z v).
Proof.
  revert z v. induction n as [|n IH]; intros z v; [reflexivity|].
  rewrite !loop_S, <- IH. f_equal. destruct (N.testbit x (N.of_nat n)); [|reflexivity]. symmetry. apply vstep_add.
Qed.
Lemma loop_lt n x z v : z < 2 ^ 128 -> v < 2 ^ 128 -> gf_mul_loop n x z v < 2 ^ 128.
Proof.
  revert z v. induction n as [|n IH]; intros z v Hz Hv; [exact Hz|]. rewrite loop_S. apply IH.
  - destruct (N.testbit x (N.of_nat n)); [apply lxor_lt; assumption|exact Hz].
  - apply vstep_lt. exact Hv.
Qed.

Lemma gf_add_l a b y : gf_mul (a (+) b) y = gf_mul a y (+) gf_mul b y.
Proof. unfold gf_mul. rewrite <- loop_add_x. reflexivity. Qed.
Lemma gf_add_r x a b : gf_mul x (a (+) b) = gf_mul x a (+) gf_mul x b.
Proof. unfold gf_mul. rewrite <- loop_add_v. reflexivity. Qed.
Lemma gf_vstep x y : gf_mul x (vstep y) = vstep (gf_mul x y).
Proof. unfold gf_mul. rewrite <- loop_vstep. reflexivity. Qed.
Lemma gf_lt x y : y < 2 ^ 128 -> gf_mul x y < 2 ^ 128.
Proof. intros H. unfold gf_mul. apply loop_lt; [reflexivity|exact H]. Qed.
Lemma gf_mul_unfold x y : gf_mul x y = gf_mul_loop 128 x 0 y.
Proof. reflexivity. Qed.
Local Opaque gf_mul.
Lemma gf_0_r x : gf_mul x 0 = 0.
Proof. pose proof (gf_add_r x 0 0) as H. rewrite N.lxor_0_r, N.lxor_nilpotent in H. exact H. Qed.
Lemma gf_0_l y : gf_mul 0 y = 0.
Proof. pose proof (gf_add_l 0 0 y) as H. rewrite N.lxor_0_r, N.lxor_nilpotent in H. exact H. Qed.

Lemma gf_loop n x y z v : gf_mul x (gf_mul_loop n y z v) = gf_mul_loop n y (gf_mul x z) (gf_mul x v).
Proof.
  revert z v. induction n as [|n IH]; intros z v; [reflexivity|].
  rewrite !loop_S, IH, gf_vstep. f_equal. destruct (N.testbit y (N.of_nat n)); [apply gf_add_r|reflexivity].
Qed.
Lemma gf_left_comm x y z : gf_mul x (gf_mul y z) = gf_mul y (gf_mul x z).
Proof. rewrite (gf_mul_unfold y z), (gf_mul_unfold y), gf_loop, gf_0_r. reflexivity. Qed.

(** Two additive maps that agree on the powers of two agree. *)
Lemma additive_ext (f g : N -> N) (n : nat) :
  (forall a b, a < 2 ^ N.of_nat n -> b < 2 ^ N.of_nat n -> f (a (+) b) = f a (+) f b) ->
  (forall a b, a < 2 ^ N.of_nat n -> b < 2 ^ N.of_nat n -> g (a (+) b) = g a (+) g b) ->
  (forall i, (i < n)%nat -> f (2 ^ N.of_nat i) = g (2 ^ N.of_nat i)) ->
  forall a, a < 2 ^ N.of_nat n -> f a = g a.
Proof.
  intros Hf Hg Hb.
  assert (Hp : 0 < 2 ^ N.of_nat n) by (apply N.neq_0_lt_0, N.pow_nonzero; discriminate).
  assert (G : forall k, (k <= n)%nat -> forall a, a < 2 ^ N.of_nat k -> f a = g a).
  { induction k as [|k IH]; intros Hk a Ha.
    - change (2 ^ N.of_nat 0) with 1 in Ha. assert (a = 0) by lia. subst a.
      pose proof (Hf 0 0 Hp Hp) as E1. pose proof (Hg 0 0 Hp Hp) as E2. rewrite N.lxor_0_r, N.lxor_nilpotent in E1, E2. congruence.
    - assert (Hkn : 2 ^ N.of_nat k < 2 ^ N.of_nat n) by (apply N.pow_lt_mono_r; lia).
      rewrite Nat2N.inj_succ, N.pow_succ_r' in Ha.
      destruct (N.lt_ge_cases a (2 ^ N.of_nat k)) as [Hlt|Hge]; [apply IH; [lia|exact Hlt]|].
      set (b := a - 2 ^ N.of_nat k). assert (Hb' : b < 2 ^ N.of_nat k) by lia.
      assert (E : a = 2 ^ N.of_nat k (+) b).
      { rewrite <- N.lxor_comm, <- N.add_nocarry_lxor; [lia|].
        apply N.bits_inj_0. intros j. rewrite N.land_spec, N.pow2_bits_eqb.
        destruct (N.eqb_spec (N.of_nat k) j) as [<-|]; [|apply andb_false_r].
        rewrite andb_true_r. destruct (N.eq_dec b 0) as [->|Hz]; [apply N.bits_0|].
        apply N.bits_above_log2. apply N.log2_lt_pow2; lia. }
      rewrite E, Hf, Hg by lia. rewrite Hb by lia. rewrite (IH ltac:(lia) b Hb'). reflexivity. }
  intros a Ha. apply (G n); [lia|exact Ha].
Qed.

Definition basis : list N := Eval vm_compute in map (fun i => 2 ^ N.of_nat i) (seq 0 128).
Lemma basis_in i : (i < 128)%nat -> In (2 ^ N.of_nat i) basis.
Proof.
  intros H. assert (E : basis = map (fun i => 2 ^ N.of_nat i) (seq 0 128)) by (vm_compute; reflexivity).
  rewrite E. apply (in_map (fun i => 2 ^ N.of_nat i)). apply in_seq. lia.
Qed.
Definition on_basis (f g : N -> N) : bool := forallb (fun b => f b =? g b) basis.
Lemma additive_basis (f g : N -> N) :
  (forall a b, a < 2 ^ 128 -> b < 2 ^ 128 -> f (a (+) b) = f a (+) f b) ->
  (forall a b, a < 2 ^ 128 -> b < 2 ^ 128 -> g (a (+) b) = g a (+) g b) ->
  on_basis f g = true -> forall a, a < 2 ^ 128 -> f a = g a.
Proof.
  intros Hf Hg Hb. apply (additive_ext f g 128); [exact Hf|exact Hg|].
  intros i Hi. unfold on_basis in Hb. rewrite forallb_forall in Hb. apply N.eqb_eq. apply Hb. apply basis_in. exact Hi.
Qed.

Definition gf_one : N := 2 ^ 127.
Lemma gf_one_r a : a < 2 ^ 128 -> gf_mul a gf_one = a.
Proof.
  apply (additive_basis (fun a => gf_mul a gf_one) (fun a => a)); [intros; apply gf_add_l|reflexivity|vm_compute; reflexivity].
Qed.
Lemma gf_comm a b : a < 2 ^ 128 -> b < 2 ^ 128 -> gf_mul a b = gf_mul b a.
Proof. intros Ha Hb. rewrite <- (gf_one_r b Hb) at 1. rewrite gf_left_comm, gf_one_r by exact Ha. reflexivity. Qed.
Lemma gf_assoc a b c : a < 2 ^ 128 -> b < 2 ^ 128 -> c < 2 ^ 128 -> gf_mul a (gf_mul b c) = gf_mul (gf_mul a b) c.
Proof.
  intros Ha Hb Hc. rewrite (gf_comm b c), (gf_comm (gf_mul a b) c) by auto using gf_lt.
  apply gf_left_comm.
Qed.
Lemma gf_one_lt : gf_one < 2 ^ 128. Proof. reflexivity. Qed.
Lemma gf_one_l a : a < 2 ^ 128 -> gf_mul gf_one a = a.
Proof. intros H. rewrite gf_comm by (exact H || exact gf_one_lt). apply gf_one_r. exact H. Qed.
(** The element x. *)
Definition gf_x : N := 2 ^ 126.
Lemma gf_x_l a : a < 2 ^ 128 -> gf_mul gf_x a = vstep a.
Proof.
  intros H. assert (E : gf_x = vstep gf_one) by (vm_compute; reflexivity).
  assert (Hx : gf_x < 2 ^ 128) by reflexivity.
  rewrite gf_comm, E, gf_vstep, gf_one_r by assumption. reflexivity.
Qed.

(** ** Squaring *)
Definition gf_sq (a : N) : N := gf_mul a a.
Lemma gf_sq_lt a : a < 2 ^ 128 -> gf_sq a < 2 ^ 128.
Proof. apply gf_lt. Qed.
Lemma gf_sq_add a b : a < 2 ^ 128 -> b < 2 ^ 128 -> gf_sq (a (+) b) = gf_sq a (+) gf_sq b.
Proof.
  intros Ha Hb. unfold gf_sq. rewrite gf_add_l, !gf_add_r, (gf_comm b a) by assumption.
  rewrite !N.lxor_assoc. f_equal. rewrite <- N.lxor_assoc, N.lxor_nilpotent. apply N.lxor_0_l.
Qed.
Fixpoint sq_iter (n : nat) (a : N) : N := match n with O => a | S n => gf_sq (sq_iter n a) end.
Lemma sq_iter_lt n a : a < 2 ^ 128 -> sq_iter n a < 2 ^ 128.
Proof. intros H. induction n; [exact H|]. apply gf_sq_lt. assumption. Qed.
Lemma sq_iter_add n a b : a < 2 ^ 128 -> b < 2 ^ 128 -> sq_iter n (a (+) b) = sq_iter n a (+) sq_iter n b.
Proof.
  intros Ha Hb. induction n as [|n IH]; [reflexivity|]. cbn [sq_iter]. rewrite IH.
  apply gf_sq_add; apply sq_iter_lt; assumption.
Qed.
Lemma sq_iter_mul n a b : a < 2 ^ 128 -> b < 2 ^ 128 -> sq_iter n (gf_mul a b) = gf_mul (sq_iter n a) (sq_iter n b).
Proof.
  intros Ha Hb. induction n as [|n IH]; [reflexivity|]. cbn [sq_iter]. rewrite IH.
  pose proof (sq_iter_lt n a Ha) as Hx. pose proof (sq_iter_lt n b Hb) as Hy.
  set (x := sq_iter n a) in *. set (y := sq_iter n b) in *. clearbody x y. unfold gf_sq.
  rewrite <- !gf_assoc by auto using gf_lt. f_equal. rewrite (gf_left_comm y x y). reflexivity.
Qed.
Lemma x_frobenius : sq_iter 128 gf_x = gf_x.
Proof. vm_compute. reflexivity. Qed.
Lemma one_frobenius n : sq_iter n gf_one = gf_one.
Proof. induction n as [|n IH]; [reflexivity|]. cbn [sq_iter]. rewrite IH. apply gf_one_l. exact gf_one_lt. Qed.
Lemma pow2_frobenius k : (k <= 127)%nat -> sq_iter 128 (2 ^ N.of_nat (127 - k)) = 2 ^ N.of_nat (127 - k).
Proof.
  induction k as [|k IH]; intros Hk; [exact (one_frobenius 128)|].
  assert (Hlt : 2 ^ N.of_nat (127 - k) < 2 ^ 128) by (apply N.pow_lt_mono_r; lia).
  assert (E : 2 ^ N.of_nat (127 - S k) = gf_mul gf_x (2 ^ N.of_nat (127 - k))).
  { rewrite gf_x_l by exact Hlt. replace (127 - k)%nat with (S (127 - S k)) by lia.
    rewrite Nat2N.inj_succ. unfold vstep. rewrite N.pow2_bits_eqb.
    replace (N.succ (N.of_nat (127 - S k)) =? 0) with false by (symmetry; apply N.eqb_neq; lia).
    rewrite N.shiftr_div_pow2, N.pow_succ_r', N.mul_comm. symmetry. apply N.div_mul. discriminate. }
  rewrite E, sq_iter_mul, x_frobenius, IH by (exact Hlt || reflexivity || lia). reflexivity.
Qed.
(** Every element is its own 2^128-th power. *)
Lemma gf_frobenius a : a < 2 ^ 128 -> sq_iter 128 a = a.
Proof.
  apply (additive_ext (sq_iter 128) (fun a => a) 128); [intros; apply sq_iter_add; assumption|reflexivity|].
  intros i Hi. replace i with (127 - (127 - i))%nat by lia. apply pow2_frobenius. lia.
Qed.

(** ** Berlekamp certificate: a linear map undoing a |-> a^2 + a up to a multiple of 1. *)
Fixpoint lin (cols : list N) (i : N) (v : N) : N :=
  match cols with [] => 0 | c :: cols => (if N.testbit v i then c else 0) (+) lin cols (i + 1) v end.
Lemma lin_add cols i a b : lin cols i (a (+) b) = lin cols i a (+) lin cols i b.
Proof.
  revert i. induction cols as [|c cols IH]; intros i; [reflexivity|]. cbn [lin]. rewrite IH, swap4. f_equal.
  rewrite N.lxor_spec. destruct (N.testbit a i), (N.testbit b i); cbn [xorb];
    rewrite ?N.lxor_nilpotent, ?N.lxor_0_r, ?N.lxor_0_l; reflexivity.
Qed.
Definition berlekamp : list N :=
  [0x0; 0x4a2ade42a1db558927495c4d4e62fc1; 0x35bd0e43ef6cf78dcef750ee63bd3171;
   0x41d77801d619af2a38dab35b297373a6; 0x36dc3b3404788e15d4cfd6f8f5447461; 0x7adc3b3404788e15d4cfd6f8f5447467;
   0x5f67891c31b7edb03c86875f90384d1c; 0x646cca29e3d6cc8fd093e2fc4c0f4ad5; 0x51eae8be2fe60df61bf9191de1788d94;
   0x36e717e02724b8e1d1527df73b8e8241; 0x5f86cdbc744e28fe3430f49ddf071154; 0x2561da5c536a901fe562896ae4899333;
   0x99a6e1cca2f8641a0b0910804c90841; 0x2cfbb4409945165e45d21862e0409b32; 0xd94d9da18080030c4db699e5dc0;
   0x197d9b438cafcf2f8e88275824a90133; 0x645919a4b35879f7d7a68d71cb5770d5; 0x7348a7e5645f93d076e747a9d181ec26;
   0x602105ae977251e64834e0c2dd2d5a94; 0x2c14dbb71e26fc964f314b9433eb3eb2; 0x44eaa59bd8819a999287fa5ed58ad81;
   0x77dcb1c60e3ad5c9e2190477682adba7; 0x701c741cbd9fc8b06b94eadf79b8c426; 0x46f806225397f491bb49eab33e4cf467;
   0x79b07befedd921e9cd751ec18ebeebe7; 0x56f3167fe31302df9eb885b869165d55; 0x6462e2cc93c28627d2d0526e0d66c2d5;
   0x1a24eaaa541c8b0f9092b01169688933; 0x4bf6a9a1f02e1f698fec4b1a74166be7; 0x21ce3a83c07744de74dad50f0d583b32;
   0x634efa836deeebf650dae654442b4894; 0x224d20acccef41ee67fd0ac2e3641972; 0x4bf8b9d33b8f38198de17cdee54751e7;
   0x698e6217d7fa8627ef6aa903c013fa95; 0x457534e82f16f649aa2d862c91005ba7; 0x144558bb6c9dfcd7bc4c239cf48626f3;
   0x3cfddc25f2ae2df86391fd8d3387a7c0; 0x2bd77bb364af6b3fc733d8875e039333; 0x26d44eb77ddd535ff0b1c738de72bb33;
   0x6aef57603cdbfceff55228f556d54755; 0x285aabc679b16ad7d6c2852abfdb1eb3; 0x38e6217d7f479d8109554569546afc0;
   0x79880aa666d696d9c926622882fff1e7; 0x312705524db61730583bcf844c342240; 0x5c33b52f8947e9462158188b7248d294;
   0x3bdc8ad604b36599e246fae899f68fc1; 0x72ccff3fd3d186182e1ce9a41041041; 0x5252e8c1d3a8e3be0d2c5beb59e57554;
   0x489a0b11781e0c1196cc4fdebc394c27; 0x1af0929920b9589f9fb368dce89d2373; 0x2f76850d57908a5e54a716d46cf0bb32;
   0x3f46b4c41d7d395874f4e33b9d331780; 0x7986f6afcfc951e9cb9188c1a5beebe7; 0x258e6f54bc4bf6f7ef54f70e70ef2ef3;
   0x55aabdbeec28a2078079924a4cd2f295; 0x229a33517c61d3ee69739a8be16c1972; 0x49a065cd7758d5196f0e3578d383201;
   0x428019a10caacb8824c8241264b2fba6; 0x4622ba58b211bb21b69fb337b1785627; 0x5cea6fd5b105659e2d1ccaeb5d2c7d54;
   0x36e9eb0be64d6b99d3ec2e5e502bb781; 0x5ce7c3e3d68e47f62e5390ab45fe70d4; 0x329f337db88e12004e8e904902080000;
   0x48afd66e759a994991d0e977a9aa5ba7; 0x4a2ade42a1db559927495c4d4e62fc1; 0x41d77801d619af2838dab35b297373a6;
   0x7adc3b3404788e11d4cfd6f8f5447467; 0x646cca29e3d6cc87d093e2fc4c0f4ad5; 0x36e717e02724b8f1d1527df73b8e8241;
   0x2561da5c536a903fe562896ae4899333; 0x2cfbb4409945161e45d21862e0409b32; 0x197d9b438cafcfaf8e88275824a90133;
   0x7348a7e5645f92d076e747a9d181ec26; 0x2c14dbb71e26fe964f314b9433eb3eb2; 0x77dcb1c60e3ad1c9e2190477682adba7;
   0x46f806225397fc91bb49eab33e4cf467; 0x56f3167fe31312df9eb885b869165d55; 0x1a24eaaa541cab0f9092b01169688933;
   0x21ce3a83c07704de74dad50f0d583b32; 0x224d20acccefc1ee67fd0ac2e3641972; 0x698e6217d7fb8627ef6aa903c013fa95;
   0x144558bb6c9ffcd7bc4c239cf48626f3; 0x2bd77bb364ab6b3fc733d8875e039333; 0x6aef57603cd3fceff55228f556d54755;
   0x38e6217d7e479d8109554569546afc0; 0x312705524d961730583bcf844c342240; 0x3bdc8ad604f36599e246fae899f68fc1;
   0x5252e8c1d328e3be0d2c5beb59e57554; 0x1af0929921b9589f9fb368dce89d2373; 0x3f46b4c41f7d395874f4e33b9d331780;
   0x258e6f54b84bf6f7ef54f70e70ef2ef3; 0x229a33517461d3ee69739a8be16c1972; 0x428019a11caacb8824c8241264b2fba6;
   0x5cea6fd59105659e2d1ccaeb5d2c7d54; 0x5ce7c3e3968e47f62e5390ab45fe70d4; 0x48afd66ef59a994991d0e977a9aa5ba7;
   0x41d77800d619af2838dab35b297373a6; 0x646cca2be3d6cc87d093e2fc4c0f4ad5; 0x2561da58536a903fe562896ae4899333;
   0x197d9b4b8cafcfaf8e88275824a90133; 0x2c14dba71e26fe964f314b9433eb3eb2; 0x46f806025397fc91bb49eab33e4cf467;
   0x1a24eaea541cab0f9092b01169688933; 0x224d202cccefc1ee67fd0ac2e3641972; 0x144559bb6c9ffcd7bc4c239cf48626f3;
   0x6aef55603cd3fceff55228f556d54755; 0x312701524d961730583bcf844c342240; 0x5252e0c1d328e3be0d2c5beb59e57554;
   0x3f46a4c41f7d395874f4e33b9d331780; 0x229a13517461d3ee69739a8be16c1972; 0x5cea2fd59105659e2d1ccaeb5d2c7d54;
   0x48af566ef59a994991d0e977a9aa5ba7; 0x646dca2be3d6cc87d093e2fc4c0f4ad5; 0x197f9b4b8cafcfaf8e88275824a90133;
   0x46fc06025397fc91bb49eab33e4cf467; 0x2245202cccefc1ee67fd0ac2e3641972; 0x6aff55603cd3fceff55228f556d54755;
   0x5272e0c1d328e3be0d2c5beb59e57554; 0x22da13517461d3ee69739a8be16c1972; 0x482f566ef59a994991d0e977a9aa5ba7;
   0x187f9b4b8cafcfaf8e88275824a90133; 0x2045202cccefc1ee67fd0ac2e3641972; 0x5672e0c1d328e3be0d2c5beb59e57554;
   0x402f566ef59a994991d0e977a9aa5ba7; 0x3045202cccefc1ee67fd0ac2e3641972; 0x602f566ef59a994991d0e977a9aa5ba7;
   0x202f566ef59a994991d0e977a9aa5ba7; 0x10d04d25f93556e69f58ce2f8d035a94].
Definition drop_one (a : N) : N := a (+) (if N.testbit a 127 then gf_one else 0).
Lemma drop_one_add a b : drop_one (a (+) b) = drop_one a (+) drop_one b.
Proof.
  unfold drop_one. rewrite swap4. f_equal. rewrite N.lxor_spec.
  destruct (N.testbit a 127), (N.testbit b 127); cbn [xorb];
    rewrite ?N.lxor_nilpotent, ?N.lxor_0_r, ?N.lxor_0_l; reflexivity.
Qed.
Lemma basis_berlekamp : on_basis (fun a => lin berlekamp 0 (gf_sq a (+) a)) drop_one = true.
Proof. vm_compute. reflexivity. Qed.
Lemma gf_berlekamp a : a < 2 ^ 128 -> lin berlekamp 0 (gf_sq a (+) a) = drop_one a.
Proof.
  apply (additive_basis (fun a => lin berlekamp 0 (gf_sq a (+) a)) drop_one); [| |exact basis_berlekamp].
  - intros x y Hx Hy. rewrite gf_sq_add, <- lin_add by assumption. f_equal. apply swap4.
  - intros; apply drop_one_add.
Qed.
Lemma gf_idempotent e : e < 2 ^ 128 -> gf_sq e = e -> e = 0 \/ e = gf_one.
Proof.
  intros He H. pose proof (gf_berlekamp e He) as E. rewrite H, N.lxor_nilpotent in E.
  assert (Z : lin berlekamp 0 0 = 0) by (vm_compute; reflexivity). rewrite Z in E. symmetry in E.
  unfold drop_one in E. apply N.lxor_eq in E. destruct (N.testbit e 127); auto.
Qed.

(** ** Inverses *)
(** a^(2^n - 1) *)
Fixpoint pow_m1 (n : nat) (a : N) : N := match n with O => gf_one | S n => gf_mul (gf_sq (pow_m1 n a)) a end.
Lemma pow_m1_lt n a : a < 2 ^ 128 -> pow_m1 n a < 2 ^ 128.
Proof. intros H. destruct n; [reflexivity|]. apply gf_lt. exact H. Qed.
Lemma pow_m1_mul n a : a < 2 ^ 128 -> gf_mul (pow_m1 n a) a = sq_iter n a.
Proof.
  intros H. induction n as [|n IH]; [apply gf_one_l; exact H|]. cbn [pow_m1 sq_iter]. rewrite <- IH.
  pose proof (pow_m1_lt n a H) as Hp. set (p := pow_m1 n a) in *. clearbody p. unfold gf_sq.
  rewrite <- !gf_assoc by auto using gf_lt. f_equal.
  rewrite (gf_assoc a p a), (gf_comm a p), <- gf_assoc by auto using gf_lt. reflexivity.
Qed.
Definition gf_inv (a : N) : N := gf_sq (pow_m1 127 a).
Lemma gf_inv_lt a : a < 2 ^ 128 -> gf_inv a < 2 ^ 128.
Proof. intros H. apply gf_sq_lt, pow_m1_lt, H. Qed.
Lemma gf_inv_l a : a < 2 ^ 128 -> a <> 0 -> gf_mul (gf_inv a) a = gf_one.
Proof.
  intros H Hz. set (e := gf_mul (gf_inv a) a).
  assert (Ea : gf_mul e a = a).
  { change e with (pow_m1 128 a). rewrite pow_m1_mul by exact H. apply gf_frobenius. exact H. }
  assert (He : e < 2 ^ 128) by (apply gf_lt; exact H).
  assert (Hi : gf_sq e = e).
  { unfold gf_sq. unfold e at 2. rewrite gf_assoc by auto using gf_inv_lt.
    rewrite (gf_comm e), <- gf_assoc, Ea by auto using gf_inv_lt. reflexivity. }
  destruct (gf_idempotent e He Hi) as [E|E]; [|exact E]. rewrite E, gf_0_l in Ea. congruence.
Qed.
Lemma gf_integral a b : a < 2 ^ 128 -> b < 2 ^ 128 -> gf_mul a b = 0 -> a = 0 \/ b = 0.
Proof.
  intros Ha Hb H. destruct (N.eq_dec a 0) as [|Hz]; [auto|right].
  rewrite <- (gf_one_l b), <- (gf_inv_l a), <- gf_assoc, H by auto using gf_inv_lt. apply gf_0_r.
Qed.

(** ** As a field *)
Definition gf_car := { n : N | n <? 2 ^ 128 = true }.
Definition gf_val (a : gf_car) : N := proj1_sig a.
Lemma gf_val_lt a : gf_val a < 2 ^ 128. Proof. apply N.ltb_lt. exact (proj2_sig a). Qed.
Lemma gf_val_inj a b : gf_val a = gf_val b -> a = b.
Proof.
  destruct a as [a Ha], b as [b Hb]. unfold gf_val. cbn [proj1_sig]. intros E. subst b.
  f_equal. apply UIP_dec. apply bool_dec.
Qed.
Definition gf_of (n : N) (H : n < 2 ^ 128) : gf_car := exist _ n (proj2 (N.ltb_lt _ _) H).
Definition gf_add (a b : gf_car) : gf_car := gf_of _ (lxor_lt _ _ 128 (gf_val_lt a) (gf_val_lt b)).
Definition gf_times (a b : gf_car) : gf_car := gf_of _ (gf_lt (gf_val a) _ (gf_val_lt b)).
Definition gf_zero : gf_car := gf_of 0 eq_refl.
Definition gf_unit : gf_car := gf_of gf_one eq_refl.
Definition gf_recip (a : gf_car) : gf_car := gf_of _ (gf_inv_lt _ (gf_val_lt a)).
Definition gf_eqb (a b : gf_car) : bool := gf_val a =? gf_val b.
Lemma gf_eqb_spec a b : reflect (a = b) (gf_eqb a b).
Proof.
  unfold gf_eqb. destruct (N.eqb_spec (gf_val a) (gf_val b)) as [E|E]; constructor; [apply gf_val_inj; exact E|congruence].
Qed.
Lemma gf_field : field_theory gf_zero gf_unit gf_add gf_times gf_add (fun a => a) (fun a b => gf_times a (gf_recip b)) gf_recip eq.
Proof.
  constructor; [constructor| | |].
  - intros a. apply gf_val_inj. apply N.lxor_0_l.
  - intros a b. apply gf_val_inj. apply N.lxor_comm.
  - intros a b c. apply gf_val_inj. symmetry. apply N.lxor_assoc.
  - intros a. apply gf_val_inj. apply gf_one_l, gf_val_lt.
  - intros a b. apply gf_val_inj. apply gf_comm; apply gf_val_lt.
  - intros a b c. apply gf_val_inj. apply gf_assoc; apply gf_val_lt.
  - intros a b c. apply gf_val_inj. apply gf_add_l.
  - reflexivity.
  - intros a. apply gf_val_inj. apply N.lxor_nilpotent.
  - intros H. apply (f_equal gf_val) in H. discriminate H.
  - reflexivity.
  - intros a Ha. apply gf_val_inj. apply gf_inv_l; [apply gf_val_lt|]. intros E. apply Ha. apply gf_val_inj. exact E.
Qed.
Definition Gf128 : fieldT := FieldT gf_car gf_zero gf_unit gf_add gf_times gf_add (fun a => a)
  (fun a b => gf_times a (gf_recip b)) gf_recip gf_field gf_eqb gf_eqb_spec.
