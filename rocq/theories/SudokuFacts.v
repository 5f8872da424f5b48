(** Facts for C76: the rows of the shipped circuit file against the source template.  The tables
    here are proof data: every entry is checked against the file by computation below. *)
From Coq Require Import List Bool Arith NArith ZArith Lia.
From Coq Require Import Strings.String Strings.Byte.
From Verif Require Import Res Bytes Text Fld Zp Bn254 R1cs SpecR1cs SpecWtns WtnsFacts SpecCircuit Sym Sudoku SpecSudoku SudokuFile.
Import ListNotations.
Local Open Scope N_scope.

(** ** Linear forms with integer coefficients, sorted by wire. *)
Definition lin := list (N * Z).
Fixpoint lin_add (f : lin) : lin -> lin :=
  fix go (g : lin) : lin :=
    match f, g with
    | [], _ => g
    | _, [] => f
    | (w, z) :: f', (w', z') :: g' =>
        match w ?= w' with
        | Lt => (w, z) :: lin_add f' g
        | Gt => (w', z') :: go g'
        | Eq => if (z + z' =? 0)%Z then lin_add f' g' else (w, (z + z')%Z) :: lin_add f' g'
        end
    end.
Definition lin_scale (k : Z) (f : lin) : lin := map (fun t => (fst t, (k * snd t)%Z)) f.
Definition lin_opp (f : lin) : lin := lin_scale (-1) f.
Definition lin_same (f g : lin) : bool := match lin_add f (lin_opp g) with [] => true | _ => false end.
Definition lin_sum (l : list lin) : lin := fold_right lin_add [] l.

Section Lin.
  Context (F : fieldT) (phi : Z -> F)
    (phi0 : phi 0%Z = f0) (phi1 : phi 1%Z = f1)
    (phi_add : forall x y, phi (x + y)%Z = fadd (phi x) (phi y))
    (phi_mul : forall x y, phi (x * y)%Z = fmul (phi x) (phi y)).
  Local Open Scope fld_scope.
  Add Field FLin : (f_th F).

  Fixpoint lin_val (a : N -> F) (f : lin) : F :=
    match f with [] => 0 | (w, z) :: f => phi z * a w + lin_val a f end.
  Lemma lin_val_add a f g : lin_val a (lin_add f g) = lin_val a f + lin_val a g.
  Proof using phi0 phi_add.
    revert g; induction f as [|[w z] f IHf]; intros g; [destruct g; cbn; ring|].
    induction g as [|[w' z'] g IHg]; [cbn; ring|]. cbn [lin_add].
    destruct (N.compare_spec w w') as [->|H|H].
    - destruct (Z.eqb_spec (z + z') 0) as [E|_].
      + rewrite IHf. cbn [lin_val]. assert (P : phi z + phi z' = 0) by (rewrite <- phi_add, E; exact phi0).
        transitivity ((phi z + phi z') * a w' + lin_val a f + lin_val a g); [rewrite P|]; ring.
      + cbn [lin_val]. rewrite IHf, phi_add. ring.
    - cbn [lin_val]. rewrite IHf. cbn [lin_val]. ring.
    - cbn [lin_val]. change ((fix go (g : lin) : lin := match g with [] => (w, z) :: f | (w'0, z'0) :: g' =>
        match (w ?= w'0)%N with Eq => if (z + z'0 =? 0)%Z then lin_add f g' else (w, (z + z'0)%Z) :: lin_add f g'
        | Lt => (w, z) :: lin_add f g | Gt => (w'0, z'0) :: go g' end end) g) with (lin_add ((w, z) :: f) g).
      rewrite IHg. cbn [lin_val]. ring.
  Qed.
  Lemma lin_val_scale a k f : lin_val a (lin_scale k f) = phi k * lin_val a f.
  Proof using phi_mul.
    induction f as [|[w z] f IH]; [cbn; ring|]. unfold lin_scale in *. cbn [map fst snd lin_val].
    rewrite IH, phi_mul. ring.
  Qed.
  Lemma phi_m1 : phi (-1)%Z = fopp 1.
  Proof using phi0 phi1 phi_add.
    assert (H : phi (-1)%Z + phi 1%Z = 0) by (rewrite <- phi_add; exact phi0). rewrite phi1 in H.
    replace (phi (-1)%Z) with (phi (-1)%Z + 1 - 1) by ring. rewrite H. ring.
  Qed.
  Lemma lin_val_opp a f : lin_val a (lin_opp f) = - lin_val a f.
  Proof using phi0 phi1 phi_add phi_mul. unfold lin_opp. rewrite lin_val_scale, phi_m1. ring. Qed.
  Lemma lin_same_val a f g : lin_same f g = true -> lin_val a f = lin_val a g.
  Proof using phi0 phi1 phi_add phi_mul.
    unfold lin_same. destruct (lin_add f (lin_opp g)) eqn:E; [intros _|discriminate].
    apply (f_equal (lin_val a)) in E. rewrite lin_val_add, lin_val_opp in E. cbn in E.
    replace (lin_val a f) with (lin_val a f + - lin_val a g + lin_val a g) by ring. rewrite E. ring.
  Qed.
  Definition ftotal (g : nat -> F) (u : list nat) : F := fold_right (fun i t => g i + t) 0 u.
  Lemma lin_val_sum a (h : nat -> lin) (u : list nat) : lin_val a (lin_sum (map h u)) = ftotal (fun i => lin_val a (h i)) u.
  Proof using phi0 phi_add. induction u as [|i u IH]; [reflexivity|]. unfold lin_sum, ftotal in *. cbn [map fold_right]. rewrite lin_val_add, IH. reflexivity. Qed.
  Lemma ftotal_ext g h u : (forall i, In i u -> g i = h i) -> ftotal g u = ftotal h u.
  Proof using.
    intros H. induction u as [|i u IH]; [reflexivity|]. unfold ftotal in *. cbn [fold_right].
    rewrite (H i) by (cbn; auto). rewrite IH; [reflexivity|]. intros j Hj. apply H. cbn; auto.
  Qed.

  (** ** One family of 81 quantities (the cells, or their squares) given by linear forms. *)
  Context (forms : list lin) (wire : nat -> option N) (units : list (list nat)) (T : Z) (certs : list (list (nat * Z))).
  Definition form (i : nat) : lin := nth i forms [].
  Definition chk_units : bool := forallb (fun u => lin_same (lin_sum (map form u)) [(0%N, T)]) units.
  Definition chk_wires : bool :=
    forallb (fun i => match wire i with Some w => lin_same (form i) [(w, 1%Z)] | None => true end) (seq 0 81).
  (** Renumbering: quantity i is variable i+1. *)
  Definition renum (tbl : list (N * N)) (w : N) : option N :=
    if (w =? 0)%N then Some 0%N
    else match find (fun e => (fst e =? w)%N) tbl with Some e => Some (snd e) | None => None end.
  Fixpoint rename (tbl : list (N * N)) (f : lin) : option lin :=
    match f with
    | [] => Some []
    | (w, z) :: f =>
        match renum tbl w, rename tbl f with Some w', Some f' => Some ((w', z) :: f') | _, _ => None end
    end.
  Definition tbl : list (N * N) :=
    flat_map (fun i => match wire i with Some w => [(w, N.of_nat (S i))] | None => [] end) (seq 0 81).
  Definition unit_form (u : list nat) : lin :=
    (0%N, (- T)%Z) :: map (fun i => (N.of_nat (S i), 1%Z)) u.
  Definition cert_form (c : list (nat * Z)) : lin :=
    lin_sum (map (fun t => lin_scale (snd t) (unit_form (nth (fst t) units []))) c).
  Definition chk_certs : bool :=
    let tb := tbl in
    forallb (fun i => match rename tb (form i) with
                      | Some f => lin_same f (lin_add [(N.of_nat (S i), 1%Z)] (cert_form (nth i certs [])))
                                  && forallb (fun t => (fst t <? List.length units)%nat) (nth i certs [])
                      | None => false end) (seq 0 81).

  Lemma units_total a u : chk_units = true -> a 0%N = 1 -> In u units ->
    ftotal (fun i => lin_val a (form i)) u = phi T.
  Proof using phi0 phi1 phi_add phi_mul.
    intros H H0 Hu. unfold chk_units in H. rewrite forallb_forall in H. specialize (H u Hu).
    apply (lin_same_val a) in H. rewrite lin_val_sum in H. rewrite H. cbn. rewrite H0. ring.
  Qed.
  Lemma wire_val a i w : chk_wires = true -> (i < 81)%nat -> wire i = Some w -> lin_val a (form i) = a w.
  Proof using phi0 phi1 phi_add phi_mul.
    intros H Hi Hw. unfold chk_wires in H. rewrite forallb_forall in H. specialize (H i ltac:(apply in_seq; lia)).
    rewrite Hw in H. apply (lin_same_val a) in H. rewrite H. cbn. rewrite phi1. ring.
  Qed.
  Definition shifted (g : nat -> F) (w : N) : F := if (w =? 0)%N then 1 else g (pred (N.to_nat w)).
  Lemma shifted_S g i : shifted g (N.of_nat (S i)) = g i.
  Proof using.
    unfold shifted. replace (N.of_nat (S i) =? 0)%N with false by (symmetry; apply N.eqb_neq; lia). rewrite Nat2N.id. reflexivity.
  Qed.
  Lemma rename_val a g : a 0%N = 1 -> (forall i w, (i < 81)%nat -> wire i = Some w -> a w = g i) ->
    forall f f', rename tbl f = Some f' -> lin_val a f = lin_val (shifted g) f'.
  Proof using.
    intros H0 Hw. induction f as [|[w z] f IH]; intros f' H; cbn [rename] in H; [injection H as <-; reflexivity|].
    destruct (renum tbl w) as [w'|] eqn:E; [|discriminate]. destruct (rename tbl f) as [f1|]; [|discriminate].
    injection H as <-. cbn [lin_val]. rewrite (IH f1 eq_refl). f_equal. f_equal.
    unfold renum in E. destruct (N.eqb_spec w 0) as [->|Hne].
    - injection E as <-. cbn. exact H0.
    - destruct (find _ tbl) as [[x y]|] eqn:Ef; [|discriminate]. injection E as <-.
      apply find_some in Ef. destruct Ef as [Hin He]. cbn in He. apply N.eqb_eq in He. subst x.
      unfold tbl in Hin. apply in_flat_map in Hin. destruct Hin as (i&Hi&Hin). apply in_seq in Hi.
      destruct (wire i) as [w1|] eqn:Ew; [|destruct Hin]. destruct Hin as [E|[]]. injection E as E1 E2. subst w1 y.
      cbn [snd]. rewrite (Hw i w ltac:(lia) Ew). symmetry. apply (shifted_S g i).
  Qed.
  Lemma unit_form_val g u : ftotal g u = phi T -> lin_val (shifted g) (unit_form u) = 0.
  Proof using phi0 phi1 phi_add phi_mul.
    intros H. unfold unit_form. cbn [lin_val]. change (shifted g 0%N) with (1 : F).
    assert (E : lin_val (shifted g) (map (fun i => (N.of_nat (S i), 1%Z)) u) = ftotal g u).
    { clear H. induction u as [|i u IH]; [reflexivity|]. cbn [map lin_val ftotal fold_right].
      rewrite shifted_S, phi1. unfold ftotal in IH. rewrite IH. ring. }
    rewrite E, H. replace (- T)%Z with (-1 * T)%Z by lia. rewrite phi_mul, phi_m1. ring.
  Qed.
  Lemma form_val a g : chk_certs = true -> a 0%N = 1 ->
    (forall u, In u units -> ftotal g u = phi T) ->
    (forall i w, (i < 81)%nat -> wire i = Some w -> a w = g i) ->
    forall i, (i < 81)%nat -> lin_val a (form i) = g i.
  Proof using phi0 phi1 phi_add phi_mul.
    intros H H0 Hu Hw i Hi. unfold chk_certs in H. cbv zeta in H. rewrite forallb_forall in H. specialize (H i ltac:(apply in_seq; lia)).
    destruct (rename tbl (form i)) as [f|] eqn:E; [|discriminate]. apply andb_prop in H. destruct H as [H Hc].
    rewrite (rename_val a g H0 Hw _ _ E). rewrite (lin_same_val _ _ _ H). rewrite lin_val_add.
    assert (Z0 : lin_val (shifted g) (cert_form (nth i certs [])) = 0).
    { unfold cert_form. clear H E. induction (nth i certs []) as [|[k z] c IH]; [reflexivity|].
      cbn [forallb] in Hc. apply andb_prop in Hc. destruct Hc as [Hk Hc]. unfold lin_sum in *. cbn [map fold_right fst snd].
      rewrite lin_val_add, (IH Hc), lin_val_scale, unit_form_val; [ring|].
      apply Hu. apply nth_In. apply Nat.ltb_lt in Hk. exact Hk. }
    rewrite Z0. cbn [lin_val]. rewrite shifted_S, phi1. ring.
  Qed.
End Lin.

(** ** The shipped file. *)
Definition units27 : list (list nat) :=
  map (in_unit row_of) (seq 0 9) ++ map (in_unit col_of) (seq 0 9) ++ map (in_unit box_of) (seq 0 9).
Lemma units27_spec u : In u units27 <-> unit u.
Proof.
  unfold units27, unit. rewrite !in_app_iff, !in_map_iff. split.
  - intros [(k&E&H)|[(k&E&H)|(k&E&H)]]; apply in_seq in H; exists k; (split; [clear E; lia|]);
      [left|right; left|right; right]; symmetry; exact E.
  - intros (k&Hk&[E|[E|E]]); [left|right; left|right; right]; exists k;
      (split; [symmetry; exact E|clear E; apply in_seq; lia]).
Qed.
Definition cells : list lin :=
  [[(82, 1%Z)];
   [(83, 1%Z)];
   [(84, 1%Z)];
   [(85, 1%Z)];
   [(86, 1%Z)];
   [(87, 1%Z)];
   [(88, 1%Z)];
   [(89, 1%Z)];
   [(0, 45%Z); (82, (-1)%Z); (83, (-1)%Z); (84, (-1)%Z); (85, (-1)%Z); (86, (-1)%Z); (87, (-1)%Z); (88, (-1)%Z); (89, (-1)%Z)];
   [(90, 1%Z)];
   [(91, 1%Z)];
   [(92, 1%Z)];
   [(93, 1%Z)];
   [(94, 1%Z)];
   [(95, 1%Z)];
   [(96, 1%Z)];
   [(97, 1%Z)];
   [(0, 45%Z); (90, (-1)%Z); (91, (-1)%Z); (92, (-1)%Z); (93, (-1)%Z); (94, (-1)%Z); (95, (-1)%Z); (96, (-1)%Z); (97, (-1)%Z)];
   [(98, 1%Z)];
   [(99, 1%Z)];
   [(0, 45%Z); (82, (-1)%Z); (83, (-1)%Z); (84, (-1)%Z); (90, (-1)%Z); (91, (-1)%Z); (92, (-1)%Z); (98, (-1)%Z); (99, (-1)%Z)];
   [(100, 1%Z)];
   [(101, 1%Z)];
   [(0, 45%Z); (85, (-1)%Z); (86, (-1)%Z); (87, (-1)%Z); (93, (-1)%Z); (94, (-1)%Z); (95, (-1)%Z); (100, (-1)%Z); (101, (-1)%Z)];
   [(102, 1%Z)];
   [(103, 1%Z)];
   [(0, (-45)%Z); (82, 1%Z); (83, 1%Z); (84, 1%Z); (85, 1%Z); (86, 1%Z); (87, 1%Z); (90, 1%Z); (91, 1%Z); (92, 1%Z); (93, 1%Z); (94, 1%Z); (95, 1%Z); (102, (-1)%Z); (103, (-1)%Z)];
   [(104, 1%Z)];
   [(105, 1%Z)];
   [(106, 1%Z)];
   [(107, 1%Z)];
   [(108, 1%Z)];
   [(109, 1%Z)];
   [(110, 1%Z)];
   [(111, 1%Z)];
   [(0, 45%Z); (104, (-1)%Z); (105, (-1)%Z); (106, (-1)%Z); (107, (-1)%Z); (108, (-1)%Z); (109, (-1)%Z); (110, (-1)%Z); (111, (-1)%Z)];
   [(112, 1%Z)];
   [(113, 1%Z)];
   [(114, 1%Z)];
   [(115, 1%Z)];
   [(116, 1%Z)];
   [(117, 1%Z)];
   [(118, 1%Z)];
   [(119, 1%Z)];
   [(0, 45%Z); (112, (-1)%Z); (113, (-1)%Z); (114, (-1)%Z); (115, (-1)%Z); (116, (-1)%Z); (117, (-1)%Z); (118, (-1)%Z); (119, (-1)%Z)];
   [(120, 1%Z)];
   [(121, 1%Z)];
   [(0, 45%Z); (104, (-1)%Z); (105, (-1)%Z); (106, (-1)%Z); (112, (-1)%Z); (113, (-1)%Z); (114, (-1)%Z); (120, (-1)%Z); (121, (-1)%Z)];
   [(122, 1%Z)];
   [(123, 1%Z)];
   [(0, 45%Z); (107, (-1)%Z); (108, (-1)%Z); (109, (-1)%Z); (115, (-1)%Z); (116, (-1)%Z); (117, (-1)%Z); (122, (-1)%Z); (123, (-1)%Z)];
   [(124, 1%Z)];
   [(125, 1%Z)];
   [(0, (-45)%Z); (104, 1%Z); (105, 1%Z); (106, 1%Z); (107, 1%Z); (108, 1%Z); (109, 1%Z); (112, 1%Z); (113, 1%Z); (114, 1%Z); (115, 1%Z); (116, 1%Z); (117, 1%Z); (124, (-1)%Z); (125, (-1)%Z)];
   [(126, 1%Z)];
   [(127, 1%Z)];
   [(128, 1%Z)];
   [(129, 1%Z)];
   [(130, 1%Z)];
   [(131, 1%Z)];
   [(132, 1%Z)];
   [(133, 1%Z)];
   [(0, 45%Z); (126, (-1)%Z); (127, (-1)%Z); (128, (-1)%Z); (129, (-1)%Z); (130, (-1)%Z); (131, (-1)%Z); (132, (-1)%Z); (133, (-1)%Z)];
   [(134, 1%Z)];
   [(135, 1%Z)];
   [(136, 1%Z)];
   [(137, 1%Z)];
   [(138, 1%Z)];
   [(139, 1%Z)];
   [(140, 1%Z)];
   [(141, 1%Z)];
   [(0, 45%Z); (134, (-1)%Z); (135, (-1)%Z); (136, (-1)%Z); (137, (-1)%Z); (138, (-1)%Z); (139, (-1)%Z); (140, (-1)%Z); (141, (-1)%Z)];
   [(0, 45%Z); (82, (-1)%Z); (90, (-1)%Z); (98, (-1)%Z); (104, (-1)%Z); (112, (-1)%Z); (120, (-1)%Z); (126, (-1)%Z); (134, (-1)%Z)];
   [(0, 45%Z); (83, (-1)%Z); (91, (-1)%Z); (99, (-1)%Z); (105, (-1)%Z); (113, (-1)%Z); (121, (-1)%Z); (127, (-1)%Z); (135, (-1)%Z)];
   [(0, (-45)%Z); (82, 1%Z); (83, 1%Z); (90, 1%Z); (91, 1%Z); (98, 1%Z); (99, 1%Z); (104, 1%Z); (105, 1%Z); (112, 1%Z); (113, 1%Z); (120, 1%Z); (121, 1%Z); (128, (-1)%Z); (136, (-1)%Z)];
   [(0, 45%Z); (85, (-1)%Z); (93, (-1)%Z); (100, (-1)%Z); (107, (-1)%Z); (115, (-1)%Z); (122, (-1)%Z); (129, (-1)%Z); (137, (-1)%Z)];
   [(0, 45%Z); (86, (-1)%Z); (94, (-1)%Z); (101, (-1)%Z); (108, (-1)%Z); (116, (-1)%Z); (123, (-1)%Z); (130, (-1)%Z); (138, (-1)%Z)];
   [(0, (-45)%Z); (85, 1%Z); (86, 1%Z); (93, 1%Z); (94, 1%Z); (100, 1%Z); (101, 1%Z); (107, 1%Z); (108, 1%Z); (115, 1%Z); (116, 1%Z); (122, 1%Z); (123, 1%Z); (131, (-1)%Z); (139, (-1)%Z)];
   [(0, 45%Z); (88, (-1)%Z); (96, (-1)%Z); (102, (-1)%Z); (110, (-1)%Z); (118, (-1)%Z); (124, (-1)%Z); (132, (-1)%Z); (140, (-1)%Z)];
   [(0, 45%Z); (89, (-1)%Z); (97, (-1)%Z); (103, (-1)%Z); (111, (-1)%Z); (119, (-1)%Z); (125, (-1)%Z); (133, (-1)%Z); (141, (-1)%Z)];
   [(0, (-135)%Z); (88, 1%Z); (89, 1%Z); (96, 1%Z); (97, 1%Z); (102, 1%Z); (103, 1%Z); (110, 1%Z); (111, 1%Z); (118, 1%Z); (119, 1%Z); (124, 1%Z); (125, 1%Z); (126, 1%Z); (127, 1%Z); (128, 1%Z); (129, 1%Z); (130, 1%Z); (131, 1%Z); (132, 1%Z); (133, 1%Z); (134, 1%Z); (135, 1%Z); (136, 1%Z); (137, 1%Z); (138, 1%Z); (139, 1%Z); (140, 1%Z); (141, 1%Z)]].
Definition certs : list (list (nat * Z)) :=
  [[];
   [];
   [];
   [];
   [];
   [];
   [];
   [];
   [(0%nat, (-1)%Z)];
   [];
   [];
   [];
   [];
   [];
   [];
   [];
   [];
   [(1%nat, (-1)%Z)];
   [];
   [];
   [(18%nat, (-1)%Z)];
   [];
   [];
   [(19%nat, (-1)%Z)];
   [];
   [];
   [(2%nat, (-1)%Z); (18%nat, 1%Z); (19%nat, 1%Z)];
   [];
   [];
   [];
   [];
   [];
   [];
   [];
   [];
   [(3%nat, (-1)%Z)];
   [];
   [];
   [];
   [];
   [];
   [];
   [];
   [];
   [(4%nat, (-1)%Z)];
   [];
   [];
   [(21%nat, (-1)%Z)];
   [];
   [];
   [(22%nat, (-1)%Z)];
   [];
   [];
   [(5%nat, (-1)%Z); (21%nat, 1%Z); (22%nat, 1%Z)];
   [];
   [];
   [];
   [];
   [];
   [];
   [];
   [];
   [(6%nat, (-1)%Z)];
   [];
   [];
   [];
   [];
   [];
   [];
   [];
   [];
   [(7%nat, (-1)%Z)];
   [(9%nat, (-1)%Z)];
   [(10%nat, (-1)%Z)];
   [(11%nat, (-1)%Z); (18%nat, 1%Z); (21%nat, 1%Z)];
   [(12%nat, (-1)%Z)];
   [(13%nat, (-1)%Z)];
   [(14%nat, (-1)%Z); (19%nat, 1%Z); (22%nat, 1%Z)];
   [(15%nat, (-1)%Z)];
   [(16%nat, (-1)%Z)];
   [(8%nat, (-1)%Z); (9%nat, 1%Z); (10%nat, 1%Z); (11%nat, 1%Z); (12%nat, 1%Z); (13%nat, 1%Z); (14%nat, 1%Z); (15%nat, 1%Z); (16%nat, 1%Z); (18%nat, (-1)%Z); (19%nat, (-1)%Z); (21%nat, (-1)%Z); (22%nat, (-1)%Z)]].
Definition squares : list lin :=
  map (map (fun t => if fst t =? 0 then (0, (snd t / 45 * 285)%Z) else (fst t + 60, snd t))) cells.
Definition syms : hmap N := Eval vm_compute in match parse_sym_file sudoku_sym_file with Ok m => m | _ => [] end.
Lemma syms_ok : parse_sym_file sudoku_sym_file = Ok syms.
Proof. vm_compute. reflexivity. Qed.
Definition solution_wires : list (option N) := Eval vm_compute in map (fun i => hm_get (signal_name (Solution i)) syms) (seq 0 81).
Definition squared_wires : list (option N) := Eval vm_compute in map (fun i => hm_get (signal_name (Squared i)) syms) (seq 0 81).
Lemma solution_wires_ok : map (fun i => hm_get (signal_name (Solution i)) syms) (seq 0 81) = solution_wires.
Proof. vm_compute. reflexivity. Qed.
Lemma squared_wires_ok : map (fun i => hm_get (signal_name (Squared i)) syms) (seq 0 81) = squared_wires.
Proof. vm_compute. reflexivity. Qed.
Lemma puzzle_wires_ok : map (fun i => hm_get (signal_name (Puzzle i)) syms) (seq 0 81) = map (fun i => Some (N.of_nat (S i))) (seq 0 81).
Proof. vm_compute. reflexivity. Qed.
Definition sol_wire (i : nat) : option N := nth i solution_wires None.
Definition sq_wire (i : nat) : option N := nth i squared_wires None.
Lemma cells_units : chk_units cells units27 45 = true. Proof. vm_compute. reflexivity. Qed.
Lemma squares_units : chk_units squares units27 285 = true. Proof. vm_compute. reflexivity. Qed.
Lemma cells_wires : chk_wires cells sol_wire = true. Proof. vm_compute. reflexivity. Qed.
Lemma squares_wires : chk_wires squares sq_wire = true. Proof. vm_compute. reflexivity. Qed.
Lemma cells_certs : chk_certs cells sol_wire units27 45 certs = true. Proof. vm_compute. reflexivity. Qed.
Lemma squares_certs : chk_certs squares sq_wire units27 285 certs = true. Proof. vm_compute. reflexivity. Qed.

(** ** The content of the file. *)
Lemma fr_add_z x y : fr (x + y) = fadd (fr x) (fr y).
Proof. apply zval_inj. change ((x + y) mod bn_r = (x mod bn_r + y mod bn_r) mod bn_r)%Z. apply Z.add_mod. discriminate. Qed.
Lemma fr_mul_z x y : fr (x * y) = fmul (fr x) (fr y).
Proof. apply zval_inj. change ((x * y) mod bn_r = (x mod bn_r * (y mod bn_r)) mod bn_r)%Z. apply Z.mul_mod. discriminate. Qed.
Definition fval := lin_val Fr fr.

Definition enc_table : list (Z * list byte) :=
  Eval vm_compute in map (fun z => (z, le_bytes 32 (Z.to_N (z mod bn_r)))) [1; -1; 45; -45; 135; -135; 285; -285; 855; -855]%Z.
Definition enc (z : Z) : list byte :=
  match find (fun e => Z.eqb (fst e) z) enc_table with Some e => snd e | None => le_bytes 32 (Z.to_N (z mod bn_r)) end.
Definition enc_good (e : Z * list byte) : bool :=
  (Z.of_N (le_val (snd e)) =? fst e mod bn_r)%Z && (List.length (snd e) =? 32)%nat.
Lemma enc_table_good : forallb enc_good enc_table = true.
Proof. vm_compute. reflexivity. Qed.
Lemma enc_spec z : (Z.of_N (le_val (enc z)) = z mod bn_r)%Z /\ List.length (enc z) = 32%nat.
Proof.
  unfold enc. destruct (find _ enc_table) as [e|] eqn:E.
  - apply find_some in E. destruct E as [Hin Hz]. apply Z.eqb_eq in Hz. subst z.
    pose proof enc_table_good as H. rewrite forallb_forall in H. specialize (H e Hin).
    apply andb_prop in H. destruct H as [H1 H2]. split; [apply Z.eqb_eq, H1|apply Nat.eqb_eq, H2].
  - clear E. assert (Hb : (0 <= z mod bn_r < bn_r)%Z) by (apply Z.mod_pos_bound; reflexivity).
    split; [|apply le_bytes_length]. rewrite le_val_le_bytes, N.mod_small; [apply Z2N.id; lia|].
    apply N.lt_trans with (Z.to_N bn_r); [apply Z2N.inj_lt; lia|reflexivity].
Qed.
Lemma enc_coefficient z : coefficient (enc z) = fr z.
Proof.
  destruct (enc_spec z) as [H1 H2]. unfold coefficient, residue. rewrite firstn_all2 by (rewrite H2; lia).
  rewrite H1. apply zval_inj. change ((z mod bn_r) mod bn_r = z mod bn_r)%Z. apply Z.mod_mod. discriminate.
Qed.
Definition lc_of (f : lin) : lc_t := map (fun t => (fst t, enc (snd t))) f.
Lemma lc_of_val a f : combination a (lc_of f) = fval a f.
Proof. induction f as [|[w z] f IH]; [reflexivity|]. cbn [lc_of map combination fst snd]. unfold lc_of in IH. rewrite IH, enc_coefficient. reflexivity. Qed.

Definition cell (i : nat) : lin := form cells i.
Definition square (i : nat) : lin := form squares i.
Definition square_row (i : nat) : constraint_t :=
  Constraint (lc_of (lin_opp (cell i))) (lc_of (cell i)) (lc_of (lin_opp (square i))).
Definition clue_row (i : nat) : constraint_t :=
  Constraint (lc_of (lin_add [(N.of_nat (S i), 1%Z)] (lin_opp (cell i)))) (lc_of [(N.of_nat (S i), 1%Z)]) [].
Definition sudoku_rows : list constraint_t := map square_row (seq 0 81) ++ map clue_row (seq 0 81).
(** Labels: the wires of eliminated signals are missing. *)
Definition labels : list N :=
  map N.of_nat (seq 0 82) ++
  flat_map (fun i => match sol_wire i with Some _ => [N.of_nat (82 + i)] | None => [] end) (seq 0 81) ++
  flat_map (fun i => match sq_wire i with Some _ => [N.of_nat (163 + i)] | None => [] end) (seq 0 81).
Definition sudoku_content : r1cs_file :=
  R1csFile 32 (le_bytes 32 (Z.to_N bn_r)) 202 0 81 81 244 162 sudoku_rows labels.
Definition sudoku_secs : list (N * list byte) :=
  [(2, constraints_payload sudoku_content); (1, header_payload sudoku_content); (3, labels_payload sudoku_content)].
Fixpoint bytes_eqb (a b : list byte) : bool :=
  match a, b with
  | [], [] => true
  | x :: a, y :: b => if Byte.eqb x y then bytes_eqb a b else false
  | _, _ => false
  end.
Lemma bytes_eqb_eq a : forall b, bytes_eqb a b = true -> a = b.
Proof.
  induction a as [|x a IH]; intros [|y b] H; cbn in H; try discriminate; [reflexivity|].
  destruct (Byte.eqb x y) eqn:E; [|discriminate]. rewrite (Byte.byte_dec_bl _ _ E), (IH _ H). reflexivity.
Qed.
Lemma sudoku_file_same : bytes_eqb sudoku_r1cs_file (r1cs_bytes sudoku_secs) = true.
Proof. vm_cast_no_check (eq_refl true). Qed.
Lemma sudoku_file_bytes : sudoku_r1cs_file = r1cs_bytes sudoku_secs.
Proof. apply bytes_eqb_eq. exact sudoku_file_same. Qed.
Lemma blen_flat_map {A} (f : A -> list byte) l : blen (flat_map f l) = fold_right (fun x n => blen (f x) + n) 0 l.
Proof. induction l as [|x l IH]; [reflexivity|]. cbn [flat_map fold_right]. rewrite blen_app, IH. reflexivity. Qed.
Lemma sudoku_file_len : blen sudoku_r1cs_file = 51696.
Proof. unfold sudoku_r1cs_file. rewrite blen_flat_map. vm_cast_no_check (eq_refl 51696). Qed.
Lemma lc_of_ok f : N.of_nat (List.length f) < 2 ^ 32 -> forallb (fun t => fst t <? 202) f = true -> SpecR1cs.lc_ok 32 (lc_of f).
Proof.
  intros H1 H2. split; [unfold lc_of; rewrite map_length; exact H1|]. unfold lc_of. apply Forall_map, Forall_forall.
  intros t Ht. rewrite forallb_forall in H2. specialize (H2 t Ht). apply N.ltb_lt in H2. cbn [fst snd]. split.
  - apply N.lt_trans with 202; [exact H2|reflexivity].
  - unfold blen. rewrite (proj2 (enc_spec _)). reflexivity.
Qed.
Definition form_small (f : lin) : bool := (N.of_nat (List.length f) <? 2 ^ 32) && forallb (fun t => fst t <? 202) f.
Definition rows_small : bool :=
  forallb (fun i => form_small (lin_opp (cell i)) && form_small (cell i) && form_small (lin_opp (square i)) &&
    form_small (lin_add [(N.of_nat (S i), 1%Z)] (lin_opp (cell i))) && form_small [(N.of_nat (S i), 1%Z)]) (seq 0 81).
Lemma rows_small_ok : rows_small = true. Proof. vm_compute. reflexivity. Qed.
Lemma form_small_ok f : form_small f = true -> SpecR1cs.lc_ok 32 (lc_of f).
Proof. intros H. apply andb_prop in H. destruct H as [H1 H2]. apply lc_of_ok; [apply N.ltb_lt, H1|exact H2]. Qed.
Lemma rows_ok : Forall (constraint_ok 32) sudoku_rows.
Proof.
  pose proof rows_small_ok as H. unfold rows_small in H. rewrite forallb_forall in H.
  unfold sudoku_rows. apply Forall_app. split; apply Forall_map, Forall_forall; intros i Hi; specialize (H i Hi);
    rewrite !andb_true_iff in H; destruct H as ((((H1&H2)&H3)&H4)&H5).
  - split; [|split]; apply form_small_ok; assumption.
  - split; [|split]; [apply form_small_ok; assumption|apply form_small_ok; assumption|]. split; [reflexivity|constructor].
Qed.
Lemma rows_below : factors_below 202 sudoku_rows.
Proof.
  pose proof rows_small_ok as H. unfold rows_small in H. rewrite forallb_forall in H.
  assert (G : forall f, form_small f = true -> Forall (fun x => (fst x < 202)%N) (lc_of f)).
  { intros f Hf. apply andb_prop in Hf. destruct Hf as [_ Hf]. apply Forall_map, Forall_forall. intros t Ht.
    rewrite forallb_forall in Hf. apply N.ltb_lt. apply (Hf t Ht). }
  unfold factors_below, sudoku_rows. apply Forall_app. split; apply Forall_map, Forall_forall; intros i Hi; specialize (H i Hi);
    rewrite !andb_true_iff in H; destruct H as ((((H1&H2)&H3)&H4)&H5); cbn [c_a c_b c_c square_row clue_row];
    rewrite !Forall_app; repeat split; try (apply G; assumption). constructor.
Qed.
Lemma labels_small : forallb (fun l => l <? 2 ^ 64) labels = true. Proof. vm_compute. reflexivity. Qed.
Lemma labels_len : N.of_nat (List.length labels) = 202. Proof. vm_compute. reflexivity. Qed.
Lemma sudoku_content_ok : r1cs_ok sudoku_content.
Proof.
  constructor; try reflexivity.
  - exact rows_ok.
  - apply Forall_forall. intros l Hl. apply N.ltb_lt. pose proof labels_small as H. rewrite forallb_forall in H. apply H. exact Hl.
Qed.
Lemma starts_with_refl b : starts_with b b. Proof. exists []. symmetry. apply app_nil_r. Qed.
Lemma sudoku_carries : carries sudoku_secs sudoku_content.
Proof.
  split; [|split].
  - eexists. split; [reflexivity|apply starts_with_refl].
  - eexists. split; [reflexivity|apply starts_with_refl].
  - cbn [payload_of find sudoku_secs fst snd N.eqb Pos.eqb]. apply starts_with_refl.
Qed.

(** ** The rows under an assignment. *)
Section Rows.
  Context (a : N -> Fr) (H0 : a 0 = f1).
  Local Open Scope fld_scope.
  Add Field FrS : (f_th Fr).
  Lemma fval_opp f : fval a (lin_opp f) = fopp (fval a f).
  Proof. apply (lin_val_opp Fr fr); [reflexivity|reflexivity|exact fr_add_z|exact fr_mul_z]. Qed.
  Lemma fval_add f g : fval a (lin_add f g) = fval a f + fval a g.
  Proof. apply (lin_val_add Fr fr); [reflexivity|exact fr_add_z]. Qed.
  Lemma fval_one w : fval a [(w, 1%Z)] = a w.
  Proof. unfold fval. cbn [lin_val]. change (fr 1) with (1 : Fr). ring. Qed.
  Lemma square_row_true i : row_true a (square_row i) <-> fval a (cell i) * fval a (cell i) = fval a (square i).
  Proof.
    unfold row_true, square_row. cbn [c_a c_b c_c]. rewrite !lc_of_val, !fval_opp.
    generalize (fval a (cell i)) (fval a (square i)). intros x y. split; intros H.
    - replace (x * x) with (fopp (fopp x * x)) by ring. rewrite H. ring.
    - rewrite <- H. ring.
  Qed.
  Lemma clue_row_true i : row_true a (clue_row i) <-> a (N.of_nat (S i)) = (0 : Fr) \/ fval a (cell i) = a (N.of_nat (S i)).
  Proof.
    unfold row_true, clue_row. cbn [c_a c_b c_c]. rewrite !lc_of_val, fval_add, fval_opp, fval_one.
    change (combination a []) with (0 : Fr). generalize (fval a (cell i)) (a (N.of_nat (S i))). intros x y. split; intros H.
    - apply (fmul_eq_0 Fr) in H. destruct H as [H|H]; [right|left; exact H].
      replace x with (y - (y + fopp x)) by ring. rewrite H. ring.
    - destruct H as [-> | ->]; ring.
  Qed.
  Lemma rows_true : satisfies a sudoku_rows <->
    (forall i, (i < 81)%nat -> fval a (cell i) * fval a (cell i) = fval a (square i) /\
       (a (N.of_nat (S i)) = (0 : Fr) \/ fval a (cell i) = a (N.of_nat (S i)))).
  Proof.
    unfold satisfies, sudoku_rows. rewrite Forall_app. rewrite !Forall_map, !Forall_forall. split.
    - intros [H1 H2] i Hi. split; [apply square_row_true, H1|apply clue_row_true, H2]; apply in_seq; lia.
    - intros H. split; intros i Hi; apply in_seq in Hi; [apply square_row_true|apply clue_row_true]; apply H; lia.
  Qed.
End Rows.
