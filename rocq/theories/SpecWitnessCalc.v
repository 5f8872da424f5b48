(** Specification vocabulary for the witness calculator (C48). *)
From Coq Require Import List Bool Arith NArith ZArith Permutation.
From Coq Require Import Strings.String Strings.Byte.
From Verif Require Import Bytes Text Inputs SpecNumerals SpecJsNumber WitnessCalc.
Import ListNotations.
Local Open Scope N_scope.

(** [whole_number v z]: JavaScript's BigInt reads the value [v], not an array, as [z].  A Number
    ([JFloat t]: rendered as [t]) is the double nearest to its decimal rendering. *)
Inductive whole_number : json -> Z -> Prop :=
| wn_int z : whole_number (JInt z) z
| wn_number t neg d k x z : decimal t neg d k -> stands_for d k x -> x < 2 ^ (1024 + 1074) -> x = z * 2 ^ 1074 -> whole_number (JFloat t) (signed neg z)
| wn_true : whole_number (JBool true) 1
| wn_false : whole_number (JBool false) 0
| wn_text t z : bigint_text t z -> whole_number (JStr t) z.
(** [numbers v zs]: [zs] are the numbers in [v], arrays of any depth flattened in order. *)
Inductive numbers : json -> list Z -> Prop :=
| nb_one v z : whole_number v z -> numbers v [z]
| nb_array l : forall zs, numbers_of l zs -> numbers (JArr l) zs
with numbers_of : list json -> list Z -> Prop :=
| nb_nil : numbers_of [] []
| nb_cons v l zs zs' : numbers v zs -> numbers_of l zs' -> numbers_of (v :: l) (zs ++ zs').

(** FNV-1a, 64 bits, over the UTF-16 code units of a name. *)
Definition name_hash (k : text) : N :=
  fold_left (fun h c => N.lxor h c * 1099511628211 mod 2 ^ 64) (utf16 k) 14695981039346656037.

(** The slots of a compiled circuit: every index of every input signal. *)
Definition slots (m : wmodule) : list (N * N) :=
  flat_map (fun s => map (fun i => (fst s, N.of_nat i)) (seq 0 (N.to_nat (snd s)))) (md_signals m).
(** The settings one entry of the input stands for. *)
Definition entry_settings (m : wmodule) (kv : text * json) (g : list setting) : Prop :=
  exists zs n, numbers (snd kv) zs /\ In (name_hash (fst kv), n) (md_signals m) /\ N.of_nat (List.length zs) = n /\
    g = map (fun p => (name_hash (fst kv), N.of_nat (fst p), Z.to_N (snd p mod Z.of_N (md_prime m)))) (combine (seq 0 (List.length zs)) zs).
(** The input gives every slot a value, each exactly once: [gs] are the assignments, entry by entry. *)
Definition complete_input (m : wmodule) (input : list (text * json)) (gs : list setting) : Prop :=
  exists per, Forall2 (entry_settings m) input per /\ gs = List.concat per /\
    Permutation (map fst gs) (slots m).

(** What is assumed of a compiled circuit: its field element size holds its prime, its signals have
    different hashes, and a computed witness has the announced size and values that fit. *)
Record module_ok (m : wmodule) : Prop := {
  mo_prime : 0 < md_prime m < 2 ^ (32 * N.of_nat (md_n32 m));
  mo_hashes : NoDup (map fst (md_signals m));
  mo_hash_range : Forall (fun s => fst s < 2 ^ 64) (md_signals m);
  mo_witness : forall gs w, md_compute m gs = Some w ->
    N.of_nat (List.length w) = md_wsize m /\ Forall (fun v => v < md_prime m) w
}.

(** Why an entry of the input is refused. *)
Inductive entry_fault (m : wmodule) (k : text) (v : json) : wc_error -> Prop :=
| ef_value e : (forall zs, ~ numbers v zs) -> entry_fault m k v (WcValue e)
| ef_unknown zs : numbers v zs -> ~ In (name_hash k) (map fst (md_signals m)) -> entry_fault m k v (WcSignalNotFound k)
| ef_few zs n : numbers v zs -> In (name_hash k, n) (md_signals m) -> N.of_nat (List.length zs) < n -> entry_fault m k v (WcNotEnough k)
| ef_many zs n : numbers v zs -> In (name_hash k, n) (md_signals m) -> n < N.of_nat (List.length zs) -> entry_fault m k v (WcTooMany k).
(** Why there is no witness: the first entry at fault, a slot given twice, a failing assertion of the
    circuit (once all slots have values), or a slot without a value. *)
Inductive calc_error (m : wmodule) (input : list (text * json)) : wc_error -> Prop :=
| ce_entry pre k v post per e : input = pre ++ (k, v) :: post -> Forall2 (entry_settings m) pre per ->
    NoDup (map fst (List.concat per)) -> entry_fault m k v e -> calc_error m input e
| ce_twice pre k v post per g j : input = pre ++ (k, v) :: post -> Forall2 (entry_settings m) pre per ->
    NoDup (map fst (List.concat per)) -> entry_settings m (k, v) g -> ~ NoDup (map fst (List.concat per ++ g)) ->
    calc_error m input (WcSet k j)
| ce_assertion pre k v post gs j : input = pre ++ (k, v) :: post -> complete_input m (pre ++ [(k, v)]) gs ->
    md_compute m gs = None -> calc_error m input (WcSet k j)
| ce_no_inputs : slots m = [] -> md_compute m [] = None -> calc_error m input WcInit
| ce_missing per slot : Forall2 (entry_settings m) input per -> NoDup (map fst (List.concat per)) ->
    In slot (slots m) -> ~ In slot (map fst (List.concat per)) -> calc_error m input WcNotAllInputs.
