(** Specification: what the commands print when a file cannot be opened. *)
From Coq Require Import List NArith.
From Coq Require Import Strings.String Strings.Byte.
From Verif Require Import Bytes Text Fld Bn254 R1cs Combined Printing SpecPrinting.
Import ListNotations.
Local Open Scope string_scope.
Local Open Scope list_scope.
Local Open Scope N_scope.

(** [i]: the first public input of the ciphertext that wire i+1 of the witness does not have. *)
Definition first_difference (vals pub : list Fr) (i : nat) : Prop :=
  (exists a b, nth_error vals (S i) = Some a /\ nth_error pub i = Some b /\ a <> b) /\
  (forall j, (j < i)%nat -> exists a, nth_error vals (S j) = Some a /\ nth_error pub j = Some a).

(** decap up to the core; [w]: elements the witness file declares; [c]: the size of the ciphertext. *)
Definition before_decap (r : r1cs_file) (w c : N) : list said :=
  circuit_lines r ++
  [ next "📋 Loading witness from snarkjs..."; with_number "   - Witness elements: " w "";
    next "📦 Loading ciphertext..."; with_number "   - Ciphertext size: " c " bytes";
    next "🔓 Running Decap..." ].
(** The same for decrypt. *)
Definition before_decrypt (r : r1cs_file) (w flag : N) (p : parts) : list said :=
  [ line "� Step 1: Parsing combined ciphertext...";
    with_number "   - Flag: " flag "";
    with_number "   - Witness ciphertext: " (blen (p_witness p)) " bytes" ] ++
  match p_public p with Some b => [out (u8 "   - Public input: " ++ from_utf8_lossy b)] | None => [] end ++
  [ with_number "   - Encrypted message: " (blen (p_message p)) " bytes";
    next "🔓 Step 2: Running Decap..." ] ++ firstn 3 (circuit_lines r) ++
  [ next "📋 Loading witness from snarkjs..."; with_number "   - Witness elements: " w "" ].
(** The witness breaks a constraint. *)
Definition unsatisfied_lines : list said := [ line "🔓 Starting Decap..."; err (u8 "  ✗ Circuit constraints not satisfied!") ].
(** It breaks none, but is for other public values. *)
Definition mismatch_lines (r : r1cs_file) (i : N) : list said :=
  [ line "🔓 Starting Decap..."; line "  ✓ Circuit synthesized and satisfied";
    with_number "  ✓ Extracted full assignment: " (r_n_wires r) " values";
    err (u8 "  ✗ Public input mismatch at index " ++ dec_text i) ].
(** The combined file is cut off: nothing, or only its first five bytes, as two numbers. *)
Definition cut_off_lines (f : list byte) (e : cli_comb_error) : list said :=
  line "� Step 1: Parsing combined ciphertext..." ::
  match e with
  | CTooShort | CWitnessMismatch => []
  | CMissingPublic | CPublicMismatch =>
    [ with_number "   - Flag: " (Byte.to_N (hd x00 f)) "";
      with_number "   - Witness ciphertext: " (be_val (firstn 4 (tl f))) " bytes" ]
  end.
