(** Specification: which lines announce and which confirm the writing of each output file. *)
From Coq Require Import List NArith.
From Coq Require Import Strings.String.
From Verif Require Import Text FileSys CliArgs Printing.
Import ListNotations.
Local Open Scope string_scope.
Local Open Scope list_scope.
Local Open Scope N_scope.

(** An output file, how the line before it is written begins, how the line after begins. *)
Definition outputs (q : request) : list (path * text * text) :=
  match q with
  | DoEncap _ _ _ ciphertext key =>
      [ (ciphertext, 10 :: u8 "💾 Saving ciphertext...", u8 "   ✅ Ciphertext saved (");
        (key, 10 :: u8 "🔑 Saving key...", u8 "   ✅ Key saved (") ]
  | DoDecap _ _ _ key => [ (key, 10 :: u8 "🔑 Saving recovered key...", u8 "   ✅ Key saved (") ]
  | DoEncrypt _ _ _ _ output _ =>
      [ (output, 10 :: u8 "� Step 3: Creating combined ciphertext...", u8 "   ✅ Combined ciphertext saved (") ]
  | DoDecrypt _ _ _ output => [ (output, 10 :: u8 "🔓 Step 3: Decrypting message...", u8 "   ✅ Decrypted message saved (") ]
  end.
(** The output files are different files. *)
Definition apart (q : request) : Prop := match q with DoEncap _ _ _ ciphertext key => ciphertext <> key | _ => True end.
