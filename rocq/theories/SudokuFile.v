(** The compiled Sudoku circuit that is shipped with the repository: the bytes of sudoku.r1cs and the
    text of sudoku.sym (packages/zkenc-cli/tests/r1cs, packages/zkenc-js/tests/fixtures and
    docs/static/circuits hold identical copies). *)
From Coq Require Import List Bool NArith.
From Coq Require Import Strings.String Strings.Ascii Strings.Byte.
From Verif Require Import Text.
Import ListNotations.

(** Reading hexadecimal digits. *)
Definition nibble (c : ascii) : N := let n := N_of_ascii c in (if n <? 58 then n - 48 else n - 87)%N.
Fixpoint hex_bytes (s : string) : list byte :=
  match s with
  | String a (String b s) =>
      match Byte.of_N (16 * nibble a + nibble b) with Some x => x :: hex_bytes s | None => [] end
  | _ => []
  end.

(** packages/zkenc-cli/tests/r1cs/sudoku.r1cs:1 (the whole binary file, 64 bytes on each line). *)
Definition sudoku_r1cs_hex : list string := [
"7231637301000000030000000200000030c30000000000000100000052000000000000f093f5e1439170b97948e833285d588181b64550b829a031e1724e6430";
"01000000520000000100000000000000000000000000000000000000000000000000000000000000010000008e000000000000f093f5e1439170b97948e83328";
"5d588181b64550b829a031e1724e64300100000053000000000000f093f5e1439170b97948e833285d588181b64550b829a031e1724e64300100000053000000";
"0100000000000000000000000000000000000000000000000000000000000000010000008f000000000000f093f5e1439170b97948e833285d588181b64550b8";
"29a031e1724e64300100000054000000000000f093f5e1439170b97948e833285d588181b64550b829a031e1724e643001000000540000000100000000000000";
"0000000000000000000000000000000000000000000000000100000090000000000000f093f5e1439170b97948e833285d588181b64550b829a031e1724e6430";
"0100000055000000000000f093f5e1439170b97948e833285d588181b64550b829a031e1724e6430010000005500000001000000000000000000000000000000";
"000000000000000000000000000000000100000091000000000000f093f5e1439170b97948e833285d588181b64550b829a031e1724e64300100000056000000";
"000000f093f5e1439170b97948e833285d588181b64550b829a031e1724e64300100000056000000010000000000000000000000000000000000000000000000";
"00000000000000000100000092000000000000f093f5e1439170b97948e833285d588181b64550b829a031e1724e64300100000057000000000000f093f5e143";
"9170b97948e833285d588181b64550b829a031e1724e643001000000570000000100000000000000000000000000000000000000000000000000000000000000";
"0100000093000000000000f093f5e1439170b97948e833285d588181b64550b829a031e1724e64300100000058000000000000f093f5e1439170b97948e83328";
"5d588181b64550b829a031e1724e6430010000005800000001000000000000000000000000000000000000000000000000000000000000000100000094000000";
"000000f093f5e1439170b97948e833285d588181b64550b829a031e1724e64300100000059000000000000f093f5e1439170b97948e833285d588181b64550b8";
"29a031e1724e6430010000005900000001000000000000000000000000000000000000000000000000000000000000000100000095000000000000f093f5e143";
"9170b97948e833285d588181b64550b829a031e1724e64300900000000000000d4ffffef93f5e1439170b97948e833285d588181b64550b829a031e1724e6430";
"52000000010000000000000000000000000000000000000000000000000000000000000053000000010000000000000000000000000000000000000000000000";
"00000000000000005400000001000000000000000000000000000000000000000000000000000000000000005500000001000000000000000000000000000000";
"00000000000000000000000000000000560000000100000000000000000000000000000000000000000000000000000000000000570000000100000000000000";
"00000000000000000000000000000000000000000000000058000000010000000000000000000000000000000000000000000000000000000000000059000000";
"010000000000000000000000000000000000000000000000000000000000000009000000000000002d0000000000000000000000000000000000000000000000";
"000000000000000052000000000000f093f5e1439170b97948e833285d588181b64550b829a031e1724e643053000000000000f093f5e1439170b97948e83328";
"5d588181b64550b829a031e1724e643054000000000000f093f5e1439170b97948e833285d588181b64550b829a031e1724e643055000000000000f093f5e143";
"9170b97948e833285d588181b64550b829a031e1724e643056000000000000f093f5e1439170b97948e833285d588181b64550b829a031e1724e643057000000";
"000000f093f5e1439170b97948e833285d588181b64550b829a031e1724e643058000000000000f093f5e1439170b97948e833285d588181b64550b829a031e1";
"724e643059000000000000f093f5e1439170b97948e833285d588181b64550b829a031e1724e64300900000000000000e4feffef93f5e1439170b97948e83328";
"5d588181b64550b829a031e1724e64308e00000001000000000000000000000000000000000000000000000000000000000000008f0000000100000000000000";
"00000000000000000000000000000000000000000000000090000000010000000000000000000000000000000000000000000000000000000000000091000000";
"01000000000000000000000000000000000000000000000000000000000000009200000001000000000000000000000000000000000000000000000000000000";
"00000000930000000100000000000000000000000000000000000000000000000000000000000000940000000100000000000000000000000000000000000000";
"000000000000000000000000950000000100000000000000000000000000000000000000000000000000000000000000010000005a000000000000f093f5e143";
"9170b97948e833285d588181b64550b829a031e1724e6430010000005a0000000100000000000000000000000000000000000000000000000000000000000000";
"0100000096000000000000f093f5e1439170b97948e833285d588181b64550b829a031e1724e6430010000005b000000000000f093f5e1439170b97948e83328";
"5d588181b64550b829a031e1724e6430010000005b00000001000000000000000000000000000000000000000000000000000000000000000100000097000000";
"000000f093f5e1439170b97948e833285d588181b64550b829a031e1724e6430010000005c000000000000f093f5e1439170b97948e833285d588181b64550b8";
"29a031e1724e6430010000005c00000001000000000000000000000000000000000000000000000000000000000000000100000098000000000000f093f5e143";
"9170b97948e833285d588181b64550b829a031e1724e6430010000005d000000000000f093f5e1439170b97948e833285d588181b64550b829a031e1724e6430";
"010000005d00000001000000000000000000000000000000000000000000000000000000000000000100000099000000000000f093f5e1439170b97948e83328";
"5d588181b64550b829a031e1724e6430010000005e000000000000f093f5e1439170b97948e833285d588181b64550b829a031e1724e6430010000005e000000";
"0100000000000000000000000000000000000000000000000000000000000000010000009a000000000000f093f5e1439170b97948e833285d588181b64550b8";
"29a031e1724e6430010000005f000000000000f093f5e1439170b97948e833285d588181b64550b829a031e1724e6430010000005f0000000100000000000000";
"000000000000000000000000000000000000000000000000010000009b000000000000f093f5e1439170b97948e833285d588181b64550b829a031e1724e6430";
"0100000060000000000000f093f5e1439170b97948e833285d588181b64550b829a031e1724e6430010000006000000001000000000000000000000000000000";
"00000000000000000000000000000000010000009c000000000000f093f5e1439170b97948e833285d588181b64550b829a031e1724e64300100000061000000";
"000000f093f5e1439170b97948e833285d588181b64550b829a031e1724e64300100000061000000010000000000000000000000000000000000000000000000";
"0000000000000000010000009d000000000000f093f5e1439170b97948e833285d588181b64550b829a031e1724e64300900000000000000d4ffffef93f5e143";
"9170b97948e833285d588181b64550b829a031e1724e64305a00000001000000000000000000000000000000000000000000000000000000000000005b000000";
"01000000000000000000000000000000000000000000000000000000000000005c00000001000000000000000000000000000000000000000000000000000000";
"000000005d00000001000000000000000000000000000000000000000000000000000000000000005e0000000100000000000000000000000000000000000000";
"0000000000000000000000005f000000010000000000000000000000000000000000000000000000000000000000000060000000010000000000000000000000";
"00000000000000000000000000000000000000006100000001000000000000000000000000000000000000000000000000000000000000000900000000000000";
"2d000000000000000000000000000000000000000000000000000000000000005a000000000000f093f5e1439170b97948e833285d588181b64550b829a031e1";
"724e64305b000000000000f093f5e1439170b97948e833285d588181b64550b829a031e1724e64305c000000000000f093f5e1439170b97948e833285d588181";
"b64550b829a031e1724e64305d000000000000f093f5e1439170b97948e833285d588181b64550b829a031e1724e64305e000000000000f093f5e1439170b979";
"48e833285d588181b64550b829a031e1724e64305f000000000000f093f5e1439170b97948e833285d588181b64550b829a031e1724e643060000000000000f0";
"93f5e1439170b97948e833285d588181b64550b829a031e1724e643061000000000000f093f5e1439170b97948e833285d588181b64550b829a031e1724e6430";
"0900000000000000e4feffef93f5e1439170b97948e833285d588181b64550b829a031e1724e6430960000000100000000000000000000000000000000000000";
"00000000000000000000000097000000010000000000000000000000000000000000000000000000000000000000000098000000010000000000000000000000";
"00000000000000000000000000000000000000009900000001000000000000000000000000000000000000000000000000000000000000009a00000001000000";
"000000000000000000000000000000000000000000000000000000009b0000000100000000000000000000000000000000000000000000000000000000000000";
"9c00000001000000000000000000000000000000000000000000000000000000000000009d000000010000000000000000000000000000000000000000000000";
"00000000000000000100000062000000000000f093f5e1439170b97948e833285d588181b64550b829a031e1724e643001000000620000000100000000000000";
"000000000000000000000000000000000000000000000000010000009e000000000000f093f5e1439170b97948e833285d588181b64550b829a031e1724e6430";
"0100000063000000000000f093f5e1439170b97948e833285d588181b64550b829a031e1724e6430010000006300000001000000000000000000000000000000";
"00000000000000000000000000000000010000009f000000000000f093f5e1439170b97948e833285d588181b64550b829a031e1724e64300900000000000000";
"d4ffffef93f5e1439170b97948e833285d588181b64550b829a031e1724e64305200000001000000000000000000000000000000000000000000000000000000";
"00000000530000000100000000000000000000000000000000000000000000000000000000000000540000000100000000000000000000000000000000000000";
"0000000000000000000000005a00000001000000000000000000000000000000000000000000000000000000000000005b000000010000000000000000000000";
"00000000000000000000000000000000000000005c00000001000000000000000000000000000000000000000000000000000000000000006200000001000000";
"00000000000000000000000000000000000000000000000000000000630000000100000000000000000000000000000000000000000000000000000000000000";
"09000000000000002d0000000000000000000000000000000000000000000000000000000000000052000000000000f093f5e1439170b97948e833285d588181";
"b64550b829a031e1724e643053000000000000f093f5e1439170b97948e833285d588181b64550b829a031e1724e643054000000000000f093f5e1439170b979";
"48e833285d588181b64550b829a031e1724e64305a000000000000f093f5e1439170b97948e833285d588181b64550b829a031e1724e64305b000000000000f0";
"93f5e1439170b97948e833285d588181b64550b829a031e1724e64305c000000000000f093f5e1439170b97948e833285d588181b64550b829a031e1724e6430";
"62000000000000f093f5e1439170b97948e833285d588181b64550b829a031e1724e643063000000000000f093f5e1439170b97948e833285d588181b64550b8";
"29a031e1724e64300900000000000000e4feffef93f5e1439170b97948e833285d588181b64550b829a031e1724e64308e000000010000000000000000000000";
"00000000000000000000000000000000000000008f00000001000000000000000000000000000000000000000000000000000000000000009000000001000000";
"00000000000000000000000000000000000000000000000000000000960000000100000000000000000000000000000000000000000000000000000000000000";
"97000000010000000000000000000000000000000000000000000000000000000000000098000000010000000000000000000000000000000000000000000000";
"00000000000000009e00000001000000000000000000000000000000000000000000000000000000000000009f00000001000000000000000000000000000000";
"000000000000000000000000000000000100000064000000000000f093f5e1439170b97948e833285d588181b64550b829a031e1724e64300100000064000000";
"010000000000000000000000000000000000000000000000000000000000000001000000a0000000000000f093f5e1439170b97948e833285d588181b64550b8";
"29a031e1724e64300100000065000000000000f093f5e1439170b97948e833285d588181b64550b829a031e1724e643001000000650000000100000000000000";
"00000000000000000000000000000000000000000000000001000000a1000000000000f093f5e1439170b97948e833285d588181b64550b829a031e1724e6430";
"0900000000000000d4ffffef93f5e1439170b97948e833285d588181b64550b829a031e1724e6430550000000100000000000000000000000000000000000000";
"00000000000000000000000056000000010000000000000000000000000000000000000000000000000000000000000057000000010000000000000000000000";
"00000000000000000000000000000000000000005d00000001000000000000000000000000000000000000000000000000000000000000005e00000001000000";
"000000000000000000000000000000000000000000000000000000005f0000000100000000000000000000000000000000000000000000000000000000000000";
"64000000010000000000000000000000000000000000000000000000000000000000000065000000010000000000000000000000000000000000000000000000";
"000000000000000009000000000000002d0000000000000000000000000000000000000000000000000000000000000055000000000000f093f5e1439170b979";
"48e833285d588181b64550b829a031e1724e643056000000000000f093f5e1439170b97948e833285d588181b64550b829a031e1724e643057000000000000f0";
"93f5e1439170b97948e833285d588181b64550b829a031e1724e64305d000000000000f093f5e1439170b97948e833285d588181b64550b829a031e1724e6430";
"5e000000000000f093f5e1439170b97948e833285d588181b64550b829a031e1724e64305f000000000000f093f5e1439170b97948e833285d588181b64550b8";
"29a031e1724e643064000000000000f093f5e1439170b97948e833285d588181b64550b829a031e1724e643065000000000000f093f5e1439170b97948e83328";
"5d588181b64550b829a031e1724e64300900000000000000e4feffef93f5e1439170b97948e833285d588181b64550b829a031e1724e64309100000001000000";
"00000000000000000000000000000000000000000000000000000000920000000100000000000000000000000000000000000000000000000000000000000000";
"93000000010000000000000000000000000000000000000000000000000000000000000099000000010000000000000000000000000000000000000000000000";
"00000000000000009a00000001000000000000000000000000000000000000000000000000000000000000009b00000001000000000000000000000000000000";
"00000000000000000000000000000000a00000000100000000000000000000000000000000000000000000000000000000000000a10000000100000000000000";
"0000000000000000000000000000000000000000000000000100000066000000000000f093f5e1439170b97948e833285d588181b64550b829a031e1724e6430";
"0100000066000000010000000000000000000000000000000000000000000000000000000000000001000000a2000000000000f093f5e1439170b97948e83328";
"5d588181b64550b829a031e1724e64300100000067000000000000f093f5e1439170b97948e833285d588181b64550b829a031e1724e64300100000067000000";
"010000000000000000000000000000000000000000000000000000000000000001000000a3000000000000f093f5e1439170b97948e833285d588181b64550b8";
"29a031e1724e64300f000000000000002d0000000000000000000000000000000000000000000000000000000000000052000000000000f093f5e1439170b979";
"48e833285d588181b64550b829a031e1724e643053000000000000f093f5e1439170b97948e833285d588181b64550b829a031e1724e643054000000000000f0";
"93f5e1439170b97948e833285d588181b64550b829a031e1724e643055000000000000f093f5e1439170b97948e833285d588181b64550b829a031e1724e6430";
"56000000000000f093f5e1439170b97948e833285d588181b64550b829a031e1724e643057000000000000f093f5e1439170b97948e833285d588181b64550b8";
"29a031e1724e64305a000000000000f093f5e1439170b97948e833285d588181b64550b829a031e1724e64305b000000000000f093f5e1439170b97948e83328";
"5d588181b64550b829a031e1724e64305c000000000000f093f5e1439170b97948e833285d588181b64550b829a031e1724e64305d000000000000f093f5e143";
"9170b97948e833285d588181b64550b829a031e1724e64305e000000000000f093f5e1439170b97948e833285d588181b64550b829a031e1724e64305f000000";
"000000f093f5e1439170b97948e833285d588181b64550b829a031e1724e64306600000001000000000000000000000000000000000000000000000000000000";
"000000006700000001000000000000000000000000000000000000000000000000000000000000000f00000000000000d4ffffef93f5e1439170b97948e83328";
"5d588181b64550b829a031e1724e6430520000000100000000000000000000000000000000000000000000000000000000000000530000000100000000000000";
"00000000000000000000000000000000000000000000000054000000010000000000000000000000000000000000000000000000000000000000000055000000";
"01000000000000000000000000000000000000000000000000000000000000005600000001000000000000000000000000000000000000000000000000000000";
"000000005700000001000000000000000000000000000000000000000000000000000000000000005a0000000100000000000000000000000000000000000000";
"0000000000000000000000005b00000001000000000000000000000000000000000000000000000000000000000000005c000000010000000000000000000000";
"00000000000000000000000000000000000000005d00000001000000000000000000000000000000000000000000000000000000000000005e00000001000000";
"000000000000000000000000000000000000000000000000000000005f0000000100000000000000000000000000000000000000000000000000000000000000";
"66000000000000f093f5e1439170b97948e833285d588181b64550b829a031e1724e643067000000000000f093f5e1439170b97948e833285d588181b64550b8";
"29a031e1724e64300f000000000000001d010000000000000000000000000000000000000000000000000000000000008e000000000000f093f5e1439170b979";
"48e833285d588181b64550b829a031e1724e64308f000000000000f093f5e1439170b97948e833285d588181b64550b829a031e1724e643090000000000000f0";
"93f5e1439170b97948e833285d588181b64550b829a031e1724e643091000000000000f093f5e1439170b97948e833285d588181b64550b829a031e1724e6430";
"92000000000000f093f5e1439170b97948e833285d588181b64550b829a031e1724e643093000000000000f093f5e1439170b97948e833285d588181b64550b8";
"29a031e1724e643096000000000000f093f5e1439170b97948e833285d588181b64550b829a031e1724e643097000000000000f093f5e1439170b97948e83328";
"5d588181b64550b829a031e1724e643098000000000000f093f5e1439170b97948e833285d588181b64550b829a031e1724e643099000000000000f093f5e143";
"9170b97948e833285d588181b64550b829a031e1724e64309a000000000000f093f5e1439170b97948e833285d588181b64550b829a031e1724e64309b000000";
"000000f093f5e1439170b97948e833285d588181b64550b829a031e1724e6430a200000001000000000000000000000000000000000000000000000000000000";
"00000000a300000001000000000000000000000000000000000000000000000000000000000000000100000068000000000000f093f5e1439170b97948e83328";
"5d588181b64550b829a031e1724e64300100000068000000010000000000000000000000000000000000000000000000000000000000000001000000a4000000";
"000000f093f5e1439170b97948e833285d588181b64550b829a031e1724e64300100000069000000000000f093f5e1439170b97948e833285d588181b64550b8";
"29a031e1724e64300100000069000000010000000000000000000000000000000000000000000000000000000000000001000000a5000000000000f093f5e143";
"9170b97948e833285d588181b64550b829a031e1724e6430010000006a000000000000f093f5e1439170b97948e833285d588181b64550b829a031e1724e6430";
"010000006a000000010000000000000000000000000000000000000000000000000000000000000001000000a6000000000000f093f5e1439170b97948e83328";
"5d588181b64550b829a031e1724e6430010000006b000000000000f093f5e1439170b97948e833285d588181b64550b829a031e1724e6430010000006b000000";
"010000000000000000000000000000000000000000000000000000000000000001000000a7000000000000f093f5e1439170b97948e833285d588181b64550b8";
"29a031e1724e6430010000006c000000000000f093f5e1439170b97948e833285d588181b64550b829a031e1724e6430010000006c0000000100000000000000";
"00000000000000000000000000000000000000000000000001000000a8000000000000f093f5e1439170b97948e833285d588181b64550b829a031e1724e6430";
"010000006d000000000000f093f5e1439170b97948e833285d588181b64550b829a031e1724e6430010000006d00000001000000000000000000000000000000";
"0000000000000000000000000000000001000000a9000000000000f093f5e1439170b97948e833285d588181b64550b829a031e1724e6430010000006e000000";
"000000f093f5e1439170b97948e833285d588181b64550b829a031e1724e6430010000006e000000010000000000000000000000000000000000000000000000";
"000000000000000001000000aa000000000000f093f5e1439170b97948e833285d588181b64550b829a031e1724e6430010000006f000000000000f093f5e143";
"9170b97948e833285d588181b64550b829a031e1724e6430010000006f0000000100000000000000000000000000000000000000000000000000000000000000";
"01000000ab000000000000f093f5e1439170b97948e833285d588181b64550b829a031e1724e64300900000000000000d4ffffef93f5e1439170b97948e83328";
"5d588181b64550b829a031e1724e6430680000000100000000000000000000000000000000000000000000000000000000000000690000000100000000000000";
"0000000000000000000000000000000000000000000000006a00000001000000000000000000000000000000000000000000000000000000000000006b000000";
"01000000000000000000000000000000000000000000000000000000000000006c00000001000000000000000000000000000000000000000000000000000000";
"000000006d00000001000000000000000000000000000000000000000000000000000000000000006e0000000100000000000000000000000000000000000000";
"0000000000000000000000006f000000010000000000000000000000000000000000000000000000000000000000000009000000000000002d00000000000000";
"00000000000000000000000000000000000000000000000068000000000000f093f5e1439170b97948e833285d588181b64550b829a031e1724e643069000000";
"000000f093f5e1439170b97948e833285d588181b64550b829a031e1724e64306a000000000000f093f5e1439170b97948e833285d588181b64550b829a031e1";
"724e64306b000000000000f093f5e1439170b97948e833285d588181b64550b829a031e1724e64306c000000000000f093f5e1439170b97948e833285d588181";
"b64550b829a031e1724e64306d000000000000f093f5e1439170b97948e833285d588181b64550b829a031e1724e64306e000000000000f093f5e1439170b979";
"48e833285d588181b64550b829a031e1724e64306f000000000000f093f5e1439170b97948e833285d588181b64550b829a031e1724e64300900000000000000";
"e4feffef93f5e1439170b97948e833285d588181b64550b829a031e1724e6430a400000001000000000000000000000000000000000000000000000000000000";
"00000000a50000000100000000000000000000000000000000000000000000000000000000000000a60000000100000000000000000000000000000000000000";
"000000000000000000000000a70000000100000000000000000000000000000000000000000000000000000000000000a8000000010000000000000000000000";
"0000000000000000000000000000000000000000a90000000100000000000000000000000000000000000000000000000000000000000000aa00000001000000";
"00000000000000000000000000000000000000000000000000000000ab0000000100000000000000000000000000000000000000000000000000000000000000";
"0100000070000000000000f093f5e1439170b97948e833285d588181b64550b829a031e1724e6430010000007000000001000000000000000000000000000000";
"0000000000000000000000000000000001000000ac000000000000f093f5e1439170b97948e833285d588181b64550b829a031e1724e64300100000071000000";
"000000f093f5e1439170b97948e833285d588181b64550b829a031e1724e64300100000071000000010000000000000000000000000000000000000000000000";
"000000000000000001000000ad000000000000f093f5e1439170b97948e833285d588181b64550b829a031e1724e64300100000072000000000000f093f5e143";
"9170b97948e833285d588181b64550b829a031e1724e643001000000720000000100000000000000000000000000000000000000000000000000000000000000";
"01000000ae000000000000f093f5e1439170b97948e833285d588181b64550b829a031e1724e64300100000073000000000000f093f5e1439170b97948e83328";
"5d588181b64550b829a031e1724e64300100000073000000010000000000000000000000000000000000000000000000000000000000000001000000af000000";
"000000f093f5e1439170b97948e833285d588181b64550b829a031e1724e64300100000074000000000000f093f5e1439170b97948e833285d588181b64550b8";
"29a031e1724e64300100000074000000010000000000000000000000000000000000000000000000000000000000000001000000b0000000000000f093f5e143";
"9170b97948e833285d588181b64550b829a031e1724e64300100000075000000000000f093f5e1439170b97948e833285d588181b64550b829a031e1724e6430";
"0100000075000000010000000000000000000000000000000000000000000000000000000000000001000000b1000000000000f093f5e1439170b97948e83328";
"5d588181b64550b829a031e1724e64300100000076000000000000f093f5e1439170b97948e833285d588181b64550b829a031e1724e64300100000076000000";
"010000000000000000000000000000000000000000000000000000000000000001000000b2000000000000f093f5e1439170b97948e833285d588181b64550b8";
"29a031e1724e64300100000077000000000000f093f5e1439170b97948e833285d588181b64550b829a031e1724e643001000000770000000100000000000000";
"00000000000000000000000000000000000000000000000001000000b3000000000000f093f5e1439170b97948e833285d588181b64550b829a031e1724e6430";
"0900000000000000d4ffffef93f5e1439170b97948e833285d588181b64550b829a031e1724e6430700000000100000000000000000000000000000000000000";
"00000000000000000000000071000000010000000000000000000000000000000000000000000000000000000000000072000000010000000000000000000000";
"00000000000000000000000000000000000000007300000001000000000000000000000000000000000000000000000000000000000000007400000001000000";
"00000000000000000000000000000000000000000000000000000000750000000100000000000000000000000000000000000000000000000000000000000000";
"76000000010000000000000000000000000000000000000000000000000000000000000077000000010000000000000000000000000000000000000000000000";
"000000000000000009000000000000002d0000000000000000000000000000000000000000000000000000000000000070000000000000f093f5e1439170b979";
"48e833285d588181b64550b829a031e1724e643071000000000000f093f5e1439170b97948e833285d588181b64550b829a031e1724e643072000000000000f0";
"93f5e1439170b97948e833285d588181b64550b829a031e1724e643073000000000000f093f5e1439170b97948e833285d588181b64550b829a031e1724e6430";
"74000000000000f093f5e1439170b97948e833285d588181b64550b829a031e1724e643075000000000000f093f5e1439170b97948e833285d588181b64550b8";
"29a031e1724e643076000000000000f093f5e1439170b97948e833285d588181b64550b829a031e1724e643077000000000000f093f5e1439170b97948e83328";
"5d588181b64550b829a031e1724e64300900000000000000e4feffef93f5e1439170b97948e833285d588181b64550b829a031e1724e6430ac00000001000000";
"00000000000000000000000000000000000000000000000000000000ad0000000100000000000000000000000000000000000000000000000000000000000000";
"ae0000000100000000000000000000000000000000000000000000000000000000000000af000000010000000000000000000000000000000000000000000000";
"0000000000000000b00000000100000000000000000000000000000000000000000000000000000000000000b100000001000000000000000000000000000000";
"00000000000000000000000000000000b20000000100000000000000000000000000000000000000000000000000000000000000b30000000100000000000000";
"0000000000000000000000000000000000000000000000000100000078000000000000f093f5e1439170b97948e833285d588181b64550b829a031e1724e6430";
"0100000078000000010000000000000000000000000000000000000000000000000000000000000001000000b4000000000000f093f5e1439170b97948e83328";
"5d588181b64550b829a031e1724e64300100000079000000000000f093f5e1439170b97948e833285d588181b64550b829a031e1724e64300100000079000000";
"010000000000000000000000000000000000000000000000000000000000000001000000b5000000000000f093f5e1439170b97948e833285d588181b64550b8";
"29a031e1724e64300900000000000000d4ffffef93f5e1439170b97948e833285d588181b64550b829a031e1724e643068000000010000000000000000000000";
"00000000000000000000000000000000000000006900000001000000000000000000000000000000000000000000000000000000000000006a00000001000000";
"00000000000000000000000000000000000000000000000000000000700000000100000000000000000000000000000000000000000000000000000000000000";
"71000000010000000000000000000000000000000000000000000000000000000000000072000000010000000000000000000000000000000000000000000000";
"00000000000000007800000001000000000000000000000000000000000000000000000000000000000000007900000001000000000000000000000000000000";
"0000000000000000000000000000000009000000000000002d0000000000000000000000000000000000000000000000000000000000000068000000000000f0";
"93f5e1439170b97948e833285d588181b64550b829a031e1724e643069000000000000f093f5e1439170b97948e833285d588181b64550b829a031e1724e6430";
"6a000000000000f093f5e1439170b97948e833285d588181b64550b829a031e1724e643070000000000000f093f5e1439170b97948e833285d588181b64550b8";
"29a031e1724e643071000000000000f093f5e1439170b97948e833285d588181b64550b829a031e1724e643072000000000000f093f5e1439170b97948e83328";
"5d588181b64550b829a031e1724e643078000000000000f093f5e1439170b97948e833285d588181b64550b829a031e1724e643079000000000000f093f5e143";
"9170b97948e833285d588181b64550b829a031e1724e64300900000000000000e4feffef93f5e1439170b97948e833285d588181b64550b829a031e1724e6430";
"a40000000100000000000000000000000000000000000000000000000000000000000000a5000000010000000000000000000000000000000000000000000000";
"0000000000000000a60000000100000000000000000000000000000000000000000000000000000000000000ac00000001000000000000000000000000000000";
"00000000000000000000000000000000ad0000000100000000000000000000000000000000000000000000000000000000000000ae0000000100000000000000";
"000000000000000000000000000000000000000000000000b40000000100000000000000000000000000000000000000000000000000000000000000b5000000";
"0100000000000000000000000000000000000000000000000000000000000000010000007a000000000000f093f5e1439170b97948e833285d588181b64550b8";
"29a031e1724e6430010000007a000000010000000000000000000000000000000000000000000000000000000000000001000000b6000000000000f093f5e143";
"9170b97948e833285d588181b64550b829a031e1724e6430010000007b000000000000f093f5e1439170b97948e833285d588181b64550b829a031e1724e6430";
"010000007b000000010000000000000000000000000000000000000000000000000000000000000001000000b7000000000000f093f5e1439170b97948e83328";
"5d588181b64550b829a031e1724e64300900000000000000d4ffffef93f5e1439170b97948e833285d588181b64550b829a031e1724e64306b00000001000000";
"000000000000000000000000000000000000000000000000000000006c0000000100000000000000000000000000000000000000000000000000000000000000";
"6d000000010000000000000000000000000000000000000000000000000000000000000073000000010000000000000000000000000000000000000000000000";
"00000000000000007400000001000000000000000000000000000000000000000000000000000000000000007500000001000000000000000000000000000000";
"000000000000000000000000000000007a00000001000000000000000000000000000000000000000000000000000000000000007b0000000100000000000000";
"00000000000000000000000000000000000000000000000009000000000000002d00000000000000000000000000000000000000000000000000000000000000";
"6b000000000000f093f5e1439170b97948e833285d588181b64550b829a031e1724e64306c000000000000f093f5e1439170b97948e833285d588181b64550b8";
"29a031e1724e64306d000000000000f093f5e1439170b97948e833285d588181b64550b829a031e1724e643073000000000000f093f5e1439170b97948e83328";
"5d588181b64550b829a031e1724e643074000000000000f093f5e1439170b97948e833285d588181b64550b829a031e1724e643075000000000000f093f5e143";
"9170b97948e833285d588181b64550b829a031e1724e64307a000000000000f093f5e1439170b97948e833285d588181b64550b829a031e1724e64307b000000";
"000000f093f5e1439170b97948e833285d588181b64550b829a031e1724e64300900000000000000e4feffef93f5e1439170b97948e833285d588181b64550b8";
"29a031e1724e6430a70000000100000000000000000000000000000000000000000000000000000000000000a800000001000000000000000000000000000000";
"00000000000000000000000000000000a90000000100000000000000000000000000000000000000000000000000000000000000af0000000100000000000000";
"000000000000000000000000000000000000000000000000b00000000100000000000000000000000000000000000000000000000000000000000000b1000000";
"0100000000000000000000000000000000000000000000000000000000000000b600000001000000000000000000000000000000000000000000000000000000";
"00000000b70000000100000000000000000000000000000000000000000000000000000000000000010000007c000000000000f093f5e1439170b97948e83328";
"5d588181b64550b829a031e1724e6430010000007c000000010000000000000000000000000000000000000000000000000000000000000001000000b8000000";
"000000f093f5e1439170b97948e833285d588181b64550b829a031e1724e6430010000007d000000000000f093f5e1439170b97948e833285d588181b64550b8";
"29a031e1724e6430010000007d000000010000000000000000000000000000000000000000000000000000000000000001000000b9000000000000f093f5e143";
"9170b97948e833285d588181b64550b829a031e1724e64300f000000000000002d00000000000000000000000000000000000000000000000000000000000000";
"68000000000000f093f5e1439170b97948e833285d588181b64550b829a031e1724e643069000000000000f093f5e1439170b97948e833285d588181b64550b8";
"29a031e1724e64306a000000000000f093f5e1439170b97948e833285d588181b64550b829a031e1724e64306b000000000000f093f5e1439170b97948e83328";
"5d588181b64550b829a031e1724e64306c000000000000f093f5e1439170b97948e833285d588181b64550b829a031e1724e64306d000000000000f093f5e143";
"9170b97948e833285d588181b64550b829a031e1724e643070000000000000f093f5e1439170b97948e833285d588181b64550b829a031e1724e643071000000";
"000000f093f5e1439170b97948e833285d588181b64550b829a031e1724e643072000000000000f093f5e1439170b97948e833285d588181b64550b829a031e1";
"724e643073000000000000f093f5e1439170b97948e833285d588181b64550b829a031e1724e643074000000000000f093f5e1439170b97948e833285d588181";
"b64550b829a031e1724e643075000000000000f093f5e1439170b97948e833285d588181b64550b829a031e1724e64307c000000010000000000000000000000";
"00000000000000000000000000000000000000007d00000001000000000000000000000000000000000000000000000000000000000000000f00000000000000";
"d4ffffef93f5e1439170b97948e833285d588181b64550b829a031e1724e64306800000001000000000000000000000000000000000000000000000000000000";
"000000006900000001000000000000000000000000000000000000000000000000000000000000006a0000000100000000000000000000000000000000000000";
"0000000000000000000000006b00000001000000000000000000000000000000000000000000000000000000000000006c000000010000000000000000000000";
"00000000000000000000000000000000000000006d00000001000000000000000000000000000000000000000000000000000000000000007000000001000000";
"00000000000000000000000000000000000000000000000000000000710000000100000000000000000000000000000000000000000000000000000000000000";
"72000000010000000000000000000000000000000000000000000000000000000000000073000000010000000000000000000000000000000000000000000000";
"00000000000000007400000001000000000000000000000000000000000000000000000000000000000000007500000001000000000000000000000000000000";
"000000000000000000000000000000007c000000000000f093f5e1439170b97948e833285d588181b64550b829a031e1724e64307d000000000000f093f5e143";
"9170b97948e833285d588181b64550b829a031e1724e64300f000000000000001d01000000000000000000000000000000000000000000000000000000000000";
"a4000000000000f093f5e1439170b97948e833285d588181b64550b829a031e1724e6430a5000000000000f093f5e1439170b97948e833285d588181b64550b8";
"29a031e1724e6430a6000000000000f093f5e1439170b97948e833285d588181b64550b829a031e1724e6430a7000000000000f093f5e1439170b97948e83328";
"5d588181b64550b829a031e1724e6430a8000000000000f093f5e1439170b97948e833285d588181b64550b829a031e1724e6430a9000000000000f093f5e143";
"9170b97948e833285d588181b64550b829a031e1724e6430ac000000000000f093f5e1439170b97948e833285d588181b64550b829a031e1724e6430ad000000";
"000000f093f5e1439170b97948e833285d588181b64550b829a031e1724e6430ae000000000000f093f5e1439170b97948e833285d588181b64550b829a031e1";
"724e6430af000000000000f093f5e1439170b97948e833285d588181b64550b829a031e1724e6430b0000000000000f093f5e1439170b97948e833285d588181";
"b64550b829a031e1724e6430b1000000000000f093f5e1439170b97948e833285d588181b64550b829a031e1724e6430b8000000010000000000000000000000";
"0000000000000000000000000000000000000000b90000000100000000000000000000000000000000000000000000000000000000000000010000007e000000";
"000000f093f5e1439170b97948e833285d588181b64550b829a031e1724e6430010000007e000000010000000000000000000000000000000000000000000000";
"000000000000000001000000ba000000000000f093f5e1439170b97948e833285d588181b64550b829a031e1724e6430010000007f000000000000f093f5e143";
"9170b97948e833285d588181b64550b829a031e1724e6430010000007f0000000100000000000000000000000000000000000000000000000000000000000000";
"01000000bb000000000000f093f5e1439170b97948e833285d588181b64550b829a031e1724e64300100000080000000000000f093f5e1439170b97948e83328";
"5d588181b64550b829a031e1724e64300100000080000000010000000000000000000000000000000000000000000000000000000000000001000000bc000000";
"000000f093f5e1439170b97948e833285d588181b64550b829a031e1724e64300100000081000000000000f093f5e1439170b97948e833285d588181b64550b8";
"29a031e1724e64300100000081000000010000000000000000000000000000000000000000000000000000000000000001000000bd000000000000f093f5e143";
"9170b97948e833285d588181b64550b829a031e1724e64300100000082000000000000f093f5e1439170b97948e833285d588181b64550b829a031e1724e6430";
"0100000082000000010000000000000000000000000000000000000000000000000000000000000001000000be000000000000f093f5e1439170b97948e83328";
"5d588181b64550b829a031e1724e64300100000083000000000000f093f5e1439170b97948e833285d588181b64550b829a031e1724e64300100000083000000";
"010000000000000000000000000000000000000000000000000000000000000001000000bf000000000000f093f5e1439170b97948e833285d588181b64550b8";
"29a031e1724e64300100000084000000000000f093f5e1439170b97948e833285d588181b64550b829a031e1724e643001000000840000000100000000000000";
"00000000000000000000000000000000000000000000000001000000c0000000000000f093f5e1439170b97948e833285d588181b64550b829a031e1724e6430";
"0100000085000000000000f093f5e1439170b97948e833285d588181b64550b829a031e1724e6430010000008500000001000000000000000000000000000000";
"0000000000000000000000000000000001000000c1000000000000f093f5e1439170b97948e833285d588181b64550b829a031e1724e64300900000000000000";
"d4ffffef93f5e1439170b97948e833285d588181b64550b829a031e1724e64307e00000001000000000000000000000000000000000000000000000000000000";
"000000007f0000000100000000000000000000000000000000000000000000000000000000000000800000000100000000000000000000000000000000000000";
"00000000000000000000000081000000010000000000000000000000000000000000000000000000000000000000000082000000010000000000000000000000";
"00000000000000000000000000000000000000008300000001000000000000000000000000000000000000000000000000000000000000008400000001000000";
"00000000000000000000000000000000000000000000000000000000850000000100000000000000000000000000000000000000000000000000000000000000";
"09000000000000002d000000000000000000000000000000000000000000000000000000000000007e000000000000f093f5e1439170b97948e833285d588181";
"b64550b829a031e1724e64307f000000000000f093f5e1439170b97948e833285d588181b64550b829a031e1724e643080000000000000f093f5e1439170b979";
"48e833285d588181b64550b829a031e1724e643081000000000000f093f5e1439170b97948e833285d588181b64550b829a031e1724e643082000000000000f0";
"93f5e1439170b97948e833285d588181b64550b829a031e1724e643083000000000000f093f5e1439170b97948e833285d588181b64550b829a031e1724e6430";
"84000000000000f093f5e1439170b97948e833285d588181b64550b829a031e1724e643085000000000000f093f5e1439170b97948e833285d588181b64550b8";
"29a031e1724e64300900000000000000e4feffef93f5e1439170b97948e833285d588181b64550b829a031e1724e6430ba000000010000000000000000000000";
"0000000000000000000000000000000000000000bb0000000100000000000000000000000000000000000000000000000000000000000000bc00000001000000";
"00000000000000000000000000000000000000000000000000000000bd0000000100000000000000000000000000000000000000000000000000000000000000";
"be0000000100000000000000000000000000000000000000000000000000000000000000bf000000010000000000000000000000000000000000000000000000";
"0000000000000000c00000000100000000000000000000000000000000000000000000000000000000000000c100000001000000000000000000000000000000";
"000000000000000000000000000000000100000086000000000000f093f5e1439170b97948e833285d588181b64550b829a031e1724e64300100000086000000";
"010000000000000000000000000000000000000000000000000000000000000001000000c2000000000000f093f5e1439170b97948e833285d588181b64550b8";
"29a031e1724e64300100000087000000000000f093f5e1439170b97948e833285d588181b64550b829a031e1724e643001000000870000000100000000000000";
"00000000000000000000000000000000000000000000000001000000c3000000000000f093f5e1439170b97948e833285d588181b64550b829a031e1724e6430";
"0100000088000000000000f093f5e1439170b97948e833285d588181b64550b829a031e1724e6430010000008800000001000000000000000000000000000000";
"0000000000000000000000000000000001000000c4000000000000f093f5e1439170b97948e833285d588181b64550b829a031e1724e64300100000089000000";
"000000f093f5e1439170b97948e833285d588181b64550b829a031e1724e64300100000089000000010000000000000000000000000000000000000000000000";
"000000000000000001000000c5000000000000f093f5e1439170b97948e833285d588181b64550b829a031e1724e6430010000008a000000000000f093f5e143";
"9170b97948e833285d588181b64550b829a031e1724e6430010000008a0000000100000000000000000000000000000000000000000000000000000000000000";
"01000000c6000000000000f093f5e1439170b97948e833285d588181b64550b829a031e1724e6430010000008b000000000000f093f5e1439170b97948e83328";
"5d588181b64550b829a031e1724e6430010000008b000000010000000000000000000000000000000000000000000000000000000000000001000000c7000000";
"000000f093f5e1439170b97948e833285d588181b64550b829a031e1724e6430010000008c000000000000f093f5e1439170b97948e833285d588181b64550b8";
"29a031e1724e6430010000008c000000010000000000000000000000000000000000000000000000000000000000000001000000c8000000000000f093f5e143";
"9170b97948e833285d588181b64550b829a031e1724e6430010000008d000000000000f093f5e1439170b97948e833285d588181b64550b829a031e1724e6430";
"010000008d000000010000000000000000000000000000000000000000000000000000000000000001000000c9000000000000f093f5e1439170b97948e83328";
"5d588181b64550b829a031e1724e64300900000000000000d4ffffef93f5e1439170b97948e833285d588181b64550b829a031e1724e64308600000001000000";
"00000000000000000000000000000000000000000000000000000000870000000100000000000000000000000000000000000000000000000000000000000000";
"88000000010000000000000000000000000000000000000000000000000000000000000089000000010000000000000000000000000000000000000000000000";
"00000000000000008a00000001000000000000000000000000000000000000000000000000000000000000008b00000001000000000000000000000000000000";
"000000000000000000000000000000008c00000001000000000000000000000000000000000000000000000000000000000000008d0000000100000000000000";
"00000000000000000000000000000000000000000000000009000000000000002d00000000000000000000000000000000000000000000000000000000000000";
"86000000000000f093f5e1439170b97948e833285d588181b64550b829a031e1724e643087000000000000f093f5e1439170b97948e833285d588181b64550b8";
"29a031e1724e643088000000000000f093f5e1439170b97948e833285d588181b64550b829a031e1724e643089000000000000f093f5e1439170b97948e83328";
"5d588181b64550b829a031e1724e64308a000000000000f093f5e1439170b97948e833285d588181b64550b829a031e1724e64308b000000000000f093f5e143";
"9170b97948e833285d588181b64550b829a031e1724e64308c000000000000f093f5e1439170b97948e833285d588181b64550b829a031e1724e64308d000000";
"000000f093f5e1439170b97948e833285d588181b64550b829a031e1724e64300900000000000000e4feffef93f5e1439170b97948e833285d588181b64550b8";
"29a031e1724e6430c20000000100000000000000000000000000000000000000000000000000000000000000c300000001000000000000000000000000000000";
"00000000000000000000000000000000c40000000100000000000000000000000000000000000000000000000000000000000000c50000000100000000000000";
"000000000000000000000000000000000000000000000000c60000000100000000000000000000000000000000000000000000000000000000000000c7000000";
"0100000000000000000000000000000000000000000000000000000000000000c800000001000000000000000000000000000000000000000000000000000000";
"00000000c900000001000000000000000000000000000000000000000000000000000000000000000900000000000000d4ffffef93f5e1439170b97948e83328";
"5d588181b64550b829a031e1724e64305200000001000000000000000000000000000000000000000000000000000000000000005a0000000100000000000000";
"00000000000000000000000000000000000000000000000062000000010000000000000000000000000000000000000000000000000000000000000068000000";
"01000000000000000000000000000000000000000000000000000000000000007000000001000000000000000000000000000000000000000000000000000000";
"000000007800000001000000000000000000000000000000000000000000000000000000000000007e0000000100000000000000000000000000000000000000";
"00000000000000000000000086000000010000000000000000000000000000000000000000000000000000000000000009000000000000002d00000000000000";
"00000000000000000000000000000000000000000000000052000000000000f093f5e1439170b97948e833285d588181b64550b829a031e1724e64305a000000";
"000000f093f5e1439170b97948e833285d588181b64550b829a031e1724e643062000000000000f093f5e1439170b97948e833285d588181b64550b829a031e1";
"724e643068000000000000f093f5e1439170b97948e833285d588181b64550b829a031e1724e643070000000000000f093f5e1439170b97948e833285d588181";
"b64550b829a031e1724e643078000000000000f093f5e1439170b97948e833285d588181b64550b829a031e1724e64307e000000000000f093f5e1439170b979";
"48e833285d588181b64550b829a031e1724e643086000000000000f093f5e1439170b97948e833285d588181b64550b829a031e1724e64300900000000000000";
"e4feffef93f5e1439170b97948e833285d588181b64550b829a031e1724e64308e00000001000000000000000000000000000000000000000000000000000000";
"000000009600000001000000000000000000000000000000000000000000000000000000000000009e0000000100000000000000000000000000000000000000";
"000000000000000000000000a40000000100000000000000000000000000000000000000000000000000000000000000ac000000010000000000000000000000";
"0000000000000000000000000000000000000000b40000000100000000000000000000000000000000000000000000000000000000000000ba00000001000000";
"00000000000000000000000000000000000000000000000000000000c20000000100000000000000000000000000000000000000000000000000000000000000";
"0900000000000000d4ffffef93f5e1439170b97948e833285d588181b64550b829a031e1724e6430530000000100000000000000000000000000000000000000";
"0000000000000000000000005b000000010000000000000000000000000000000000000000000000000000000000000063000000010000000000000000000000";
"00000000000000000000000000000000000000006900000001000000000000000000000000000000000000000000000000000000000000007100000001000000";
"00000000000000000000000000000000000000000000000000000000790000000100000000000000000000000000000000000000000000000000000000000000";
"7f000000010000000000000000000000000000000000000000000000000000000000000087000000010000000000000000000000000000000000000000000000";
"000000000000000009000000000000002d0000000000000000000000000000000000000000000000000000000000000053000000000000f093f5e1439170b979";
"48e833285d588181b64550b829a031e1724e64305b000000000000f093f5e1439170b97948e833285d588181b64550b829a031e1724e643063000000000000f0";
"93f5e1439170b97948e833285d588181b64550b829a031e1724e643069000000000000f093f5e1439170b97948e833285d588181b64550b829a031e1724e6430";
"71000000000000f093f5e1439170b97948e833285d588181b64550b829a031e1724e643079000000000000f093f5e1439170b97948e833285d588181b64550b8";
"29a031e1724e64307f000000000000f093f5e1439170b97948e833285d588181b64550b829a031e1724e643087000000000000f093f5e1439170b97948e83328";
"5d588181b64550b829a031e1724e64300900000000000000e4feffef93f5e1439170b97948e833285d588181b64550b829a031e1724e64308f00000001000000";
"00000000000000000000000000000000000000000000000000000000970000000100000000000000000000000000000000000000000000000000000000000000";
"9f0000000100000000000000000000000000000000000000000000000000000000000000a5000000010000000000000000000000000000000000000000000000";
"0000000000000000ad0000000100000000000000000000000000000000000000000000000000000000000000b500000001000000000000000000000000000000";
"00000000000000000000000000000000bb0000000100000000000000000000000000000000000000000000000000000000000000c30000000100000000000000";
"0000000000000000000000000000000000000000000000000f000000000000002d00000000000000000000000000000000000000000000000000000000000000";
"52000000000000f093f5e1439170b97948e833285d588181b64550b829a031e1724e643053000000000000f093f5e1439170b97948e833285d588181b64550b8";
"29a031e1724e64305a000000000000f093f5e1439170b97948e833285d588181b64550b829a031e1724e64305b000000000000f093f5e1439170b97948e83328";
"5d588181b64550b829a031e1724e643062000000000000f093f5e1439170b97948e833285d588181b64550b829a031e1724e643063000000000000f093f5e143";
"9170b97948e833285d588181b64550b829a031e1724e643068000000000000f093f5e1439170b97948e833285d588181b64550b829a031e1724e643069000000";
"000000f093f5e1439170b97948e833285d588181b64550b829a031e1724e643070000000000000f093f5e1439170b97948e833285d588181b64550b829a031e1";
"724e643071000000000000f093f5e1439170b97948e833285d588181b64550b829a031e1724e643078000000000000f093f5e1439170b97948e833285d588181";
"b64550b829a031e1724e643079000000000000f093f5e1439170b97948e833285d588181b64550b829a031e1724e643080000000010000000000000000000000";
"00000000000000000000000000000000000000008800000001000000000000000000000000000000000000000000000000000000000000000f00000000000000";
"d4ffffef93f5e1439170b97948e833285d588181b64550b829a031e1724e64305200000001000000000000000000000000000000000000000000000000000000";
"000000005300000001000000000000000000000000000000000000000000000000000000000000005a0000000100000000000000000000000000000000000000";
"0000000000000000000000005b000000010000000000000000000000000000000000000000000000000000000000000062000000010000000000000000000000";
"00000000000000000000000000000000000000006300000001000000000000000000000000000000000000000000000000000000000000006800000001000000";
"00000000000000000000000000000000000000000000000000000000690000000100000000000000000000000000000000000000000000000000000000000000";
"70000000010000000000000000000000000000000000000000000000000000000000000071000000010000000000000000000000000000000000000000000000";
"00000000000000007800000001000000000000000000000000000000000000000000000000000000000000007900000001000000000000000000000000000000";
"0000000000000000000000000000000080000000000000f093f5e1439170b97948e833285d588181b64550b829a031e1724e643088000000000000f093f5e143";
"9170b97948e833285d588181b64550b829a031e1724e64300f000000000000001d01000000000000000000000000000000000000000000000000000000000000";
"8e000000000000f093f5e1439170b97948e833285d588181b64550b829a031e1724e64308f000000000000f093f5e1439170b97948e833285d588181b64550b8";
"29a031e1724e643096000000000000f093f5e1439170b97948e833285d588181b64550b829a031e1724e643097000000000000f093f5e1439170b97948e83328";
"5d588181b64550b829a031e1724e64309e000000000000f093f5e1439170b97948e833285d588181b64550b829a031e1724e64309f000000000000f093f5e143";
"9170b97948e833285d588181b64550b829a031e1724e6430a4000000000000f093f5e1439170b97948e833285d588181b64550b829a031e1724e6430a5000000";
"000000f093f5e1439170b97948e833285d588181b64550b829a031e1724e6430ac000000000000f093f5e1439170b97948e833285d588181b64550b829a031e1";
"724e6430ad000000000000f093f5e1439170b97948e833285d588181b64550b829a031e1724e6430b4000000000000f093f5e1439170b97948e833285d588181";
"b64550b829a031e1724e6430b5000000000000f093f5e1439170b97948e833285d588181b64550b829a031e1724e6430bc000000010000000000000000000000";
"0000000000000000000000000000000000000000c400000001000000000000000000000000000000000000000000000000000000000000000900000000000000";
"d4ffffef93f5e1439170b97948e833285d588181b64550b829a031e1724e64305500000001000000000000000000000000000000000000000000000000000000";
"000000005d0000000100000000000000000000000000000000000000000000000000000000000000640000000100000000000000000000000000000000000000";
"0000000000000000000000006b000000010000000000000000000000000000000000000000000000000000000000000073000000010000000000000000000000";
"00000000000000000000000000000000000000007a00000001000000000000000000000000000000000000000000000000000000000000008100000001000000";
"00000000000000000000000000000000000000000000000000000000890000000100000000000000000000000000000000000000000000000000000000000000";
"09000000000000002d0000000000000000000000000000000000000000000000000000000000000055000000000000f093f5e1439170b97948e833285d588181";
"b64550b829a031e1724e64305d000000000000f093f5e1439170b97948e833285d588181b64550b829a031e1724e643064000000000000f093f5e1439170b979";
"48e833285d588181b64550b829a031e1724e64306b000000000000f093f5e1439170b97948e833285d588181b64550b829a031e1724e643073000000000000f0";
"93f5e1439170b97948e833285d588181b64550b829a031e1724e64307a000000000000f093f5e1439170b97948e833285d588181b64550b829a031e1724e6430";
"81000000000000f093f5e1439170b97948e833285d588181b64550b829a031e1724e643089000000000000f093f5e1439170b97948e833285d588181b64550b8";
"29a031e1724e64300900000000000000e4feffef93f5e1439170b97948e833285d588181b64550b829a031e1724e643091000000010000000000000000000000";
"0000000000000000000000000000000000000000990000000100000000000000000000000000000000000000000000000000000000000000a000000001000000";
"00000000000000000000000000000000000000000000000000000000a70000000100000000000000000000000000000000000000000000000000000000000000";
"af0000000100000000000000000000000000000000000000000000000000000000000000b6000000010000000000000000000000000000000000000000000000";
"0000000000000000bd0000000100000000000000000000000000000000000000000000000000000000000000c500000001000000000000000000000000000000";
"000000000000000000000000000000000900000000000000d4ffffef93f5e1439170b97948e833285d588181b64550b829a031e1724e64305600000001000000";
"000000000000000000000000000000000000000000000000000000005e0000000100000000000000000000000000000000000000000000000000000000000000";
"6500000001000000000000000000000000000000000000000000000000000000000000006c000000010000000000000000000000000000000000000000000000";
"00000000000000007400000001000000000000000000000000000000000000000000000000000000000000007b00000001000000000000000000000000000000";
"000000000000000000000000000000008200000001000000000000000000000000000000000000000000000000000000000000008a0000000100000000000000";
"00000000000000000000000000000000000000000000000009000000000000002d00000000000000000000000000000000000000000000000000000000000000";
"56000000000000f093f5e1439170b97948e833285d588181b64550b829a031e1724e64305e000000000000f093f5e1439170b97948e833285d588181b64550b8";
"29a031e1724e643065000000000000f093f5e1439170b97948e833285d588181b64550b829a031e1724e64306c000000000000f093f5e1439170b97948e83328";
"5d588181b64550b829a031e1724e643074000000000000f093f5e1439170b97948e833285d588181b64550b829a031e1724e64307b000000000000f093f5e143";
"9170b97948e833285d588181b64550b829a031e1724e643082000000000000f093f5e1439170b97948e833285d588181b64550b829a031e1724e64308a000000";
"000000f093f5e1439170b97948e833285d588181b64550b829a031e1724e64300900000000000000e4feffef93f5e1439170b97948e833285d588181b64550b8";
"29a031e1724e64309200000001000000000000000000000000000000000000000000000000000000000000009a00000001000000000000000000000000000000";
"00000000000000000000000000000000a10000000100000000000000000000000000000000000000000000000000000000000000a80000000100000000000000";
"000000000000000000000000000000000000000000000000b00000000100000000000000000000000000000000000000000000000000000000000000b7000000";
"0100000000000000000000000000000000000000000000000000000000000000be00000001000000000000000000000000000000000000000000000000000000";
"00000000c600000001000000000000000000000000000000000000000000000000000000000000000f000000000000002d000000000000000000000000000000";
"0000000000000000000000000000000055000000000000f093f5e1439170b97948e833285d588181b64550b829a031e1724e643056000000000000f093f5e143";
"9170b97948e833285d588181b64550b829a031e1724e64305d000000000000f093f5e1439170b97948e833285d588181b64550b829a031e1724e64305e000000";
"000000f093f5e1439170b97948e833285d588181b64550b829a031e1724e643064000000000000f093f5e1439170b97948e833285d588181b64550b829a031e1";
"724e643065000000000000f093f5e1439170b97948e833285d588181b64550b829a031e1724e64306b000000000000f093f5e1439170b97948e833285d588181";
"b64550b829a031e1724e64306c000000000000f093f5e1439170b97948e833285d588181b64550b829a031e1724e643073000000000000f093f5e1439170b979";
"48e833285d588181b64550b829a031e1724e643074000000000000f093f5e1439170b97948e833285d588181b64550b829a031e1724e64307a000000000000f0";
"93f5e1439170b97948e833285d588181b64550b829a031e1724e64307b000000000000f093f5e1439170b97948e833285d588181b64550b829a031e1724e6430";
"8300000001000000000000000000000000000000000000000000000000000000000000008b000000010000000000000000000000000000000000000000000000";
"00000000000000000f00000000000000d4ffffef93f5e1439170b97948e833285d588181b64550b829a031e1724e643055000000010000000000000000000000";
"00000000000000000000000000000000000000005600000001000000000000000000000000000000000000000000000000000000000000005d00000001000000";
"000000000000000000000000000000000000000000000000000000005e0000000100000000000000000000000000000000000000000000000000000000000000";
"64000000010000000000000000000000000000000000000000000000000000000000000065000000010000000000000000000000000000000000000000000000";
"00000000000000006b00000001000000000000000000000000000000000000000000000000000000000000006c00000001000000000000000000000000000000";
"00000000000000000000000000000000730000000100000000000000000000000000000000000000000000000000000000000000740000000100000000000000";
"0000000000000000000000000000000000000000000000007a00000001000000000000000000000000000000000000000000000000000000000000007b000000";
"010000000000000000000000000000000000000000000000000000000000000083000000000000f093f5e1439170b97948e833285d588181b64550b829a031e1";
"724e64308b000000000000f093f5e1439170b97948e833285d588181b64550b829a031e1724e64300f000000000000001d010000000000000000000000000000";
"0000000000000000000000000000000091000000000000f093f5e1439170b97948e833285d588181b64550b829a031e1724e643092000000000000f093f5e143";
"9170b97948e833285d588181b64550b829a031e1724e643099000000000000f093f5e1439170b97948e833285d588181b64550b829a031e1724e64309a000000";
"000000f093f5e1439170b97948e833285d588181b64550b829a031e1724e6430a0000000000000f093f5e1439170b97948e833285d588181b64550b829a031e1";
"724e6430a1000000000000f093f5e1439170b97948e833285d588181b64550b829a031e1724e6430a7000000000000f093f5e1439170b97948e833285d588181";
"b64550b829a031e1724e6430a8000000000000f093f5e1439170b97948e833285d588181b64550b829a031e1724e6430af000000000000f093f5e1439170b979";
"48e833285d588181b64550b829a031e1724e6430b0000000000000f093f5e1439170b97948e833285d588181b64550b829a031e1724e6430b6000000000000f0";
"93f5e1439170b97948e833285d588181b64550b829a031e1724e6430b7000000000000f093f5e1439170b97948e833285d588181b64550b829a031e1724e6430";
"bf0000000100000000000000000000000000000000000000000000000000000000000000c7000000010000000000000000000000000000000000000000000000";
"00000000000000000900000000000000d4ffffef93f5e1439170b97948e833285d588181b64550b829a031e1724e643058000000010000000000000000000000";
"00000000000000000000000000000000000000006000000001000000000000000000000000000000000000000000000000000000000000006600000001000000";
"000000000000000000000000000000000000000000000000000000006e0000000100000000000000000000000000000000000000000000000000000000000000";
"7600000001000000000000000000000000000000000000000000000000000000000000007c000000010000000000000000000000000000000000000000000000";
"00000000000000008400000001000000000000000000000000000000000000000000000000000000000000008c00000001000000000000000000000000000000";
"0000000000000000000000000000000009000000000000002d0000000000000000000000000000000000000000000000000000000000000058000000000000f0";
"93f5e1439170b97948e833285d588181b64550b829a031e1724e643060000000000000f093f5e1439170b97948e833285d588181b64550b829a031e1724e6430";
"66000000000000f093f5e1439170b97948e833285d588181b64550b829a031e1724e64306e000000000000f093f5e1439170b97948e833285d588181b64550b8";
"29a031e1724e643076000000000000f093f5e1439170b97948e833285d588181b64550b829a031e1724e64307c000000000000f093f5e1439170b97948e83328";
"5d588181b64550b829a031e1724e643084000000000000f093f5e1439170b97948e833285d588181b64550b829a031e1724e64308c000000000000f093f5e143";
"9170b97948e833285d588181b64550b829a031e1724e64300900000000000000e4feffef93f5e1439170b97948e833285d588181b64550b829a031e1724e6430";
"9400000001000000000000000000000000000000000000000000000000000000000000009c000000010000000000000000000000000000000000000000000000";
"0000000000000000a20000000100000000000000000000000000000000000000000000000000000000000000aa00000001000000000000000000000000000000";
"00000000000000000000000000000000b20000000100000000000000000000000000000000000000000000000000000000000000b80000000100000000000000";
"000000000000000000000000000000000000000000000000c00000000100000000000000000000000000000000000000000000000000000000000000c8000000";
"01000000000000000000000000000000000000000000000000000000000000000900000000000000d4ffffef93f5e1439170b97948e833285d588181b64550b8";
"29a031e1724e64305900000001000000000000000000000000000000000000000000000000000000000000006100000001000000000000000000000000000000";
"000000000000000000000000000000006700000001000000000000000000000000000000000000000000000000000000000000006f0000000100000000000000";
"0000000000000000000000000000000000000000000000007700000001000000000000000000000000000000000000000000000000000000000000007d000000";
"01000000000000000000000000000000000000000000000000000000000000008500000001000000000000000000000000000000000000000000000000000000";
"000000008d000000010000000000000000000000000000000000000000000000000000000000000009000000000000002d000000000000000000000000000000";
"0000000000000000000000000000000059000000000000f093f5e1439170b97948e833285d588181b64550b829a031e1724e643061000000000000f093f5e143";
"9170b97948e833285d588181b64550b829a031e1724e643067000000000000f093f5e1439170b97948e833285d588181b64550b829a031e1724e64306f000000";
"000000f093f5e1439170b97948e833285d588181b64550b829a031e1724e643077000000000000f093f5e1439170b97948e833285d588181b64550b829a031e1";
"724e64307d000000000000f093f5e1439170b97948e833285d588181b64550b829a031e1724e643085000000000000f093f5e1439170b97948e833285d588181";
"b64550b829a031e1724e64308d000000000000f093f5e1439170b97948e833285d588181b64550b829a031e1724e64300900000000000000e4feffef93f5e143";
"9170b97948e833285d588181b64550b829a031e1724e64309500000001000000000000000000000000000000000000000000000000000000000000009d000000";
"0100000000000000000000000000000000000000000000000000000000000000a300000001000000000000000000000000000000000000000000000000000000";
"00000000ab0000000100000000000000000000000000000000000000000000000000000000000000b30000000100000000000000000000000000000000000000";
"000000000000000000000000b90000000100000000000000000000000000000000000000000000000000000000000000c1000000010000000000000000000000";
"0000000000000000000000000000000000000000c900000001000000000000000000000000000000000000000000000000000000000000001d00000000000000";
"870000000000000000000000000000000000000000000000000000000000000058000000000000f093f5e1439170b97948e833285d588181b64550b829a031e1";
"724e643059000000000000f093f5e1439170b97948e833285d588181b64550b829a031e1724e643060000000000000f093f5e1439170b97948e833285d588181";
"b64550b829a031e1724e643061000000000000f093f5e1439170b97948e833285d588181b64550b829a031e1724e643066000000000000f093f5e1439170b979";
"48e833285d588181b64550b829a031e1724e643067000000000000f093f5e1439170b97948e833285d588181b64550b829a031e1724e64306e000000000000f0";
"93f5e1439170b97948e833285d588181b64550b829a031e1724e64306f000000000000f093f5e1439170b97948e833285d588181b64550b829a031e1724e6430";
"76000000000000f093f5e1439170b97948e833285d588181b64550b829a031e1724e643077000000000000f093f5e1439170b97948e833285d588181b64550b8";
"29a031e1724e64307c000000000000f093f5e1439170b97948e833285d588181b64550b829a031e1724e64307d000000000000f093f5e1439170b97948e83328";
"5d588181b64550b829a031e1724e64307e000000000000f093f5e1439170b97948e833285d588181b64550b829a031e1724e64307f000000000000f093f5e143";
"9170b97948e833285d588181b64550b829a031e1724e643080000000000000f093f5e1439170b97948e833285d588181b64550b829a031e1724e643081000000";
"000000f093f5e1439170b97948e833285d588181b64550b829a031e1724e643082000000000000f093f5e1439170b97948e833285d588181b64550b829a031e1";
"724e643083000000000000f093f5e1439170b97948e833285d588181b64550b829a031e1724e643084000000000000f093f5e1439170b97948e833285d588181";
"b64550b829a031e1724e643085000000000000f093f5e1439170b97948e833285d588181b64550b829a031e1724e643086000000000000f093f5e1439170b979";
"48e833285d588181b64550b829a031e1724e643087000000000000f093f5e1439170b97948e833285d588181b64550b829a031e1724e643088000000000000f0";
"93f5e1439170b97948e833285d588181b64550b829a031e1724e643089000000000000f093f5e1439170b97948e833285d588181b64550b829a031e1724e6430";
"8a000000000000f093f5e1439170b97948e833285d588181b64550b829a031e1724e64308b000000000000f093f5e1439170b97948e833285d588181b64550b8";
"29a031e1724e64308c000000000000f093f5e1439170b97948e833285d588181b64550b829a031e1724e64308d000000000000f093f5e1439170b97948e83328";
"5d588181b64550b829a031e1724e64301d000000000000007affffef93f5e1439170b97948e833285d588181b64550b829a031e1724e64305800000001000000";
"00000000000000000000000000000000000000000000000000000000590000000100000000000000000000000000000000000000000000000000000000000000";
"60000000010000000000000000000000000000000000000000000000000000000000000061000000010000000000000000000000000000000000000000000000";
"00000000000000006600000001000000000000000000000000000000000000000000000000000000000000006700000001000000000000000000000000000000";
"000000000000000000000000000000006e00000001000000000000000000000000000000000000000000000000000000000000006f0000000100000000000000";
"00000000000000000000000000000000000000000000000076000000010000000000000000000000000000000000000000000000000000000000000077000000";
"01000000000000000000000000000000000000000000000000000000000000007c00000001000000000000000000000000000000000000000000000000000000";
"000000007d00000001000000000000000000000000000000000000000000000000000000000000007e0000000100000000000000000000000000000000000000";
"0000000000000000000000007f000000010000000000000000000000000000000000000000000000000000000000000080000000010000000000000000000000";
"00000000000000000000000000000000000000008100000001000000000000000000000000000000000000000000000000000000000000008200000001000000";
"00000000000000000000000000000000000000000000000000000000830000000100000000000000000000000000000000000000000000000000000000000000";
"84000000010000000000000000000000000000000000000000000000000000000000000085000000010000000000000000000000000000000000000000000000";
"00000000000000008600000001000000000000000000000000000000000000000000000000000000000000008700000001000000000000000000000000000000";
"00000000000000000000000000000000880000000100000000000000000000000000000000000000000000000000000000000000890000000100000000000000";
"0000000000000000000000000000000000000000000000008a00000001000000000000000000000000000000000000000000000000000000000000008b000000";
"01000000000000000000000000000000000000000000000000000000000000008c00000001000000000000000000000000000000000000000000000000000000";
"000000008d00000001000000000000000000000000000000000000000000000000000000000000001d0000000000000057030000000000000000000000000000";
"0000000000000000000000000000000094000000000000f093f5e1439170b97948e833285d588181b64550b829a031e1724e643095000000000000f093f5e143";
"9170b97948e833285d588181b64550b829a031e1724e64309c000000000000f093f5e1439170b97948e833285d588181b64550b829a031e1724e64309d000000";
"000000f093f5e1439170b97948e833285d588181b64550b829a031e1724e6430a2000000000000f093f5e1439170b97948e833285d588181b64550b829a031e1";
"724e6430a3000000000000f093f5e1439170b97948e833285d588181b64550b829a031e1724e6430aa000000000000f093f5e1439170b97948e833285d588181";
"b64550b829a031e1724e6430ab000000000000f093f5e1439170b97948e833285d588181b64550b829a031e1724e6430b2000000000000f093f5e1439170b979";
"48e833285d588181b64550b829a031e1724e6430b3000000000000f093f5e1439170b97948e833285d588181b64550b829a031e1724e6430b8000000000000f0";
"93f5e1439170b97948e833285d588181b64550b829a031e1724e6430b9000000000000f093f5e1439170b97948e833285d588181b64550b829a031e1724e6430";
"ba000000000000f093f5e1439170b97948e833285d588181b64550b829a031e1724e6430bb000000000000f093f5e1439170b97948e833285d588181b64550b8";
"29a031e1724e6430bc000000000000f093f5e1439170b97948e833285d588181b64550b829a031e1724e6430bd000000000000f093f5e1439170b97948e83328";
"5d588181b64550b829a031e1724e6430be000000000000f093f5e1439170b97948e833285d588181b64550b829a031e1724e6430bf000000000000f093f5e143";
"9170b97948e833285d588181b64550b829a031e1724e6430c0000000000000f093f5e1439170b97948e833285d588181b64550b829a031e1724e6430c1000000";
"000000f093f5e1439170b97948e833285d588181b64550b829a031e1724e6430c2000000000000f093f5e1439170b97948e833285d588181b64550b829a031e1";
"724e6430c3000000000000f093f5e1439170b97948e833285d588181b64550b829a031e1724e6430c4000000000000f093f5e1439170b97948e833285d588181";
"b64550b829a031e1724e6430c5000000000000f093f5e1439170b97948e833285d588181b64550b829a031e1724e6430c6000000000000f093f5e1439170b979";
"48e833285d588181b64550b829a031e1724e6430c7000000000000f093f5e1439170b97948e833285d588181b64550b829a031e1724e6430c8000000000000f0";
"93f5e1439170b97948e833285d588181b64550b829a031e1724e6430c9000000000000f093f5e1439170b97948e833285d588181b64550b829a031e1724e6430";
"0200000001000000010000000000000000000000000000000000000000000000000000000000000052000000000000f093f5e1439170b97948e833285d588181";
"b64550b829a031e1724e643001000000010000000100000000000000000000000000000000000000000000000000000000000000000000000200000002000000";
"010000000000000000000000000000000000000000000000000000000000000053000000000000f093f5e1439170b97948e833285d588181b64550b829a031e1";
"724e6430010000000200000001000000000000000000000000000000000000000000000000000000000000000000000002000000030000000100000000000000";
"00000000000000000000000000000000000000000000000054000000000000f093f5e1439170b97948e833285d588181b64550b829a031e1724e643001000000";
"03000000010000000000000000000000000000000000000000000000000000000000000000000000020000000400000001000000000000000000000000000000";
"0000000000000000000000000000000055000000000000f093f5e1439170b97948e833285d588181b64550b829a031e1724e6430010000000400000001000000";
"00000000000000000000000000000000000000000000000000000000000000000200000005000000010000000000000000000000000000000000000000000000";
"000000000000000056000000000000f093f5e1439170b97948e833285d588181b64550b829a031e1724e64300100000005000000010000000000000000000000";
"00000000000000000000000000000000000000000000000002000000060000000100000000000000000000000000000000000000000000000000000000000000";
"57000000000000f093f5e1439170b97948e833285d588181b64550b829a031e1724e643001000000060000000100000000000000000000000000000000000000";
"000000000000000000000000000000000200000007000000010000000000000000000000000000000000000000000000000000000000000058000000000000f0";
"93f5e1439170b97948e833285d588181b64550b829a031e1724e6430010000000700000001000000000000000000000000000000000000000000000000000000";
"00000000000000000200000008000000010000000000000000000000000000000000000000000000000000000000000059000000000000f093f5e1439170b979";
"48e833285d588181b64550b829a031e1724e64300100000008000000010000000000000000000000000000000000000000000000000000000000000000000000";
"0a00000000000000d4ffffef93f5e1439170b97948e833285d588181b64550b829a031e1724e6430090000000100000000000000000000000000000000000000";
"00000000000000000000000052000000010000000000000000000000000000000000000000000000000000000000000053000000010000000000000000000000";
"00000000000000000000000000000000000000005400000001000000000000000000000000000000000000000000000000000000000000005500000001000000";
"00000000000000000000000000000000000000000000000000000000560000000100000000000000000000000000000000000000000000000000000000000000";
"57000000010000000000000000000000000000000000000000000000000000000000000058000000010000000000000000000000000000000000000000000000";
"00000000000000005900000001000000000000000000000000000000000000000000000000000000000000000100000009000000010000000000000000000000";
"000000000000000000000000000000000000000000000000020000000a0000000100000000000000000000000000000000000000000000000000000000000000";
"5a000000000000f093f5e1439170b97948e833285d588181b64550b829a031e1724e6430010000000a0000000100000000000000000000000000000000000000";
"00000000000000000000000000000000020000000b00000001000000000000000000000000000000000000000000000000000000000000005b000000000000f0";
"93f5e1439170b97948e833285d588181b64550b829a031e1724e6430010000000b00000001000000000000000000000000000000000000000000000000000000";
"0000000000000000020000000c00000001000000000000000000000000000000000000000000000000000000000000005c000000000000f093f5e1439170b979";
"48e833285d588181b64550b829a031e1724e6430010000000c000000010000000000000000000000000000000000000000000000000000000000000000000000";
"020000000d00000001000000000000000000000000000000000000000000000000000000000000005d000000000000f093f5e1439170b97948e833285d588181";
"b64550b829a031e1724e6430010000000d000000010000000000000000000000000000000000000000000000000000000000000000000000020000000e000000";
"01000000000000000000000000000000000000000000000000000000000000005e000000000000f093f5e1439170b97948e833285d588181b64550b829a031e1";
"724e6430010000000e000000010000000000000000000000000000000000000000000000000000000000000000000000020000000f0000000100000000000000";
"0000000000000000000000000000000000000000000000005f000000000000f093f5e1439170b97948e833285d588181b64550b829a031e1724e643001000000";
"0f000000010000000000000000000000000000000000000000000000000000000000000000000000020000001000000001000000000000000000000000000000";
"0000000000000000000000000000000060000000000000f093f5e1439170b97948e833285d588181b64550b829a031e1724e6430010000001000000001000000";
"00000000000000000000000000000000000000000000000000000000000000000200000011000000010000000000000000000000000000000000000000000000";
"000000000000000061000000000000f093f5e1439170b97948e833285d588181b64550b829a031e1724e64300100000011000000010000000000000000000000";
"0000000000000000000000000000000000000000000000000a00000000000000d4ffffef93f5e1439170b97948e833285d588181b64550b829a031e1724e6430";
"1200000001000000000000000000000000000000000000000000000000000000000000005a000000010000000000000000000000000000000000000000000000";
"00000000000000005b00000001000000000000000000000000000000000000000000000000000000000000005c00000001000000000000000000000000000000";
"000000000000000000000000000000005d00000001000000000000000000000000000000000000000000000000000000000000005e0000000100000000000000";
"0000000000000000000000000000000000000000000000005f000000010000000000000000000000000000000000000000000000000000000000000060000000";
"01000000000000000000000000000000000000000000000000000000000000006100000001000000000000000000000000000000000000000000000000000000";
"00000000010000001200000001000000000000000000000000000000000000000000000000000000000000000000000002000000130000000100000000000000";
"00000000000000000000000000000000000000000000000062000000000000f093f5e1439170b97948e833285d588181b64550b829a031e1724e643001000000";
"13000000010000000000000000000000000000000000000000000000000000000000000000000000020000001400000001000000000000000000000000000000";
"0000000000000000000000000000000063000000000000f093f5e1439170b97948e833285d588181b64550b829a031e1724e6430010000001400000001000000";
"00000000000000000000000000000000000000000000000000000000000000000a00000000000000d4ffffef93f5e1439170b97948e833285d588181b64550b8";
"29a031e1724e64301500000001000000000000000000000000000000000000000000000000000000000000005200000001000000000000000000000000000000";
"00000000000000000000000000000000530000000100000000000000000000000000000000000000000000000000000000000000540000000100000000000000";
"0000000000000000000000000000000000000000000000005a00000001000000000000000000000000000000000000000000000000000000000000005b000000";
"01000000000000000000000000000000000000000000000000000000000000005c00000001000000000000000000000000000000000000000000000000000000";
"00000000620000000100000000000000000000000000000000000000000000000000000000000000630000000100000000000000000000000000000000000000";
"00000000000000000000000001000000150000000100000000000000000000000000000000000000000000000000000000000000000000000200000016000000";
"010000000000000000000000000000000000000000000000000000000000000064000000000000f093f5e1439170b97948e833285d588181b64550b829a031e1";
"724e6430010000001600000001000000000000000000000000000000000000000000000000000000000000000000000002000000170000000100000000000000";
"00000000000000000000000000000000000000000000000065000000000000f093f5e1439170b97948e833285d588181b64550b829a031e1724e643001000000";
"170000000100000000000000000000000000000000000000000000000000000000000000000000000a00000000000000d4ffffef93f5e1439170b97948e83328";
"5d588181b64550b829a031e1724e6430180000000100000000000000000000000000000000000000000000000000000000000000550000000100000000000000";
"00000000000000000000000000000000000000000000000056000000010000000000000000000000000000000000000000000000000000000000000057000000";
"01000000000000000000000000000000000000000000000000000000000000005d00000001000000000000000000000000000000000000000000000000000000";
"000000005e00000001000000000000000000000000000000000000000000000000000000000000005f0000000100000000000000000000000000000000000000";
"00000000000000000000000064000000010000000000000000000000000000000000000000000000000000000000000065000000010000000000000000000000";
"00000000000000000000000000000000000000000100000018000000010000000000000000000000000000000000000000000000000000000000000000000000";
"0200000019000000010000000000000000000000000000000000000000000000000000000000000066000000000000f093f5e1439170b97948e833285d588181";
"b64550b829a031e1724e64300100000019000000010000000000000000000000000000000000000000000000000000000000000000000000020000001a000000";
"010000000000000000000000000000000000000000000000000000000000000067000000000000f093f5e1439170b97948e833285d588181b64550b829a031e1";
"724e6430010000001a00000001000000000000000000000000000000000000000000000000000000000000000000000010000000000000002d00000000000000";
"0000000000000000000000000000000000000000000000001b000000010000000000000000000000000000000000000000000000000000000000000052000000";
"000000f093f5e1439170b97948e833285d588181b64550b829a031e1724e643053000000000000f093f5e1439170b97948e833285d588181b64550b829a031e1";
"724e643054000000000000f093f5e1439170b97948e833285d588181b64550b829a031e1724e643055000000000000f093f5e1439170b97948e833285d588181";
"b64550b829a031e1724e643056000000000000f093f5e1439170b97948e833285d588181b64550b829a031e1724e643057000000000000f093f5e1439170b979";
"48e833285d588181b64550b829a031e1724e64305a000000000000f093f5e1439170b97948e833285d588181b64550b829a031e1724e64305b000000000000f0";
"93f5e1439170b97948e833285d588181b64550b829a031e1724e64305c000000000000f093f5e1439170b97948e833285d588181b64550b829a031e1724e6430";
"5d000000000000f093f5e1439170b97948e833285d588181b64550b829a031e1724e64305e000000000000f093f5e1439170b97948e833285d588181b64550b8";
"29a031e1724e64305f000000000000f093f5e1439170b97948e833285d588181b64550b829a031e1724e64306600000001000000000000000000000000000000";
"00000000000000000000000000000000670000000100000000000000000000000000000000000000000000000000000000000000010000001b00000001000000";
"0000000000000000000000000000000000000000000000000000000000000000020000001c000000010000000000000000000000000000000000000000000000";
"000000000000000068000000000000f093f5e1439170b97948e833285d588181b64550b829a031e1724e6430010000001c000000010000000000000000000000";
"000000000000000000000000000000000000000000000000020000001d0000000100000000000000000000000000000000000000000000000000000000000000";
"69000000000000f093f5e1439170b97948e833285d588181b64550b829a031e1724e6430010000001d0000000100000000000000000000000000000000000000";
"00000000000000000000000000000000020000001e00000001000000000000000000000000000000000000000000000000000000000000006a000000000000f0";
"93f5e1439170b97948e833285d588181b64550b829a031e1724e6430010000001e00000001000000000000000000000000000000000000000000000000000000";
"0000000000000000020000001f00000001000000000000000000000000000000000000000000000000000000000000006b000000000000f093f5e1439170b979";
"48e833285d588181b64550b829a031e1724e6430010000001f000000010000000000000000000000000000000000000000000000000000000000000000000000";
"020000002000000001000000000000000000000000000000000000000000000000000000000000006c000000000000f093f5e1439170b97948e833285d588181";
"b64550b829a031e1724e643001000000200000000100000000000000000000000000000000000000000000000000000000000000000000000200000021000000";
"01000000000000000000000000000000000000000000000000000000000000006d000000000000f093f5e1439170b97948e833285d588181b64550b829a031e1";
"724e6430010000002100000001000000000000000000000000000000000000000000000000000000000000000000000002000000220000000100000000000000";
"0000000000000000000000000000000000000000000000006e000000000000f093f5e1439170b97948e833285d588181b64550b829a031e1724e643001000000";
"22000000010000000000000000000000000000000000000000000000000000000000000000000000020000002300000001000000000000000000000000000000";
"000000000000000000000000000000006f000000000000f093f5e1439170b97948e833285d588181b64550b829a031e1724e6430010000002300000001000000";
"00000000000000000000000000000000000000000000000000000000000000000a00000000000000d4ffffef93f5e1439170b97948e833285d588181b64550b8";
"29a031e1724e64302400000001000000000000000000000000000000000000000000000000000000000000006800000001000000000000000000000000000000";
"000000000000000000000000000000006900000001000000000000000000000000000000000000000000000000000000000000006a0000000100000000000000";
"0000000000000000000000000000000000000000000000006b00000001000000000000000000000000000000000000000000000000000000000000006c000000";
"01000000000000000000000000000000000000000000000000000000000000006d00000001000000000000000000000000000000000000000000000000000000";
"000000006e00000001000000000000000000000000000000000000000000000000000000000000006f0000000100000000000000000000000000000000000000";
"00000000000000000000000001000000240000000100000000000000000000000000000000000000000000000000000000000000000000000200000025000000";
"010000000000000000000000000000000000000000000000000000000000000070000000000000f093f5e1439170b97948e833285d588181b64550b829a031e1";
"724e6430010000002500000001000000000000000000000000000000000000000000000000000000000000000000000002000000260000000100000000000000";
"00000000000000000000000000000000000000000000000071000000000000f093f5e1439170b97948e833285d588181b64550b829a031e1724e643001000000";
"26000000010000000000000000000000000000000000000000000000000000000000000000000000020000002700000001000000000000000000000000000000";
"0000000000000000000000000000000072000000000000f093f5e1439170b97948e833285d588181b64550b829a031e1724e6430010000002700000001000000";
"00000000000000000000000000000000000000000000000000000000000000000200000028000000010000000000000000000000000000000000000000000000";
"000000000000000073000000000000f093f5e1439170b97948e833285d588181b64550b829a031e1724e64300100000028000000010000000000000000000000";
"00000000000000000000000000000000000000000000000002000000290000000100000000000000000000000000000000000000000000000000000000000000";
"74000000000000f093f5e1439170b97948e833285d588181b64550b829a031e1724e643001000000290000000100000000000000000000000000000000000000";
"00000000000000000000000000000000020000002a000000010000000000000000000000000000000000000000000000000000000000000075000000000000f0";
"93f5e1439170b97948e833285d588181b64550b829a031e1724e6430010000002a00000001000000000000000000000000000000000000000000000000000000";
"0000000000000000020000002b000000010000000000000000000000000000000000000000000000000000000000000076000000000000f093f5e1439170b979";
"48e833285d588181b64550b829a031e1724e6430010000002b000000010000000000000000000000000000000000000000000000000000000000000000000000";
"020000002c000000010000000000000000000000000000000000000000000000000000000000000077000000000000f093f5e1439170b97948e833285d588181";
"b64550b829a031e1724e6430010000002c0000000100000000000000000000000000000000000000000000000000000000000000000000000a00000000000000";
"d4ffffef93f5e1439170b97948e833285d588181b64550b829a031e1724e64302d00000001000000000000000000000000000000000000000000000000000000";
"00000000700000000100000000000000000000000000000000000000000000000000000000000000710000000100000000000000000000000000000000000000";
"00000000000000000000000072000000010000000000000000000000000000000000000000000000000000000000000073000000010000000000000000000000";
"00000000000000000000000000000000000000007400000001000000000000000000000000000000000000000000000000000000000000007500000001000000";
"00000000000000000000000000000000000000000000000000000000760000000100000000000000000000000000000000000000000000000000000000000000";
"770000000100000000000000000000000000000000000000000000000000000000000000010000002d0000000100000000000000000000000000000000000000";
"00000000000000000000000000000000020000002e000000010000000000000000000000000000000000000000000000000000000000000078000000000000f0";
"93f5e1439170b97948e833285d588181b64550b829a031e1724e6430010000002e00000001000000000000000000000000000000000000000000000000000000";
"0000000000000000020000002f000000010000000000000000000000000000000000000000000000000000000000000079000000000000f093f5e1439170b979";
"48e833285d588181b64550b829a031e1724e6430010000002f000000010000000000000000000000000000000000000000000000000000000000000000000000";
"0a00000000000000d4ffffef93f5e1439170b97948e833285d588181b64550b829a031e1724e6430300000000100000000000000000000000000000000000000";
"00000000000000000000000068000000010000000000000000000000000000000000000000000000000000000000000069000000010000000000000000000000";
"00000000000000000000000000000000000000006a00000001000000000000000000000000000000000000000000000000000000000000007000000001000000";
"00000000000000000000000000000000000000000000000000000000710000000100000000000000000000000000000000000000000000000000000000000000";
"72000000010000000000000000000000000000000000000000000000000000000000000078000000010000000000000000000000000000000000000000000000";
"00000000000000007900000001000000000000000000000000000000000000000000000000000000000000000100000030000000010000000000000000000000";
"00000000000000000000000000000000000000000000000002000000310000000100000000000000000000000000000000000000000000000000000000000000";
"7a000000000000f093f5e1439170b97948e833285d588181b64550b829a031e1724e643001000000310000000100000000000000000000000000000000000000";
"00000000000000000000000000000000020000003200000001000000000000000000000000000000000000000000000000000000000000007b000000000000f0";
"93f5e1439170b97948e833285d588181b64550b829a031e1724e6430010000003200000001000000000000000000000000000000000000000000000000000000";
"00000000000000000a00000000000000d4ffffef93f5e1439170b97948e833285d588181b64550b829a031e1724e643033000000010000000000000000000000";
"00000000000000000000000000000000000000006b00000001000000000000000000000000000000000000000000000000000000000000006c00000001000000";
"000000000000000000000000000000000000000000000000000000006d0000000100000000000000000000000000000000000000000000000000000000000000";
"73000000010000000000000000000000000000000000000000000000000000000000000074000000010000000000000000000000000000000000000000000000";
"00000000000000007500000001000000000000000000000000000000000000000000000000000000000000007a00000001000000000000000000000000000000";
"000000000000000000000000000000007b0000000100000000000000000000000000000000000000000000000000000000000000010000003300000001000000";
"00000000000000000000000000000000000000000000000000000000000000000200000034000000010000000000000000000000000000000000000000000000";
"00000000000000007c000000000000f093f5e1439170b97948e833285d588181b64550b829a031e1724e64300100000034000000010000000000000000000000";
"00000000000000000000000000000000000000000000000002000000350000000100000000000000000000000000000000000000000000000000000000000000";
"7d000000000000f093f5e1439170b97948e833285d588181b64550b829a031e1724e643001000000350000000100000000000000000000000000000000000000";
"0000000000000000000000000000000010000000000000002d000000000000000000000000000000000000000000000000000000000000003600000001000000";
"0000000000000000000000000000000000000000000000000000000068000000000000f093f5e1439170b97948e833285d588181b64550b829a031e1724e6430";
"69000000000000f093f5e1439170b97948e833285d588181b64550b829a031e1724e64306a000000000000f093f5e1439170b97948e833285d588181b64550b8";
"29a031e1724e64306b000000000000f093f5e1439170b97948e833285d588181b64550b829a031e1724e64306c000000000000f093f5e1439170b97948e83328";
"5d588181b64550b829a031e1724e64306d000000000000f093f5e1439170b97948e833285d588181b64550b829a031e1724e643070000000000000f093f5e143";
"9170b97948e833285d588181b64550b829a031e1724e643071000000000000f093f5e1439170b97948e833285d588181b64550b829a031e1724e643072000000";
"000000f093f5e1439170b97948e833285d588181b64550b829a031e1724e643073000000000000f093f5e1439170b97948e833285d588181b64550b829a031e1";
"724e643074000000000000f093f5e1439170b97948e833285d588181b64550b829a031e1724e643075000000000000f093f5e1439170b97948e833285d588181";
"b64550b829a031e1724e64307c00000001000000000000000000000000000000000000000000000000000000000000007d000000010000000000000000000000";
"00000000000000000000000000000000000000000100000036000000010000000000000000000000000000000000000000000000000000000000000000000000";
"020000003700000001000000000000000000000000000000000000000000000000000000000000007e000000000000f093f5e1439170b97948e833285d588181";
"b64550b829a031e1724e643001000000370000000100000000000000000000000000000000000000000000000000000000000000000000000200000038000000";
"01000000000000000000000000000000000000000000000000000000000000007f000000000000f093f5e1439170b97948e833285d588181b64550b829a031e1";
"724e6430010000003800000001000000000000000000000000000000000000000000000000000000000000000000000002000000390000000100000000000000";
"00000000000000000000000000000000000000000000000080000000000000f093f5e1439170b97948e833285d588181b64550b829a031e1724e643001000000";
"39000000010000000000000000000000000000000000000000000000000000000000000000000000020000003a00000001000000000000000000000000000000";
"0000000000000000000000000000000081000000000000f093f5e1439170b97948e833285d588181b64550b829a031e1724e6430010000003a00000001000000";
"0000000000000000000000000000000000000000000000000000000000000000020000003b000000010000000000000000000000000000000000000000000000";
"000000000000000082000000000000f093f5e1439170b97948e833285d588181b64550b829a031e1724e6430010000003b000000010000000000000000000000";
"000000000000000000000000000000000000000000000000020000003c0000000100000000000000000000000000000000000000000000000000000000000000";
"83000000000000f093f5e1439170b97948e833285d588181b64550b829a031e1724e6430010000003c0000000100000000000000000000000000000000000000";
"00000000000000000000000000000000020000003d000000010000000000000000000000000000000000000000000000000000000000000084000000000000f0";
"93f5e1439170b97948e833285d588181b64550b829a031e1724e6430010000003d00000001000000000000000000000000000000000000000000000000000000";
"0000000000000000020000003e000000010000000000000000000000000000000000000000000000000000000000000085000000000000f093f5e1439170b979";
"48e833285d588181b64550b829a031e1724e6430010000003e000000010000000000000000000000000000000000000000000000000000000000000000000000";
"0a00000000000000d4ffffef93f5e1439170b97948e833285d588181b64550b829a031e1724e64303f0000000100000000000000000000000000000000000000";
"0000000000000000000000007e00000001000000000000000000000000000000000000000000000000000000000000007f000000010000000000000000000000";
"00000000000000000000000000000000000000008000000001000000000000000000000000000000000000000000000000000000000000008100000001000000";
"00000000000000000000000000000000000000000000000000000000820000000100000000000000000000000000000000000000000000000000000000000000";
"83000000010000000000000000000000000000000000000000000000000000000000000084000000010000000000000000000000000000000000000000000000";
"0000000000000000850000000100000000000000000000000000000000000000000000000000000000000000010000003f000000010000000000000000000000";
"00000000000000000000000000000000000000000000000002000000400000000100000000000000000000000000000000000000000000000000000000000000";
"86000000000000f093f5e1439170b97948e833285d588181b64550b829a031e1724e643001000000400000000100000000000000000000000000000000000000";
"000000000000000000000000000000000200000041000000010000000000000000000000000000000000000000000000000000000000000087000000000000f0";
"93f5e1439170b97948e833285d588181b64550b829a031e1724e6430010000004100000001000000000000000000000000000000000000000000000000000000";
"00000000000000000200000042000000010000000000000000000000000000000000000000000000000000000000000088000000000000f093f5e1439170b979";
"48e833285d588181b64550b829a031e1724e64300100000042000000010000000000000000000000000000000000000000000000000000000000000000000000";
"0200000043000000010000000000000000000000000000000000000000000000000000000000000089000000000000f093f5e1439170b97948e833285d588181";
"b64550b829a031e1724e643001000000430000000100000000000000000000000000000000000000000000000000000000000000000000000200000044000000";
"01000000000000000000000000000000000000000000000000000000000000008a000000000000f093f5e1439170b97948e833285d588181b64550b829a031e1";
"724e6430010000004400000001000000000000000000000000000000000000000000000000000000000000000000000002000000450000000100000000000000";
"0000000000000000000000000000000000000000000000008b000000000000f093f5e1439170b97948e833285d588181b64550b829a031e1724e643001000000";
"45000000010000000000000000000000000000000000000000000000000000000000000000000000020000004600000001000000000000000000000000000000";
"000000000000000000000000000000008c000000000000f093f5e1439170b97948e833285d588181b64550b829a031e1724e6430010000004600000001000000";
"00000000000000000000000000000000000000000000000000000000000000000200000047000000010000000000000000000000000000000000000000000000";
"00000000000000008d000000000000f093f5e1439170b97948e833285d588181b64550b829a031e1724e64300100000047000000010000000000000000000000";
"0000000000000000000000000000000000000000000000000a00000000000000d4ffffef93f5e1439170b97948e833285d588181b64550b829a031e1724e6430";
"48000000010000000000000000000000000000000000000000000000000000000000000086000000010000000000000000000000000000000000000000000000";
"00000000000000008700000001000000000000000000000000000000000000000000000000000000000000008800000001000000000000000000000000000000";
"000000000000000000000000000000008900000001000000000000000000000000000000000000000000000000000000000000008a0000000100000000000000";
"0000000000000000000000000000000000000000000000008b00000001000000000000000000000000000000000000000000000000000000000000008c000000";
"01000000000000000000000000000000000000000000000000000000000000008d00000001000000000000000000000000000000000000000000000000000000";
"0000000001000000480000000100000000000000000000000000000000000000000000000000000000000000000000000a00000000000000d4ffffef93f5e143";
"9170b97948e833285d588181b64550b829a031e1724e643049000000010000000000000000000000000000000000000000000000000000000000000052000000";
"01000000000000000000000000000000000000000000000000000000000000005a00000001000000000000000000000000000000000000000000000000000000";
"00000000620000000100000000000000000000000000000000000000000000000000000000000000680000000100000000000000000000000000000000000000";
"00000000000000000000000070000000010000000000000000000000000000000000000000000000000000000000000078000000010000000000000000000000";
"00000000000000000000000000000000000000007e00000001000000000000000000000000000000000000000000000000000000000000008600000001000000";
"00000000000000000000000000000000000000000000000000000000010000004900000001000000000000000000000000000000000000000000000000000000";
"00000000000000000a00000000000000d4ffffef93f5e1439170b97948e833285d588181b64550b829a031e1724e64304a000000010000000000000000000000";
"00000000000000000000000000000000000000005300000001000000000000000000000000000000000000000000000000000000000000005b00000001000000";
"00000000000000000000000000000000000000000000000000000000630000000100000000000000000000000000000000000000000000000000000000000000";
"69000000010000000000000000000000000000000000000000000000000000000000000071000000010000000000000000000000000000000000000000000000";
"00000000000000007900000001000000000000000000000000000000000000000000000000000000000000007f00000001000000000000000000000000000000";
"00000000000000000000000000000000870000000100000000000000000000000000000000000000000000000000000000000000010000004a00000001000000";
"000000000000000000000000000000000000000000000000000000000000000010000000000000002d0000000000000000000000000000000000000000000000";
"00000000000000004b000000010000000000000000000000000000000000000000000000000000000000000052000000000000f093f5e1439170b97948e83328";
"5d588181b64550b829a031e1724e643053000000000000f093f5e1439170b97948e833285d588181b64550b829a031e1724e64305a000000000000f093f5e143";
"9170b97948e833285d588181b64550b829a031e1724e64305b000000000000f093f5e1439170b97948e833285d588181b64550b829a031e1724e643062000000";
"000000f093f5e1439170b97948e833285d588181b64550b829a031e1724e643063000000000000f093f5e1439170b97948e833285d588181b64550b829a031e1";
"724e643068000000000000f093f5e1439170b97948e833285d588181b64550b829a031e1724e643069000000000000f093f5e1439170b97948e833285d588181";
"b64550b829a031e1724e643070000000000000f093f5e1439170b97948e833285d588181b64550b829a031e1724e643071000000000000f093f5e1439170b979";
"48e833285d588181b64550b829a031e1724e643078000000000000f093f5e1439170b97948e833285d588181b64550b829a031e1724e643079000000000000f0";
"93f5e1439170b97948e833285d588181b64550b829a031e1724e6430800000000100000000000000000000000000000000000000000000000000000000000000";
"880000000100000000000000000000000000000000000000000000000000000000000000010000004b0000000100000000000000000000000000000000000000";
"000000000000000000000000000000000a00000000000000d4ffffef93f5e1439170b97948e833285d588181b64550b829a031e1724e64304c00000001000000";
"00000000000000000000000000000000000000000000000000000000550000000100000000000000000000000000000000000000000000000000000000000000";
"5d000000010000000000000000000000000000000000000000000000000000000000000064000000010000000000000000000000000000000000000000000000";
"00000000000000006b00000001000000000000000000000000000000000000000000000000000000000000007300000001000000000000000000000000000000";
"000000000000000000000000000000007a0000000100000000000000000000000000000000000000000000000000000000000000810000000100000000000000";
"00000000000000000000000000000000000000000000000089000000010000000000000000000000000000000000000000000000000000000000000001000000";
"4c0000000100000000000000000000000000000000000000000000000000000000000000000000000a00000000000000d4ffffef93f5e1439170b97948e83328";
"5d588181b64550b829a031e1724e64304d0000000100000000000000000000000000000000000000000000000000000000000000560000000100000000000000";
"0000000000000000000000000000000000000000000000005e000000010000000000000000000000000000000000000000000000000000000000000065000000";
"01000000000000000000000000000000000000000000000000000000000000006c00000001000000000000000000000000000000000000000000000000000000";
"000000007400000001000000000000000000000000000000000000000000000000000000000000007b0000000100000000000000000000000000000000000000";
"0000000000000000000000008200000001000000000000000000000000000000000000000000000000000000000000008a000000010000000000000000000000";
"0000000000000000000000000000000000000000010000004d000000010000000000000000000000000000000000000000000000000000000000000000000000";
"10000000000000002d000000000000000000000000000000000000000000000000000000000000004e0000000100000000000000000000000000000000000000";
"00000000000000000000000055000000000000f093f5e1439170b97948e833285d588181b64550b829a031e1724e643056000000000000f093f5e1439170b979";
"48e833285d588181b64550b829a031e1724e64305d000000000000f093f5e1439170b97948e833285d588181b64550b829a031e1724e64305e000000000000f0";
"93f5e1439170b97948e833285d588181b64550b829a031e1724e643064000000000000f093f5e1439170b97948e833285d588181b64550b829a031e1724e6430";
"65000000000000f093f5e1439170b97948e833285d588181b64550b829a031e1724e64306b000000000000f093f5e1439170b97948e833285d588181b64550b8";
"29a031e1724e64306c000000000000f093f5e1439170b97948e833285d588181b64550b829a031e1724e643073000000000000f093f5e1439170b97948e83328";
"5d588181b64550b829a031e1724e643074000000000000f093f5e1439170b97948e833285d588181b64550b829a031e1724e64307a000000000000f093f5e143";
"9170b97948e833285d588181b64550b829a031e1724e64307b000000000000f093f5e1439170b97948e833285d588181b64550b829a031e1724e643083000000";
"01000000000000000000000000000000000000000000000000000000000000008b00000001000000000000000000000000000000000000000000000000000000";
"00000000010000004e0000000100000000000000000000000000000000000000000000000000000000000000000000000a00000000000000d4ffffef93f5e143";
"9170b97948e833285d588181b64550b829a031e1724e64304f000000010000000000000000000000000000000000000000000000000000000000000058000000";
"01000000000000000000000000000000000000000000000000000000000000006000000001000000000000000000000000000000000000000000000000000000";
"000000006600000001000000000000000000000000000000000000000000000000000000000000006e0000000100000000000000000000000000000000000000";
"0000000000000000000000007600000001000000000000000000000000000000000000000000000000000000000000007c000000010000000000000000000000";
"00000000000000000000000000000000000000008400000001000000000000000000000000000000000000000000000000000000000000008c00000001000000";
"00000000000000000000000000000000000000000000000000000000010000004f00000001000000000000000000000000000000000000000000000000000000";
"00000000000000000a00000000000000d4ffffef93f5e1439170b97948e833285d588181b64550b829a031e1724e643050000000010000000000000000000000";
"00000000000000000000000000000000000000005900000001000000000000000000000000000000000000000000000000000000000000006100000001000000";
"00000000000000000000000000000000000000000000000000000000670000000100000000000000000000000000000000000000000000000000000000000000";
"6f000000010000000000000000000000000000000000000000000000000000000000000077000000010000000000000000000000000000000000000000000000";
"00000000000000007d00000001000000000000000000000000000000000000000000000000000000000000008500000001000000000000000000000000000000";
"000000000000000000000000000000008d0000000100000000000000000000000000000000000000000000000000000000000000010000005000000001000000";
"00000000000000000000000000000000000000000000000000000000000000001e00000000000000870000000000000000000000000000000000000000000000";
"000000000000000051000000010000000000000000000000000000000000000000000000000000000000000058000000000000f093f5e1439170b97948e83328";
"5d588181b64550b829a031e1724e643059000000000000f093f5e1439170b97948e833285d588181b64550b829a031e1724e643060000000000000f093f5e143";
"9170b97948e833285d588181b64550b829a031e1724e643061000000000000f093f5e1439170b97948e833285d588181b64550b829a031e1724e643066000000";
"000000f093f5e1439170b97948e833285d588181b64550b829a031e1724e643067000000000000f093f5e1439170b97948e833285d588181b64550b829a031e1";
"724e64306e000000000000f093f5e1439170b97948e833285d588181b64550b829a031e1724e64306f000000000000f093f5e1439170b97948e833285d588181";
"b64550b829a031e1724e643076000000000000f093f5e1439170b97948e833285d588181b64550b829a031e1724e643077000000000000f093f5e1439170b979";
"48e833285d588181b64550b829a031e1724e64307c000000000000f093f5e1439170b97948e833285d588181b64550b829a031e1724e64307d000000000000f0";
"93f5e1439170b97948e833285d588181b64550b829a031e1724e64307e000000000000f093f5e1439170b97948e833285d588181b64550b829a031e1724e6430";
"7f000000000000f093f5e1439170b97948e833285d588181b64550b829a031e1724e643080000000000000f093f5e1439170b97948e833285d588181b64550b8";
"29a031e1724e643081000000000000f093f5e1439170b97948e833285d588181b64550b829a031e1724e643082000000000000f093f5e1439170b97948e83328";
"5d588181b64550b829a031e1724e643083000000000000f093f5e1439170b97948e833285d588181b64550b829a031e1724e643084000000000000f093f5e143";
"9170b97948e833285d588181b64550b829a031e1724e643085000000000000f093f5e1439170b97948e833285d588181b64550b829a031e1724e643086000000";
"000000f093f5e1439170b97948e833285d588181b64550b829a031e1724e643087000000000000f093f5e1439170b97948e833285d588181b64550b829a031e1";
"724e643088000000000000f093f5e1439170b97948e833285d588181b64550b829a031e1724e643089000000000000f093f5e1439170b97948e833285d588181";
"b64550b829a031e1724e64308a000000000000f093f5e1439170b97948e833285d588181b64550b829a031e1724e64308b000000000000f093f5e1439170b979";
"48e833285d588181b64550b829a031e1724e64308c000000000000f093f5e1439170b97948e833285d588181b64550b829a031e1724e64308d000000000000f0";
"93f5e1439170b97948e833285d588181b64550b829a031e1724e6430010000005100000001000000000000000000000000000000000000000000000000000000";
"000000000000000001000000400000000000000020000000010000f093f5e1439170b97948e833285d588181b64550b829a031e1724e6430ca00000000000000";
"5100000051000000f400000000000000a20000000300000050060000000000000000000000000000010000000000000002000000000000000300000000000000";
"0400000000000000050000000000000006000000000000000700000000000000080000000000000009000000000000000a000000000000000b00000000000000";
"0c000000000000000d000000000000000e000000000000000f000000000000001000000000000000110000000000000012000000000000001300000000000000";
"1400000000000000150000000000000016000000000000001700000000000000180000000000000019000000000000001a000000000000001b00000000000000";
"1c000000000000001d000000000000001e000000000000001f000000000000002000000000000000210000000000000022000000000000002300000000000000";
"2400000000000000250000000000000026000000000000002700000000000000280000000000000029000000000000002a000000000000002b00000000000000";
"2c000000000000002d000000000000002e000000000000002f000000000000003000000000000000310000000000000032000000000000003300000000000000";
"3400000000000000350000000000000036000000000000003700000000000000380000000000000039000000000000003a000000000000003b00000000000000";
"3c000000000000003d000000000000003e000000000000003f000000000000004000000000000000410000000000000042000000000000004300000000000000";
"4400000000000000450000000000000046000000000000004700000000000000480000000000000049000000000000004a000000000000004b00000000000000";
"4c000000000000004d000000000000004e000000000000004f000000000000005000000000000000510000000000000052000000000000005300000000000000";
"5400000000000000550000000000000056000000000000005700000000000000580000000000000059000000000000005b000000000000005c00000000000000";
"5d000000000000005e000000000000005f0000000000000060000000000000006100000000000000620000000000000064000000000000006500000000000000";
"670000000000000068000000000000006a000000000000006b000000000000006d000000000000006e000000000000006f000000000000007000000000000000";
"71000000000000007200000000000000730000000000000074000000000000007600000000000000770000000000000078000000000000007900000000000000";
"7a000000000000007b000000000000007c000000000000007d000000000000007f00000000000000800000000000000082000000000000008300000000000000";
"85000000000000008600000000000000880000000000000089000000000000008a000000000000008b000000000000008c000000000000008d00000000000000";
"8e000000000000008f00000000000000910000000000000092000000000000009300000000000000940000000000000095000000000000009600000000000000";
"97000000000000009800000000000000a300000000000000a400000000000000a500000000000000a600000000000000a700000000000000a800000000000000";
"a900000000000000aa00000000000000ac00000000000000ad00000000000000ae00000000000000af00000000000000b000000000000000b100000000000000";
"b200000000000000b300000000000000b500000000000000b600000000000000b800000000000000b900000000000000bb00000000000000bc00000000000000";
"be00000000000000bf00000000000000c000000000000000c100000000000000c200000000000000c300000000000000c400000000000000c500000000000000";
"c700000000000000c800000000000000c900000000000000ca00000000000000cb00000000000000cc00000000000000cd00000000000000ce00000000000000";
"d000000000000000d100000000000000d300000000000000d400000000000000d600000000000000d700000000000000d900000000000000da00000000000000";
"db00000000000000dc00000000000000dd00000000000000de00000000000000df00000000000000e000000000000000e200000000000000e300000000000000";
"e400000000000000e500000000000000e600000000000000e700000000000000e800000000000000e900000000000000"]%string.
Definition sudoku_r1cs_file : list byte := flat_map hex_bytes sudoku_r1cs_hex.

(** packages/zkenc-cli/tests/r1cs/sudoku.sym:1-243 (the whole text, line by line). *)
Definition sudoku_sym_lines : list string := [
"1,1,0,main.puzzle[0]";
"2,2,0,main.puzzle[1]";
"3,3,0,main.puzzle[2]";
"4,4,0,main.puzzle[3]";
"5,5,0,main.puzzle[4]";
"6,6,0,main.puzzle[5]";
"7,7,0,main.puzzle[6]";
"8,8,0,main.puzzle[7]";
"9,9,0,main.puzzle[8]";
"10,10,0,main.puzzle[9]";
"11,11,0,main.puzzle[10]";
"12,12,0,main.puzzle[11]";
"13,13,0,main.puzzle[12]";
"14,14,0,main.puzzle[13]";
"15,15,0,main.puzzle[14]";
"16,16,0,main.puzzle[15]";
"17,17,0,main.puzzle[16]";
"18,18,0,main.puzzle[17]";
"19,19,0,main.puzzle[18]";
"20,20,0,main.puzzle[19]";
"21,21,0,main.puzzle[20]";
"22,22,0,main.puzzle[21]";
"23,23,0,main.puzzle[22]";
"24,24,0,main.puzzle[23]";
"25,25,0,main.puzzle[24]";
"26,26,0,main.puzzle[25]";
"27,27,0,main.puzzle[26]";
"28,28,0,main.puzzle[27]";
"29,29,0,main.puzzle[28]";
"30,30,0,main.puzzle[29]";
"31,31,0,main.puzzle[30]";
"32,32,0,main.puzzle[31]";
"33,33,0,main.puzzle[32]";
"34,34,0,main.puzzle[33]";
"35,35,0,main.puzzle[34]";
"36,36,0,main.puzzle[35]";
"37,37,0,main.puzzle[36]";
"38,38,0,main.puzzle[37]";
"39,39,0,main.puzzle[38]";
"40,40,0,main.puzzle[39]";
"41,41,0,main.puzzle[40]";
"42,42,0,main.puzzle[41]";
"43,43,0,main.puzzle[42]";
"44,44,0,main.puzzle[43]";
"45,45,0,main.puzzle[44]";
"46,46,0,main.puzzle[45]";
"47,47,0,main.puzzle[46]";
"48,48,0,main.puzzle[47]";
"49,49,0,main.puzzle[48]";
"50,50,0,main.puzzle[49]";
"51,51,0,main.puzzle[50]";
"52,52,0,main.puzzle[51]";
"53,53,0,main.puzzle[52]";
"54,54,0,main.puzzle[53]";
"55,55,0,main.puzzle[54]";
"56,56,0,main.puzzle[55]";
"57,57,0,main.puzzle[56]";
"58,58,0,main.puzzle[57]";
"59,59,0,main.puzzle[58]";
"60,60,0,main.puzzle[59]";
"61,61,0,main.puzzle[60]";
"62,62,0,main.puzzle[61]";
"63,63,0,main.puzzle[62]";
"64,64,0,main.puzzle[63]";
"65,65,0,main.puzzle[64]";
"66,66,0,main.puzzle[65]";
"67,67,0,main.puzzle[66]";
"68,68,0,main.puzzle[67]";
"69,69,0,main.puzzle[68]";
"70,70,0,main.puzzle[69]";
"71,71,0,main.puzzle[70]";
"72,72,0,main.puzzle[71]";
"73,73,0,main.puzzle[72]";
"74,74,0,main.puzzle[73]";
"75,75,0,main.puzzle[74]";
"76,76,0,main.puzzle[75]";
"77,77,0,main.puzzle[76]";
"78,78,0,main.puzzle[77]";
"79,79,0,main.puzzle[78]";
"80,80,0,main.puzzle[79]";
"81,81,0,main.puzzle[80]";
"82,82,0,main.solution[0]";
"83,83,0,main.solution[1]";
"84,84,0,main.solution[2]";
"85,85,0,main.solution[3]";
"86,86,0,main.solution[4]";
"87,87,0,main.solution[5]";
"88,88,0,main.solution[6]";
"89,89,0,main.solution[7]";
"90,-1,0,main.solution[8]";
"91,90,0,main.solution[9]";
"92,91,0,main.solution[10]";
"93,92,0,main.solution[11]";
"94,93,0,main.solution[12]";
"95,94,0,main.solution[13]";
"96,95,0,main.solution[14]";
"97,96,0,main.solution[15]";
"98,97,0,main.solution[16]";
"99,-1,0,main.solution[17]";
"100,98,0,main.solution[18]";
"101,99,0,main.solution[19]";
"102,-1,0,main.solution[20]";
"103,100,0,main.solution[21]";
"104,101,0,main.solution[22]";
"105,-1,0,main.solution[23]";
"106,102,0,main.solution[24]";
"107,103,0,main.solution[25]";
"108,-1,0,main.solution[26]";
"109,104,0,main.solution[27]";
"110,105,0,main.solution[28]";
"111,106,0,main.solution[29]";
"112,107,0,main.solution[30]";
"113,108,0,main.solution[31]";
"114,109,0,main.solution[32]";
"115,110,0,main.solution[33]";
"116,111,0,main.solution[34]";
"117,-1,0,main.solution[35]";
"118,112,0,main.solution[36]";
"119,113,0,main.solution[37]";
"120,114,0,main.solution[38]";
"121,115,0,main.solution[39]";
"122,116,0,main.solution[40]";
"123,117,0,main.solution[41]";
"124,118,0,main.solution[42]";
"125,119,0,main.solution[43]";
"126,-1,0,main.solution[44]";
"127,120,0,main.solution[45]";
"128,121,0,main.solution[46]";
"129,-1,0,main.solution[47]";
"130,122,0,main.solution[48]";
"131,123,0,main.solution[49]";
"132,-1,0,main.solution[50]";
"133,124,0,main.solution[51]";
"134,125,0,main.solution[52]";
"135,-1,0,main.solution[53]";
"136,126,0,main.solution[54]";
"137,127,0,main.solution[55]";
"138,128,0,main.solution[56]";
"139,129,0,main.solution[57]";
"140,130,0,main.solution[58]";
"141,131,0,main.solution[59]";
"142,132,0,main.solution[60]";
"143,133,0,main.solution[61]";
"144,-1,0,main.solution[62]";
"145,134,0,main.solution[63]";
"146,135,0,main.solution[64]";
"147,136,0,main.solution[65]";
"148,137,0,main.solution[66]";
"149,138,0,main.solution[67]";
"150,139,0,main.solution[68]";
"151,140,0,main.solution[69]";
"152,141,0,main.solution[70]";
"153,-1,0,main.solution[71]";
"154,-1,0,main.solution[72]";
"155,-1,0,main.solution[73]";
"156,-1,0,main.solution[74]";
"157,-1,0,main.solution[75]";
"158,-1,0,main.solution[76]";
"159,-1,0,main.solution[77]";
"160,-1,0,main.solution[78]";
"161,-1,0,main.solution[79]";
"162,-1,0,main.solution[80]";
"163,142,0,main.solutionSquared[0]";
"164,143,0,main.solutionSquared[1]";
"165,144,0,main.solutionSquared[2]";
"166,145,0,main.solutionSquared[3]";
"167,146,0,main.solutionSquared[4]";
"168,147,0,main.solutionSquared[5]";
"169,148,0,main.solutionSquared[6]";
"170,149,0,main.solutionSquared[7]";
"171,-1,0,main.solutionSquared[8]";
"172,150,0,main.solutionSquared[9]";
"173,151,0,main.solutionSquared[10]";
"174,152,0,main.solutionSquared[11]";
"175,153,0,main.solutionSquared[12]";
"176,154,0,main.solutionSquared[13]";
"177,155,0,main.solutionSquared[14]";
"178,156,0,main.solutionSquared[15]";
"179,157,0,main.solutionSquared[16]";
"180,-1,0,main.solutionSquared[17]";
"181,158,0,main.solutionSquared[18]";
"182,159,0,main.solutionSquared[19]";
"183,-1,0,main.solutionSquared[20]";
"184,160,0,main.solutionSquared[21]";
"185,161,0,main.solutionSquared[22]";
"186,-1,0,main.solutionSquared[23]";
"187,162,0,main.solutionSquared[24]";
"188,163,0,main.solutionSquared[25]";
"189,-1,0,main.solutionSquared[26]";
"190,164,0,main.solutionSquared[27]";
"191,165,0,main.solutionSquared[28]";
"192,166,0,main.solutionSquared[29]";
"193,167,0,main.solutionSquared[30]";
"194,168,0,main.solutionSquared[31]";
"195,169,0,main.solutionSquared[32]";
"196,170,0,main.solutionSquared[33]";
"197,171,0,main.solutionSquared[34]";
"198,-1,0,main.solutionSquared[35]";
"199,172,0,main.solutionSquared[36]";
"200,173,0,main.solutionSquared[37]";
"201,174,0,main.solutionSquared[38]";
"202,175,0,main.solutionSquared[39]";
"203,176,0,main.solutionSquared[40]";
"204,177,0,main.solutionSquared[41]";
"205,178,0,main.solutionSquared[42]";
"206,179,0,main.solutionSquared[43]";
"207,-1,0,main.solutionSquared[44]";
"208,180,0,main.solutionSquared[45]";
"209,181,0,main.solutionSquared[46]";
"210,-1,0,main.solutionSquared[47]";
"211,182,0,main.solutionSquared[48]";
"212,183,0,main.solutionSquared[49]";
"213,-1,0,main.solutionSquared[50]";
"214,184,0,main.solutionSquared[51]";
"215,185,0,main.solutionSquared[52]";
"216,-1,0,main.solutionSquared[53]";
"217,186,0,main.solutionSquared[54]";
"218,187,0,main.solutionSquared[55]";
"219,188,0,main.solutionSquared[56]";
"220,189,0,main.solutionSquared[57]";
"221,190,0,main.solutionSquared[58]";
"222,191,0,main.solutionSquared[59]";
"223,192,0,main.solutionSquared[60]";
"224,193,0,main.solutionSquared[61]";
"225,-1,0,main.solutionSquared[62]";
"226,194,0,main.solutionSquared[63]";
"227,195,0,main.solutionSquared[64]";
"228,196,0,main.solutionSquared[65]";
"229,197,0,main.solutionSquared[66]";
"230,198,0,main.solutionSquared[67]";
"231,199,0,main.solutionSquared[68]";
"232,200,0,main.solutionSquared[69]";
"233,201,0,main.solutionSquared[70]";
"234,-1,0,main.solutionSquared[71]";
"235,-1,0,main.solutionSquared[72]";
"236,-1,0,main.solutionSquared[73]";
"237,-1,0,main.solutionSquared[74]";
"238,-1,0,main.solutionSquared[75]";
"239,-1,0,main.solutionSquared[76]";
"240,-1,0,main.solutionSquared[77]";
"241,-1,0,main.solutionSquared[78]";
"242,-1,0,main.solutionSquared[79]";
"243,-1,0,main.solutionSquared[80]"]%string.
Definition sudoku_sym_file : text := flat_map (fun l => lit l ++ [c_nl]) sudoku_sym_lines.
