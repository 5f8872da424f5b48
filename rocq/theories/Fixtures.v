(** The model against files the real programs wrote: the test case zkenc-cli's exporter saved
    (packages/zkenc-cli/tests/export_test_data.rs:102-170, bincode) and a witness file made by the real
    circuit from a JSON document.  Examples on shipped files, no property rests on them. *)
From Coq Require Import List Bool NArith ZArith.
From Coq Require Import Strings.String Strings.Ascii Strings.Byte.
From Verif Require Import Res Bytes Text Fld Bn254 Inputs R1cs Wtns Serial WitnessCalc JsonText SpecSudoku Sudoku SudokuFile SudokuFacts SudokuWasm P_Sudoku.
Import ListNotations.
Local Open Scope string_scope.
Local Open Scope list_scope.

(** packages/zkenc-core/tests/fixtures/sudoku_circuit.bin:1 (the whole binary file, 64 bytes on each line). *)
Definition fixture_bin_hex : list string := [
"200000002000000000000000010000f093f5e1439170b97948e833285d588181b64550b829a031e1724e6430ca000000000000005100000051000000a2000000";
"a2000000000000000100000000000000520000002000000000000000000000f093f5e1439170b97948e833285d588181b64550b829a031e1724e643001000000";
"00000000520000002000000000000000010000000000000000000000000000000000000000000000000000000000000001000000000000008e00000020000000";
"00000000000000f093f5e1439170b97948e833285d588181b64550b829a031e1724e64300100000000000000530000002000000000000000000000f093f5e143";
"9170b97948e833285d588181b64550b829a031e1724e643001000000000000005300000020000000000000000100000000000000000000000000000000000000";
"00000000000000000000000001000000000000008f0000002000000000000000000000f093f5e1439170b97948e833285d588181b64550b829a031e1724e6430";
"0100000000000000540000002000000000000000000000f093f5e1439170b97948e833285d588181b64550b829a031e1724e6430010000000000000054000000";
"200000000000000001000000000000000000000000000000000000000000000000000000000000000100000000000000900000002000000000000000000000f0";
"93f5e1439170b97948e833285d588181b64550b829a031e1724e64300100000000000000550000002000000000000000000000f093f5e1439170b97948e83328";
"5d588181b64550b829a031e1724e6430010000000000000055000000200000000000000001000000000000000000000000000000000000000000000000000000";
"000000000100000000000000910000002000000000000000000000f093f5e1439170b97948e833285d588181b64550b829a031e1724e64300100000000000000";
"560000002000000000000000000000f093f5e1439170b97948e833285d588181b64550b829a031e1724e64300100000000000000560000002000000000000000";
"01000000000000000000000000000000000000000000000000000000000000000100000000000000920000002000000000000000000000f093f5e1439170b979";
"48e833285d588181b64550b829a031e1724e64300100000000000000570000002000000000000000000000f093f5e1439170b97948e833285d588181b64550b8";
"29a031e1724e64300100000000000000570000002000000000000000010000000000000000000000000000000000000000000000000000000000000001000000";
"00000000930000002000000000000000000000f093f5e1439170b97948e833285d588181b64550b829a031e1724e643001000000000000005800000020000000";
"00000000000000f093f5e1439170b97948e833285d588181b64550b829a031e1724e643001000000000000005800000020000000000000000100000000000000";
"0000000000000000000000000000000000000000000000000100000000000000940000002000000000000000000000f093f5e1439170b97948e833285d588181";
"b64550b829a031e1724e64300100000000000000590000002000000000000000000000f093f5e1439170b97948e833285d588181b64550b829a031e1724e6430";
"01000000000000005900000020000000000000000100000000000000000000000000000000000000000000000000000000000000010000000000000095000000";
"2000000000000000000000f093f5e1439170b97948e833285d588181b64550b829a031e1724e64300900000000000000000000002000000000000000d4ffffef";
"93f5e1439170b97948e833285d588181b64550b829a031e1724e6430520000002000000000000000010000000000000000000000000000000000000000000000";
"00000000000000005300000020000000000000000100000000000000000000000000000000000000000000000000000000000000540000002000000000000000";
"01000000000000000000000000000000000000000000000000000000000000005500000020000000000000000100000000000000000000000000000000000000";
"00000000000000000000000056000000200000000000000001000000000000000000000000000000000000000000000000000000000000005700000020000000";
"00000000010000000000000000000000000000000000000000000000000000000000000058000000200000000000000001000000000000000000000000000000";
"00000000000000000000000000000000590000002000000000000000010000000000000000000000000000000000000000000000000000000000000009000000";
"000000000000000020000000000000002d00000000000000000000000000000000000000000000000000000000000000520000002000000000000000000000f0";
"93f5e1439170b97948e833285d588181b64550b829a031e1724e6430530000002000000000000000000000f093f5e1439170b97948e833285d588181b64550b8";
"29a031e1724e6430540000002000000000000000000000f093f5e1439170b97948e833285d588181b64550b829a031e1724e6430550000002000000000000000";
"000000f093f5e1439170b97948e833285d588181b64550b829a031e1724e6430560000002000000000000000000000f093f5e1439170b97948e833285d588181";
"b64550b829a031e1724e6430570000002000000000000000000000f093f5e1439170b97948e833285d588181b64550b829a031e1724e64305800000020000000";
"00000000000000f093f5e1439170b97948e833285d588181b64550b829a031e1724e6430590000002000000000000000000000f093f5e1439170b97948e83328";
"5d588181b64550b829a031e1724e64300900000000000000000000002000000000000000e4feffef93f5e1439170b97948e833285d588181b64550b829a031e1";
"724e64308e000000200000000000000001000000000000000000000000000000000000000000000000000000000000008f000000200000000000000001000000";
"00000000000000000000000000000000000000000000000000000000900000002000000000000000010000000000000000000000000000000000000000000000";
"00000000000000009100000020000000000000000100000000000000000000000000000000000000000000000000000000000000920000002000000000000000";
"01000000000000000000000000000000000000000000000000000000000000009300000020000000000000000100000000000000000000000000000000000000";
"00000000000000000000000094000000200000000000000001000000000000000000000000000000000000000000000000000000000000009500000020000000";
"00000000010000000000000000000000000000000000000000000000000000000000000001000000000000005a0000002000000000000000000000f093f5e143";
"9170b97948e833285d588181b64550b829a031e1724e643001000000000000005a00000020000000000000000100000000000000000000000000000000000000";
"0000000000000000000000000100000000000000960000002000000000000000000000f093f5e1439170b97948e833285d588181b64550b829a031e1724e6430";
"01000000000000005b0000002000000000000000000000f093f5e1439170b97948e833285d588181b64550b829a031e1724e643001000000000000005b000000";
"200000000000000001000000000000000000000000000000000000000000000000000000000000000100000000000000970000002000000000000000000000f0";
"93f5e1439170b97948e833285d588181b64550b829a031e1724e643001000000000000005c0000002000000000000000000000f093f5e1439170b97948e83328";
"5d588181b64550b829a031e1724e643001000000000000005c000000200000000000000001000000000000000000000000000000000000000000000000000000";
"000000000100000000000000980000002000000000000000000000f093f5e1439170b97948e833285d588181b64550b829a031e1724e64300100000000000000";
"5d0000002000000000000000000000f093f5e1439170b97948e833285d588181b64550b829a031e1724e643001000000000000005d0000002000000000000000";
"01000000000000000000000000000000000000000000000000000000000000000100000000000000990000002000000000000000000000f093f5e1439170b979";
"48e833285d588181b64550b829a031e1724e643001000000000000005e0000002000000000000000000000f093f5e1439170b97948e833285d588181b64550b8";
"29a031e1724e643001000000000000005e0000002000000000000000010000000000000000000000000000000000000000000000000000000000000001000000";
"000000009a0000002000000000000000000000f093f5e1439170b97948e833285d588181b64550b829a031e1724e643001000000000000005f00000020000000";
"00000000000000f093f5e1439170b97948e833285d588181b64550b829a031e1724e643001000000000000005f00000020000000000000000100000000000000";
"00000000000000000000000000000000000000000000000001000000000000009b0000002000000000000000000000f093f5e1439170b97948e833285d588181";
"b64550b829a031e1724e64300100000000000000600000002000000000000000000000f093f5e1439170b97948e833285d588181b64550b829a031e1724e6430";
"0100000000000000600000002000000000000000010000000000000000000000000000000000000000000000000000000000000001000000000000009c000000";
"2000000000000000000000f093f5e1439170b97948e833285d588181b64550b829a031e1724e64300100000000000000610000002000000000000000000000f0";
"93f5e1439170b97948e833285d588181b64550b829a031e1724e6430010000000000000061000000200000000000000001000000000000000000000000000000";
"0000000000000000000000000000000001000000000000009d0000002000000000000000000000f093f5e1439170b97948e833285d588181b64550b829a031e1";
"724e64300900000000000000000000002000000000000000d4ffffef93f5e1439170b97948e833285d588181b64550b829a031e1724e64305a00000020000000";
"0000000001000000000000000000000000000000000000000000000000000000000000005b000000200000000000000001000000000000000000000000000000";
"000000000000000000000000000000005c000000200000000000000001000000000000000000000000000000000000000000000000000000000000005d000000";
"200000000000000001000000000000000000000000000000000000000000000000000000000000005e0000002000000000000000010000000000000000000000";
"00000000000000000000000000000000000000005f00000020000000000000000100000000000000000000000000000000000000000000000000000000000000";
"60000000200000000000000001000000000000000000000000000000000000000000000000000000000000006100000020000000000000000100000000000000";
"00000000000000000000000000000000000000000000000009000000000000000000000020000000000000002d00000000000000000000000000000000000000";
"0000000000000000000000005a0000002000000000000000000000f093f5e1439170b97948e833285d588181b64550b829a031e1724e64305b00000020000000";
"00000000000000f093f5e1439170b97948e833285d588181b64550b829a031e1724e64305c0000002000000000000000000000f093f5e1439170b97948e83328";
"5d588181b64550b829a031e1724e64305d0000002000000000000000000000f093f5e1439170b97948e833285d588181b64550b829a031e1724e64305e000000";
"2000000000000000000000f093f5e1439170b97948e833285d588181b64550b829a031e1724e64305f0000002000000000000000000000f093f5e1439170b979";
"48e833285d588181b64550b829a031e1724e6430600000002000000000000000000000f093f5e1439170b97948e833285d588181b64550b829a031e1724e6430";
"610000002000000000000000000000f093f5e1439170b97948e833285d588181b64550b829a031e1724e64300900000000000000000000002000000000000000";
"e4feffef93f5e1439170b97948e833285d588181b64550b829a031e1724e64309600000020000000000000000100000000000000000000000000000000000000";
"00000000000000000000000097000000200000000000000001000000000000000000000000000000000000000000000000000000000000009800000020000000";
"00000000010000000000000000000000000000000000000000000000000000000000000099000000200000000000000001000000000000000000000000000000";
"000000000000000000000000000000009a000000200000000000000001000000000000000000000000000000000000000000000000000000000000009b000000";
"200000000000000001000000000000000000000000000000000000000000000000000000000000009c0000002000000000000000010000000000000000000000";
"00000000000000000000000000000000000000009d00000020000000000000000100000000000000000000000000000000000000000000000000000000000000";
"0100000000000000620000002000000000000000000000f093f5e1439170b97948e833285d588181b64550b829a031e1724e6430010000000000000062000000";
"2000000000000000010000000000000000000000000000000000000000000000000000000000000001000000000000009e0000002000000000000000000000f0";
"93f5e1439170b97948e833285d588181b64550b829a031e1724e64300100000000000000630000002000000000000000000000f093f5e1439170b97948e83328";
"5d588181b64550b829a031e1724e6430010000000000000063000000200000000000000001000000000000000000000000000000000000000000000000000000";
"0000000001000000000000009f0000002000000000000000000000f093f5e1439170b97948e833285d588181b64550b829a031e1724e64300900000000000000";
"000000002000000000000000d4ffffef93f5e1439170b97948e833285d588181b64550b829a031e1724e64305200000020000000000000000100000000000000";
"00000000000000000000000000000000000000000000000053000000200000000000000001000000000000000000000000000000000000000000000000000000";
"0000000054000000200000000000000001000000000000000000000000000000000000000000000000000000000000005a000000200000000000000001000000";
"000000000000000000000000000000000000000000000000000000005b0000002000000000000000010000000000000000000000000000000000000000000000";
"00000000000000005c00000020000000000000000100000000000000000000000000000000000000000000000000000000000000620000002000000000000000";
"01000000000000000000000000000000000000000000000000000000000000006300000020000000000000000100000000000000000000000000000000000000";
"00000000000000000000000009000000000000000000000020000000000000002d00000000000000000000000000000000000000000000000000000000000000";
"520000002000000000000000000000f093f5e1439170b97948e833285d588181b64550b829a031e1724e6430530000002000000000000000000000f093f5e143";
"9170b97948e833285d588181b64550b829a031e1724e6430540000002000000000000000000000f093f5e1439170b97948e833285d588181b64550b829a031e1";
"724e64305a0000002000000000000000000000f093f5e1439170b97948e833285d588181b64550b829a031e1724e64305b0000002000000000000000000000f0";
"93f5e1439170b97948e833285d588181b64550b829a031e1724e64305c0000002000000000000000000000f093f5e1439170b97948e833285d588181b64550b8";
"29a031e1724e6430620000002000000000000000000000f093f5e1439170b97948e833285d588181b64550b829a031e1724e6430630000002000000000000000";
"000000f093f5e1439170b97948e833285d588181b64550b829a031e1724e64300900000000000000000000002000000000000000e4feffef93f5e1439170b979";
"48e833285d588181b64550b829a031e1724e64308e00000020000000000000000100000000000000000000000000000000000000000000000000000000000000";
"8f000000200000000000000001000000000000000000000000000000000000000000000000000000000000009000000020000000000000000100000000000000";
"00000000000000000000000000000000000000000000000096000000200000000000000001000000000000000000000000000000000000000000000000000000";
"00000000970000002000000000000000010000000000000000000000000000000000000000000000000000000000000098000000200000000000000001000000";
"000000000000000000000000000000000000000000000000000000009e0000002000000000000000010000000000000000000000000000000000000000000000";
"00000000000000009f00000020000000000000000100000000000000000000000000000000000000000000000000000000000000010000000000000064000000";
"2000000000000000000000f093f5e1439170b97948e833285d588181b64550b829a031e1724e6430010000000000000064000000200000000000000001000000";
"000000000000000000000000000000000000000000000000000000000100000000000000a00000002000000000000000000000f093f5e1439170b97948e83328";
"5d588181b64550b829a031e1724e64300100000000000000650000002000000000000000000000f093f5e1439170b97948e833285d588181b64550b829a031e1";
"724e6430010000000000000065000000200000000000000001000000000000000000000000000000000000000000000000000000000000000100000000000000";
"a10000002000000000000000000000f093f5e1439170b97948e833285d588181b64550b829a031e1724e64300900000000000000000000002000000000000000";
"d4ffffef93f5e1439170b97948e833285d588181b64550b829a031e1724e64305500000020000000000000000100000000000000000000000000000000000000";
"00000000000000000000000056000000200000000000000001000000000000000000000000000000000000000000000000000000000000005700000020000000";
"0000000001000000000000000000000000000000000000000000000000000000000000005d000000200000000000000001000000000000000000000000000000";
"000000000000000000000000000000005e000000200000000000000001000000000000000000000000000000000000000000000000000000000000005f000000";
"20000000000000000100000000000000000000000000000000000000000000000000000000000000640000002000000000000000010000000000000000000000";
"00000000000000000000000000000000000000006500000020000000000000000100000000000000000000000000000000000000000000000000000000000000";
"09000000000000000000000020000000000000002d00000000000000000000000000000000000000000000000000000000000000550000002000000000000000";
"000000f093f5e1439170b97948e833285d588181b64550b829a031e1724e6430560000002000000000000000000000f093f5e1439170b97948e833285d588181";
"b64550b829a031e1724e6430570000002000000000000000000000f093f5e1439170b97948e833285d588181b64550b829a031e1724e64305d00000020000000";
"00000000000000f093f5e1439170b97948e833285d588181b64550b829a031e1724e64305e0000002000000000000000000000f093f5e1439170b97948e83328";
"5d588181b64550b829a031e1724e64305f0000002000000000000000000000f093f5e1439170b97948e833285d588181b64550b829a031e1724e643064000000";
"2000000000000000000000f093f5e1439170b97948e833285d588181b64550b829a031e1724e6430650000002000000000000000000000f093f5e1439170b979";
"48e833285d588181b64550b829a031e1724e64300900000000000000000000002000000000000000e4feffef93f5e1439170b97948e833285d588181b64550b8";
"29a031e1724e64309100000020000000000000000100000000000000000000000000000000000000000000000000000000000000920000002000000000000000";
"01000000000000000000000000000000000000000000000000000000000000009300000020000000000000000100000000000000000000000000000000000000";
"00000000000000000000000099000000200000000000000001000000000000000000000000000000000000000000000000000000000000009a00000020000000";
"0000000001000000000000000000000000000000000000000000000000000000000000009b000000200000000000000001000000000000000000000000000000";
"00000000000000000000000000000000a000000020000000000000000100000000000000000000000000000000000000000000000000000000000000a1000000";
"200000000000000001000000000000000000000000000000000000000000000000000000000000000100000000000000660000002000000000000000000000f0";
"93f5e1439170b97948e833285d588181b64550b829a031e1724e6430010000000000000066000000200000000000000001000000000000000000000000000000";
"000000000000000000000000000000000100000000000000a20000002000000000000000000000f093f5e1439170b97948e833285d588181b64550b829a031e1";
"724e64300100000000000000670000002000000000000000000000f093f5e1439170b97948e833285d588181b64550b829a031e1724e64300100000000000000";
"67000000200000000000000001000000000000000000000000000000000000000000000000000000000000000100000000000000a30000002000000000000000";
"000000f093f5e1439170b97948e833285d588181b64550b829a031e1724e64300f000000000000000000000020000000000000002d0000000000000000000000";
"0000000000000000000000000000000000000000520000002000000000000000000000f093f5e1439170b97948e833285d588181b64550b829a031e1724e6430";
"530000002000000000000000000000f093f5e1439170b97948e833285d588181b64550b829a031e1724e6430540000002000000000000000000000f093f5e143";
"9170b97948e833285d588181b64550b829a031e1724e6430550000002000000000000000000000f093f5e1439170b97948e833285d588181b64550b829a031e1";
"724e6430560000002000000000000000000000f093f5e1439170b97948e833285d588181b64550b829a031e1724e6430570000002000000000000000000000f0";
"93f5e1439170b97948e833285d588181b64550b829a031e1724e64305a0000002000000000000000000000f093f5e1439170b97948e833285d588181b64550b8";
"29a031e1724e64305b0000002000000000000000000000f093f5e1439170b97948e833285d588181b64550b829a031e1724e64305c0000002000000000000000";
"000000f093f5e1439170b97948e833285d588181b64550b829a031e1724e64305d0000002000000000000000000000f093f5e1439170b97948e833285d588181";
"b64550b829a031e1724e64305e0000002000000000000000000000f093f5e1439170b97948e833285d588181b64550b829a031e1724e64305f00000020000000";
"00000000000000f093f5e1439170b97948e833285d588181b64550b829a031e1724e643066000000200000000000000001000000000000000000000000000000";
"0000000000000000000000000000000067000000200000000000000001000000000000000000000000000000000000000000000000000000000000000f000000";
"00000000000000002000000000000000d4ffffef93f5e1439170b97948e833285d588181b64550b829a031e1724e643052000000200000000000000001000000";
"00000000000000000000000000000000000000000000000000000000530000002000000000000000010000000000000000000000000000000000000000000000";
"00000000000000005400000020000000000000000100000000000000000000000000000000000000000000000000000000000000550000002000000000000000";
"01000000000000000000000000000000000000000000000000000000000000005600000020000000000000000100000000000000000000000000000000000000";
"00000000000000000000000057000000200000000000000001000000000000000000000000000000000000000000000000000000000000005a00000020000000";
"0000000001000000000000000000000000000000000000000000000000000000000000005b000000200000000000000001000000000000000000000000000000";
"000000000000000000000000000000005c000000200000000000000001000000000000000000000000000000000000000000000000000000000000005d000000";
"200000000000000001000000000000000000000000000000000000000000000000000000000000005e0000002000000000000000010000000000000000000000";
"00000000000000000000000000000000000000005f00000020000000000000000100000000000000000000000000000000000000000000000000000000000000";
"660000002000000000000000000000f093f5e1439170b97948e833285d588181b64550b829a031e1724e6430670000002000000000000000000000f093f5e143";
"9170b97948e833285d588181b64550b829a031e1724e64300f000000000000000000000020000000000000001d01000000000000000000000000000000000000";
"0000000000000000000000008e0000002000000000000000000000f093f5e1439170b97948e833285d588181b64550b829a031e1724e64308f00000020000000";
"00000000000000f093f5e1439170b97948e833285d588181b64550b829a031e1724e6430900000002000000000000000000000f093f5e1439170b97948e83328";
"5d588181b64550b829a031e1724e6430910000002000000000000000000000f093f5e1439170b97948e833285d588181b64550b829a031e1724e643092000000";
"2000000000000000000000f093f5e1439170b97948e833285d588181b64550b829a031e1724e6430930000002000000000000000000000f093f5e1439170b979";
"48e833285d588181b64550b829a031e1724e6430960000002000000000000000000000f093f5e1439170b97948e833285d588181b64550b829a031e1724e6430";
"970000002000000000000000000000f093f5e1439170b97948e833285d588181b64550b829a031e1724e6430980000002000000000000000000000f093f5e143";
"9170b97948e833285d588181b64550b829a031e1724e6430990000002000000000000000000000f093f5e1439170b97948e833285d588181b64550b829a031e1";
"724e64309a0000002000000000000000000000f093f5e1439170b97948e833285d588181b64550b829a031e1724e64309b0000002000000000000000000000f0";
"93f5e1439170b97948e833285d588181b64550b829a031e1724e6430a20000002000000000000000010000000000000000000000000000000000000000000000";
"0000000000000000a300000020000000000000000100000000000000000000000000000000000000000000000000000000000000010000000000000068000000";
"2000000000000000000000f093f5e1439170b97948e833285d588181b64550b829a031e1724e6430010000000000000068000000200000000000000001000000";
"000000000000000000000000000000000000000000000000000000000100000000000000a40000002000000000000000000000f093f5e1439170b97948e83328";
"5d588181b64550b829a031e1724e64300100000000000000690000002000000000000000000000f093f5e1439170b97948e833285d588181b64550b829a031e1";
"724e6430010000000000000069000000200000000000000001000000000000000000000000000000000000000000000000000000000000000100000000000000";
"a50000002000000000000000000000f093f5e1439170b97948e833285d588181b64550b829a031e1724e643001000000000000006a0000002000000000000000";
"000000f093f5e1439170b97948e833285d588181b64550b829a031e1724e643001000000000000006a0000002000000000000000010000000000000000000000";
"00000000000000000000000000000000000000000100000000000000a60000002000000000000000000000f093f5e1439170b97948e833285d588181b64550b8";
"29a031e1724e643001000000000000006b0000002000000000000000000000f093f5e1439170b97948e833285d588181b64550b829a031e1724e643001000000";
"000000006b000000200000000000000001000000000000000000000000000000000000000000000000000000000000000100000000000000a700000020000000";
"00000000000000f093f5e1439170b97948e833285d588181b64550b829a031e1724e643001000000000000006c0000002000000000000000000000f093f5e143";
"9170b97948e833285d588181b64550b829a031e1724e643001000000000000006c00000020000000000000000100000000000000000000000000000000000000";
"0000000000000000000000000100000000000000a80000002000000000000000000000f093f5e1439170b97948e833285d588181b64550b829a031e1724e6430";
"01000000000000006d0000002000000000000000000000f093f5e1439170b97948e833285d588181b64550b829a031e1724e643001000000000000006d000000";
"200000000000000001000000000000000000000000000000000000000000000000000000000000000100000000000000a90000002000000000000000000000f0";
"93f5e1439170b97948e833285d588181b64550b829a031e1724e643001000000000000006e0000002000000000000000000000f093f5e1439170b97948e83328";
"5d588181b64550b829a031e1724e643001000000000000006e000000200000000000000001000000000000000000000000000000000000000000000000000000";
"000000000100000000000000aa0000002000000000000000000000f093f5e1439170b97948e833285d588181b64550b829a031e1724e64300100000000000000";
"6f0000002000000000000000000000f093f5e1439170b97948e833285d588181b64550b829a031e1724e643001000000000000006f0000002000000000000000";
"01000000000000000000000000000000000000000000000000000000000000000100000000000000ab0000002000000000000000000000f093f5e1439170b979";
"48e833285d588181b64550b829a031e1724e64300900000000000000000000002000000000000000d4ffffef93f5e1439170b97948e833285d588181b64550b8";
"29a031e1724e64306800000020000000000000000100000000000000000000000000000000000000000000000000000000000000690000002000000000000000";
"01000000000000000000000000000000000000000000000000000000000000006a00000020000000000000000100000000000000000000000000000000000000";
"0000000000000000000000006b000000200000000000000001000000000000000000000000000000000000000000000000000000000000006c00000020000000";
"0000000001000000000000000000000000000000000000000000000000000000000000006d000000200000000000000001000000000000000000000000000000";
"000000000000000000000000000000006e000000200000000000000001000000000000000000000000000000000000000000000000000000000000006f000000";
"2000000000000000010000000000000000000000000000000000000000000000000000000000000009000000000000000000000020000000000000002d000000";
"00000000000000000000000000000000000000000000000000000000680000002000000000000000000000f093f5e1439170b97948e833285d588181b64550b8";
"29a031e1724e6430690000002000000000000000000000f093f5e1439170b97948e833285d588181b64550b829a031e1724e64306a0000002000000000000000";
"000000f093f5e1439170b97948e833285d588181b64550b829a031e1724e64306b0000002000000000000000000000f093f5e1439170b97948e833285d588181";
"b64550b829a031e1724e64306c0000002000000000000000000000f093f5e1439170b97948e833285d588181b64550b829a031e1724e64306d00000020000000";
"00000000000000f093f5e1439170b97948e833285d588181b64550b829a031e1724e64306e0000002000000000000000000000f093f5e1439170b97948e83328";
"5d588181b64550b829a031e1724e64306f0000002000000000000000000000f093f5e1439170b97948e833285d588181b64550b829a031e1724e643009000000";
"00000000000000002000000000000000e4feffef93f5e1439170b97948e833285d588181b64550b829a031e1724e6430a4000000200000000000000001000000";
"00000000000000000000000000000000000000000000000000000000a50000002000000000000000010000000000000000000000000000000000000000000000";
"0000000000000000a600000020000000000000000100000000000000000000000000000000000000000000000000000000000000a70000002000000000000000";
"0100000000000000000000000000000000000000000000000000000000000000a800000020000000000000000100000000000000000000000000000000000000";
"000000000000000000000000a900000020000000000000000100000000000000000000000000000000000000000000000000000000000000aa00000020000000";
"000000000100000000000000000000000000000000000000000000000000000000000000ab000000200000000000000001000000000000000000000000000000";
"000000000000000000000000000000000100000000000000700000002000000000000000000000f093f5e1439170b97948e833285d588181b64550b829a031e1";
"724e6430010000000000000070000000200000000000000001000000000000000000000000000000000000000000000000000000000000000100000000000000";
"ac0000002000000000000000000000f093f5e1439170b97948e833285d588181b64550b829a031e1724e64300100000000000000710000002000000000000000";
"000000f093f5e1439170b97948e833285d588181b64550b829a031e1724e64300100000000000000710000002000000000000000010000000000000000000000";
"00000000000000000000000000000000000000000100000000000000ad0000002000000000000000000000f093f5e1439170b97948e833285d588181b64550b8";
"29a031e1724e64300100000000000000720000002000000000000000000000f093f5e1439170b97948e833285d588181b64550b829a031e1724e643001000000";
"0000000072000000200000000000000001000000000000000000000000000000000000000000000000000000000000000100000000000000ae00000020000000";
"00000000000000f093f5e1439170b97948e833285d588181b64550b829a031e1724e64300100000000000000730000002000000000000000000000f093f5e143";
"9170b97948e833285d588181b64550b829a031e1724e643001000000000000007300000020000000000000000100000000000000000000000000000000000000";
"0000000000000000000000000100000000000000af0000002000000000000000000000f093f5e1439170b97948e833285d588181b64550b829a031e1724e6430";
"0100000000000000740000002000000000000000000000f093f5e1439170b97948e833285d588181b64550b829a031e1724e6430010000000000000074000000";
"200000000000000001000000000000000000000000000000000000000000000000000000000000000100000000000000b00000002000000000000000000000f0";
"93f5e1439170b97948e833285d588181b64550b829a031e1724e64300100000000000000750000002000000000000000000000f093f5e1439170b97948e83328";
"5d588181b64550b829a031e1724e6430010000000000000075000000200000000000000001000000000000000000000000000000000000000000000000000000";
"000000000100000000000000b10000002000000000000000000000f093f5e1439170b97948e833285d588181b64550b829a031e1724e64300100000000000000";
"760000002000000000000000000000f093f5e1439170b97948e833285d588181b64550b829a031e1724e64300100000000000000760000002000000000000000";
"01000000000000000000000000000000000000000000000000000000000000000100000000000000b20000002000000000000000000000f093f5e1439170b979";
"48e833285d588181b64550b829a031e1724e64300100000000000000770000002000000000000000000000f093f5e1439170b97948e833285d588181b64550b8";
"29a031e1724e64300100000000000000770000002000000000000000010000000000000000000000000000000000000000000000000000000000000001000000";
"00000000b30000002000000000000000000000f093f5e1439170b97948e833285d588181b64550b829a031e1724e643009000000000000000000000020000000";
"00000000d4ffffef93f5e1439170b97948e833285d588181b64550b829a031e1724e643070000000200000000000000001000000000000000000000000000000";
"00000000000000000000000000000000710000002000000000000000010000000000000000000000000000000000000000000000000000000000000072000000";
"20000000000000000100000000000000000000000000000000000000000000000000000000000000730000002000000000000000010000000000000000000000";
"00000000000000000000000000000000000000007400000020000000000000000100000000000000000000000000000000000000000000000000000000000000";
"75000000200000000000000001000000000000000000000000000000000000000000000000000000000000007600000020000000000000000100000000000000";
"00000000000000000000000000000000000000000000000077000000200000000000000001000000000000000000000000000000000000000000000000000000";
"0000000009000000000000000000000020000000000000002d000000000000000000000000000000000000000000000000000000000000007000000020000000";
"00000000000000f093f5e1439170b97948e833285d588181b64550b829a031e1724e6430710000002000000000000000000000f093f5e1439170b97948e83328";
"5d588181b64550b829a031e1724e6430720000002000000000000000000000f093f5e1439170b97948e833285d588181b64550b829a031e1724e643073000000";
"2000000000000000000000f093f5e1439170b97948e833285d588181b64550b829a031e1724e6430740000002000000000000000000000f093f5e1439170b979";
"48e833285d588181b64550b829a031e1724e6430750000002000000000000000000000f093f5e1439170b97948e833285d588181b64550b829a031e1724e6430";
"760000002000000000000000000000f093f5e1439170b97948e833285d588181b64550b829a031e1724e6430770000002000000000000000000000f093f5e143";
"9170b97948e833285d588181b64550b829a031e1724e64300900000000000000000000002000000000000000e4feffef93f5e1439170b97948e833285d588181";
"b64550b829a031e1724e6430ac00000020000000000000000100000000000000000000000000000000000000000000000000000000000000ad00000020000000";
"000000000100000000000000000000000000000000000000000000000000000000000000ae000000200000000000000001000000000000000000000000000000";
"00000000000000000000000000000000af00000020000000000000000100000000000000000000000000000000000000000000000000000000000000b0000000";
"20000000000000000100000000000000000000000000000000000000000000000000000000000000b10000002000000000000000010000000000000000000000";
"0000000000000000000000000000000000000000b200000020000000000000000100000000000000000000000000000000000000000000000000000000000000";
"b3000000200000000000000001000000000000000000000000000000000000000000000000000000000000000100000000000000780000002000000000000000";
"000000f093f5e1439170b97948e833285d588181b64550b829a031e1724e64300100000000000000780000002000000000000000010000000000000000000000";
"00000000000000000000000000000000000000000100000000000000b40000002000000000000000000000f093f5e1439170b97948e833285d588181b64550b8";
"29a031e1724e64300100000000000000790000002000000000000000000000f093f5e1439170b97948e833285d588181b64550b829a031e1724e643001000000";
"0000000079000000200000000000000001000000000000000000000000000000000000000000000000000000000000000100000000000000b500000020000000";
"00000000000000f093f5e1439170b97948e833285d588181b64550b829a031e1724e64300900000000000000000000002000000000000000d4ffffef93f5e143";
"9170b97948e833285d588181b64550b829a031e1724e643068000000200000000000000001000000000000000000000000000000000000000000000000000000";
"0000000069000000200000000000000001000000000000000000000000000000000000000000000000000000000000006a000000200000000000000001000000";
"00000000000000000000000000000000000000000000000000000000700000002000000000000000010000000000000000000000000000000000000000000000";
"00000000000000007100000020000000000000000100000000000000000000000000000000000000000000000000000000000000720000002000000000000000";
"01000000000000000000000000000000000000000000000000000000000000007800000020000000000000000100000000000000000000000000000000000000";
"00000000000000000000000079000000200000000000000001000000000000000000000000000000000000000000000000000000000000000900000000000000";
"0000000020000000000000002d00000000000000000000000000000000000000000000000000000000000000680000002000000000000000000000f093f5e143";
"9170b97948e833285d588181b64550b829a031e1724e6430690000002000000000000000000000f093f5e1439170b97948e833285d588181b64550b829a031e1";
"724e64306a0000002000000000000000000000f093f5e1439170b97948e833285d588181b64550b829a031e1724e6430700000002000000000000000000000f0";
"93f5e1439170b97948e833285d588181b64550b829a031e1724e6430710000002000000000000000000000f093f5e1439170b97948e833285d588181b64550b8";
"29a031e1724e6430720000002000000000000000000000f093f5e1439170b97948e833285d588181b64550b829a031e1724e6430780000002000000000000000";
"000000f093f5e1439170b97948e833285d588181b64550b829a031e1724e6430790000002000000000000000000000f093f5e1439170b97948e833285d588181";
"b64550b829a031e1724e64300900000000000000000000002000000000000000e4feffef93f5e1439170b97948e833285d588181b64550b829a031e1724e6430";
"a400000020000000000000000100000000000000000000000000000000000000000000000000000000000000a500000020000000000000000100000000000000";
"000000000000000000000000000000000000000000000000a6000000200000000000000001000000000000000000000000000000000000000000000000000000";
"00000000ac00000020000000000000000100000000000000000000000000000000000000000000000000000000000000ad000000200000000000000001000000";
"00000000000000000000000000000000000000000000000000000000ae0000002000000000000000010000000000000000000000000000000000000000000000";
"0000000000000000b400000020000000000000000100000000000000000000000000000000000000000000000000000000000000b50000002000000000000000";
"010000000000000000000000000000000000000000000000000000000000000001000000000000007a0000002000000000000000000000f093f5e1439170b979";
"48e833285d588181b64550b829a031e1724e643001000000000000007a0000002000000000000000010000000000000000000000000000000000000000000000";
"00000000000000000100000000000000b60000002000000000000000000000f093f5e1439170b97948e833285d588181b64550b829a031e1724e643001000000";
"000000007b0000002000000000000000000000f093f5e1439170b97948e833285d588181b64550b829a031e1724e643001000000000000007b00000020000000";
"0000000001000000000000000000000000000000000000000000000000000000000000000100000000000000b70000002000000000000000000000f093f5e143";
"9170b97948e833285d588181b64550b829a031e1724e64300900000000000000000000002000000000000000d4ffffef93f5e1439170b97948e833285d588181";
"b64550b829a031e1724e64306b000000200000000000000001000000000000000000000000000000000000000000000000000000000000006c00000020000000";
"0000000001000000000000000000000000000000000000000000000000000000000000006d000000200000000000000001000000000000000000000000000000";
"00000000000000000000000000000000730000002000000000000000010000000000000000000000000000000000000000000000000000000000000074000000";
"20000000000000000100000000000000000000000000000000000000000000000000000000000000750000002000000000000000010000000000000000000000";
"00000000000000000000000000000000000000007a00000020000000000000000100000000000000000000000000000000000000000000000000000000000000";
"7b000000200000000000000001000000000000000000000000000000000000000000000000000000000000000900000000000000000000002000000000000000";
"2d000000000000000000000000000000000000000000000000000000000000006b0000002000000000000000000000f093f5e1439170b97948e833285d588181";
"b64550b829a031e1724e64306c0000002000000000000000000000f093f5e1439170b97948e833285d588181b64550b829a031e1724e64306d00000020000000";
"00000000000000f093f5e1439170b97948e833285d588181b64550b829a031e1724e6430730000002000000000000000000000f093f5e1439170b97948e83328";
"5d588181b64550b829a031e1724e6430740000002000000000000000000000f093f5e1439170b97948e833285d588181b64550b829a031e1724e643075000000";
"2000000000000000000000f093f5e1439170b97948e833285d588181b64550b829a031e1724e64307a0000002000000000000000000000f093f5e1439170b979";
"48e833285d588181b64550b829a031e1724e64307b0000002000000000000000000000f093f5e1439170b97948e833285d588181b64550b829a031e1724e6430";
"0900000000000000000000002000000000000000e4feffef93f5e1439170b97948e833285d588181b64550b829a031e1724e6430a70000002000000000000000";
"0100000000000000000000000000000000000000000000000000000000000000a800000020000000000000000100000000000000000000000000000000000000";
"000000000000000000000000a900000020000000000000000100000000000000000000000000000000000000000000000000000000000000af00000020000000";
"000000000100000000000000000000000000000000000000000000000000000000000000b0000000200000000000000001000000000000000000000000000000";
"00000000000000000000000000000000b100000020000000000000000100000000000000000000000000000000000000000000000000000000000000b6000000";
"20000000000000000100000000000000000000000000000000000000000000000000000000000000b70000002000000000000000010000000000000000000000";
"000000000000000000000000000000000000000001000000000000007c0000002000000000000000000000f093f5e1439170b97948e833285d588181b64550b8";
"29a031e1724e643001000000000000007c0000002000000000000000010000000000000000000000000000000000000000000000000000000000000001000000";
"00000000b80000002000000000000000000000f093f5e1439170b97948e833285d588181b64550b829a031e1724e643001000000000000007d00000020000000";
"00000000000000f093f5e1439170b97948e833285d588181b64550b829a031e1724e643001000000000000007d00000020000000000000000100000000000000";
"0000000000000000000000000000000000000000000000000100000000000000b90000002000000000000000000000f093f5e1439170b97948e833285d588181";
"b64550b829a031e1724e64300f000000000000000000000020000000000000002d00000000000000000000000000000000000000000000000000000000000000";
"680000002000000000000000000000f093f5e1439170b97948e833285d588181b64550b829a031e1724e6430690000002000000000000000000000f093f5e143";
"9170b97948e833285d588181b64550b829a031e1724e64306a0000002000000000000000000000f093f5e1439170b97948e833285d588181b64550b829a031e1";
"724e64306b0000002000000000000000000000f093f5e1439170b97948e833285d588181b64550b829a031e1724e64306c0000002000000000000000000000f0";
"93f5e1439170b97948e833285d588181b64550b829a031e1724e64306d0000002000000000000000000000f093f5e1439170b97948e833285d588181b64550b8";
"29a031e1724e6430700000002000000000000000000000f093f5e1439170b97948e833285d588181b64550b829a031e1724e6430710000002000000000000000";
"000000f093f5e1439170b97948e833285d588181b64550b829a031e1724e6430720000002000000000000000000000f093f5e1439170b97948e833285d588181";
"b64550b829a031e1724e6430730000002000000000000000000000f093f5e1439170b97948e833285d588181b64550b829a031e1724e64307400000020000000";
"00000000000000f093f5e1439170b97948e833285d588181b64550b829a031e1724e6430750000002000000000000000000000f093f5e1439170b97948e83328";
"5d588181b64550b829a031e1724e64307c000000200000000000000001000000000000000000000000000000000000000000000000000000000000007d000000";
"200000000000000001000000000000000000000000000000000000000000000000000000000000000f00000000000000000000002000000000000000d4ffffef";
"93f5e1439170b97948e833285d588181b64550b829a031e1724e6430680000002000000000000000010000000000000000000000000000000000000000000000";
"000000000000000069000000200000000000000001000000000000000000000000000000000000000000000000000000000000006a0000002000000000000000";
"01000000000000000000000000000000000000000000000000000000000000006b00000020000000000000000100000000000000000000000000000000000000";
"0000000000000000000000006c000000200000000000000001000000000000000000000000000000000000000000000000000000000000006d00000020000000";
"00000000010000000000000000000000000000000000000000000000000000000000000070000000200000000000000001000000000000000000000000000000";
"00000000000000000000000000000000710000002000000000000000010000000000000000000000000000000000000000000000000000000000000072000000";
"20000000000000000100000000000000000000000000000000000000000000000000000000000000730000002000000000000000010000000000000000000000";
"00000000000000000000000000000000000000007400000020000000000000000100000000000000000000000000000000000000000000000000000000000000";
"75000000200000000000000001000000000000000000000000000000000000000000000000000000000000007c0000002000000000000000000000f093f5e143";
"9170b97948e833285d588181b64550b829a031e1724e64307d0000002000000000000000000000f093f5e1439170b97948e833285d588181b64550b829a031e1";
"724e64300f000000000000000000000020000000000000001d01000000000000000000000000000000000000000000000000000000000000a400000020000000";
"00000000000000f093f5e1439170b97948e833285d588181b64550b829a031e1724e6430a50000002000000000000000000000f093f5e1439170b97948e83328";
"5d588181b64550b829a031e1724e6430a60000002000000000000000000000f093f5e1439170b97948e833285d588181b64550b829a031e1724e6430a7000000";
"2000000000000000000000f093f5e1439170b97948e833285d588181b64550b829a031e1724e6430a80000002000000000000000000000f093f5e1439170b979";
"48e833285d588181b64550b829a031e1724e6430a90000002000000000000000000000f093f5e1439170b97948e833285d588181b64550b829a031e1724e6430";
"ac0000002000000000000000000000f093f5e1439170b97948e833285d588181b64550b829a031e1724e6430ad0000002000000000000000000000f093f5e143";
"9170b97948e833285d588181b64550b829a031e1724e6430ae0000002000000000000000000000f093f5e1439170b97948e833285d588181b64550b829a031e1";
"724e6430af0000002000000000000000000000f093f5e1439170b97948e833285d588181b64550b829a031e1724e6430b00000002000000000000000000000f0";
"93f5e1439170b97948e833285d588181b64550b829a031e1724e6430b10000002000000000000000000000f093f5e1439170b97948e833285d588181b64550b8";
"29a031e1724e6430b800000020000000000000000100000000000000000000000000000000000000000000000000000000000000b90000002000000000000000";
"010000000000000000000000000000000000000000000000000000000000000001000000000000007e0000002000000000000000000000f093f5e1439170b979";
"48e833285d588181b64550b829a031e1724e643001000000000000007e0000002000000000000000010000000000000000000000000000000000000000000000";
"00000000000000000100000000000000ba0000002000000000000000000000f093f5e1439170b97948e833285d588181b64550b829a031e1724e643001000000";
"000000007f0000002000000000000000000000f093f5e1439170b97948e833285d588181b64550b829a031e1724e643001000000000000007f00000020000000";
"0000000001000000000000000000000000000000000000000000000000000000000000000100000000000000bb0000002000000000000000000000f093f5e143";
"9170b97948e833285d588181b64550b829a031e1724e64300100000000000000800000002000000000000000000000f093f5e1439170b97948e833285d588181";
"b64550b829a031e1724e643001000000000000008000000020000000000000000100000000000000000000000000000000000000000000000000000000000000";
"0100000000000000bc0000002000000000000000000000f093f5e1439170b97948e833285d588181b64550b829a031e1724e6430010000000000000081000000";
"2000000000000000000000f093f5e1439170b97948e833285d588181b64550b829a031e1724e6430010000000000000081000000200000000000000001000000";
"000000000000000000000000000000000000000000000000000000000100000000000000bd0000002000000000000000000000f093f5e1439170b97948e83328";
"5d588181b64550b829a031e1724e64300100000000000000820000002000000000000000000000f093f5e1439170b97948e833285d588181b64550b829a031e1";
"724e6430010000000000000082000000200000000000000001000000000000000000000000000000000000000000000000000000000000000100000000000000";
"be0000002000000000000000000000f093f5e1439170b97948e833285d588181b64550b829a031e1724e64300100000000000000830000002000000000000000";
"000000f093f5e1439170b97948e833285d588181b64550b829a031e1724e64300100000000000000830000002000000000000000010000000000000000000000";
"00000000000000000000000000000000000000000100000000000000bf0000002000000000000000000000f093f5e1439170b97948e833285d588181b64550b8";
"29a031e1724e64300100000000000000840000002000000000000000000000f093f5e1439170b97948e833285d588181b64550b829a031e1724e643001000000";
"0000000084000000200000000000000001000000000000000000000000000000000000000000000000000000000000000100000000000000c000000020000000";
"00000000000000f093f5e1439170b97948e833285d588181b64550b829a031e1724e64300100000000000000850000002000000000000000000000f093f5e143";
"9170b97948e833285d588181b64550b829a031e1724e643001000000000000008500000020000000000000000100000000000000000000000000000000000000";
"0000000000000000000000000100000000000000c10000002000000000000000000000f093f5e1439170b97948e833285d588181b64550b829a031e1724e6430";
"0900000000000000000000002000000000000000d4ffffef93f5e1439170b97948e833285d588181b64550b829a031e1724e64307e0000002000000000000000";
"01000000000000000000000000000000000000000000000000000000000000007f00000020000000000000000100000000000000000000000000000000000000";
"00000000000000000000000080000000200000000000000001000000000000000000000000000000000000000000000000000000000000008100000020000000";
"00000000010000000000000000000000000000000000000000000000000000000000000082000000200000000000000001000000000000000000000000000000";
"00000000000000000000000000000000830000002000000000000000010000000000000000000000000000000000000000000000000000000000000084000000";
"20000000000000000100000000000000000000000000000000000000000000000000000000000000850000002000000000000000010000000000000000000000";
"000000000000000000000000000000000000000009000000000000000000000020000000000000002d0000000000000000000000000000000000000000000000";
"00000000000000007e0000002000000000000000000000f093f5e1439170b97948e833285d588181b64550b829a031e1724e64307f0000002000000000000000";
"000000f093f5e1439170b97948e833285d588181b64550b829a031e1724e6430800000002000000000000000000000f093f5e1439170b97948e833285d588181";
"b64550b829a031e1724e6430810000002000000000000000000000f093f5e1439170b97948e833285d588181b64550b829a031e1724e64308200000020000000";
"00000000000000f093f5e1439170b97948e833285d588181b64550b829a031e1724e6430830000002000000000000000000000f093f5e1439170b97948e83328";
"5d588181b64550b829a031e1724e6430840000002000000000000000000000f093f5e1439170b97948e833285d588181b64550b829a031e1724e643085000000";
"2000000000000000000000f093f5e1439170b97948e833285d588181b64550b829a031e1724e64300900000000000000000000002000000000000000e4feffef";
"93f5e1439170b97948e833285d588181b64550b829a031e1724e6430ba0000002000000000000000010000000000000000000000000000000000000000000000";
"0000000000000000bb00000020000000000000000100000000000000000000000000000000000000000000000000000000000000bc0000002000000000000000";
"0100000000000000000000000000000000000000000000000000000000000000bd00000020000000000000000100000000000000000000000000000000000000";
"000000000000000000000000be00000020000000000000000100000000000000000000000000000000000000000000000000000000000000bf00000020000000";
"000000000100000000000000000000000000000000000000000000000000000000000000c0000000200000000000000001000000000000000000000000000000";
"00000000000000000000000000000000c10000002000000000000000010000000000000000000000000000000000000000000000000000000000000001000000";
"00000000860000002000000000000000000000f093f5e1439170b97948e833285d588181b64550b829a031e1724e643001000000000000008600000020000000";
"0000000001000000000000000000000000000000000000000000000000000000000000000100000000000000c20000002000000000000000000000f093f5e143";
"9170b97948e833285d588181b64550b829a031e1724e64300100000000000000870000002000000000000000000000f093f5e1439170b97948e833285d588181";
"b64550b829a031e1724e643001000000000000008700000020000000000000000100000000000000000000000000000000000000000000000000000000000000";
"0100000000000000c30000002000000000000000000000f093f5e1439170b97948e833285d588181b64550b829a031e1724e6430010000000000000088000000";
"2000000000000000000000f093f5e1439170b97948e833285d588181b64550b829a031e1724e6430010000000000000088000000200000000000000001000000";
"000000000000000000000000000000000000000000000000000000000100000000000000c40000002000000000000000000000f093f5e1439170b97948e83328";
"5d588181b64550b829a031e1724e64300100000000000000890000002000000000000000000000f093f5e1439170b97948e833285d588181b64550b829a031e1";
"724e6430010000000000000089000000200000000000000001000000000000000000000000000000000000000000000000000000000000000100000000000000";
"c50000002000000000000000000000f093f5e1439170b97948e833285d588181b64550b829a031e1724e643001000000000000008a0000002000000000000000";
"000000f093f5e1439170b97948e833285d588181b64550b829a031e1724e643001000000000000008a0000002000000000000000010000000000000000000000";
"00000000000000000000000000000000000000000100000000000000c60000002000000000000000000000f093f5e1439170b97948e833285d588181b64550b8";
"29a031e1724e643001000000000000008b0000002000000000000000000000f093f5e1439170b97948e833285d588181b64550b829a031e1724e643001000000";
"000000008b000000200000000000000001000000000000000000000000000000000000000000000000000000000000000100000000000000c700000020000000";
"00000000000000f093f5e1439170b97948e833285d588181b64550b829a031e1724e643001000000000000008c0000002000000000000000000000f093f5e143";
"9170b97948e833285d588181b64550b829a031e1724e643001000000000000008c00000020000000000000000100000000000000000000000000000000000000";
"0000000000000000000000000100000000000000c80000002000000000000000000000f093f5e1439170b97948e833285d588181b64550b829a031e1724e6430";
"01000000000000008d0000002000000000000000000000f093f5e1439170b97948e833285d588181b64550b829a031e1724e643001000000000000008d000000";
"200000000000000001000000000000000000000000000000000000000000000000000000000000000100000000000000c90000002000000000000000000000f0";
"93f5e1439170b97948e833285d588181b64550b829a031e1724e64300900000000000000000000002000000000000000d4ffffef93f5e1439170b97948e83328";
"5d588181b64550b829a031e1724e6430860000002000000000000000010000000000000000000000000000000000000000000000000000000000000087000000";
"20000000000000000100000000000000000000000000000000000000000000000000000000000000880000002000000000000000010000000000000000000000";
"00000000000000000000000000000000000000008900000020000000000000000100000000000000000000000000000000000000000000000000000000000000";
"8a000000200000000000000001000000000000000000000000000000000000000000000000000000000000008b00000020000000000000000100000000000000";
"0000000000000000000000000000000000000000000000008c000000200000000000000001000000000000000000000000000000000000000000000000000000";
"000000008d0000002000000000000000010000000000000000000000000000000000000000000000000000000000000009000000000000000000000020000000";
"000000002d00000000000000000000000000000000000000000000000000000000000000860000002000000000000000000000f093f5e1439170b97948e83328";
"5d588181b64550b829a031e1724e6430870000002000000000000000000000f093f5e1439170b97948e833285d588181b64550b829a031e1724e643088000000";
"2000000000000000000000f093f5e1439170b97948e833285d588181b64550b829a031e1724e6430890000002000000000000000000000f093f5e1439170b979";
"48e833285d588181b64550b829a031e1724e64308a0000002000000000000000000000f093f5e1439170b97948e833285d588181b64550b829a031e1724e6430";
"8b0000002000000000000000000000f093f5e1439170b97948e833285d588181b64550b829a031e1724e64308c0000002000000000000000000000f093f5e143";
"9170b97948e833285d588181b64550b829a031e1724e64308d0000002000000000000000000000f093f5e1439170b97948e833285d588181b64550b829a031e1";
"724e64300900000000000000000000002000000000000000e4feffef93f5e1439170b97948e833285d588181b64550b829a031e1724e6430c200000020000000";
"000000000100000000000000000000000000000000000000000000000000000000000000c3000000200000000000000001000000000000000000000000000000";
"00000000000000000000000000000000c400000020000000000000000100000000000000000000000000000000000000000000000000000000000000c5000000";
"20000000000000000100000000000000000000000000000000000000000000000000000000000000c60000002000000000000000010000000000000000000000";
"0000000000000000000000000000000000000000c700000020000000000000000100000000000000000000000000000000000000000000000000000000000000";
"c800000020000000000000000100000000000000000000000000000000000000000000000000000000000000c900000020000000000000000100000000000000";
"0000000000000000000000000000000000000000000000000900000000000000000000002000000000000000d4ffffef93f5e1439170b97948e833285d588181";
"b64550b829a031e1724e643052000000200000000000000001000000000000000000000000000000000000000000000000000000000000005a00000020000000";
"00000000010000000000000000000000000000000000000000000000000000000000000062000000200000000000000001000000000000000000000000000000";
"00000000000000000000000000000000680000002000000000000000010000000000000000000000000000000000000000000000000000000000000070000000";
"20000000000000000100000000000000000000000000000000000000000000000000000000000000780000002000000000000000010000000000000000000000";
"00000000000000000000000000000000000000007e00000020000000000000000100000000000000000000000000000000000000000000000000000000000000";
"86000000200000000000000001000000000000000000000000000000000000000000000000000000000000000900000000000000000000002000000000000000";
"2d00000000000000000000000000000000000000000000000000000000000000520000002000000000000000000000f093f5e1439170b97948e833285d588181";
"b64550b829a031e1724e64305a0000002000000000000000000000f093f5e1439170b97948e833285d588181b64550b829a031e1724e64306200000020000000";
"00000000000000f093f5e1439170b97948e833285d588181b64550b829a031e1724e6430680000002000000000000000000000f093f5e1439170b97948e83328";
"5d588181b64550b829a031e1724e6430700000002000000000000000000000f093f5e1439170b97948e833285d588181b64550b829a031e1724e643078000000";
"2000000000000000000000f093f5e1439170b97948e833285d588181b64550b829a031e1724e64307e0000002000000000000000000000f093f5e1439170b979";
"48e833285d588181b64550b829a031e1724e6430860000002000000000000000000000f093f5e1439170b97948e833285d588181b64550b829a031e1724e6430";
"0900000000000000000000002000000000000000e4feffef93f5e1439170b97948e833285d588181b64550b829a031e1724e64308e0000002000000000000000";
"01000000000000000000000000000000000000000000000000000000000000009600000020000000000000000100000000000000000000000000000000000000";
"0000000000000000000000009e00000020000000000000000100000000000000000000000000000000000000000000000000000000000000a400000020000000";
"000000000100000000000000000000000000000000000000000000000000000000000000ac000000200000000000000001000000000000000000000000000000";
"00000000000000000000000000000000b400000020000000000000000100000000000000000000000000000000000000000000000000000000000000ba000000";
"20000000000000000100000000000000000000000000000000000000000000000000000000000000c20000002000000000000000010000000000000000000000";
"00000000000000000000000000000000000000000900000000000000000000002000000000000000d4ffffef93f5e1439170b97948e833285d588181b64550b8";
"29a031e1724e643053000000200000000000000001000000000000000000000000000000000000000000000000000000000000005b0000002000000000000000";
"01000000000000000000000000000000000000000000000000000000000000006300000020000000000000000100000000000000000000000000000000000000";
"00000000000000000000000069000000200000000000000001000000000000000000000000000000000000000000000000000000000000007100000020000000";
"00000000010000000000000000000000000000000000000000000000000000000000000079000000200000000000000001000000000000000000000000000000";
"000000000000000000000000000000007f0000002000000000000000010000000000000000000000000000000000000000000000000000000000000087000000";
"2000000000000000010000000000000000000000000000000000000000000000000000000000000009000000000000000000000020000000000000002d000000";
"00000000000000000000000000000000000000000000000000000000530000002000000000000000000000f093f5e1439170b97948e833285d588181b64550b8";
"29a031e1724e64305b0000002000000000000000000000f093f5e1439170b97948e833285d588181b64550b829a031e1724e6430630000002000000000000000";
"000000f093f5e1439170b97948e833285d588181b64550b829a031e1724e6430690000002000000000000000000000f093f5e1439170b97948e833285d588181";
"b64550b829a031e1724e6430710000002000000000000000000000f093f5e1439170b97948e833285d588181b64550b829a031e1724e64307900000020000000";
"00000000000000f093f5e1439170b97948e833285d588181b64550b829a031e1724e64307f0000002000000000000000000000f093f5e1439170b97948e83328";
"5d588181b64550b829a031e1724e6430870000002000000000000000000000f093f5e1439170b97948e833285d588181b64550b829a031e1724e643009000000";
"00000000000000002000000000000000e4feffef93f5e1439170b97948e833285d588181b64550b829a031e1724e64308f000000200000000000000001000000";
"00000000000000000000000000000000000000000000000000000000970000002000000000000000010000000000000000000000000000000000000000000000";
"00000000000000009f00000020000000000000000100000000000000000000000000000000000000000000000000000000000000a50000002000000000000000";
"0100000000000000000000000000000000000000000000000000000000000000ad00000020000000000000000100000000000000000000000000000000000000";
"000000000000000000000000b500000020000000000000000100000000000000000000000000000000000000000000000000000000000000bb00000020000000";
"000000000100000000000000000000000000000000000000000000000000000000000000c3000000200000000000000001000000000000000000000000000000";
"000000000000000000000000000000000f000000000000000000000020000000000000002d000000000000000000000000000000000000000000000000000000";
"00000000520000002000000000000000000000f093f5e1439170b97948e833285d588181b64550b829a031e1724e6430530000002000000000000000000000f0";
"93f5e1439170b97948e833285d588181b64550b829a031e1724e64305a0000002000000000000000000000f093f5e1439170b97948e833285d588181b64550b8";
"29a031e1724e64305b0000002000000000000000000000f093f5e1439170b97948e833285d588181b64550b829a031e1724e6430620000002000000000000000";
"000000f093f5e1439170b97948e833285d588181b64550b829a031e1724e6430630000002000000000000000000000f093f5e1439170b97948e833285d588181";
"b64550b829a031e1724e6430680000002000000000000000000000f093f5e1439170b97948e833285d588181b64550b829a031e1724e64306900000020000000";
"00000000000000f093f5e1439170b97948e833285d588181b64550b829a031e1724e6430700000002000000000000000000000f093f5e1439170b97948e83328";
"5d588181b64550b829a031e1724e6430710000002000000000000000000000f093f5e1439170b97948e833285d588181b64550b829a031e1724e643078000000";
"2000000000000000000000f093f5e1439170b97948e833285d588181b64550b829a031e1724e6430790000002000000000000000000000f093f5e1439170b979";
"48e833285d588181b64550b829a031e1724e64308000000020000000000000000100000000000000000000000000000000000000000000000000000000000000";
"88000000200000000000000001000000000000000000000000000000000000000000000000000000000000000f00000000000000000000002000000000000000";
"d4ffffef93f5e1439170b97948e833285d588181b64550b829a031e1724e64305200000020000000000000000100000000000000000000000000000000000000";
"00000000000000000000000053000000200000000000000001000000000000000000000000000000000000000000000000000000000000005a00000020000000";
"0000000001000000000000000000000000000000000000000000000000000000000000005b000000200000000000000001000000000000000000000000000000";
"00000000000000000000000000000000620000002000000000000000010000000000000000000000000000000000000000000000000000000000000063000000";
"20000000000000000100000000000000000000000000000000000000000000000000000000000000680000002000000000000000010000000000000000000000";
"00000000000000000000000000000000000000006900000020000000000000000100000000000000000000000000000000000000000000000000000000000000";
"70000000200000000000000001000000000000000000000000000000000000000000000000000000000000007100000020000000000000000100000000000000";
"00000000000000000000000000000000000000000000000078000000200000000000000001000000000000000000000000000000000000000000000000000000";
"000000007900000020000000000000000100000000000000000000000000000000000000000000000000000000000000800000002000000000000000000000f0";
"93f5e1439170b97948e833285d588181b64550b829a031e1724e6430880000002000000000000000000000f093f5e1439170b97948e833285d588181b64550b8";
"29a031e1724e64300f000000000000000000000020000000000000001d010000000000000000000000000000000000000000000000000000000000008e000000";
"2000000000000000000000f093f5e1439170b97948e833285d588181b64550b829a031e1724e64308f0000002000000000000000000000f093f5e1439170b979";
"48e833285d588181b64550b829a031e1724e6430960000002000000000000000000000f093f5e1439170b97948e833285d588181b64550b829a031e1724e6430";
"970000002000000000000000000000f093f5e1439170b97948e833285d588181b64550b829a031e1724e64309e0000002000000000000000000000f093f5e143";
"9170b97948e833285d588181b64550b829a031e1724e64309f0000002000000000000000000000f093f5e1439170b97948e833285d588181b64550b829a031e1";
"724e6430a40000002000000000000000000000f093f5e1439170b97948e833285d588181b64550b829a031e1724e6430a50000002000000000000000000000f0";
"93f5e1439170b97948e833285d588181b64550b829a031e1724e6430ac0000002000000000000000000000f093f5e1439170b97948e833285d588181b64550b8";
"29a031e1724e6430ad0000002000000000000000000000f093f5e1439170b97948e833285d588181b64550b829a031e1724e6430b40000002000000000000000";
"000000f093f5e1439170b97948e833285d588181b64550b829a031e1724e6430b50000002000000000000000000000f093f5e1439170b97948e833285d588181";
"b64550b829a031e1724e6430bc00000020000000000000000100000000000000000000000000000000000000000000000000000000000000c400000020000000";
"0000000001000000000000000000000000000000000000000000000000000000000000000900000000000000000000002000000000000000d4ffffef93f5e143";
"9170b97948e833285d588181b64550b829a031e1724e643055000000200000000000000001000000000000000000000000000000000000000000000000000000";
"000000005d0000002000000000000000010000000000000000000000000000000000000000000000000000000000000064000000200000000000000001000000";
"000000000000000000000000000000000000000000000000000000006b0000002000000000000000010000000000000000000000000000000000000000000000";
"000000000000000073000000200000000000000001000000000000000000000000000000000000000000000000000000000000007a0000002000000000000000";
"01000000000000000000000000000000000000000000000000000000000000008100000020000000000000000100000000000000000000000000000000000000";
"00000000000000000000000089000000200000000000000001000000000000000000000000000000000000000000000000000000000000000900000000000000";
"0000000020000000000000002d00000000000000000000000000000000000000000000000000000000000000550000002000000000000000000000f093f5e143";
"9170b97948e833285d588181b64550b829a031e1724e64305d0000002000000000000000000000f093f5e1439170b97948e833285d588181b64550b829a031e1";
"724e6430640000002000000000000000000000f093f5e1439170b97948e833285d588181b64550b829a031e1724e64306b0000002000000000000000000000f0";
"93f5e1439170b97948e833285d588181b64550b829a031e1724e6430730000002000000000000000000000f093f5e1439170b97948e833285d588181b64550b8";
"29a031e1724e64307a0000002000000000000000000000f093f5e1439170b97948e833285d588181b64550b829a031e1724e6430810000002000000000000000";
"000000f093f5e1439170b97948e833285d588181b64550b829a031e1724e6430890000002000000000000000000000f093f5e1439170b97948e833285d588181";
"b64550b829a031e1724e64300900000000000000000000002000000000000000e4feffef93f5e1439170b97948e833285d588181b64550b829a031e1724e6430";
"91000000200000000000000001000000000000000000000000000000000000000000000000000000000000009900000020000000000000000100000000000000";
"000000000000000000000000000000000000000000000000a0000000200000000000000001000000000000000000000000000000000000000000000000000000";
"00000000a700000020000000000000000100000000000000000000000000000000000000000000000000000000000000af000000200000000000000001000000";
"00000000000000000000000000000000000000000000000000000000b60000002000000000000000010000000000000000000000000000000000000000000000";
"0000000000000000bd00000020000000000000000100000000000000000000000000000000000000000000000000000000000000c50000002000000000000000";
"01000000000000000000000000000000000000000000000000000000000000000900000000000000000000002000000000000000d4ffffef93f5e1439170b979";
"48e833285d588181b64550b829a031e1724e64305600000020000000000000000100000000000000000000000000000000000000000000000000000000000000";
"5e000000200000000000000001000000000000000000000000000000000000000000000000000000000000006500000020000000000000000100000000000000";
"0000000000000000000000000000000000000000000000006c000000200000000000000001000000000000000000000000000000000000000000000000000000";
"0000000074000000200000000000000001000000000000000000000000000000000000000000000000000000000000007b000000200000000000000001000000";
"00000000000000000000000000000000000000000000000000000000820000002000000000000000010000000000000000000000000000000000000000000000";
"00000000000000008a00000020000000000000000100000000000000000000000000000000000000000000000000000000000000090000000000000000000000";
"20000000000000002d00000000000000000000000000000000000000000000000000000000000000560000002000000000000000000000f093f5e1439170b979";
"48e833285d588181b64550b829a031e1724e64305e0000002000000000000000000000f093f5e1439170b97948e833285d588181b64550b829a031e1724e6430";
"650000002000000000000000000000f093f5e1439170b97948e833285d588181b64550b829a031e1724e64306c0000002000000000000000000000f093f5e143";
"9170b97948e833285d588181b64550b829a031e1724e6430740000002000000000000000000000f093f5e1439170b97948e833285d588181b64550b829a031e1";
"724e64307b0000002000000000000000000000f093f5e1439170b97948e833285d588181b64550b829a031e1724e6430820000002000000000000000000000f0";
"93f5e1439170b97948e833285d588181b64550b829a031e1724e64308a0000002000000000000000000000f093f5e1439170b97948e833285d588181b64550b8";
"29a031e1724e64300900000000000000000000002000000000000000e4feffef93f5e1439170b97948e833285d588181b64550b829a031e1724e643092000000";
"200000000000000001000000000000000000000000000000000000000000000000000000000000009a0000002000000000000000010000000000000000000000";
"0000000000000000000000000000000000000000a100000020000000000000000100000000000000000000000000000000000000000000000000000000000000";
"a800000020000000000000000100000000000000000000000000000000000000000000000000000000000000b000000020000000000000000100000000000000";
"000000000000000000000000000000000000000000000000b7000000200000000000000001000000000000000000000000000000000000000000000000000000";
"00000000be00000020000000000000000100000000000000000000000000000000000000000000000000000000000000c6000000200000000000000001000000";
"000000000000000000000000000000000000000000000000000000000f000000000000000000000020000000000000002d000000000000000000000000000000";
"00000000000000000000000000000000550000002000000000000000000000f093f5e1439170b97948e833285d588181b64550b829a031e1724e643056000000";
"2000000000000000000000f093f5e1439170b97948e833285d588181b64550b829a031e1724e64305d0000002000000000000000000000f093f5e1439170b979";
"48e833285d588181b64550b829a031e1724e64305e0000002000000000000000000000f093f5e1439170b97948e833285d588181b64550b829a031e1724e6430";
"640000002000000000000000000000f093f5e1439170b97948e833285d588181b64550b829a031e1724e6430650000002000000000000000000000f093f5e143";
"9170b97948e833285d588181b64550b829a031e1724e64306b0000002000000000000000000000f093f5e1439170b97948e833285d588181b64550b829a031e1";
"724e64306c0000002000000000000000000000f093f5e1439170b97948e833285d588181b64550b829a031e1724e6430730000002000000000000000000000f0";
"93f5e1439170b97948e833285d588181b64550b829a031e1724e6430740000002000000000000000000000f093f5e1439170b97948e833285d588181b64550b8";
"29a031e1724e64307a0000002000000000000000000000f093f5e1439170b97948e833285d588181b64550b829a031e1724e64307b0000002000000000000000";
"000000f093f5e1439170b97948e833285d588181b64550b829a031e1724e64308300000020000000000000000100000000000000000000000000000000000000";
"0000000000000000000000008b000000200000000000000001000000000000000000000000000000000000000000000000000000000000000f00000000000000";
"000000002000000000000000d4ffffef93f5e1439170b97948e833285d588181b64550b829a031e1724e64305500000020000000000000000100000000000000";
"00000000000000000000000000000000000000000000000056000000200000000000000001000000000000000000000000000000000000000000000000000000";
"000000005d000000200000000000000001000000000000000000000000000000000000000000000000000000000000005e000000200000000000000001000000";
"00000000000000000000000000000000000000000000000000000000640000002000000000000000010000000000000000000000000000000000000000000000";
"000000000000000065000000200000000000000001000000000000000000000000000000000000000000000000000000000000006b0000002000000000000000";
"01000000000000000000000000000000000000000000000000000000000000006c00000020000000000000000100000000000000000000000000000000000000";
"00000000000000000000000073000000200000000000000001000000000000000000000000000000000000000000000000000000000000007400000020000000";
"0000000001000000000000000000000000000000000000000000000000000000000000007a000000200000000000000001000000000000000000000000000000";
"000000000000000000000000000000007b0000002000000000000000010000000000000000000000000000000000000000000000000000000000000083000000";
"2000000000000000000000f093f5e1439170b97948e833285d588181b64550b829a031e1724e64308b0000002000000000000000000000f093f5e1439170b979";
"48e833285d588181b64550b829a031e1724e64300f000000000000000000000020000000000000001d0100000000000000000000000000000000000000000000";
"0000000000000000910000002000000000000000000000f093f5e1439170b97948e833285d588181b64550b829a031e1724e6430920000002000000000000000";
"000000f093f5e1439170b97948e833285d588181b64550b829a031e1724e6430990000002000000000000000000000f093f5e1439170b97948e833285d588181";
"b64550b829a031e1724e64309a0000002000000000000000000000f093f5e1439170b97948e833285d588181b64550b829a031e1724e6430a000000020000000";
"00000000000000f093f5e1439170b97948e833285d588181b64550b829a031e1724e6430a10000002000000000000000000000f093f5e1439170b97948e83328";
"5d588181b64550b829a031e1724e6430a70000002000000000000000000000f093f5e1439170b97948e833285d588181b64550b829a031e1724e6430a8000000";
"2000000000000000000000f093f5e1439170b97948e833285d588181b64550b829a031e1724e6430af0000002000000000000000000000f093f5e1439170b979";
"48e833285d588181b64550b829a031e1724e6430b00000002000000000000000000000f093f5e1439170b97948e833285d588181b64550b829a031e1724e6430";
"b60000002000000000000000000000f093f5e1439170b97948e833285d588181b64550b829a031e1724e6430b70000002000000000000000000000f093f5e143";
"9170b97948e833285d588181b64550b829a031e1724e6430bf000000200000000000000001000000000000000000000000000000000000000000000000000000";
"00000000c70000002000000000000000010000000000000000000000000000000000000000000000000000000000000009000000000000000000000020000000";
"00000000d4ffffef93f5e1439170b97948e833285d588181b64550b829a031e1724e643058000000200000000000000001000000000000000000000000000000";
"00000000000000000000000000000000600000002000000000000000010000000000000000000000000000000000000000000000000000000000000066000000";
"200000000000000001000000000000000000000000000000000000000000000000000000000000006e0000002000000000000000010000000000000000000000";
"00000000000000000000000000000000000000007600000020000000000000000100000000000000000000000000000000000000000000000000000000000000";
"7c000000200000000000000001000000000000000000000000000000000000000000000000000000000000008400000020000000000000000100000000000000";
"0000000000000000000000000000000000000000000000008c000000200000000000000001000000000000000000000000000000000000000000000000000000";
"0000000009000000000000000000000020000000000000002d000000000000000000000000000000000000000000000000000000000000005800000020000000";
"00000000000000f093f5e1439170b97948e833285d588181b64550b829a031e1724e6430600000002000000000000000000000f093f5e1439170b97948e83328";
"5d588181b64550b829a031e1724e6430660000002000000000000000000000f093f5e1439170b97948e833285d588181b64550b829a031e1724e64306e000000";
"2000000000000000000000f093f5e1439170b97948e833285d588181b64550b829a031e1724e6430760000002000000000000000000000f093f5e1439170b979";
"48e833285d588181b64550b829a031e1724e64307c0000002000000000000000000000f093f5e1439170b97948e833285d588181b64550b829a031e1724e6430";
"840000002000000000000000000000f093f5e1439170b97948e833285d588181b64550b829a031e1724e64308c0000002000000000000000000000f093f5e143";
"9170b97948e833285d588181b64550b829a031e1724e64300900000000000000000000002000000000000000e4feffef93f5e1439170b97948e833285d588181";
"b64550b829a031e1724e643094000000200000000000000001000000000000000000000000000000000000000000000000000000000000009c00000020000000";
"000000000100000000000000000000000000000000000000000000000000000000000000a2000000200000000000000001000000000000000000000000000000";
"00000000000000000000000000000000aa00000020000000000000000100000000000000000000000000000000000000000000000000000000000000b2000000";
"20000000000000000100000000000000000000000000000000000000000000000000000000000000b80000002000000000000000010000000000000000000000";
"0000000000000000000000000000000000000000c000000020000000000000000100000000000000000000000000000000000000000000000000000000000000";
"c8000000200000000000000001000000000000000000000000000000000000000000000000000000000000000900000000000000000000002000000000000000";
"d4ffffef93f5e1439170b97948e833285d588181b64550b829a031e1724e64305900000020000000000000000100000000000000000000000000000000000000";
"00000000000000000000000061000000200000000000000001000000000000000000000000000000000000000000000000000000000000006700000020000000";
"0000000001000000000000000000000000000000000000000000000000000000000000006f000000200000000000000001000000000000000000000000000000";
"0000000000000000000000000000000077000000200000000000000001000000000000000000000000000000000000000000000000000000000000007d000000";
"20000000000000000100000000000000000000000000000000000000000000000000000000000000850000002000000000000000010000000000000000000000";
"00000000000000000000000000000000000000008d00000020000000000000000100000000000000000000000000000000000000000000000000000000000000";
"09000000000000000000000020000000000000002d00000000000000000000000000000000000000000000000000000000000000590000002000000000000000";
"000000f093f5e1439170b97948e833285d588181b64550b829a031e1724e6430610000002000000000000000000000f093f5e1439170b97948e833285d588181";
"b64550b829a031e1724e6430670000002000000000000000000000f093f5e1439170b97948e833285d588181b64550b829a031e1724e64306f00000020000000";
"00000000000000f093f5e1439170b97948e833285d588181b64550b829a031e1724e6430770000002000000000000000000000f093f5e1439170b97948e83328";
"5d588181b64550b829a031e1724e64307d0000002000000000000000000000f093f5e1439170b97948e833285d588181b64550b829a031e1724e643085000000";
"2000000000000000000000f093f5e1439170b97948e833285d588181b64550b829a031e1724e64308d0000002000000000000000000000f093f5e1439170b979";
"48e833285d588181b64550b829a031e1724e64300900000000000000000000002000000000000000e4feffef93f5e1439170b97948e833285d588181b64550b8";
"29a031e1724e643095000000200000000000000001000000000000000000000000000000000000000000000000000000000000009d0000002000000000000000";
"0100000000000000000000000000000000000000000000000000000000000000a300000020000000000000000100000000000000000000000000000000000000";
"000000000000000000000000ab00000020000000000000000100000000000000000000000000000000000000000000000000000000000000b300000020000000";
"000000000100000000000000000000000000000000000000000000000000000000000000b9000000200000000000000001000000000000000000000000000000";
"00000000000000000000000000000000c100000020000000000000000100000000000000000000000000000000000000000000000000000000000000c9000000";
"200000000000000001000000000000000000000000000000000000000000000000000000000000001d0000000000000000000000200000000000000087000000";
"00000000000000000000000000000000000000000000000000000000580000002000000000000000000000f093f5e1439170b97948e833285d588181b64550b8";
"29a031e1724e6430590000002000000000000000000000f093f5e1439170b97948e833285d588181b64550b829a031e1724e6430600000002000000000000000";
"000000f093f5e1439170b97948e833285d588181b64550b829a031e1724e6430610000002000000000000000000000f093f5e1439170b97948e833285d588181";
"b64550b829a031e1724e6430660000002000000000000000000000f093f5e1439170b97948e833285d588181b64550b829a031e1724e64306700000020000000";
"00000000000000f093f5e1439170b97948e833285d588181b64550b829a031e1724e64306e0000002000000000000000000000f093f5e1439170b97948e83328";
"5d588181b64550b829a031e1724e64306f0000002000000000000000000000f093f5e1439170b97948e833285d588181b64550b829a031e1724e643076000000";
"2000000000000000000000f093f5e1439170b97948e833285d588181b64550b829a031e1724e6430770000002000000000000000000000f093f5e1439170b979";
"48e833285d588181b64550b829a031e1724e64307c0000002000000000000000000000f093f5e1439170b97948e833285d588181b64550b829a031e1724e6430";
"7d0000002000000000000000000000f093f5e1439170b97948e833285d588181b64550b829a031e1724e64307e0000002000000000000000000000f093f5e143";
"9170b97948e833285d588181b64550b829a031e1724e64307f0000002000000000000000000000f093f5e1439170b97948e833285d588181b64550b829a031e1";
"724e6430800000002000000000000000000000f093f5e1439170b97948e833285d588181b64550b829a031e1724e6430810000002000000000000000000000f0";
"93f5e1439170b97948e833285d588181b64550b829a031e1724e6430820000002000000000000000000000f093f5e1439170b97948e833285d588181b64550b8";
"29a031e1724e6430830000002000000000000000000000f093f5e1439170b97948e833285d588181b64550b829a031e1724e6430840000002000000000000000";
"000000f093f5e1439170b97948e833285d588181b64550b829a031e1724e6430850000002000000000000000000000f093f5e1439170b97948e833285d588181";
"b64550b829a031e1724e6430860000002000000000000000000000f093f5e1439170b97948e833285d588181b64550b829a031e1724e64308700000020000000";
"00000000000000f093f5e1439170b97948e833285d588181b64550b829a031e1724e6430880000002000000000000000000000f093f5e1439170b97948e83328";
"5d588181b64550b829a031e1724e6430890000002000000000000000000000f093f5e1439170b97948e833285d588181b64550b829a031e1724e64308a000000";
"2000000000000000000000f093f5e1439170b97948e833285d588181b64550b829a031e1724e64308b0000002000000000000000000000f093f5e1439170b979";
"48e833285d588181b64550b829a031e1724e64308c0000002000000000000000000000f093f5e1439170b97948e833285d588181b64550b829a031e1724e6430";
"8d0000002000000000000000000000f093f5e1439170b97948e833285d588181b64550b829a031e1724e64301d00000000000000000000002000000000000000";
"7affffef93f5e1439170b97948e833285d588181b64550b829a031e1724e64305800000020000000000000000100000000000000000000000000000000000000";
"00000000000000000000000059000000200000000000000001000000000000000000000000000000000000000000000000000000000000006000000020000000";
"00000000010000000000000000000000000000000000000000000000000000000000000061000000200000000000000001000000000000000000000000000000";
"00000000000000000000000000000000660000002000000000000000010000000000000000000000000000000000000000000000000000000000000067000000";
"200000000000000001000000000000000000000000000000000000000000000000000000000000006e0000002000000000000000010000000000000000000000";
"00000000000000000000000000000000000000006f00000020000000000000000100000000000000000000000000000000000000000000000000000000000000";
"76000000200000000000000001000000000000000000000000000000000000000000000000000000000000007700000020000000000000000100000000000000";
"0000000000000000000000000000000000000000000000007c000000200000000000000001000000000000000000000000000000000000000000000000000000";
"000000007d000000200000000000000001000000000000000000000000000000000000000000000000000000000000007e000000200000000000000001000000";
"000000000000000000000000000000000000000000000000000000007f0000002000000000000000010000000000000000000000000000000000000000000000";
"00000000000000008000000020000000000000000100000000000000000000000000000000000000000000000000000000000000810000002000000000000000";
"01000000000000000000000000000000000000000000000000000000000000008200000020000000000000000100000000000000000000000000000000000000";
"00000000000000000000000083000000200000000000000001000000000000000000000000000000000000000000000000000000000000008400000020000000";
"00000000010000000000000000000000000000000000000000000000000000000000000085000000200000000000000001000000000000000000000000000000";
"00000000000000000000000000000000860000002000000000000000010000000000000000000000000000000000000000000000000000000000000087000000";
"20000000000000000100000000000000000000000000000000000000000000000000000000000000880000002000000000000000010000000000000000000000";
"00000000000000000000000000000000000000008900000020000000000000000100000000000000000000000000000000000000000000000000000000000000";
"8a000000200000000000000001000000000000000000000000000000000000000000000000000000000000008b00000020000000000000000100000000000000";
"0000000000000000000000000000000000000000000000008c000000200000000000000001000000000000000000000000000000000000000000000000000000";
"000000008d000000200000000000000001000000000000000000000000000000000000000000000000000000000000001d000000000000000000000020000000";
"000000005703000000000000000000000000000000000000000000000000000000000000940000002000000000000000000000f093f5e1439170b97948e83328";
"5d588181b64550b829a031e1724e6430950000002000000000000000000000f093f5e1439170b97948e833285d588181b64550b829a031e1724e64309c000000";
"2000000000000000000000f093f5e1439170b97948e833285d588181b64550b829a031e1724e64309d0000002000000000000000000000f093f5e1439170b979";
"48e833285d588181b64550b829a031e1724e6430a20000002000000000000000000000f093f5e1439170b97948e833285d588181b64550b829a031e1724e6430";
"a30000002000000000000000000000f093f5e1439170b97948e833285d588181b64550b829a031e1724e6430aa0000002000000000000000000000f093f5e143";
"9170b97948e833285d588181b64550b829a031e1724e6430ab0000002000000000000000000000f093f5e1439170b97948e833285d588181b64550b829a031e1";
"724e6430b20000002000000000000000000000f093f5e1439170b97948e833285d588181b64550b829a031e1724e6430b30000002000000000000000000000f0";
"93f5e1439170b97948e833285d588181b64550b829a031e1724e6430b80000002000000000000000000000f093f5e1439170b97948e833285d588181b64550b8";
"29a031e1724e6430b90000002000000000000000000000f093f5e1439170b97948e833285d588181b64550b829a031e1724e6430ba0000002000000000000000";
"000000f093f5e1439170b97948e833285d588181b64550b829a031e1724e6430bb0000002000000000000000000000f093f5e1439170b97948e833285d588181";
"b64550b829a031e1724e6430bc0000002000000000000000000000f093f5e1439170b97948e833285d588181b64550b829a031e1724e6430bd00000020000000";
"00000000000000f093f5e1439170b97948e833285d588181b64550b829a031e1724e6430be0000002000000000000000000000f093f5e1439170b97948e83328";
"5d588181b64550b829a031e1724e6430bf0000002000000000000000000000f093f5e1439170b97948e833285d588181b64550b829a031e1724e6430c0000000";
"2000000000000000000000f093f5e1439170b97948e833285d588181b64550b829a031e1724e6430c10000002000000000000000000000f093f5e1439170b979";
"48e833285d588181b64550b829a031e1724e6430c20000002000000000000000000000f093f5e1439170b97948e833285d588181b64550b829a031e1724e6430";
"c30000002000000000000000000000f093f5e1439170b97948e833285d588181b64550b829a031e1724e6430c40000002000000000000000000000f093f5e143";
"9170b97948e833285d588181b64550b829a031e1724e6430c50000002000000000000000000000f093f5e1439170b97948e833285d588181b64550b829a031e1";
"724e6430c60000002000000000000000000000f093f5e1439170b97948e833285d588181b64550b829a031e1724e6430c70000002000000000000000000000f0";
"93f5e1439170b97948e833285d588181b64550b829a031e1724e6430c80000002000000000000000000000f093f5e1439170b97948e833285d588181b64550b8";
"29a031e1724e6430c90000002000000000000000000000f093f5e1439170b97948e833285d588181b64550b829a031e1724e6430020000000000000001000000";
"20000000000000000100000000000000000000000000000000000000000000000000000000000000520000002000000000000000000000f093f5e1439170b979";
"48e833285d588181b64550b829a031e1724e64300100000000000000010000002000000000000000010000000000000000000000000000000000000000000000";
"00000000000000000000000000000000020000000000000002000000200000000000000001000000000000000000000000000000000000000000000000000000";
"00000000530000002000000000000000000000f093f5e1439170b97948e833285d588181b64550b829a031e1724e643001000000000000000200000020000000";
"00000000010000000000000000000000000000000000000000000000000000000000000000000000000000000200000000000000030000002000000000000000";
"0100000000000000000000000000000000000000000000000000000000000000540000002000000000000000000000f093f5e1439170b97948e833285d588181";
"b64550b829a031e1724e643001000000000000000300000020000000000000000100000000000000000000000000000000000000000000000000000000000000";
"00000000000000000200000000000000040000002000000000000000010000000000000000000000000000000000000000000000000000000000000055000000";
"2000000000000000000000f093f5e1439170b97948e833285d588181b64550b829a031e1724e6430010000000000000004000000200000000000000001000000";
"00000000000000000000000000000000000000000000000000000000000000000000000002000000000000000500000020000000000000000100000000000000";
"000000000000000000000000000000000000000000000000560000002000000000000000000000f093f5e1439170b97948e833285d588181b64550b829a031e1";
"724e6430010000000000000005000000200000000000000001000000000000000000000000000000000000000000000000000000000000000000000000000000";
"02000000000000000600000020000000000000000100000000000000000000000000000000000000000000000000000000000000570000002000000000000000";
"000000f093f5e1439170b97948e833285d588181b64550b829a031e1724e64300100000000000000060000002000000000000000010000000000000000000000";
"00000000000000000000000000000000000000000000000000000000020000000000000007000000200000000000000001000000000000000000000000000000";
"00000000000000000000000000000000580000002000000000000000000000f093f5e1439170b97948e833285d588181b64550b829a031e1724e643001000000";
"00000000070000002000000000000000010000000000000000000000000000000000000000000000000000000000000000000000000000000200000000000000";
"0800000020000000000000000100000000000000000000000000000000000000000000000000000000000000590000002000000000000000000000f093f5e143";
"9170b97948e833285d588181b64550b829a031e1724e643001000000000000000800000020000000000000000100000000000000000000000000000000000000";
"00000000000000000000000000000000000000000a00000000000000000000002000000000000000d4ffffef93f5e1439170b97948e833285d588181b64550b8";
"29a031e1724e64300900000020000000000000000100000000000000000000000000000000000000000000000000000000000000520000002000000000000000";
"01000000000000000000000000000000000000000000000000000000000000005300000020000000000000000100000000000000000000000000000000000000";
"00000000000000000000000054000000200000000000000001000000000000000000000000000000000000000000000000000000000000005500000020000000";
"00000000010000000000000000000000000000000000000000000000000000000000000056000000200000000000000001000000000000000000000000000000";
"00000000000000000000000000000000570000002000000000000000010000000000000000000000000000000000000000000000000000000000000058000000";
"20000000000000000100000000000000000000000000000000000000000000000000000000000000590000002000000000000000010000000000000000000000";
"00000000000000000000000000000000000000000100000000000000090000002000000000000000010000000000000000000000000000000000000000000000";
"0000000000000000000000000000000002000000000000000a000000200000000000000001000000000000000000000000000000000000000000000000000000";
"000000005a0000002000000000000000000000f093f5e1439170b97948e833285d588181b64550b829a031e1724e643001000000000000000a00000020000000";
"000000000100000000000000000000000000000000000000000000000000000000000000000000000000000002000000000000000b0000002000000000000000";
"01000000000000000000000000000000000000000000000000000000000000005b0000002000000000000000000000f093f5e1439170b97948e833285d588181";
"b64550b829a031e1724e643001000000000000000b00000020000000000000000100000000000000000000000000000000000000000000000000000000000000";
"000000000000000002000000000000000c000000200000000000000001000000000000000000000000000000000000000000000000000000000000005c000000";
"2000000000000000000000f093f5e1439170b97948e833285d588181b64550b829a031e1724e643001000000000000000c000000200000000000000001000000";
"00000000000000000000000000000000000000000000000000000000000000000000000002000000000000000d00000020000000000000000100000000000000";
"0000000000000000000000000000000000000000000000005d0000002000000000000000000000f093f5e1439170b97948e833285d588181b64550b829a031e1";
"724e643001000000000000000d000000200000000000000001000000000000000000000000000000000000000000000000000000000000000000000000000000";
"02000000000000000e000000200000000000000001000000000000000000000000000000000000000000000000000000000000005e0000002000000000000000";
"000000f093f5e1439170b97948e833285d588181b64550b829a031e1724e643001000000000000000e0000002000000000000000010000000000000000000000";
"0000000000000000000000000000000000000000000000000000000002000000000000000f000000200000000000000001000000000000000000000000000000";
"000000000000000000000000000000005f0000002000000000000000000000f093f5e1439170b97948e833285d588181b64550b829a031e1724e643001000000";
"000000000f0000002000000000000000010000000000000000000000000000000000000000000000000000000000000000000000000000000200000000000000";
"1000000020000000000000000100000000000000000000000000000000000000000000000000000000000000600000002000000000000000000000f093f5e143";
"9170b97948e833285d588181b64550b829a031e1724e643001000000000000001000000020000000000000000100000000000000000000000000000000000000";
"00000000000000000000000000000000000000000200000000000000110000002000000000000000010000000000000000000000000000000000000000000000";
"0000000000000000610000002000000000000000000000f093f5e1439170b97948e833285d588181b64550b829a031e1724e6430010000000000000011000000";
"2000000000000000010000000000000000000000000000000000000000000000000000000000000000000000000000000a000000000000000000000020000000";
"00000000d4ffffef93f5e1439170b97948e833285d588181b64550b829a031e1724e643012000000200000000000000001000000000000000000000000000000";
"000000000000000000000000000000005a000000200000000000000001000000000000000000000000000000000000000000000000000000000000005b000000";
"200000000000000001000000000000000000000000000000000000000000000000000000000000005c0000002000000000000000010000000000000000000000";
"00000000000000000000000000000000000000005d00000020000000000000000100000000000000000000000000000000000000000000000000000000000000";
"5e000000200000000000000001000000000000000000000000000000000000000000000000000000000000005f00000020000000000000000100000000000000";
"00000000000000000000000000000000000000000000000060000000200000000000000001000000000000000000000000000000000000000000000000000000";
"00000000610000002000000000000000010000000000000000000000000000000000000000000000000000000000000001000000000000001200000020000000";
"00000000010000000000000000000000000000000000000000000000000000000000000000000000000000000200000000000000130000002000000000000000";
"0100000000000000000000000000000000000000000000000000000000000000620000002000000000000000000000f093f5e1439170b97948e833285d588181";
"b64550b829a031e1724e643001000000000000001300000020000000000000000100000000000000000000000000000000000000000000000000000000000000";
"00000000000000000200000000000000140000002000000000000000010000000000000000000000000000000000000000000000000000000000000063000000";
"2000000000000000000000f093f5e1439170b97948e833285d588181b64550b829a031e1724e6430010000000000000014000000200000000000000001000000";
"0000000000000000000000000000000000000000000000000000000000000000000000000a00000000000000000000002000000000000000d4ffffef93f5e143";
"9170b97948e833285d588181b64550b829a031e1724e643015000000200000000000000001000000000000000000000000000000000000000000000000000000";
"00000000520000002000000000000000010000000000000000000000000000000000000000000000000000000000000053000000200000000000000001000000";
"00000000000000000000000000000000000000000000000000000000540000002000000000000000010000000000000000000000000000000000000000000000";
"00000000000000005a000000200000000000000001000000000000000000000000000000000000000000000000000000000000005b0000002000000000000000";
"01000000000000000000000000000000000000000000000000000000000000005c00000020000000000000000100000000000000000000000000000000000000";
"00000000000000000000000062000000200000000000000001000000000000000000000000000000000000000000000000000000000000006300000020000000";
"00000000010000000000000000000000000000000000000000000000000000000000000001000000000000001500000020000000000000000100000000000000";
"00000000000000000000000000000000000000000000000000000000000000000200000000000000160000002000000000000000010000000000000000000000";
"0000000000000000000000000000000000000000640000002000000000000000000000f093f5e1439170b97948e833285d588181b64550b829a031e1724e6430";
"01000000000000001600000020000000000000000100000000000000000000000000000000000000000000000000000000000000000000000000000002000000";
"000000001700000020000000000000000100000000000000000000000000000000000000000000000000000000000000650000002000000000000000000000f0";
"93f5e1439170b97948e833285d588181b64550b829a031e1724e6430010000000000000017000000200000000000000001000000000000000000000000000000";
"0000000000000000000000000000000000000000000000000a00000000000000000000002000000000000000d4ffffef93f5e1439170b97948e833285d588181";
"b64550b829a031e1724e643018000000200000000000000001000000000000000000000000000000000000000000000000000000000000005500000020000000";
"00000000010000000000000000000000000000000000000000000000000000000000000056000000200000000000000001000000000000000000000000000000";
"0000000000000000000000000000000057000000200000000000000001000000000000000000000000000000000000000000000000000000000000005d000000";
"200000000000000001000000000000000000000000000000000000000000000000000000000000005e0000002000000000000000010000000000000000000000";
"00000000000000000000000000000000000000005f00000020000000000000000100000000000000000000000000000000000000000000000000000000000000";
"64000000200000000000000001000000000000000000000000000000000000000000000000000000000000006500000020000000000000000100000000000000";
"00000000000000000000000000000000000000000000000001000000000000001800000020000000000000000100000000000000000000000000000000000000";
"00000000000000000000000000000000000000000200000000000000190000002000000000000000010000000000000000000000000000000000000000000000";
"0000000000000000660000002000000000000000000000f093f5e1439170b97948e833285d588181b64550b829a031e1724e6430010000000000000019000000";
"20000000000000000100000000000000000000000000000000000000000000000000000000000000000000000000000002000000000000001a00000020000000";
"000000000100000000000000000000000000000000000000000000000000000000000000670000002000000000000000000000f093f5e1439170b97948e83328";
"5d588181b64550b829a031e1724e643001000000000000001a000000200000000000000001000000000000000000000000000000000000000000000000000000";
"00000000000000000000000010000000000000000000000020000000000000002d00000000000000000000000000000000000000000000000000000000000000";
"1b00000020000000000000000100000000000000000000000000000000000000000000000000000000000000520000002000000000000000000000f093f5e143";
"9170b97948e833285d588181b64550b829a031e1724e6430530000002000000000000000000000f093f5e1439170b97948e833285d588181b64550b829a031e1";
"724e6430540000002000000000000000000000f093f5e1439170b97948e833285d588181b64550b829a031e1724e6430550000002000000000000000000000f0";
"93f5e1439170b97948e833285d588181b64550b829a031e1724e6430560000002000000000000000000000f093f5e1439170b97948e833285d588181b64550b8";
"29a031e1724e6430570000002000000000000000000000f093f5e1439170b97948e833285d588181b64550b829a031e1724e64305a0000002000000000000000";
"000000f093f5e1439170b97948e833285d588181b64550b829a031e1724e64305b0000002000000000000000000000f093f5e1439170b97948e833285d588181";
"b64550b829a031e1724e64305c0000002000000000000000000000f093f5e1439170b97948e833285d588181b64550b829a031e1724e64305d00000020000000";
"00000000000000f093f5e1439170b97948e833285d588181b64550b829a031e1724e64305e0000002000000000000000000000f093f5e1439170b97948e83328";
"5d588181b64550b829a031e1724e64305f0000002000000000000000000000f093f5e1439170b97948e833285d588181b64550b829a031e1724e643066000000";
"20000000000000000100000000000000000000000000000000000000000000000000000000000000670000002000000000000000010000000000000000000000";
"000000000000000000000000000000000000000001000000000000001b0000002000000000000000010000000000000000000000000000000000000000000000";
"0000000000000000000000000000000002000000000000001c000000200000000000000001000000000000000000000000000000000000000000000000000000";
"00000000680000002000000000000000000000f093f5e1439170b97948e833285d588181b64550b829a031e1724e643001000000000000001c00000020000000";
"000000000100000000000000000000000000000000000000000000000000000000000000000000000000000002000000000000001d0000002000000000000000";
"0100000000000000000000000000000000000000000000000000000000000000690000002000000000000000000000f093f5e1439170b97948e833285d588181";
"b64550b829a031e1724e643001000000000000001d00000020000000000000000100000000000000000000000000000000000000000000000000000000000000";
"000000000000000002000000000000001e000000200000000000000001000000000000000000000000000000000000000000000000000000000000006a000000";
"2000000000000000000000f093f5e1439170b97948e833285d588181b64550b829a031e1724e643001000000000000001e000000200000000000000001000000";
"00000000000000000000000000000000000000000000000000000000000000000000000002000000000000001f00000020000000000000000100000000000000";
"0000000000000000000000000000000000000000000000006b0000002000000000000000000000f093f5e1439170b97948e833285d588181b64550b829a031e1";
"724e643001000000000000001f000000200000000000000001000000000000000000000000000000000000000000000000000000000000000000000000000000";
"020000000000000020000000200000000000000001000000000000000000000000000000000000000000000000000000000000006c0000002000000000000000";
"000000f093f5e1439170b97948e833285d588181b64550b829a031e1724e64300100000000000000200000002000000000000000010000000000000000000000";
"00000000000000000000000000000000000000000000000000000000020000000000000021000000200000000000000001000000000000000000000000000000";
"000000000000000000000000000000006d0000002000000000000000000000f093f5e1439170b97948e833285d588181b64550b829a031e1724e643001000000";
"00000000210000002000000000000000010000000000000000000000000000000000000000000000000000000000000000000000000000000200000000000000";
"22000000200000000000000001000000000000000000000000000000000000000000000000000000000000006e0000002000000000000000000000f093f5e143";
"9170b97948e833285d588181b64550b829a031e1724e643001000000000000002200000020000000000000000100000000000000000000000000000000000000";
"00000000000000000000000000000000000000000200000000000000230000002000000000000000010000000000000000000000000000000000000000000000";
"00000000000000006f0000002000000000000000000000f093f5e1439170b97948e833285d588181b64550b829a031e1724e6430010000000000000023000000";
"2000000000000000010000000000000000000000000000000000000000000000000000000000000000000000000000000a000000000000000000000020000000";
"00000000d4ffffef93f5e1439170b97948e833285d588181b64550b829a031e1724e643024000000200000000000000001000000000000000000000000000000";
"00000000000000000000000000000000680000002000000000000000010000000000000000000000000000000000000000000000000000000000000069000000";
"200000000000000001000000000000000000000000000000000000000000000000000000000000006a0000002000000000000000010000000000000000000000";
"00000000000000000000000000000000000000006b00000020000000000000000100000000000000000000000000000000000000000000000000000000000000";
"6c000000200000000000000001000000000000000000000000000000000000000000000000000000000000006d00000020000000000000000100000000000000";
"0000000000000000000000000000000000000000000000006e000000200000000000000001000000000000000000000000000000000000000000000000000000";
"000000006f0000002000000000000000010000000000000000000000000000000000000000000000000000000000000001000000000000002400000020000000";
"00000000010000000000000000000000000000000000000000000000000000000000000000000000000000000200000000000000250000002000000000000000";
"0100000000000000000000000000000000000000000000000000000000000000700000002000000000000000000000f093f5e1439170b97948e833285d588181";
"b64550b829a031e1724e643001000000000000002500000020000000000000000100000000000000000000000000000000000000000000000000000000000000";
"00000000000000000200000000000000260000002000000000000000010000000000000000000000000000000000000000000000000000000000000071000000";
"2000000000000000000000f093f5e1439170b97948e833285d588181b64550b829a031e1724e6430010000000000000026000000200000000000000001000000";
"00000000000000000000000000000000000000000000000000000000000000000000000002000000000000002700000020000000000000000100000000000000";
"000000000000000000000000000000000000000000000000720000002000000000000000000000f093f5e1439170b97948e833285d588181b64550b829a031e1";
"724e6430010000000000000027000000200000000000000001000000000000000000000000000000000000000000000000000000000000000000000000000000";
"02000000000000002800000020000000000000000100000000000000000000000000000000000000000000000000000000000000730000002000000000000000";
"000000f093f5e1439170b97948e833285d588181b64550b829a031e1724e64300100000000000000280000002000000000000000010000000000000000000000";
"00000000000000000000000000000000000000000000000000000000020000000000000029000000200000000000000001000000000000000000000000000000";
"00000000000000000000000000000000740000002000000000000000000000f093f5e1439170b97948e833285d588181b64550b829a031e1724e643001000000";
"00000000290000002000000000000000010000000000000000000000000000000000000000000000000000000000000000000000000000000200000000000000";
"2a00000020000000000000000100000000000000000000000000000000000000000000000000000000000000750000002000000000000000000000f093f5e143";
"9170b97948e833285d588181b64550b829a031e1724e643001000000000000002a00000020000000000000000100000000000000000000000000000000000000";
"000000000000000000000000000000000000000002000000000000002b0000002000000000000000010000000000000000000000000000000000000000000000";
"0000000000000000760000002000000000000000000000f093f5e1439170b97948e833285d588181b64550b829a031e1724e643001000000000000002b000000";
"20000000000000000100000000000000000000000000000000000000000000000000000000000000000000000000000002000000000000002c00000020000000";
"000000000100000000000000000000000000000000000000000000000000000000000000770000002000000000000000000000f093f5e1439170b97948e83328";
"5d588181b64550b829a031e1724e643001000000000000002c000000200000000000000001000000000000000000000000000000000000000000000000000000";
"0000000000000000000000000a00000000000000000000002000000000000000d4ffffef93f5e1439170b97948e833285d588181b64550b829a031e1724e6430";
"2d000000200000000000000001000000000000000000000000000000000000000000000000000000000000007000000020000000000000000100000000000000";
"00000000000000000000000000000000000000000000000071000000200000000000000001000000000000000000000000000000000000000000000000000000";
"00000000720000002000000000000000010000000000000000000000000000000000000000000000000000000000000073000000200000000000000001000000";
"00000000000000000000000000000000000000000000000000000000740000002000000000000000010000000000000000000000000000000000000000000000";
"00000000000000007500000020000000000000000100000000000000000000000000000000000000000000000000000000000000760000002000000000000000";
"01000000000000000000000000000000000000000000000000000000000000007700000020000000000000000100000000000000000000000000000000000000";
"00000000000000000000000001000000000000002d00000020000000000000000100000000000000000000000000000000000000000000000000000000000000";
"000000000000000002000000000000002e0000002000000000000000010000000000000000000000000000000000000000000000000000000000000078000000";
"2000000000000000000000f093f5e1439170b97948e833285d588181b64550b829a031e1724e643001000000000000002e000000200000000000000001000000";
"00000000000000000000000000000000000000000000000000000000000000000000000002000000000000002f00000020000000000000000100000000000000";
"000000000000000000000000000000000000000000000000790000002000000000000000000000f093f5e1439170b97948e833285d588181b64550b829a031e1";
"724e643001000000000000002f000000200000000000000001000000000000000000000000000000000000000000000000000000000000000000000000000000";
"0a00000000000000000000002000000000000000d4ffffef93f5e1439170b97948e833285d588181b64550b829a031e1724e6430300000002000000000000000";
"01000000000000000000000000000000000000000000000000000000000000006800000020000000000000000100000000000000000000000000000000000000";
"00000000000000000000000069000000200000000000000001000000000000000000000000000000000000000000000000000000000000006a00000020000000";
"00000000010000000000000000000000000000000000000000000000000000000000000070000000200000000000000001000000000000000000000000000000";
"00000000000000000000000000000000710000002000000000000000010000000000000000000000000000000000000000000000000000000000000072000000";
"20000000000000000100000000000000000000000000000000000000000000000000000000000000780000002000000000000000010000000000000000000000";
"00000000000000000000000000000000000000007900000020000000000000000100000000000000000000000000000000000000000000000000000000000000";
"01000000000000003000000020000000000000000100000000000000000000000000000000000000000000000000000000000000000000000000000002000000";
"0000000031000000200000000000000001000000000000000000000000000000000000000000000000000000000000007a0000002000000000000000000000f0";
"93f5e1439170b97948e833285d588181b64550b829a031e1724e6430010000000000000031000000200000000000000001000000000000000000000000000000";
"00000000000000000000000000000000000000000000000002000000000000003200000020000000000000000100000000000000000000000000000000000000";
"0000000000000000000000007b0000002000000000000000000000f093f5e1439170b97948e833285d588181b64550b829a031e1724e64300100000000000000";
"320000002000000000000000010000000000000000000000000000000000000000000000000000000000000000000000000000000a0000000000000000000000";
"2000000000000000d4ffffef93f5e1439170b97948e833285d588181b64550b829a031e1724e6430330000002000000000000000010000000000000000000000";
"00000000000000000000000000000000000000006b00000020000000000000000100000000000000000000000000000000000000000000000000000000000000";
"6c000000200000000000000001000000000000000000000000000000000000000000000000000000000000006d00000020000000000000000100000000000000";
"00000000000000000000000000000000000000000000000073000000200000000000000001000000000000000000000000000000000000000000000000000000";
"00000000740000002000000000000000010000000000000000000000000000000000000000000000000000000000000075000000200000000000000001000000";
"000000000000000000000000000000000000000000000000000000007a0000002000000000000000010000000000000000000000000000000000000000000000";
"00000000000000007b00000020000000000000000100000000000000000000000000000000000000000000000000000000000000010000000000000033000000";
"20000000000000000100000000000000000000000000000000000000000000000000000000000000000000000000000002000000000000003400000020000000";
"0000000001000000000000000000000000000000000000000000000000000000000000007c0000002000000000000000000000f093f5e1439170b97948e83328";
"5d588181b64550b829a031e1724e6430010000000000000034000000200000000000000001000000000000000000000000000000000000000000000000000000";
"00000000000000000000000002000000000000003500000020000000000000000100000000000000000000000000000000000000000000000000000000000000";
"7d0000002000000000000000000000f093f5e1439170b97948e833285d588181b64550b829a031e1724e64300100000000000000350000002000000000000000";
"0100000000000000000000000000000000000000000000000000000000000000000000000000000010000000000000000000000020000000000000002d000000";
"00000000000000000000000000000000000000000000000000000000360000002000000000000000010000000000000000000000000000000000000000000000";
"0000000000000000680000002000000000000000000000f093f5e1439170b97948e833285d588181b64550b829a031e1724e6430690000002000000000000000";
"000000f093f5e1439170b97948e833285d588181b64550b829a031e1724e64306a0000002000000000000000000000f093f5e1439170b97948e833285d588181";
"b64550b829a031e1724e64306b0000002000000000000000000000f093f5e1439170b97948e833285d588181b64550b829a031e1724e64306c00000020000000";
"00000000000000f093f5e1439170b97948e833285d588181b64550b829a031e1724e64306d0000002000000000000000000000f093f5e1439170b97948e83328";
"5d588181b64550b829a031e1724e6430700000002000000000000000000000f093f5e1439170b97948e833285d588181b64550b829a031e1724e643071000000";
"2000000000000000000000f093f5e1439170b97948e833285d588181b64550b829a031e1724e6430720000002000000000000000000000f093f5e1439170b979";
"48e833285d588181b64550b829a031e1724e6430730000002000000000000000000000f093f5e1439170b97948e833285d588181b64550b829a031e1724e6430";
"740000002000000000000000000000f093f5e1439170b97948e833285d588181b64550b829a031e1724e6430750000002000000000000000000000f093f5e143";
"9170b97948e833285d588181b64550b829a031e1724e64307c000000200000000000000001000000000000000000000000000000000000000000000000000000";
"000000007d0000002000000000000000010000000000000000000000000000000000000000000000000000000000000001000000000000003600000020000000";
"00000000010000000000000000000000000000000000000000000000000000000000000000000000000000000200000000000000370000002000000000000000";
"01000000000000000000000000000000000000000000000000000000000000007e0000002000000000000000000000f093f5e1439170b97948e833285d588181";
"b64550b829a031e1724e643001000000000000003700000020000000000000000100000000000000000000000000000000000000000000000000000000000000";
"0000000000000000020000000000000038000000200000000000000001000000000000000000000000000000000000000000000000000000000000007f000000";
"2000000000000000000000f093f5e1439170b97948e833285d588181b64550b829a031e1724e6430010000000000000038000000200000000000000001000000";
"00000000000000000000000000000000000000000000000000000000000000000000000002000000000000003900000020000000000000000100000000000000";
"000000000000000000000000000000000000000000000000800000002000000000000000000000f093f5e1439170b97948e833285d588181b64550b829a031e1";
"724e6430010000000000000039000000200000000000000001000000000000000000000000000000000000000000000000000000000000000000000000000000";
"02000000000000003a00000020000000000000000100000000000000000000000000000000000000000000000000000000000000810000002000000000000000";
"000000f093f5e1439170b97948e833285d588181b64550b829a031e1724e643001000000000000003a0000002000000000000000010000000000000000000000";
"0000000000000000000000000000000000000000000000000000000002000000000000003b000000200000000000000001000000000000000000000000000000";
"00000000000000000000000000000000820000002000000000000000000000f093f5e1439170b97948e833285d588181b64550b829a031e1724e643001000000";
"000000003b0000002000000000000000010000000000000000000000000000000000000000000000000000000000000000000000000000000200000000000000";
"3c00000020000000000000000100000000000000000000000000000000000000000000000000000000000000830000002000000000000000000000f093f5e143";
"9170b97948e833285d588181b64550b829a031e1724e643001000000000000003c00000020000000000000000100000000000000000000000000000000000000";
"000000000000000000000000000000000000000002000000000000003d0000002000000000000000010000000000000000000000000000000000000000000000";
"0000000000000000840000002000000000000000000000f093f5e1439170b97948e833285d588181b64550b829a031e1724e643001000000000000003d000000";
"20000000000000000100000000000000000000000000000000000000000000000000000000000000000000000000000002000000000000003e00000020000000";
"000000000100000000000000000000000000000000000000000000000000000000000000850000002000000000000000000000f093f5e1439170b97948e83328";
"5d588181b64550b829a031e1724e643001000000000000003e000000200000000000000001000000000000000000000000000000000000000000000000000000";
"0000000000000000000000000a00000000000000000000002000000000000000d4ffffef93f5e1439170b97948e833285d588181b64550b829a031e1724e6430";
"3f000000200000000000000001000000000000000000000000000000000000000000000000000000000000007e00000020000000000000000100000000000000";
"0000000000000000000000000000000000000000000000007f000000200000000000000001000000000000000000000000000000000000000000000000000000";
"00000000800000002000000000000000010000000000000000000000000000000000000000000000000000000000000081000000200000000000000001000000";
"00000000000000000000000000000000000000000000000000000000820000002000000000000000010000000000000000000000000000000000000000000000";
"00000000000000008300000020000000000000000100000000000000000000000000000000000000000000000000000000000000840000002000000000000000";
"01000000000000000000000000000000000000000000000000000000000000008500000020000000000000000100000000000000000000000000000000000000";
"00000000000000000000000001000000000000003f00000020000000000000000100000000000000000000000000000000000000000000000000000000000000";
"00000000000000000200000000000000400000002000000000000000010000000000000000000000000000000000000000000000000000000000000086000000";
"2000000000000000000000f093f5e1439170b97948e833285d588181b64550b829a031e1724e6430010000000000000040000000200000000000000001000000";
"00000000000000000000000000000000000000000000000000000000000000000000000002000000000000004100000020000000000000000100000000000000";
"000000000000000000000000000000000000000000000000870000002000000000000000000000f093f5e1439170b97948e833285d588181b64550b829a031e1";
"724e6430010000000000000041000000200000000000000001000000000000000000000000000000000000000000000000000000000000000000000000000000";
"02000000000000004200000020000000000000000100000000000000000000000000000000000000000000000000000000000000880000002000000000000000";
"000000f093f5e1439170b97948e833285d588181b64550b829a031e1724e64300100000000000000420000002000000000000000010000000000000000000000";
"00000000000000000000000000000000000000000000000000000000020000000000000043000000200000000000000001000000000000000000000000000000";
"00000000000000000000000000000000890000002000000000000000000000f093f5e1439170b97948e833285d588181b64550b829a031e1724e643001000000";
"00000000430000002000000000000000010000000000000000000000000000000000000000000000000000000000000000000000000000000200000000000000";
"44000000200000000000000001000000000000000000000000000000000000000000000000000000000000008a0000002000000000000000000000f093f5e143";
"9170b97948e833285d588181b64550b829a031e1724e643001000000000000004400000020000000000000000100000000000000000000000000000000000000";
"00000000000000000000000000000000000000000200000000000000450000002000000000000000010000000000000000000000000000000000000000000000";
"00000000000000008b0000002000000000000000000000f093f5e1439170b97948e833285d588181b64550b829a031e1724e6430010000000000000045000000";
"20000000000000000100000000000000000000000000000000000000000000000000000000000000000000000000000002000000000000004600000020000000";
"0000000001000000000000000000000000000000000000000000000000000000000000008c0000002000000000000000000000f093f5e1439170b97948e83328";
"5d588181b64550b829a031e1724e6430010000000000000046000000200000000000000001000000000000000000000000000000000000000000000000000000";
"00000000000000000000000002000000000000004700000020000000000000000100000000000000000000000000000000000000000000000000000000000000";
"8d0000002000000000000000000000f093f5e1439170b97948e833285d588181b64550b829a031e1724e64300100000000000000470000002000000000000000";
"010000000000000000000000000000000000000000000000000000000000000000000000000000000a00000000000000000000002000000000000000d4ffffef";
"93f5e1439170b97948e833285d588181b64550b829a031e1724e6430480000002000000000000000010000000000000000000000000000000000000000000000";
"00000000000000008600000020000000000000000100000000000000000000000000000000000000000000000000000000000000870000002000000000000000";
"01000000000000000000000000000000000000000000000000000000000000008800000020000000000000000100000000000000000000000000000000000000";
"00000000000000000000000089000000200000000000000001000000000000000000000000000000000000000000000000000000000000008a00000020000000";
"0000000001000000000000000000000000000000000000000000000000000000000000008b000000200000000000000001000000000000000000000000000000";
"000000000000000000000000000000008c000000200000000000000001000000000000000000000000000000000000000000000000000000000000008d000000";
"20000000000000000100000000000000000000000000000000000000000000000000000000000000010000000000000048000000200000000000000001000000";
"0000000000000000000000000000000000000000000000000000000000000000000000000a00000000000000000000002000000000000000d4ffffef93f5e143";
"9170b97948e833285d588181b64550b829a031e1724e643049000000200000000000000001000000000000000000000000000000000000000000000000000000";
"0000000052000000200000000000000001000000000000000000000000000000000000000000000000000000000000005a000000200000000000000001000000";
"00000000000000000000000000000000000000000000000000000000620000002000000000000000010000000000000000000000000000000000000000000000";
"00000000000000006800000020000000000000000100000000000000000000000000000000000000000000000000000000000000700000002000000000000000";
"01000000000000000000000000000000000000000000000000000000000000007800000020000000000000000100000000000000000000000000000000000000";
"0000000000000000000000007e000000200000000000000001000000000000000000000000000000000000000000000000000000000000008600000020000000";
"00000000010000000000000000000000000000000000000000000000000000000000000001000000000000004900000020000000000000000100000000000000";
"00000000000000000000000000000000000000000000000000000000000000000a00000000000000000000002000000000000000d4ffffef93f5e1439170b979";
"48e833285d588181b64550b829a031e1724e64304a00000020000000000000000100000000000000000000000000000000000000000000000000000000000000";
"53000000200000000000000001000000000000000000000000000000000000000000000000000000000000005b00000020000000000000000100000000000000";
"00000000000000000000000000000000000000000000000063000000200000000000000001000000000000000000000000000000000000000000000000000000";
"00000000690000002000000000000000010000000000000000000000000000000000000000000000000000000000000071000000200000000000000001000000";
"00000000000000000000000000000000000000000000000000000000790000002000000000000000010000000000000000000000000000000000000000000000";
"00000000000000007f00000020000000000000000100000000000000000000000000000000000000000000000000000000000000870000002000000000000000";
"010000000000000000000000000000000000000000000000000000000000000001000000000000004a0000002000000000000000010000000000000000000000";
"0000000000000000000000000000000000000000000000000000000010000000000000000000000020000000000000002d000000000000000000000000000000";
"000000000000000000000000000000004b0000002000000000000000010000000000000000000000000000000000000000000000000000000000000052000000";
"2000000000000000000000f093f5e1439170b97948e833285d588181b64550b829a031e1724e6430530000002000000000000000000000f093f5e1439170b979";
"48e833285d588181b64550b829a031e1724e64305a0000002000000000000000000000f093f5e1439170b97948e833285d588181b64550b829a031e1724e6430";
"5b0000002000000000000000000000f093f5e1439170b97948e833285d588181b64550b829a031e1724e6430620000002000000000000000000000f093f5e143";
"9170b97948e833285d588181b64550b829a031e1724e6430630000002000000000000000000000f093f5e1439170b97948e833285d588181b64550b829a031e1";
"724e6430680000002000000000000000000000f093f5e1439170b97948e833285d588181b64550b829a031e1724e6430690000002000000000000000000000f0";
"93f5e1439170b97948e833285d588181b64550b829a031e1724e6430700000002000000000000000000000f093f5e1439170b97948e833285d588181b64550b8";
"29a031e1724e6430710000002000000000000000000000f093f5e1439170b97948e833285d588181b64550b829a031e1724e6430780000002000000000000000";
"000000f093f5e1439170b97948e833285d588181b64550b829a031e1724e6430790000002000000000000000000000f093f5e1439170b97948e833285d588181";
"b64550b829a031e1724e643080000000200000000000000001000000000000000000000000000000000000000000000000000000000000008800000020000000";
"00000000010000000000000000000000000000000000000000000000000000000000000001000000000000004b00000020000000000000000100000000000000";
"00000000000000000000000000000000000000000000000000000000000000000a00000000000000000000002000000000000000d4ffffef93f5e1439170b979";
"48e833285d588181b64550b829a031e1724e64304c00000020000000000000000100000000000000000000000000000000000000000000000000000000000000";
"55000000200000000000000001000000000000000000000000000000000000000000000000000000000000005d00000020000000000000000100000000000000";
"00000000000000000000000000000000000000000000000064000000200000000000000001000000000000000000000000000000000000000000000000000000";
"000000006b0000002000000000000000010000000000000000000000000000000000000000000000000000000000000073000000200000000000000001000000";
"000000000000000000000000000000000000000000000000000000007a0000002000000000000000010000000000000000000000000000000000000000000000";
"00000000000000008100000020000000000000000100000000000000000000000000000000000000000000000000000000000000890000002000000000000000";
"010000000000000000000000000000000000000000000000000000000000000001000000000000004c0000002000000000000000010000000000000000000000";
"000000000000000000000000000000000000000000000000000000000a00000000000000000000002000000000000000d4ffffef93f5e1439170b97948e83328";
"5d588181b64550b829a031e1724e64304d0000002000000000000000010000000000000000000000000000000000000000000000000000000000000056000000";
"200000000000000001000000000000000000000000000000000000000000000000000000000000005e0000002000000000000000010000000000000000000000";
"00000000000000000000000000000000000000006500000020000000000000000100000000000000000000000000000000000000000000000000000000000000";
"6c000000200000000000000001000000000000000000000000000000000000000000000000000000000000007400000020000000000000000100000000000000";
"0000000000000000000000000000000000000000000000007b000000200000000000000001000000000000000000000000000000000000000000000000000000";
"0000000082000000200000000000000001000000000000000000000000000000000000000000000000000000000000008a000000200000000000000001000000";
"0000000000000000000000000000000000000000000000000000000001000000000000004d000000200000000000000001000000000000000000000000000000";
"00000000000000000000000000000000000000000000000010000000000000000000000020000000000000002d00000000000000000000000000000000000000";
"0000000000000000000000004e000000200000000000000001000000000000000000000000000000000000000000000000000000000000005500000020000000";
"00000000000000f093f5e1439170b97948e833285d588181b64550b829a031e1724e6430560000002000000000000000000000f093f5e1439170b97948e83328";
"5d588181b64550b829a031e1724e64305d0000002000000000000000000000f093f5e1439170b97948e833285d588181b64550b829a031e1724e64305e000000";
"2000000000000000000000f093f5e1439170b97948e833285d588181b64550b829a031e1724e6430640000002000000000000000000000f093f5e1439170b979";
"48e833285d588181b64550b829a031e1724e6430650000002000000000000000000000f093f5e1439170b97948e833285d588181b64550b829a031e1724e6430";
"6b0000002000000000000000000000f093f5e1439170b97948e833285d588181b64550b829a031e1724e64306c0000002000000000000000000000f093f5e143";
"9170b97948e833285d588181b64550b829a031e1724e6430730000002000000000000000000000f093f5e1439170b97948e833285d588181b64550b829a031e1";
"724e6430740000002000000000000000000000f093f5e1439170b97948e833285d588181b64550b829a031e1724e64307a0000002000000000000000000000f0";
"93f5e1439170b97948e833285d588181b64550b829a031e1724e64307b0000002000000000000000000000f093f5e1439170b97948e833285d588181b64550b8";
"29a031e1724e643083000000200000000000000001000000000000000000000000000000000000000000000000000000000000008b0000002000000000000000";
"010000000000000000000000000000000000000000000000000000000000000001000000000000004e0000002000000000000000010000000000000000000000";
"000000000000000000000000000000000000000000000000000000000a00000000000000000000002000000000000000d4ffffef93f5e1439170b97948e83328";
"5d588181b64550b829a031e1724e64304f0000002000000000000000010000000000000000000000000000000000000000000000000000000000000058000000";
"20000000000000000100000000000000000000000000000000000000000000000000000000000000600000002000000000000000010000000000000000000000";
"00000000000000000000000000000000000000006600000020000000000000000100000000000000000000000000000000000000000000000000000000000000";
"6e000000200000000000000001000000000000000000000000000000000000000000000000000000000000007600000020000000000000000100000000000000";
"0000000000000000000000000000000000000000000000007c000000200000000000000001000000000000000000000000000000000000000000000000000000";
"0000000084000000200000000000000001000000000000000000000000000000000000000000000000000000000000008c000000200000000000000001000000";
"0000000000000000000000000000000000000000000000000000000001000000000000004f000000200000000000000001000000000000000000000000000000";
"0000000000000000000000000000000000000000000000000a00000000000000000000002000000000000000d4ffffef93f5e1439170b97948e833285d588181";
"b64550b829a031e1724e643050000000200000000000000001000000000000000000000000000000000000000000000000000000000000005900000020000000";
"00000000010000000000000000000000000000000000000000000000000000000000000061000000200000000000000001000000000000000000000000000000";
"0000000000000000000000000000000067000000200000000000000001000000000000000000000000000000000000000000000000000000000000006f000000";
"20000000000000000100000000000000000000000000000000000000000000000000000000000000770000002000000000000000010000000000000000000000";
"00000000000000000000000000000000000000007d00000020000000000000000100000000000000000000000000000000000000000000000000000000000000";
"85000000200000000000000001000000000000000000000000000000000000000000000000000000000000008d00000020000000000000000100000000000000";
"00000000000000000000000000000000000000000000000001000000000000005000000020000000000000000100000000000000000000000000000000000000";
"00000000000000000000000000000000000000001e00000000000000000000002000000000000000870000000000000000000000000000000000000000000000";
"00000000000000005100000020000000000000000100000000000000000000000000000000000000000000000000000000000000580000002000000000000000";
"000000f093f5e1439170b97948e833285d588181b64550b829a031e1724e6430590000002000000000000000000000f093f5e1439170b97948e833285d588181";
"b64550b829a031e1724e6430600000002000000000000000000000f093f5e1439170b97948e833285d588181b64550b829a031e1724e64306100000020000000";
"00000000000000f093f5e1439170b97948e833285d588181b64550b829a031e1724e6430660000002000000000000000000000f093f5e1439170b97948e83328";
"5d588181b64550b829a031e1724e6430670000002000000000000000000000f093f5e1439170b97948e833285d588181b64550b829a031e1724e64306e000000";
"2000000000000000000000f093f5e1439170b97948e833285d588181b64550b829a031e1724e64306f0000002000000000000000000000f093f5e1439170b979";
"48e833285d588181b64550b829a031e1724e6430760000002000000000000000000000f093f5e1439170b97948e833285d588181b64550b829a031e1724e6430";
"770000002000000000000000000000f093f5e1439170b97948e833285d588181b64550b829a031e1724e64307c0000002000000000000000000000f093f5e143";
"9170b97948e833285d588181b64550b829a031e1724e64307d0000002000000000000000000000f093f5e1439170b97948e833285d588181b64550b829a031e1";
"724e64307e0000002000000000000000000000f093f5e1439170b97948e833285d588181b64550b829a031e1724e64307f0000002000000000000000000000f0";
"93f5e1439170b97948e833285d588181b64550b829a031e1724e6430800000002000000000000000000000f093f5e1439170b97948e833285d588181b64550b8";
"29a031e1724e6430810000002000000000000000000000f093f5e1439170b97948e833285d588181b64550b829a031e1724e6430820000002000000000000000";
"000000f093f5e1439170b97948e833285d588181b64550b829a031e1724e6430830000002000000000000000000000f093f5e1439170b97948e833285d588181";
"b64550b829a031e1724e6430840000002000000000000000000000f093f5e1439170b97948e833285d588181b64550b829a031e1724e64308500000020000000";
"00000000000000f093f5e1439170b97948e833285d588181b64550b829a031e1724e6430860000002000000000000000000000f093f5e1439170b97948e83328";
"5d588181b64550b829a031e1724e6430870000002000000000000000000000f093f5e1439170b97948e833285d588181b64550b829a031e1724e643088000000";
"2000000000000000000000f093f5e1439170b97948e833285d588181b64550b829a031e1724e6430890000002000000000000000000000f093f5e1439170b979";
"48e833285d588181b64550b829a031e1724e64308a0000002000000000000000000000f093f5e1439170b97948e833285d588181b64550b829a031e1724e6430";
"8b0000002000000000000000000000f093f5e1439170b97948e833285d588181b64550b829a031e1724e64308c0000002000000000000000000000f093f5e143";
"9170b97948e833285d588181b64550b829a031e1724e64308d0000002000000000000000000000f093f5e1439170b97948e833285d588181b64550b829a031e1";
"724e6430010000000000000051000000200000000000000001000000000000000000000000000000000000000000000000000000000000000000000000000000";
"00ca00000000000000b7000000200000000000000004000000000000000000000000000000000000000000000000000000000000008c00000020000000000000";
"000600000000000000000000000000000000000000000000000000000000000000c0000000200000000000000004000000000000000000000000000000000000";
"000000000000000000000000009d0000002000000000000000100000000000000000000000000000000000000000000000000000000000000055000000200000";
"000000000006000000000000000000000000000000000000000000000000000000000000001c0000002000000000000000080000000000000000000000000000";
"00000000000000000000000000000000005d000000200000000000000001000000000000000000000000000000000000000000000000000000000000007b0000";
"00200000000000000002000000000000000000000000000000000000000000000000000000000000007c00000020000000000000000800000000000000000000";
"0000000000000000000000000000000000000000005c000000200000000000000002000000000000000000000000000000000000000000000000000000000000";
"00350000002000000000000000050000000000000000000000000000000000000000000000000000000000000077000000200000000000000009000000000000";
"000000000000000000000000000000000000000000000000007a0000002000000000000000090000000000000000000000000000000000000000000000000000";
"0000000000ba00000020000000000000005100000000000000000000000000000000000000000000000000000000000000670000002000000000000000060000";
"0000000000000000000000000000000000000000000000000000000000c200000020000000000000000400000000000000000000000000000000000000000000";
"00000000000000000032000000200000000000000002000000000000000000000000000000000000000000000000000000000000002a00000020000000000000";
"0003000000000000000000000000000000000000000000000000000000000000003f000000200000000000000004000000000000000000000000000000000000";
"000000000000000000000000002e000000200000000000000007000000000000000000000000000000000000000000000000000000000000000d000000200000";
"00000000000100000000000000000000000000000000000000000000000000000000000000370000002000000000000000090000000000000000000000000000";
"00000000000000000000000000000000005400000020000000000000000400000000000000000000000000000000000000000000000000000000000000850000";
"00200000000000000008000000000000000000000000000000000000000000000000000000000000002700000020000000000000000600000000000000000000";
"00000000000000000000000000000000000000000000000000200000000000000001000000000000000000000000000000000000000000000000000000000000";
"0075000000200000000000000003000000000000000000000000000000000000000000000000000000000000003c000000200000000000000007000000000000";
"00000000000000000000000000000000000000000000000000080000002000000000000000010000000000000000000000000000000000000000000000000000";
"000000000020000000200000000000000006000000000000000000000000000000000000000000000000000000000000002c0000002000000000000000090000";
"00000000000000000000000000000000000000000000000000000000009300000020000000000000004000000000000000000000000000000000000000000000";
"0000000000000000009800000020000000000000000400000000000000000000000000000000000000000000000000000000000000a900000020000000000000";
"00010000000000000000000000000000000000000000000000000000000000000060000000200000000000000003000000000000000000000000000000000000";
"000000000000000000000000008a00000020000000000000000100000000000000000000000000000000000000000000000000000000000000b4000000200000";
"000000000031000000000000000000000000000000000000000000000000000000000000006a0000002000000000000000090000000000000000000000000000";
"0000000000000000000000000000000000be00000020000000000000000900000000000000000000000000000000000000000000000000000000000000610000";
"0020000000000000000400000000000000000000000000000000000000000000000000000000000000c700000020000000000000005100000000000000000000";
"00000000000000000000000000000000000000000017000000200000000000000004000000000000000000000000000000000000000000000000000000000000";
"0053000000200000000000000003000000000000000000000000000000000000000000000000000000000000006e000000200000000000000004000000000000";
"00000000000000000000000000000000000000000000000000720000002000000000000000060000000000000000000000000000000000000000000000000000";
"000000000043000000200000000000000004000000000000000000000000000000000000000000000000000000000000008d0000002000000000000000030000";
"00000000000000000000000000000000000000000000000000000000009400000020000000000000005100000000000000000000000000000000000000000000";
"000000000000000000a100000020000000000000001000000000000000000000000000000000000000000000000000000000000000ac00000020000000000000";
"001000000000000000000000000000000000000000000000000000000000000000bd000000200000000000000019000000000000000000000000000000000000";
"00000000000000000000000000490000002000000000000000030000000000000000000000000000000000000000000000000000000000000025000000200000";
"00000000000400000000000000000000000000000000000000000000000000000000000000560000002000000000000000070000000000000000000000000000";
"00000000000000000000000000000000003a00000020000000000000000500000000000000000000000000000000000000000000000000000000000000220000";
"00200000000000000004000000000000000000000000000000000000000000000000000000000000002600000020000000000000000200000000000000000000";
"0000000000000000000000000000000000000000005b000000200000000000000007000000000000000000000000000000000000000000000000000000000000";
"00040000002000000000000000060000000000000000000000000000000000000000000000000000000000000038000000200000000000000006000000000000";
"000000000000000000000000000000000000000000000000000e0000002000000000000000090000000000000000000000000000000000000000000000000000";
"00000000006200000020000000000000000100000000000000000000000000000000000000000000000000000000000000950000002000000000000000010000";
"00000000000000000000000000000000000000000000000000000000005e00000020000000000000000900000000000000000000000000000000000000000000";
"00000000000000000091000000200000000000000024000000000000000000000000000000000000000000000000000000000000004400000020000000000000";
"00010000000000000000000000000000000000000000000000000000000000000089000000200000000000000004000000000000000000000000000000000000";
"00000000000000000000000000990000002000000000000000010000000000000000000000000000000000000000000000000000000000000028000000200000";
"00000000000800000000000000000000000000000000000000000000000000000000000000070000002000000000000000090000000000000000000000000000";
"00000000000000000000000000000000003600000020000000000000000600000000000000000000000000000000000000000000000000000000000000970000";
"0020000000000000003100000000000000000000000000000000000000000000000000000000000000a000000020000000000000000900000000000000000000";
"000000000000000000000000000000000000000000a3000000200000000000000024000000000000000000000000000000000000000000000000000000000000";
"00a400000020000000000000004000000000000000000000000000000000000000000000000000000000000000c4000000200000000000000031000000000000";
"00000000000000000000000000000000000000000000000000100000002000000000000000030000000000000000000000000000000000000000000000000000";
"00000000008800000020000000000000000700000000000000000000000000000000000000000000000000000000000000290000002000000000000000050000";
"00000000000000000000000000000000000000000000000000000000008e00000020000000000000001900000000000000000000000000000000000000000000";
"00000000000000000059000000200000000000000001000000000000000000000000000000000000000000000000000000000000004d00000020000000000000";
"00080000000000000000000000000000000000000000000000000000000000000064000000200000000000000003000000000000000000000000000000000000";
"000000000000000000000000002d0000002000000000000000010000000000000000000000000000000000000000000000000000000000000068000000200000";
"00000000000800000000000000000000000000000000000000000000000000000000000000050000002000000000000000070000000000000000000000000000";
"000000000000000000000000000000000070000000200000000000000004000000000000000000000000000000000000000000000000000000000000008f0000";
"00200000000000000009000000000000000000000000000000000000000000000000000000000000008b00000020000000000000000900000000000000000000";
"000000000000000000000000000000000000000000c5000000200000000000000010000000000000000000000000000000000000000000000000000000000000";
"00c6000000200000000000000001000000000000000000000000000000000000000000000000000000000000004c000000200000000000000002000000000000";
"00000000000000000000000000000000000000000000000000ad0000002000000000000000040000000000000000000000000000000000000000000000000000";
"00000000000600000020000000000000000800000000000000000000000000000000000000000000000000000000000000580000002000000000000000090000";
"00000000000000000000000000000000000000000000000000000000005a00000020000000000000000600000000000000000000000000000000000000000000";
"00000000000000000065000000200000000000000004000000000000000000000000000000000000000000000000000000000000001100000020000000000000";
"0004000000000000000000000000000000000000000000000000000000000000006d000000200000000000000001000000000000000000000000000000000000";
"00000000000000000000000000710000002000000000000000020000000000000000000000000000000000000000000000000000000000000087000000200000";
"00000000000800000000000000000000000000000000000000000000000000000000000000300000002000000000000000030000000000000000000000000000";
"000000000000000000000000000000000009000000200000000000000002000000000000000000000000000000000000000000000000000000000000001d0000";
"00200000000000000005000000000000000000000000000000000000000000000000000000000000009a00000020000000000000005100000000000000000000";
"0000000000000000000000000000000000000000000f000000200000000000000005000000000000000000000000000000000000000000000000000000000000";
"00190000002000000000000000050000000000000000000000000000000000000000000000000000000000000079000000200000000000000001000000000000";
"00000000000000000000000000000000000000000000000000820000002000000000000000030000000000000000000000000000000000000000000000000000";
"0000000000c100000020000000000000004000000000000000000000000000000000000000000000000000000000000000470000002000000000000000030000";
"00000000000000000000000000000000000000000000000000000000004600000020000000000000000600000000000000000000000000000000000000000000";
"0000000000000000005f000000200000000000000005000000000000000000000000000000000000000000000000000000000000002300000020000000000000";
"0002000000000000000000000000000000000000000000000000000000000000004a000000200000000000000004000000000000000000000000000000000000";
"000000000000000000000000000b000000200000000000000007000000000000000000000000000000000000000000000000000000000000006c000000200000";
"000000000006000000000000000000000000000000000000000000000000000000000000009e0000002000000000000000010000000000000000000000000000";
"0000000000000000000000000000000000c800000020000000000000002400000000000000000000000000000000000000000000000000000000000000aa0000";
"00200000000000000010000000000000000000000000000000000000000000000000000000000000003900000020000000000000000100000000000000000000";
"0000000000000000000000000000000000000000009f000000200000000000000051000000000000000000000000000000000000000000000000000000000000";
"00ab00000020000000000000000400000000000000000000000000000000000000000000000000000000000000b1000000200000000000000009000000000000";
"000000000000000000000000000000000000000000000000001b0000002000000000000000070000000000000000000000000000000000000000000000000000";
"00000000000c000000200000000000000002000000000000000000000000000000000000000000000000000000000000004b0000002000000000000000050000";
"00000000000000000000000000000000000000000000000000000000005100000020000000000000000900000000000000000000000000000000000000000000";
"00000000000000000042000000200000000000000007000000000000000000000000000000000000000000000000000000000000001300000020000000000000";
"00010000000000000000000000000000000000000000000000000000000000000052000000200000000000000005000000000000000000000000000000000000";
"00000000000000000000000000b2000000200000000000000031000000000000000000000000000000000000000000000000000000000000003d000000200000";
"00000000000200000000000000000000000000000000000000000000000000000000000000b90000002000000000000000190000000000000000000000000000";
"00000000000000000000000000000000008400000020000000000000000200000000000000000000000000000000000000000000000000000000000000bb0000";
"00200000000000000024000000000000000000000000000000000000000000000000000000000000001800000020000000000000000200000000000000000000";
"000000000000000000000000000000000000000000b6000000200000000000000051000000000000000000000000000000000000000000000000000000000000";
"00400000002000000000000000020000000000000000000000000000000000000000000000000000000000000002000000200000000000000003000000000000";
"000000000000000000000000000000000000000000000000004e0000002000000000000000060000000000000000000000000000000000000000000000000000";
"00000000000a00000020000000000000000600000000000000000000000000000000000000000000000000000000000000660000002000000000000000050000";
"00000000000000000000000000000000000000000000000000000000007f00000020000000000000000600000000000000000000000000000000000000000000";
"00000000000000000080000000200000000000000001000000000000000000000000000000000000000000000000000000000000008300000020000000000000";
"00070000000000000000000000000000000000000000000000000000000000000074000000200000000000000005000000000000000000000000000000000000";
"00000000000000000000000000760000002000000000000000070000000000000000000000000000000000000000000000000000000000000092000000200000";
"00000000003100000000000000000000000000000000000000000000000000000000000000120000002000000000000000080000000000000000000000000000";
"00000000000000000000000000000000001a000000200000000000000006000000000000000000000000000000000000000000000000000000000000004f0000";
"00200000000000000001000000000000000000000000000000000000000000000000000000000000009600000020000000000000002400000000000000000000";
"000000000000000000000000000000000000000000a5000000200000000000000019000000000000000000000000000000000000000000000000000000000000";
"009b000000200000000000000019000000000000000000000000000000000000000000000000000000000000003b000000200000000000000003000000000000";
"00000000000000000000000000000000000000000000000000410000002000000000000000080000000000000000000000000000000000000000000000000000";
"00000000007300000020000000000000000800000000000000000000000000000000000000000000000000000000000000c90000002000000000000000090000";
"00000000000000000000000000000000000000000000000000000000000300000020000000000000000400000000000000000000000000000000000000000000";
"0000000000000000003e000000200000000000000008000000000000000000000000000000000000000000000000000000000000006b00000020000000000000";
"00070000000000000000000000000000000000000000000000000000000000000031000000200000000000000009000000000000000000000000000000000000";
"00000000000000000000000000690000002000000000000000050000000000000000000000000000000000000000000000000000000000000015000000200000";
"000000000008000000000000000000000000000000000000000000000000000000000000007d0000002000000000000000050000000000000000000000000000";
"00000000000000000000000000000000007e000000200000000000000009000000000000000000000000000000000000000000000000000000000000001f0000";
"00200000000000000007000000000000000000000000000000000000000000000000000000000000008600000020000000000000000200000000000000000000";
"000000000000000000000000000000000000000000a7000000200000000000000031000000000000000000000000000000000000000000000000000000000000";
"004800000020000000000000000500000000000000000000000000000000000000000000000000000000000000a8000000200000000000000024000000000000";
"00000000000000000000000000000000000000000000000000b80000002000000000000000400000000000000000000000000000000000000000000000000000";
"000000000001000000200000000000000005000000000000000000000000000000000000000000000000000000000000002b0000002000000000000000070000";
"00000000000000000000000000000000000000000000000000000000009000000020000000000000001000000000000000000000000000000000000000000000";
"000000000000000000a600000020000000000000005100000000000000000000000000000000000000000000000000000000000000c300000020000000000000";
"00400000000000000000000000000000000000000000000000000000000000000033000000200000000000000004000000000000000000000000000000000000";
"000000000000000000000000007800000020000000000000000700000000000000000000000000000000000000000000000000000000000000a2000000200000";
"00000000001900000000000000000000000000000000000000000000000000000000000000bc0000002000000000000000010000000000000000000000000000";
"00000000000000000000000000000000009c00000020000000000000000900000000000000000000000000000000000000000000000000000000000000b30000";
"00200000000000000051000000000000000000000000000000000000000000000000000000000000003400000020000000000000000800000000000000000000";
"000000000000000000000000000000000000000000ae000000200000000000000024000000000000000000000000000000000000000000000000000000000000";
"00210000002000000000000000010000000000000000000000000000000000000000000000000000000000000024000000200000000000000003000000000000";
"00000000000000000000000000000000000000000000000000bf0000002000000000000000310000000000000000000000000000000000000000000000000000";
"000000000016000000200000000000000003000000000000000000000000000000000000000000000000000000000000006f0000002000000000000000020000";
"00000000000000000000000000000000000000000000000000000000001e00000020000000000000000900000000000000000000000000000000000000000000";
"0000000000000000008100000020000000000000000500000000000000000000000000000000000000000000000000000000000000af00000020000000000000";
"004000000000000000000000000000000000000000000000000000000000000000b0000000200000000000000019000000000000000000000000000000000000";
"00000000000000000000000000b5000000200000000000000001000000000000000000000000000000000000000000000000000000000000002f000000200000";
"00000000000100000000000000000000000000000000000000000000000000000000000000630000002000000000000000090000000000000000000000000000";
"00000000000000000000000000000000005700000020000000000000000800000000000000000000000000000000000000000000000000000000000000500000";
"00200000000000000007000000000000000000000000000000000000000000000000000000000000001400000020000000000000000900000000000000000000";
"00000000000000000000000000000000000000000045000000200000000000000009000000000000000000000000000000000000000000000000000000000000";
"000e000000000000007375646f6b755f63697263756974012e000000000000005375646f6b752070757a7a6c6520766572696669636174696f6e206369726375";
"69742066726f6d20436972636f6d"].
Definition fixture_bin : list byte := flat_map hex_bytes fixture_bin_hex.

(** packages/zkenc-cli/tests/inputs/sudoku_sudoku_basic.wtns:1 (the whole binary file). *)
Definition fixture_wtns_hex : list string := [
"77746e73020000000200000001000000280000000000000020000000010000f093f5e1439170b97948e833285d588181b64550b829a031e1724e6430ca000000";
"02000000401900000000000001000000000000000000000000000000000000000000000000000000000000000500000000000000000000000000000000000000";
"00000000000000000000000003000000000000000000000000000000000000000000000000000000000000000400000000000000000000000000000000000000";
"00000000000000000000000006000000000000000000000000000000000000000000000000000000000000000700000000000000000000000000000000000000";
"00000000000000000000000008000000000000000000000000000000000000000000000000000000000000000900000000000000000000000000000000000000";
"00000000000000000000000001000000000000000000000000000000000000000000000000000000000000000200000000000000000000000000000000000000";
"00000000000000000000000006000000000000000000000000000000000000000000000000000000000000000700000000000000000000000000000000000000";
"00000000000000000000000002000000000000000000000000000000000000000000000000000000000000000100000000000000000000000000000000000000";
"00000000000000000000000009000000000000000000000000000000000000000000000000000000000000000500000000000000000000000000000000000000";
"00000000000000000000000003000000000000000000000000000000000000000000000000000000000000000400000000000000000000000000000000000000";
"00000000000000000000000008000000000000000000000000000000000000000000000000000000000000000100000000000000000000000000000000000000";
"00000000000000000000000009000000000000000000000000000000000000000000000000000000000000000800000000000000000000000000000000000000";
"00000000000000000000000003000000000000000000000000000000000000000000000000000000000000000400000000000000000000000000000000000000";
"00000000000000000000000002000000000000000000000000000000000000000000000000000000000000000500000000000000000000000000000000000000";
"00000000000000000000000006000000000000000000000000000000000000000000000000000000000000000700000000000000000000000000000000000000";
"00000000000000000000000008000000000000000000000000000000000000000000000000000000000000000500000000000000000000000000000000000000";
"00000000000000000000000009000000000000000000000000000000000000000000000000000000000000000700000000000000000000000000000000000000";
"00000000000000000000000006000000000000000000000000000000000000000000000000000000000000000100000000000000000000000000000000000000";
"00000000000000000000000004000000000000000000000000000000000000000000000000000000000000000200000000000000000000000000000000000000";
"00000000000000000000000003000000000000000000000000000000000000000000000000000000000000000400000000000000000000000000000000000000";
"00000000000000000000000002000000000000000000000000000000000000000000000000000000000000000600000000000000000000000000000000000000";
"00000000000000000000000008000000000000000000000000000000000000000000000000000000000000000500000000000000000000000000000000000000";
"00000000000000000000000003000000000000000000000000000000000000000000000000000000000000000700000000000000000000000000000000000000";
"00000000000000000000000009000000000000000000000000000000000000000000000000000000000000000100000000000000000000000000000000000000";
"00000000000000000000000007000000000000000000000000000000000000000000000000000000000000000100000000000000000000000000000000000000";
"00000000000000000000000003000000000000000000000000000000000000000000000000000000000000000900000000000000000000000000000000000000";
"00000000000000000000000002000000000000000000000000000000000000000000000000000000000000000400000000000000000000000000000000000000";
"00000000000000000000000008000000000000000000000000000000000000000000000000000000000000000500000000000000000000000000000000000000";
"00000000000000000000000006000000000000000000000000000000000000000000000000000000000000000900000000000000000000000000000000000000";
"00000000000000000000000006000000000000000000000000000000000000000000000000000000000000000100000000000000000000000000000000000000";
"00000000000000000000000005000000000000000000000000000000000000000000000000000000000000000300000000000000000000000000000000000000";
"00000000000000000000000007000000000000000000000000000000000000000000000000000000000000000200000000000000000000000000000000000000";
"00000000000000000000000008000000000000000000000000000000000000000000000000000000000000000400000000000000000000000000000000000000";
"00000000000000000000000002000000000000000000000000000000000000000000000000000000000000000800000000000000000000000000000000000000";
"00000000000000000000000007000000000000000000000000000000000000000000000000000000000000000400000000000000000000000000000000000000";
"00000000000000000000000001000000000000000000000000000000000000000000000000000000000000000900000000000000000000000000000000000000";
"00000000000000000000000006000000000000000000000000000000000000000000000000000000000000000300000000000000000000000000000000000000";
"00000000000000000000000005000000000000000000000000000000000000000000000000000000000000000300000000000000000000000000000000000000";
"00000000000000000000000004000000000000000000000000000000000000000000000000000000000000000500000000000000000000000000000000000000";
"00000000000000000000000002000000000000000000000000000000000000000000000000000000000000000800000000000000000000000000000000000000";
"00000000000000000000000006000000000000000000000000000000000000000000000000000000000000000100000000000000000000000000000000000000";
"00000000000000000000000007000000000000000000000000000000000000000000000000000000000000000900000000000000000000000000000000000000";
"00000000000000000000000005000000000000000000000000000000000000000000000000000000000000000300000000000000000000000000000000000000";
"00000000000000000000000004000000000000000000000000000000000000000000000000000000000000000600000000000000000000000000000000000000";
"00000000000000000000000007000000000000000000000000000000000000000000000000000000000000000800000000000000000000000000000000000000";
"00000000000000000000000009000000000000000000000000000000000000000000000000000000000000000100000000000000000000000000000000000000";
"00000000000000000000000006000000000000000000000000000000000000000000000000000000000000000700000000000000000000000000000000000000";
"00000000000000000000000002000000000000000000000000000000000000000000000000000000000000000100000000000000000000000000000000000000";
"00000000000000000000000009000000000000000000000000000000000000000000000000000000000000000500000000000000000000000000000000000000";
"00000000000000000000000003000000000000000000000000000000000000000000000000000000000000000400000000000000000000000000000000000000";
"00000000000000000000000001000000000000000000000000000000000000000000000000000000000000000900000000000000000000000000000000000000";
"00000000000000000000000003000000000000000000000000000000000000000000000000000000000000000400000000000000000000000000000000000000";
"00000000000000000000000005000000000000000000000000000000000000000000000000000000000000000600000000000000000000000000000000000000";
"00000000000000000000000008000000000000000000000000000000000000000000000000000000000000000500000000000000000000000000000000000000";
"00000000000000000000000009000000000000000000000000000000000000000000000000000000000000000700000000000000000000000000000000000000";
"00000000000000000000000006000000000000000000000000000000000000000000000000000000000000000100000000000000000000000000000000000000";
"00000000000000000000000004000000000000000000000000000000000000000000000000000000000000000200000000000000000000000000000000000000";
"00000000000000000000000004000000000000000000000000000000000000000000000000000000000000000200000000000000000000000000000000000000";
"00000000000000000000000006000000000000000000000000000000000000000000000000000000000000000800000000000000000000000000000000000000";
"00000000000000000000000005000000000000000000000000000000000000000000000000000000000000000300000000000000000000000000000000000000";
"00000000000000000000000007000000000000000000000000000000000000000000000000000000000000000900000000000000000000000000000000000000";
"00000000000000000000000007000000000000000000000000000000000000000000000000000000000000000100000000000000000000000000000000000000";
"00000000000000000000000009000000000000000000000000000000000000000000000000000000000000000200000000000000000000000000000000000000";
"00000000000000000000000008000000000000000000000000000000000000000000000000000000000000000500000000000000000000000000000000000000";
"00000000000000000000000009000000000000000000000000000000000000000000000000000000000000000600000000000000000000000000000000000000";
"00000000000000000000000001000000000000000000000000000000000000000000000000000000000000000500000000000000000000000000000000000000";
"00000000000000000000000003000000000000000000000000000000000000000000000000000000000000000700000000000000000000000000000000000000";
"00000000000000000000000002000000000000000000000000000000000000000000000000000000000000000800000000000000000000000000000000000000";
"00000000000000000000000002000000000000000000000000000000000000000000000000000000000000000800000000000000000000000000000000000000";
"00000000000000000000000007000000000000000000000000000000000000000000000000000000000000000400000000000000000000000000000000000000";
"00000000000000000000000001000000000000000000000000000000000000000000000000000000000000000900000000000000000000000000000000000000";
"00000000000000000000000006000000000000000000000000000000000000000000000000000000000000000300000000000000000000000000000000000000";
"00000000000000000000000019000000000000000000000000000000000000000000000000000000000000000900000000000000000000000000000000000000";
"00000000000000000000000010000000000000000000000000000000000000000000000000000000000000002400000000000000000000000000000000000000";
"00000000000000000000000031000000000000000000000000000000000000000000000000000000000000004000000000000000000000000000000000000000";
"00000000000000000000000051000000000000000000000000000000000000000000000000000000000000000100000000000000000000000000000000000000";
"00000000000000000000000024000000000000000000000000000000000000000000000000000000000000003100000000000000000000000000000000000000";
"00000000000000000000000004000000000000000000000000000000000000000000000000000000000000000100000000000000000000000000000000000000";
"00000000000000000000000051000000000000000000000000000000000000000000000000000000000000001900000000000000000000000000000000000000";
"00000000000000000000000009000000000000000000000000000000000000000000000000000000000000001000000000000000000000000000000000000000";
"00000000000000000000000001000000000000000000000000000000000000000000000000000000000000005100000000000000000000000000000000000000";
"00000000000000000000000009000000000000000000000000000000000000000000000000000000000000001000000000000000000000000000000000000000";
"00000000000000000000000019000000000000000000000000000000000000000000000000000000000000002400000000000000000000000000000000000000";
"00000000000000000000000040000000000000000000000000000000000000000000000000000000000000001900000000000000000000000000000000000000";
"00000000000000000000000051000000000000000000000000000000000000000000000000000000000000003100000000000000000000000000000000000000";
"00000000000000000000000024000000000000000000000000000000000000000000000000000000000000000100000000000000000000000000000000000000";
"00000000000000000000000010000000000000000000000000000000000000000000000000000000000000000400000000000000000000000000000000000000";
"00000000000000000000000010000000000000000000000000000000000000000000000000000000000000000400000000000000000000000000000000000000";
"00000000000000000000000024000000000000000000000000000000000000000000000000000000000000004000000000000000000000000000000000000000";
"00000000000000000000000019000000000000000000000000000000000000000000000000000000000000000900000000000000000000000000000000000000";
"00000000000000000000000031000000000000000000000000000000000000000000000000000000000000005100000000000000000000000000000000000000";
"00000000000000000000000031000000000000000000000000000000000000000000000000000000000000000100000000000000000000000000000000000000";
"00000000000000000000000051000000000000000000000000000000000000000000000000000000000000000400000000000000000000000000000000000000";
"00000000000000000000000040000000000000000000000000000000000000000000000000000000000000001900000000000000000000000000000000000000";
"00000000000000000000000051000000000000000000000000000000000000000000000000000000000000002400000000000000000000000000000000000000";
"00000000000000000000000001000000000000000000000000000000000000000000000000000000000000001900000000000000000000000000000000000000";
"00000000000000000000000009000000000000000000000000000000000000000000000000000000000000003100000000000000000000000000000000000000";
"00000000000000000000000004000000000000000000000000000000000000000000000000000000000000004000000000000000000000000000000000000000";
"00000000000000000000000004000000000000000000000000000000000000000000000000000000000000004000000000000000000000000000000000000000";
"00000000000000000000000031000000000000000000000000000000000000000000000000000000000000001000000000000000000000000000000000000000";
"00000000000000000000000001000000000000000000000000000000000000000000000000000000000000005100000000000000000000000000000000000000";
"00000000000000000000000024000000000000000000000000000000000000000000000000000000000000000900000000000000000000000000000000000000";
"000000000000000000000000"].
Definition fixture_wtns : list byte := flat_map hex_bytes fixture_wtns_hex.

(** packages/zkenc-cli/tests/inputs/sudoku_basic.json:1 (the whole file). *)
Definition fixture_json_hex : list string := [
"7b0a20202270757a7a6c65223a205b0a20202020352c20332c20342c20362c20372c20382c20392c20312c20322c0a20202020362c20372c20322c20312c2039";
"2c20352c20332c20342c20382c0a20202020312c20392c20382c20332c20342c20322c20352c20362c20372c0a20202020382c20352c20392c20372c20362c20";
"312c20342c20322c20332c0a20202020342c20322c20362c20382c20352c20332c20372c20392c20312c0a20202020372c20312c20332c20392c20322c20342c";
"20382c20352c20362c0a20202020392c20362c20312c20352c20332c20372c20322c20382c20342c0a20202020322c20382c20372c20342c20312c20392c2036";
"2c20332c20352c0a20202020332c20342c20352c20322c20382c20362c20312c20372c20390a20205d2c0a202022736f6c7574696f6e223a205b0a2020202035";
"2c20332c20342c20362c20372c20382c20392c20312c20322c0a20202020362c20372c20322c20312c20392c20352c20332c20342c20382c0a20202020312c20";
"392c20382c20332c20342c20322c20352c20362c20372c0a20202020382c20352c20392c20372c20362c20312c20342c20322c20332c0a20202020342c20322c";
"20362c20382c20352c20332c20372c20392c20312c0a20202020372c20312c20332c20392c20322c20342c20382c20352c20362c0a20202020392c20362c2031";
"2c20352c20332c20372c20322c20382c20342c0a20202020322c20382c20372c20342c20312c20392c20362c20332c20352c0a20202020332c20342c20352c20";
"322c20382c20362c20312c20372c20390a20205d0a7d0a"].
Definition fixture_json : list byte := flat_map hex_bytes fixture_json_hex.

(** Equality of byte strings. *)
Fixpoint same_bytes (a b : list byte) : bool :=
  match a, b with [], [] => true | x :: a, y :: b => Byte.eqb x y && same_bytes a b | _, _ => false end.

(** The witness file calculated from the JSON text is the shipped one, byte for byte. *)
Definition made_wtns : bool :=
  match js_json_parse (fun _ => JNull) (text_decode (fun _ => []) fixture_json) with
  | Some (JObj kvs) => match calculate_wtns sudoku_module kvs with Ok b => same_bytes b fixture_wtns | _ => false end
  | _ => false
  end.
Example fixture_witness : made_wtns = true.
Proof. vm_cast_no_check (eq_refl true). Qed.

(** The saved test case loads; it has the circuit of sudoku.r1cs and the values of that witness file,
    and saving it again (with the order of its map) gives the shipped bytes. *)
Definition made_bin : bool :=
  match test_case_from_bincode fixture_bin, cli_read_witness fixture_wtns with
  | Ok t, Ok vs =>
      same_bytes (test_case_bincode t) fixture_bin &&
      same_bytes (to_bincode (tc_circuit t)) (to_bincode (to_serializable sudoku_content)) &&
      Nat.eqb (List.length (s_assignments (tc_witness t))) 202 &&
      forallb (fun kv => match nth_error vs (N.to_nat (fst kv)) with
                         | Some v => feqb v (fr (Z.of_N (le_val (snd kv))))
                         | None => false end) (s_assignments (tc_witness t))
  | _, _ => false
  end.
Example fixture_test_case : made_bin = true.
Proof. vm_cast_no_check (eq_refl true). Qed.
