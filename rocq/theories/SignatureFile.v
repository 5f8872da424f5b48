(** Data for C79: byte ranges of packages/zkenc-cli/tests/r1cs/signature.r1cs, and values for wires of
    its circuit (keys: multiples of the base point of Baby Jubjub). *)
From Coq Require Import List NArith ZArith.
From Coq Require Import Strings.String Strings.Byte.
From Verif Require Import SudokuFile.
Import ListNotations.
Local Open Scope string_scope.

(** signature.r1cs, bytes 24 to 4331. *)
Definition bytes_rows_0_28 : list byte := hex_bytes (
  "020000000e00000001000000000000000000000000000000000000000000000000000000000000000f000000000000f093f5e1439170b97948e833285d588181b64550b829a031e1724e643001000000" ++
  "1000000001000000000000000000000000000000000000000000000000000000000000000100000000000000010000000000000000000000000000000000000000000000000000000000000002000000" ++
  "00000000000000f093f5e1439170b97948e833285d588181b64550b829a031e1724e64301100000001000000000000000000000000000000000000000000000000000000000000000100000011000000" ++
  "0100000000000000000000000000000000000000000000000000000000000000000000000300000000000000000000f8c9faf0a148b8dc3c24f419942eacc040db2228dc14d09870392732180e000000" ++
  "010000f8c9faf0a148b8dc3c24f419942eacc040db2228dc14d098703927321811000000000000f8c9faf0a148b8dc3c24f419942eacc040db2228dc14d09870392732180300000000000000010000f8" ++
  "c9faf0a148b8dc3c24f419942eacc040db2228dc14d09870392732180e000000010000f8c9faf0a148b8dc3c24f419942eacc040db2228dc14d098703927321811000000000000f8c9faf0a148b8dc3c" ++
  "24f419942eacc040db2228dc14d0987039273218000000000200000000000000000000f093f5e1439170b97948e833285d588181b64550b829a031e1724e643012000000010000000000000000000000" ++
  "000000000000000000000000000000000000000001000000120000000100000000000000000000000000000000000000000000000000000000000000000000000300000000000000000000f8c9faf0a1" ++
  "48b8dc3c24f419942eacc040db2228dc14d09870392732180f000000010000f8c9faf0a148b8dc3c24f419942eacc040db2228dc14d098703927321812000000000000f8c9faf0a148b8dc3c24f41994" ++
  "2eacc040db2228dc14d09870392732180300000000000000010000f8c9faf0a148b8dc3c24f419942eacc040db2228dc14d09870392732180f000000010000f8c9faf0a148b8dc3c24f419942eacc040" ++
  "db2228dc14d098703927321812000000000000f8c9faf0a148b8dc3c24f419942eacc040db2228dc14d0987039273218000000000100000019000000000000f093f5e1439170b97948e833285d588181" ++
  "b64550b829a031e1724e6430010000000200000001000000000000000000000000000000000000000000000000000000000000000100000015000000000000f093f5e1439170b97948e833285d588181" ++
  "b64550b829a031e1724e6430010000001b000000000000f093f5e1439170b97948e833285d588181b64550b829a031e1724e643001000000040000000100000000000000000000000000000000000000" ++
  "0000000000000000000000000100000016000000000000f093f5e1439170b97948e833285d588181b64550b829a031e1724e6430010000001d000000000000f093f5e1439170b97948e833285d588181" ++
  "b64550b829a031e1724e6430010000000600000001000000000000000000000000000000000000000000000000000000000000000300000013000000000000f093f5e1439170b97948e833285d588181" ++
  "b64550b829a031e1724e64301500000001000000000000000000000000000000000000000000000000000000000000001600000001000000000000000000000000000000000000000000000000000000" ++
  "000000000100000019000000000000f093f5e1439170b97948e833285d588181b64550b829a031e1724e6430010000000300000001000000000000000000000000000000000000000000000000000000" ++
  "000000000100000017000000000000f093f5e1439170b97948e833285d588181b64550b829a031e1724e6430010000001b000000000000f093f5e1439170b97948e833285d588181b64550b829a031e1" ++
  "724e6430010000000500000001000000000000000000000000000000000000000000000000000000000000000100000018000000000000f093f5e1439170b97948e833285d588181b64550b829a031e1" ++
  "724e6430010000001d000000000000f093f5e1439170b97948e833285d588181b64550b829a031e1724e6430010000000700000001000000000000000000000000000000000000000000000000000000" ++
  "000000000300000014000000000000f093f5e1439170b97948e833285d588181b64550b829a031e1724e6430170000000100000000000000000000000000000000000000000000000000000000000000" ++
  "180000000100000000000000000000000000000000000000000000000000000000000000010000000e000000000000f093f5e1439170b97948e833285d588181b64550b829a031e1724e643001000000" ++
  "1a00000001000000000000000000000000000000000000000000000000000000000000000200000000000000010000000000000000000000000000000000000000000000000000000000000019000000" ++
  "000000f093f5e1439170b97948e833285d588181b64550b829a031e1724e6430010000000e000000000000f093f5e1439170b97948e833285d588181b64550b829a031e1724e64300100000019000000" ++
  "010000000000000000000000000000000000000000000000000000000000000000000000020000000000000001000000000000000000000000000000000000000000000000000000000000000e000000" ++
  "000000f093f5e1439170b97948e833285d588181b64550b829a031e1724e6430010000001c00000001000000000000000000000000000000000000000000000000000000000000000200000000000000" ++
  "01000000000000000000000000000000000000000000000000000000000000001b000000000000f093f5e1439170b97948e833285d588181b64550b829a031e1724e6430020000000000000001000000" ++
  "000000000000000000000000000000000000000000000000000000000e000000000000f093f5e1439170b97948e833285d588181b64550b829a031e1724e6430010000001b0000000100000000000000" ++
  "00000000000000000000000000000000000000000000000000000000020000000000000002000000000000000000000000000000000000000000000000000000000000000e000000000000f093f5e143" ++
  "9170b97948e833285d588181b64550b829a031e1724e6430010000001e000000010000000000000000000000000000000000000000000000000000000000000002000000000000000100000000000000" ++
  "0000000000000000000000000000000000000000000000001d000000000000f093f5e1439170b97948e833285d588181b64550b829a031e1724e64300200000000000000020000000000000000000000" ++
  "00000000000000000000000000000000000000000e000000000000f093f5e1439170b97948e833285d588181b64550b829a031e1724e6430010000001d00000001000000000000000000000000000000" ++
  "00000000000000000000000000000000000000000100000025000000000000f093f5e1439170b97948e833285d588181b64550b829a031e1724e64300100000002000000010000000000000000000000" ++
  "00000000000000000000000000000000000000000100000021000000000000f093f5e1439170b97948e833285d588181b64550b829a031e1724e64300100000027000000000000f093f5e1439170b979" ++
  "48e833285d588181b64550b829a031e1724e6430010000000400000001000000000000000000000000000000000000000000000000000000000000000100000022000000000000f093f5e1439170b979" ++
  "48e833285d588181b64550b829a031e1724e64300100000029000000000000f093f5e1439170b97948e833285d588181b64550b829a031e1724e64300100000006000000010000000000000000000000" ++
  "0000000000000000000000000000000000000000030000001f000000000000f093f5e1439170b97948e833285d588181b64550b829a031e1724e64302100000001000000000000000000000000000000" ++
  "000000000000000000000000000000002200000001000000000000000000000000000000000000000000000000000000000000000100000025000000000000f093f5e1439170b97948e833285d588181" ++
  "b64550b829a031e1724e6430010000000300000001000000000000000000000000000000000000000000000000000000000000000100000023000000000000f093f5e1439170b97948e833285d588181" ++
  "b64550b829a031e1724e64300100000027000000000000f093f5e1439170b97948e833285d588181b64550b829a031e1724e643001000000050000000100000000000000000000000000000000000000" ++
  "0000000000000000000000000100000024000000000000f093f5e1439170b97948e833285d588181b64550b829a031e1724e64300100000029000000000000f093f5e1439170b97948e833285d588181" ++
  "b64550b829a031e1724e6430010000000700000001000000000000000000000000000000000000000000000000000000000000000300000020000000000000f093f5e1439170b97948e833285d588181" ++
  "b64550b829a031e1724e64302300000001000000000000000000000000000000000000000000000000000000000000002400000001000000000000000000000000000000000000000000000000000000" ++
  "00000000010000000f000000000000f093f5e1439170b97948e833285d588181b64550b829a031e1724e6430010000002600000001000000000000000000000000000000000000000000000000000000" ++
  "000000000200000000000000010000000000000000000000000000000000000000000000000000000000000025000000000000f093f5e1439170b97948e833285d588181b64550b829a031e1724e6430" ++
  "010000000f000000000000f093f5e1439170b97948e833285d588181b64550b829a031e1724e643001000000250000000100000000000000000000000000000000000000000000000000000000000000" ++
  "00000000020000000000000001000000000000000000000000000000000000000000000000000000000000000f000000000000f093f5e1439170b97948e833285d588181b64550b829a031e1724e6430" ++
  "0100000028000000010000000000000000000000000000000000000000000000000000000000000002000000000000000100000000000000000000000000000000000000000000000000000000000000" ++
  "27000000000000f093f5e1439170b97948e833285d588181b64550b829a031e1724e6430020000000000000001000000000000000000000000000000000000000000000000000000000000000f000000" ++
  "000000f093f5e1439170b97948e833285d588181b64550b829a031e1724e6430010000002700000001000000000000000000000000000000000000000000000000000000000000000000000002000000" ++
  "0000000002000000000000000000000000000000000000000000000000000000000000000f000000000000f093f5e1439170b97948e833285d588181b64550b829a031e1724e6430010000002a000000" ++
  "01000000000000000000000000000000000000000000000000000000000000000200000000000000010000000000000000000000000000000000000000000000000000000000000029000000000000f0" ++
  "93f5e1439170b97948e833285d588181b64550b829a031e1724e6430020000000000000002000000000000000000000000000000000000000000000000000000000000000f000000000000f093f5e143" ++
  "9170b97948e833285d588181b64550b829a031e1724e64300100000029000000010000000000000000000000000000000000000000000000000000000000000000000000").
(** signature.r1cs, bytes 82116 to 84059. *)
Definition bytes_rows_295_306 : list byte := hex_bytes (
  "0100000013000000000000f093f5e1439170b97948e833285d588181b64550b829a031e1724e643001000000140000000100000000000000000000000000000000000000000000000000000000000000" ++
  "0100000034020000000000f093f5e1439170b97948e833285d588181b64550b829a031e1724e64300100000014000000000000f093f5e1439170b97948e833285d588181b64550b829a031e1724e6430" ++
  "010000001300000001000000000000000000000000000000000000000000000000000000000000000100000035020000000000f093f5e1439170b97948e833285d588181b64550b829a031e1724e6430" ++
  "0200000013000000fc9202000000000000000000000000000000000000000000000000000000000014000000000000f093f5e1439170b97948e833285d588181b64550b829a031e1724e643002000000" ++
  "1300000001000000000000000000000000000000000000000000000000000000000000001400000001000000000000000000000000000000000000000000000000000000000000000100000036020000" ++
  "000000f093f5e1439170b97948e833285d588181b64550b829a031e1724e64300100000034020000000000f093f5e1439170b97948e833285d588181b64550b829a031e1724e64300100000035020000" ++
  "01000000000000000000000000000000000000000000000000000000000000000100000037020000000000f093f5e1439170b97948e833285d588181b64550b829a031e1724e64300200000000000000" ++
  "010000000000000000000000000000000000000000000000000000000000000037020000f892020000000000000000000000000000000000000000000000000000000000010000003202000001000000" ++
  "0000000000000000000000000000000000000000000000000000000002000000340200000100000000000000000000000000000000000000000000000000000000000000350200000100000000000000" ++
  "0000000000000000000000000000000000000000000000000200000000000000010000000000000000000000000000000000000000000000000000000000000037020000096dfdef93f5e1439170b979" ++
  "48e833285d588181b64550b829a031e1724e6430010000003302000001000000000000000000000000000000000000000000000000000000000000000300000034020000fc9202000000000000000000" ++
  "000000000000000000000000000000000000000035020000000000f093f5e1439170b97948e833285d588181b64550b829a031e1724e6430360200000100000000000000000000000000000000000000" ++
  "0000000000000000000000000100000032020000000000f093f5e1439170b97948e833285d588181b64550b829a031e1724e643001000000330200000100000000000000000000000000000000000000" ++
  "000000000000000000000000010000003a020000000000f093f5e1439170b97948e833285d588181b64550b829a031e1724e64300100000033020000000000f093f5e1439170b97948e833285d588181" ++
  "b64550b829a031e1724e643001000000320200000100000000000000000000000000000000000000000000000000000000000000010000003b020000000000f093f5e1439170b97948e833285d588181" ++
  "b64550b829a031e1724e64300200000032020000fc9202000000000000000000000000000000000000000000000000000000000033020000000000f093f5e1439170b97948e833285d588181b64550b8" ++
  "29a031e1724e6430020000003202000001000000000000000000000000000000000000000000000000000000000000003302000001000000000000000000000000000000000000000000000000000000" ++
  "00000000010000003c020000000000f093f5e1439170b97948e833285d588181b64550b829a031e1724e6430010000003a020000000000f093f5e1439170b97948e833285d588181b64550b829a031e1" ++
  "724e6430010000003b0200000100000000000000000000000000000000000000000000000000000000000000010000003d020000000000f093f5e1439170b97948e833285d588181b64550b829a031e1" ++
  "724e6430020000000000000001000000000000000000000000000000000000000000000000000000000000003d020000f892020000000000000000000000000000000000000000000000000000000000" ++
  "01000000380200000100000000000000000000000000000000000000000000000000000000000000020000003a0200000100000000000000000000000000000000000000000000000000000000000000" ++
  "3b0200000100000000000000000000000000000000000000000000000000000000000000020000000000000001000000000000000000000000000000000000000000000000000000000000003d020000" ++
  "096dfdef93f5e1439170b97948e833285d588181b64550b829a031e1724e643001000000390200000100000000000000000000000000000000000000000000000000000000000000030000003a020000" ++
  "fc920200000000000000000000000000000000000000000000000000000000003b020000000000f093f5e1439170b97948e833285d588181b64550b829a031e1724e64303c0200000100000000000000" ++
  "000000000000000000000000000000000000000000000000").
(** signature.r1cs, bytes 479148 to 479267. *)
Definition bytes_row_1149 : list byte := hex_bytes (
  "0100000038020000010000000000000000000000000000000000000000000000000000000000000001000000880500000100000000000000000000000000000000000000000000000000000000000000" ++
  "01000000000000000100000000000000000000000000000000000000000000000000000000000000").
(** signature.r1cs, bytes 1193268 to 1195211. *)
Definition bytes_rows_4502_4513 : list byte := hex_bytes (
  "010000001f000000000000f093f5e1439170b97948e833285d588181b64550b829a031e1724e643001000000200000000100000000000000000000000000000000000000000000000000000000000000" ++
  "010000009f120000000000f093f5e1439170b97948e833285d588181b64550b829a031e1724e64300100000020000000000000f093f5e1439170b97948e833285d588181b64550b829a031e1724e6430" ++
  "010000001f000000010000000000000000000000000000000000000000000000000000000000000001000000a0120000000000f093f5e1439170b97948e833285d588181b64550b829a031e1724e6430" ++
  "020000001f000000fc9202000000000000000000000000000000000000000000000000000000000020000000000000f093f5e1439170b97948e833285d588181b64550b829a031e1724e643002000000" ++
  "1f000000010000000000000000000000000000000000000000000000000000000000000020000000010000000000000000000000000000000000000000000000000000000000000001000000a1120000" ++
  "000000f093f5e1439170b97948e833285d588181b64550b829a031e1724e6430010000009f120000000000f093f5e1439170b97948e833285d588181b64550b829a031e1724e643001000000a0120000" ++
  "010000000000000000000000000000000000000000000000000000000000000001000000a2120000000000f093f5e1439170b97948e833285d588181b64550b829a031e1724e64300200000000000000" ++
  "0100000000000000000000000000000000000000000000000000000000000000a2120000f892020000000000000000000000000000000000000000000000000000000000010000009d12000001000000" ++
  "00000000000000000000000000000000000000000000000000000000020000009f1200000100000000000000000000000000000000000000000000000000000000000000a01200000100000000000000" ++
  "00000000000000000000000000000000000000000000000002000000000000000100000000000000000000000000000000000000000000000000000000000000a2120000096dfdef93f5e1439170b979" ++
  "48e833285d588181b64550b829a031e1724e6430010000009e1200000100000000000000000000000000000000000000000000000000000000000000030000009f120000fc9202000000000000000000" ++
  "0000000000000000000000000000000000000000a0120000000000f093f5e1439170b97948e833285d588181b64550b829a031e1724e6430a11200000100000000000000000000000000000000000000" ++
  "000000000000000000000000010000009d120000000000f093f5e1439170b97948e833285d588181b64550b829a031e1724e6430010000009e1200000100000000000000000000000000000000000000" ++
  "00000000000000000000000001000000a5120000000000f093f5e1439170b97948e833285d588181b64550b829a031e1724e6430010000009e120000000000f093f5e1439170b97948e833285d588181" ++
  "b64550b829a031e1724e6430010000009d120000010000000000000000000000000000000000000000000000000000000000000001000000a6120000000000f093f5e1439170b97948e833285d588181" ++
  "b64550b829a031e1724e6430020000009d120000fc920200000000000000000000000000000000000000000000000000000000009e120000000000f093f5e1439170b97948e833285d588181b64550b8" ++
  "29a031e1724e6430020000009d12000001000000000000000000000000000000000000000000000000000000000000009e12000001000000000000000000000000000000000000000000000000000000" ++
  "0000000001000000a7120000000000f093f5e1439170b97948e833285d588181b64550b829a031e1724e643001000000a5120000000000f093f5e1439170b97948e833285d588181b64550b829a031e1" ++
  "724e643001000000a6120000010000000000000000000000000000000000000000000000000000000000000001000000a8120000000000f093f5e1439170b97948e833285d588181b64550b829a031e1" ++
  "724e643002000000000000000100000000000000000000000000000000000000000000000000000000000000a8120000f892020000000000000000000000000000000000000000000000000000000000" ++
  "01000000a3120000010000000000000000000000000000000000000000000000000000000000000002000000a51200000100000000000000000000000000000000000000000000000000000000000000" ++
  "a6120000010000000000000000000000000000000000000000000000000000000000000002000000000000000100000000000000000000000000000000000000000000000000000000000000a8120000" ++
  "096dfdef93f5e1439170b97948e833285d588181b64550b829a031e1724e643001000000a4120000010000000000000000000000000000000000000000000000000000000000000003000000a5120000" ++
  "fc92020000000000000000000000000000000000000000000000000000000000a6120000000000f093f5e1439170b97948e833285d588181b64550b829a031e1724e6430a71200000100000000000000" ++
  "000000000000000000000000000000000000000000000000").
(** signature.r1cs, bytes 1590300 to 1590419. *)
Definition bytes_row_5356 : list byte := hex_bytes (
  "01000000a3120000010000000000000000000000000000000000000000000000000000000000000001000000f31500000100000000000000000000000000000000000000000000000000000000000000" ++
  "01000000000000000100000000000000000000000000000000000000000000000000000000000000").
(** Wire values: signers 2 and 0. *)
Local Open Scope Z_scope.
Definition wire_table : list (N * Z) :=
  [(0%N, 1);
   (1%N, 7);
   (2%N, 5299619240641551281634865583518297030282874472190772894086521144482721001553);
   (3%N, 16950150798460657717958625567821834550301663161624707787222815936182638968203);
   (4%N, 10031262171927540148667355526369034398030886437092045105752248699557385197826);
   (5%N, 633281375905621697187330766174974863687049529291089048651929454608812697683);
   (6%N, 12252886604826192316928789929706397349846234911198931249025449955069330867144);
   (7%N, 1286140751908834028607023759717162073146610688084909004843365841635476459484);
   (8%N, 8);
   (9%N, 9);
   (10%N, 10);
   (11%N, 11);
   (12%N, 12);
   (13%N, 13);
   (14%N, 2);
   (15%N, 0);
   (16%N, 10944121435919637611123202872628637544274182200208017171849102093287904247809);
   (17%N, 1);
   (18%N, 1);
   (19%N, 12252886604826192316928789929706397349846234911198931249025449955069330867144);
   (20%N, 1286140751908834028607023759717162073146610688084909004843365841635476459484);
   (21%N, 0);
   (22%N, 0);
   (23%N, 0);
   (24%N, 0);
   (25%N, 0);
   (26%N, 10944121435919637611123202872628637544274182200208017171849102093287904247808);
   (27%N, 0);
   (28%N, 21888242871839275222246405745257275088548364400416034343698204186575808495616);
   (29%N, 1);
   (30%N, 0);
   (31%N, 5299619240641551281634865583518297030282874472190772894086521144482721001553);
   (32%N, 16950150798460657717958625567821834550301663161624707787222815936182638968203);
   (33%N, 5299619240641551281634865583518297030282874472190772894086521144482721001553);
   (34%N, 0);
   (35%N, 16950150798460657717958625567821834550301663161624707787222815936182638968203);
   (36%N, 0);
   (37%N, 1);
   (38%N, 0);
   (39%N, 0);
   (40%N, 1);
   (41%N, 0);
   (42%N, 10944121435919637611123202872628637544274182200208017171849102093287904247809);
   (562%N, 7582035475627193640797276505418002166691739036475590846121162698650004832581);
   (563%N, 7801528930831391612913542953849263092120765287178679640990215688947513841260);
   (564%N, 12411537692887603055281942494425582172258613220287782908161121290912750545436);
   (565%N, 12411537692887603055281942494425582172258613220287782908161121290912750545436);
   (566%N, 5846076039982205500858359718278327281939411184317623398990063476272457345893);
   (567%N, 21576530308481104266374738681606886499896427945806561315579055383544796083388);
   (568%N, 20535751008137662458650892643857854177364093782887716696778361156345824450120);
   (569%N, 21459189231378695508316163458360356529222201254620325044724979975334648070151);
   (570%N, 1983897079145335717732341907188552960215541943546811392928332512128141036080);
   (571%N, 1983897079145335717732341907188552960215541943546811392928332512128141036080);
   (572%N, 6379603359643949633513828839950492469385627811594645060990123618761829891503);
   (573%N, 19005986419709612381173367223273159398828244261753955857344780229489770825408);
   (1416%N, 2025747478142895528915874100990177877139078944479754687574485643749917765725);
   (4765%N, 10031262171927540148667355526369034398030886437092045105752248699557385197826);
   (4766%N, 633281375905621697187330766174974863687049529291089048651929454608812697683);
   (4767%N, 19138581828712882593908706925461583697567205063300498062599267069621213248340);
   (4768%N, 19138581828712882593908706925461583697567205063300498062599267069621213248340);
   (4769%N, 19848657491869981455957532010223496243238294873254127031809182893037039891382);
   (4770%N, 5691677284264348914871762697957067030339103956111141981502870225181583259053);
   (4771%N, 12252886604826192316928789929706397349846234911198931249025449955069330867144);
   (4772%N, 1286140751908834028607023759717162073146610688084909004843365841635476459484);
   (4773%N, 18383785146468609675213426113564344106799355416089121646535374652877554349096);
   (4774%N, 18383785146468609675213426113564344106799355416089121646535374652877554349096);
   (4775%N, 17861757987144028015352221339887747200822516961016604717271834244987597546720);
   (4776%N, 5651227935597145593997654016680559871983496767120312454098399105334121749074);
   (5619%N, 4991807708259818919788589174282878535126265395957043688019012762231668741137)].
